(** The tables that come with the library. *)
From Coq Require Import ZifyBool ZifyNat String List ZArith Permutation.
From Verif Require Import Base Bits.Model Bits.Spec Varcode.Model Varinfo.Model Varinfo.RangeProofs Tables.Model Tables.Spec Tables.Proofs
  Tables.DtableProofs Tables.LoadProofs Select.Model Select.Spec Var.Model Interp.Model Interp.FuelProofs Codec.Model Codec.Spec Codec.ValueProofs Codec.EndProofs
  Message.Model Message.Spec Message.SafeProofs
  Shipped.Text Shipped.Catalog Shipped.Check Shipped.Spec Shipped.SChecked Shipped.Model Shipped.Proofs Shipped.ChoiceProofs Shipped.LoadProofs Shipped.EndProofs.
From Verif Require Codec.Properties Message.Properties.
Import ListNotations.
Local Open Scope Z_scope.

Definition B (x y : Z) : Z := wr_var 0 x y.
Definition D (x y : Z) : Z := wr_var 3 x y.

(** ** Tables B *)

(** All the tables B for BUFR can be loaded, but one.  Each line gives an element that is found by its code.
    Numbers have 1 to 32 bits and a scale of -16 to 16, strings have 8 bits or more; exceptions are listed. *)
Theorem C46_elements_load : forall n ls, In (n, ls) shipped_b -> crex_name n = false -> ~ In n unloadable ->
  exists t, load_bufr (file ls) = Ok t /\ length t = length ls /\
    Forall (fun e => query t (be_code e) = Ok (be_info e)) t /\
    forall code i, query t code = Ok i ->
      (is_numeric (vi_type i) = true /\ 1 <= vi_bit_len i <= 32 /\ -16 <= vi_scale i <= 16) \/
      (vi_type i = TString /\ 8 <= vi_bit_len i) \/ In (n, code) odd_elements.
Proof.
  intros n ls I C U. destruct (b_table n ls I U) as (fs & t & E & L & F & W). rewrite C in *. unfold load_b in L.
  exists t. split; [exact L|]. destruct (elements_more _ _ E) as [Len M]. split; [rewrite <- Len; clear - F; induction F; cbn [length]; congruence|]. split.
  - apply Forall_forall. intros e Ie. destruct (elements_sorted _ _ _ E) as [So _]. apply In_nth_error in Ie as [k N].
    unfold query, query_entry, entry_at. rewrite (says_codes _ _ F). destruct (find_code_spec (map bf_code fs) (be_code e)) as (r & -> & _ & Bk).
    cbn [bind]. rewrite (Bk So k); [rewrite N; reflexivity|]. rewrite <- (says_codes _ _ F), nth_error_map, N. reflexivity.
  - intros code i Q. destruct (query_from _ _ _ _ F Q) as (f & If & Sy). pose proof (query_code _ _ _ Q) as Qc.
    destruct Sy as (S1 & S2 & S3 & S4 & S5 & S6 & S7). rewrite Forall_forall in M. specialize (M f If).
    destruct (proj1 (W f If)) as [Wf|Wf]; [|right; right; congruence]. unfold width_ok in Wf. rewrite S5, S3, S7. destruct (bf_text f).
    + right. left. split; [reflexivity|lia].
    + left. destruct (M eq_refl) as (_ & Sc & _). unfold small_scale in Sc. split; [destruct (bf_scale f =? 0); reflexivity|lia].
Qed.

(** Numbers of up to 29 bits: what the definition of the element has as its range can be sent and arrives. *)
Theorem C46_numbers_arrive : forall n ls t code i, In (n, ls) shipped_b -> crex_name n = false -> ~ In n unloadable ->
  load_bufr (file ls) = Ok t -> query t code = Ok i -> ~ In (n, code) odd_elements ->
  is_numeric (vi_type i) = true -> vi_bit_len i <= 29 -> var_x code <> 31 ->
  forall p o k, vi_imin i <= k <= vi_imax i ->
  exists bs, writes bs (append_var p i (mkcell i (Some (VInt k)))) /\ reads bs (decode_value o i) (mkcell i (Some (VInt k))).
Proof.
  intros n ls t code i I C U L Q Od N Bl X p o k R. pose proof (load_bufr_ok _ _ L _ _ Q) as K. pose proof (query_code _ _ _ Q) as Qc.
  apply Codec.Properties.C21_value_round_trip; [exact K|]. destruct (b_table n ls I U) as (fs & t' & E & L' & F & W). rewrite C in *.
  unfold load_b in L'. assert (t' = t) by congruence. subst t'. destruct (query_from _ _ _ _ F Q) as (f & If & Sy).
  destruct (elements_more _ _ E) as [_ M]. rewrite Forall_forall in M. specialize (M f If).
  destruct Sy as (S1 & S2 & S3 & S4 & S5 & S6 & S7). destruct (proj1 (W f If)) as [Wf|Wf]; [|exfalso; apply Od; congruence]. unfold width_ok in Wf.
  destruct (bf_text f) eqn:Tx; [rewrite S7 in N; discriminate|]. destruct (M eq_refl) as (Ln & _).
  unfold field_ok. rewrite S7. assert (Bl' : 1 <= vi_bit_len i <= 32) by lia.
  assert (Fit : number_fits i k = true) by (apply in_range_fits; auto; [lia|congruence|congruence]).
  rewrite Fit. destruct (bf_scale f =? 0); lia.
Qed.

(** Files for CREX, and the recent ones for BUFR, can be loaded for CREX.  Each line gives an element, but for the operators
    of class 31; the widths go from 1 to 63 characters. *)
Theorem C46_crex_load : forall n ls, In (n, ls) shipped_b -> In n crex_too ->
  exists t, load_crex (file ls) = Ok t /\
    (forall l code, In l ls -> line_code (line_of l) = Ok code -> var_x code <> 31 -> exists i, query t code = Ok i) /\
    forall code i, query t code = Ok i -> 1 <= vi_len i <= 63.
Proof.
  intros n ls I C. destruct (c_table n ls I C) as (fs & t & E & L & F & W). exists t. split; [exact L|]. split.
  - intros l code Il Lc X. assert (Ic : In code (map bf_code fs)).
    { unfold elements in E. destruct (forallb plain ls); [|discriminate]. eapply cfast_lines; eauto. }
    apply in_map_iff in Ic as (f & <- & If). destruct (query_listed _ _ _ _ _ E F If) as (i & Q & _). eauto.
  - intros code i Q. destruct (query_from _ _ _ _ F Q) as (f & If & Sy). specialize (W f If). unfold width_ok in W.
    destruct Sy as (_ & _ & _ & _ & _ & -> & _). lia.
Qed.

(** All the others cannot. *)
Theorem C46_crex_load_refuted : forall n ls, In (n, ls) shipped_b -> ~ In n crex_too -> load_crex (file ls) = Err EParse.
Proof.
  intros n ls I C. pose proof (proj1 (forallb_forall scheck shipped_b) s_checked _ I) as H. unfold scheck in H. cbn [fst snd] in H.
  rewrite (named_not _ _ C) in H. cbn [orb] in H. destruct (listed_in n short_lines) as [k|]; [|discriminate]. apply andb_prop in H as [H1 H2].
  destruct (nth_error ls k) as [l|] eqn:N; [|discriminate]. pose proof (stops_crex _ _ _ H1 N) as St.
  destruct (crex_line (line_of l)) as [?|[]|]; try discriminate. exact St.
Qed.

(** ** Tables D *)

(** All the tables D can be loaded.  In all but five of them each sequence of the table is found by its code. *)
Theorem C46_sequences_load : forall n ls, In (n, ls) shipped_d -> exists d, load_dtable (file ls) = Ok d /\ dt_entries d <> [] /\
  (~ In n unsorted_tables -> forall e, In e (dt_entries d) -> dquery d (de_code e) = Ok (mkops (dt_codes d) (de_begin e) (de_end e))).
Proof.
  intros n ls I. destruct (d_table n ls I) as (bs & E & L & _ & Inc). exists (dtable_of bs). split; [exact L|]. split.
  - intros X. assert (bs = []) by (destruct bs as [|[? ?] ?]; [reflexivity|discriminate]). subst bs. clear - E.
    apply sequences_nonempty in E. apply E. reflexivity.
  - intros U e Ie. specialize (Inc U). destruct (increasing_sorted _ _ Inc) as [So _]. apply In_nth_error in Ie as [k N].
    unfold dquery. cbn [dtable_of dt_entries dt_codes] in *. rewrite entries_codes. unfold dblock in *.
    destruct (find_code_spec (map fst bs) (de_code e)) as (r & -> & _ & Bk). cbn [bind]. rewrite (Bk So k); [rewrite N; reflexivity|].
    rewrite <- (entries_codes bs 0), nth_error_map, N. reflexivity.
Qed.

(** In three of these five tables there are sequences that are listed and not found. *)
Theorem C46_sequences_found_refuted : forall n code, In (n, code)
    [("D0000000000000012000.txt", D 7 59); ("D0000000000000013000.txt", D 7 59); ("D0000000000000013000.txt", D 7 52);
     ("D0000000000098013102.txt", D 2 46); ("D0000000000098013102.txt", D 2 47)]%string ->
  exists ls d, In (n, ls) shipped_d /\ load_dtable (file ls) = Ok d /\ In code (map de_code (dt_entries d)) /\ dquery d code = Err ENotFound.
Proof.
  assert (K : forall n code, match listed_in n shipped_d with Some ls => misses ls code | None => false end = true ->
    exists ls d, In (n, ls) shipped_d /\ load_dtable (file ls) = Ok d /\ In code (map de_code (dt_entries d)) /\ dquery d code = Err ENotFound).
  { intros n code H. destruct (listed_in n shipped_d) as [ls|] eqn:L; [|discriminate]. apply listed_in_in in L.
    destruct (misses_ok _ _ H) as (bs & _ & A). exists ls, (dtable_of bs). auto. }
  intros n code I. apply K. repeat (destruct I as [[= <- <-]|I]; [vm_cast_no_check (eq_refl true)|]). destruct I.
Qed.

(** In the recent tables (versions 21 to 31 and 33 of the WMO) sequences only name elements and sequences that are defined, and
    replications do not run past the end of their sequence. *)
Definition whole_tables_of (T : tables) : Prop := forall code body, dexpand (tb_d T) code = Ok body ->
  Forall (fun c => (var_f c = 0 -> exists i, query (tb_b T) c = Ok i) /\ (var_f c = 3 -> exists body', dexpand (tb_d T) c = Ok body')) body /\
  forall pre c rest, body = pre ++ c :: rest -> var_f c = 1 ->
    if var_y c =? 0 then exists f rest', rest = f :: rest' /\ var_f f = 0 /\ var_x f = 31 /\ (Z.to_nat (var_x c) <= length rest')%nat
    else (Z.to_nat (var_x c) <= length rest)%nat.

(** ** What is loaded for a message *)

(** Whatever the order the directory is listed in: a table is found if the master table is 0 and the version is not beyond 33; it is
    loaded, but for one version of one centre. *)
Theorem C46_found : forall names id, Permutation names shipped_names -> bufr_id_ok (wanted id) ->
  (t_master_table id <> 0 \/ 33 < t_version id -> shipped_load names id = Err ENotFound) /\
  (t_master_table id = 0 -> t_version id <= 33 -> ~ (t_centre id = 254 /\ t_version id = 19) -> exists T, shipped_load names id = Ok T).
Proof.
  intros names id P W. split.
  - intros H. unfold shipped_load. rewrite (proj2 (no_choice names (wanted id) P W)) by (cbn; lia). reflexivity.
  - intros M V U. destruct (loaded names id P W M V U) as (T & L & _). eauto.
Qed.

(** Centre 254, version 19: the scale of 040247 is -20 and loading reads past the end of an array. *)
Theorem C46_found_refuted : forall names id, Permutation names shipped_names -> bufr_id_ok (wanted id) ->
  t_master_table id = 0 -> t_centre id = 254 -> t_version id = 19 -> shipped_load names id = UB.
Proof.
  intros names id P W M C V. destruct (search_bufr (wanted id) (in_dir names)) as [t|] eqn:S.
  2: { apply (no_choice names) in S; auto. cbn in S. lia. }
  destruct (load_spec names id t P W S) as (n & m & lb & ld & Ib & Im & Cn & En & Em & ->).
  assert (X : tb_file t = eumetsat_19) by (apply (eumetsat_choice names _ _ P W S); auto).
  assert (Xn : n = "B0000000000254019001.txt"%string) by (apply chars_inj; rewrite En, X; reflexivity). subst n.
  assert (K : forall p, In p shipped_b -> negb (named (fst p) unloadable) || (stops false 1518 (snd p) &&
    match nth_error (snd p) 1518 with Some l => match bufr_line (line_of l) with UB => true | _ => false end | None => false end) = true).
  { apply forallb_forall. vm_cast_no_check (eq_refl true). }
  specialize (K _ Ib). cbn [fst snd] in K. rewrite (proj2 (named_in _ unloadable)) in K by (left; reflexivity). cbn [negb orb] in K.
  apply andb_prop in K as [K1 K2]. destruct (nth_error lb 1518) as [l|] eqn:N; [|discriminate]. pose proof (stops_bufr _ _ _ K1 N) as St.
  destruct (bufr_line (line_of l)); try discriminate. rewrite St. reflexivity.
Qed.

(** Versions from 12 on, and a centre without tables of its own: the tables of the WMO of that version (33 for 32). *)
Theorem C46_wmo : forall names id t, Permutation names shipped_names -> bufr_id_ok (wanted id) -> 12 <= t_version id ->
  ~ In (t_centre id) [85; 98; 254] -> search_bufr (wanted id) (in_dir names) = Some t ->
  tb_file t = chars "B0000000000000" ++ Select.Spec.digits 3 (if t_version id =? 32 then 33 else t_version id) ++ chars "000.txt".
Proof. intros names id t P W V C S. apply (wmo_choice names (wanted id) t P W C V S). Qed.

Theorem C46_whole : forall names id T, Permutation names shipped_names -> bufr_id_ok (wanted id) -> 21 <= t_version id ->
  ~ In (t_centre id) [85; 98; 254] -> shipped_load names id = Ok T -> whole_tables_of T.
Proof.
  intros names id T P W V C L. destruct (search_bufr (wanted id) (in_dir names)) as [t|] eqn:S.
  2: { unfold shipped_load in L. rewrite S in L. discriminate. }
  pose proof (C46_wmo names id t P W ltac:(lia) C S) as Ft. destruct (choice _ _ _ P W S) as (c' & v' & l' & n' & Ii & Et & _ & U' & _).
  destruct (id_facts _ _ _ _ Ii) as ([B1 B2] & _). cbn [wanted bi_mtv] in U'.
  destruct (wmo_whole (if t_version id =? 32 then 33 else t_version id)) as (n0 & In0 & Un0 & Eb & Ed).
  { destruct (Z.eqb_spec (t_version id) 32); lia. }
  destruct (w_table n0 In0 Un0) as (lb0 & ld0 & b & d & Ib0 & Id0 & Lb & Ld & Wh).
  destruct (load_spec names id t P W S) as (n & m & lb & ld & Ib & Im & Cn & En & Em & E). rewrite L in E.
  assert (n = "B" ++ n0)%string by (apply chars_inj; rewrite En, Ft; symmetry; exact Eb). subst n.
  assert (m = "D" ++ n0)%string by (apply chars_inj; rewrite Em, Ft; symmetry; exact Ed). subst m.
  rewrite (one_b _ _ _ Ib Ib0), (one_d _ _ _ Im Id0), Lb, Ld in E. cbn [bind] in E. injection E as ->.
  intros code body Dx. unfold dexpand in Dx. cbn [tb_d tb_b] in *. inv_bind Dx. injection Hk as <-. destruct (Wh _ _ Hb) as [A F]. split; [|exact F].
  eapply Forall_impl; [|exact A]. intros c [D0 D3]. split; [exact D0|]. intros F3. destruct (D3 F3) as (o & Q). unfold dexpand. rewrite Q. cbn [bind]. eauto.
Qed.

(** ** Decoding ends *)

(** Where no sequence contains itself decoding ends, whatever the bytes. *)
Definition cyclic_id (id : tableid) : Prop :=
  1 <= t_version id <= 2 \/ 7 <= t_version id <= 11 /\ t_centre id <> 98 /\ t_centre id <> 255.

Theorem C46_decoding_ends : forall names opt skip d, Permutation names shipped_names -> options_end opt -> Forall is_byte d ->
  (forall l, decode_lead d = Ok l -> ~ cyclic_id (tableid_of (l_header l))) ->
  exists N, forall fuel, (N <= fuel)%nat ->
    decode opt (shipped_load names) skip fuel d = decode opt (shipped_load names) skip N d /\
    decode opt (shipped_load names) skip fuel d <> Err EFuel.
Proof.
  intros names opt skip d P O F C.
  destruct (decode_lead d) as [l|e|] eqn:Dl.
  2,3: exists 0%nat; intros fuel _; unfold decode; rewrite Dl; cbn [bind]; split; [reflexivity|].
  2: { intros [= ->]. pose proof (lead_safe d F) as Sf. unfold defined in Sf. rewrite Dl in Sf. congruence. }
  2: discriminate.
  specialize (C l eq_refl). pose proof (lead_ids d F) as W. unfold defined in W. rewrite Dl in W. unfold ids_ok in W.
  set (id := tableid_of (l_header l)) in *.
  assert (R : shipped_load names id <> Err EFuel /\ forall T, shipped_load names id = Ok T -> well_founded (within T)).
  { destruct (Z.eq_dec (t_master_table id) 0) as [M|M].
    2: { rewrite (proj1 (C46_found names id P W)) by auto. split; [discriminate|discriminate]. }
    destruct (Z.le_gt_cases (t_version id) 33) as [V|V].
    2: { rewrite (proj1 (C46_found names id P W)) by auto. split; [discriminate|discriminate]. }
    destruct (Z.eq_dec (t_centre id) 254) as [C1|C1]; [destruct (Z.eq_dec (t_version id) 19) as [C2|C2]|].
    { rewrite (C46_found_refuted names id P W M C1 C2). split; [discriminate|discriminate]. }
    all: destruct (loaded names id P W M V ltac:(lia)) as (T & L & Wf); rewrite L; split; [discriminate|]; intros T' [= <-]; apply Wf; exact C. }
  destruct R as [R1 R2].
  destruct (Message.Properties.C36_decoding_ends opt (fun _ => shipped_load names id) skip d O F (fun _ => R1) (fun _ => R2)) as (N & H).
  exists N. intros fuel Lf. specialize (H fuel Lf).
  assert (E : forall k, decode opt (shipped_load names) skip k d = decode opt (fun _ => shipped_load names id) skip k d).
  { intros k. unfold decode. rewrite Dl. reflexivity. }
  rewrite !E. exact H.
Qed.

(** The others have a sequence, 312018, that contains itself: no template with it is ever walked to its end, by a decoder, an encoder or
    whatever else. *)
Theorem C46_decoding_ends_refuted : forall names id, Permutation names shipped_names -> bufr_id_ok (wanted id) -> t_master_table id = 0 ->
  cyclic_id id -> exists T, shipped_load names id = Ok T /\ ~ well_founded (within T) /\
    forall (S : Type) (V : visitor S) k x y, run V T k [D 12 18] x <> Ok y.
Proof.
  intros names id P W M C. destruct (loaded names id P W M) as (T & L & _); [unfold cyclic_id in C; lia|unfold cyclic_id in C; lia|].
  exists T. split; [exact L|]. destruct (search_bufr (wanted id) (in_dir names)) as [t|] eqn:S.
  2: { unfold shipped_load in L. rewrite S in L. discriminate. }
  destruct (load_spec names id t P W S) as (n & m & lb & ld & Ib & Im & Cn & En & Em & E). rewrite L in E.
  destruct (cyclic_chosen names (wanted id) t P W S) as [A1 A2]. cbn [wanted bi_mtv bi_centre] in A1, A2.
  assert (Cm : In m cyclic_tables).
  { destruct C as [C|(C1 & C2 & C3)]; [right; left; rewrite (A1 C) in Em|left; rewrite (A2 C1 C2 C3) in Em]; symmetry; apply chars_inj; rewrite Em; reflexivity. }
  assert (K : forall p, In p shipped_d -> negb (named (fst p) cyclic_tables) || match body_of (snd p) (D 12 18) with
    Some b => zlist_eqb b [D 12 10; D 12 11; D 12 18] | None => false end = true).
  { apply forallb_forall. vm_cast_no_check (eq_refl true). }
  specialize (K _ Im). cbn [fst snd] in K. rewrite (proj2 (named_in _ _) Cm) in K. cbn [negb orb] in K.
  destruct (body_of ld (D 12 18)) as [body|] eqn:Bo; [|discriminate]. apply list_eq in K. subst body.
  symmetry in E. inv_bind E. inv_bind Hk. injection Hk0 as <-. pose proof (body_of_ok _ _ _ _ Bo Hb0) as Dx. split.
  - intros Wf. assert (Wi : within (mktables a a0) (D 12 18) (D 12 18)).
    { split; [reflexivity|]. exists [D 12 10; D 12 11; D 12 18]. split; [exact Dx|]. right. right. left. reflexivity. }
    clear - Wf Wi. specialize (Wf (D 12 18)). induction Wf as [x _ IH]. eapply IH; eauto.
  - intros S' V. eapply no_good_end; [| | |exact Dx]; reflexivity.
Qed.

(** ** The order of the files *)

(** A message of centre 98 with version 33 and no local version gets one table or another depending on the order the directory is listed in. *)
Theorem C46_order_refuted :
  let id := mktableid 98 0 0 33 0 in
  option_map tb_file (search_bufr (wanted id) (in_dir shipped_names)) <> option_map tb_file (search_bufr (wanted id) (in_dir (rev shipped_names))).
Proof. cbv zeta. rewrite shipped_names_eq. vm_compute. discriminate. Qed.

(** ** Examples *)
Example C46_example : bufr_id_ok (wanted (mktableid 200 0 0 24 0)) /\ Permutation (rev shipped_names) shipped_names /\
  (length shipped_b = 41 /\ length shipped_d = 41)%nat.
Proof. split; [|split; [symmetry; apply Permutation_rev|split; reflexivity]]. cbv -[Z.le Z.lt]. lia. Qed.

Print Assumptions C46_elements_load.
Print Assumptions C46_numbers_arrive.
Print Assumptions C46_crex_load.
Print Assumptions C46_crex_load_refuted.
Print Assumptions C46_sequences_load.
Print Assumptions C46_sequences_found_refuted.
Print Assumptions C46_found.
Print Assumptions C46_found_refuted.
Print Assumptions C46_wmo.
Print Assumptions C46_whole.
Print Assumptions C46_decoding_ends.
Print Assumptions C46_decoding_ends_refuted.
Print Assumptions C46_order_refuted.

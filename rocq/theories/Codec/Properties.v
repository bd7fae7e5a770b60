(** C21, C22, C34: the data section of uncompressed BUFR messages. *)
From Coq Require Import String ZifyBool.
From Verif Require Import Varcode.Proofs Codec.CompressedSpec Base Bits.Model Bits.Spec Bits.Proofs Bits.StringProofs Num.Float
  Varcode.Model Varinfo.Model Varinfo.RangeProofs Tables.Model Tables.AlterProofs Tables.LoadProofs Var.Model Var.Spec
  Var.Proofs Var.AttrProofs Var.CodecProofs Interp.Model Interp.Sim Interp.Example Codec.Model Codec.Spec Codec.ValueProofs
  Codec.Proofs Codec.TransferProofs Codec.ColumnProofs.
Local Open Scope Z_scope.

(** ** C21: uncompressed BUFR data round-trips

    [transfer] (Codec/Spec.v) says which subsets can be sent with a template and what
    should arrive.  Whatever it says is what the encoder and the decoder do, for
    every table, template, list of subsets and position in the message: [pre] are the
    bytes before the data, [post] those after it (at least one: BUFR messages end with
    7777). *)
Theorem C21_data_section_round_trip : forall p o T skip fuel ops subsets lt lte gots lt' pre,
  table_ok (tb_b T) -> Forall (Forall var_infos_ok) subsets -> lt_unknown lte = lt_unknown lt -> Forall is_byte pre ->
  transfer_all p T skip fuel ops subsets lt = Ok (gots, lt') ->
  exists lte' out bytes, encode_subsets p o T fuel ops subsets lte (mkout pre 0 0) = Ok (lte', out) /\
    obytes (flush out) = pre ++ bytes /\ Forall is_byte bytes /\
    forall post, Forall is_byte post -> (1 <= length post)%nat ->
    exists inp', decode_subsets o T skip fuel ops (length subsets) lt (mkin (pre ++ bytes ++ post) (length pre) 0 0)
                 = Ok (gots, lt', inp').
Proof. exact bytes_roundtrip. Qed.

Lemma transfer_split p T skip vars fuel ops lt got lt' : transfer p T skip vars fuel ops lt = Ok (got, lt') ->
  exists s, transfer_state p T skip vars fuel ops lt = Ok s /\ got = x_got s /\ lt' = x_lt s.
Proof. unfold transfer. intros H. inv_bind H. injection Hk as <- <-. eauto. Qed.

(** ... and what arrives is what was sent: as many variables, in the same order, each
    with the same definition and value.  Only character data (operator 205) comes back
    padded with blanks to its length. *)
Theorem C21_values_are_the_same : forall p T skip vars fuel ops lt got lt',
  transfer p T skip vars fuel ops lt = Ok (got, lt') ->
  length got = length vars /\
  forall pos v, nth_error vars pos = Some v -> exists g, nth_error got pos = Some g /\
    c_info (v_cell g) = c_info (v_cell v) /\
    (is_chardata (v_cell v) = false -> v_cell g = v_cell v) /\
    (is_chardata (v_cell v) = true -> v_cell g = v_cell v \/ v_cell g = padded (v_cell v)).
Proof.
  intros p T skip vars fuel ops lt got lt' H. apply transfer_split in H as (s & H & -> & _).
  apply transfer_inv in H as [I P]. pose proof (ti_len _ _ _ _ I) as L. split; [lia|]. intros pos v N.
  destruct (nth_error (x_got s) pos) as [g|] eqn:G.
  - exists g. split; auto. destruct (ti_cells _ _ _ _ I pos g G) as (v' & N' & R & _).
    assert (v' = v) as -> by congruence. destruct R as [E|[E1 E2]].
    + rewrite E. auto.
    + rewrite E1, E2. split; [reflexivity|]. split; [discriminate|auto].
  - apply nth_error_None in G. assert (pos < length vars)%nat by (apply nth_error_Some; congruence). lia.
Qed.

(** Every B table that loads from a file meets the hypothesis on tables. *)
Theorem C21_loaded_tables : forall text t, load_bufr text = Ok t -> table_ok t.
Proof. exact load_bufr_ok. Qed.

(** Each value on its own: whatever its definition says it can hold comes back. *)
Theorem C21_value_round_trip : forall p o i v, info_ok i -> field_ok p i v = true ->
  exists bs, writes bs (append_var p i (mkcell i v)) /\ reads bs (decode_value o i) (mkcell i v).
Proof. intros p o i v K. apply value_roundtrip. auto. Qed.

(** All the bits set: the delayed replication factors (B 31 000, 001, 002, 011 and 012) have
    the number, all other numeric elements are missing. *)
Definition factor_codes : list Z := map (wr_var 0 31) [0; 1; 2; 11; 12].

Theorem C21_all_ones : forall o i, info_ok i -> is_numeric (vi_type i) = true -> 1 <= vi_bit_len i <= 32 ->
  0 <= vi_code i < 2 ^ 16 ->
  let ones := 2 ^ vi_bit_len i - 1 in
  (In (vi_code i) factor_codes -> vi_imin i <= ones + vi_bit_ref i <= vi_imax i ->
   reads (bits_of (Z.to_nat (vi_bit_len i)) ones) (decode_value o i) (mkcell i (Some (VInt (ones + vi_bit_ref i))))) /\
  (~ In (vi_code i) factor_codes ->
   reads (bits_of (Z.to_nat (vi_bit_len i)) ones) (decode_value o i) (mkcell i None)).
Proof.
  intros o i K N Hb Hc ones. fold (bit_len_nat i).
  assert (Hz : Z.of_nat (bit_len_nat i) = vi_bit_len i) by (unfold bit_len_nat; lia).
  assert (P : 1 < 2 ^ vi_bit_len i) by (apply Z.pow_gt_1; lia).
  assert (P32 : 2 ^ vi_bit_len i <= 2 ^ 32) by (apply Z.pow_le_mono_r; lia).
  assert (V : 0 <= ones < 2 ^ Z.of_nat (bit_len_nat i)) by (rewrite Hz; unfold ones; lia).
  assert (NM : no_missing (vi_code i) = true <-> In (vi_code i) factor_codes).
  { split.
    - unfold no_missing. intros E. pose proof (pack_unpack (vi_code i) Hc) as (_ & _ & _ & E2).
      replace (var_f (vi_code i)) with 0 in E2 by lia. replace (var_x (vi_code i)) with 31 in E2 by lia.
      unfold factor_codes. rewrite <- E2. apply in_map. cbn [In]. lia.
    - unfold factor_codes. intros I. cbn [map In] in I. destruct I as [<-|[<-|[<-|[<-|[<-|[]]]]]]; reflexivity. }
  assert (D : forall r, reads (bits_of (bit_len_nat i) ones) (decode_number o i) r -> reads (bits_of (bit_len_nat i) ones) (decode_value o i) r)
    by (intros r R; unfold decode_value; destruct (vi_type i); try discriminate N; exact R).
  split; intros I; [intros Hr|]; apply D; unfold decode_number; rewrite <- (app_nil_r (bits_of _ ones));
    rd_step (num_reads (bit_len_nat i) ones ltac:(lia) V); cbn [fst snd].
  - apply NM in I. rewrite I. cbn [bind].
    destruct (raw_var_roundtrip o i ones K N ltac:(lia) ltac:(lia) ltac:(lia)) as (d & c & D1 & D2 & D3 & _).
    rewrite D1. cbn [bind]. rewrite D2. cbn [of_outcome bind]. subst c. apply reads_ret.
  - destruct (no_missing (vi_code i)) eqn:E; [exfalso; apply I, NM; reflexivity|].
    rewrite all_ones_ok by lia. cbn [bind]. unfold ones_of. rewrite Hz. fold ones. rewrite Z.eqb_refl. apply reads_ret.
Qed.

(** An example with a D descriptor, a delayed replication, a missing value, a string,
    a width operator, a quality bitmap with delayed length, an attribute and two subsets. *)
Definition ex_ops : list Z :=
  [wr_var 3 1 2; wr_var 0 1 11; wr_var 2 1 130; wr_var 0 1 1; wr_var 2 1 0;
   wr_var 2 22 0; wr_var 1 1 0; wr_var 0 31 1; wr_var 0 31 31; wr_var 0 33 7; wr_var 0 33 7].
Definition num (x y v : Z) : var := mkvar (mkcell (ex_info x y) (Some (VInt v))) [].
Definition gone (x y : Z) : var := mkvar (fresh (ex_info x y)) [].
Definition with_attr (v : var) (x y k : Z) : var :=
  mkvar (v_cell v) (seta (mkcell (ex_info x y) (Some (VInt k))) (v_attrs v)).
Definition wide_info : varinfo :=
  get_ok no_info (alter_checked (ex_info 1 1) 0 9 0).
Definition bitmap_info (n : Z) : varinfo := get_ok no_info (set_string (wr_var 2 22 0) n).
Definition ex_subset (wide : Z) : list var :=
  [num 1 1 5; with_attr (num 12 101 28315) 33 7 70;
   num 31 1 2; num 1 1 6; num 12 101 0; num 1 1 7; with_attr (gone 12 101) 33 7 99;
   mkvar (mkcell (ex_info 1 11) (Some (VStr [65; 66; 67]))) [];
   mkvar (mkcell wide_info (Some (VInt wide))) [];
   mkvar (mkcell (bitmap_info 9) (Some (VStr [45; 43; 45; 45; 45; 45; 43; 45; 45]))) []].

Definition view (vars : list var) : list (Z * option value * list (Z * option value)) :=
  map (fun v => (c_code (v_cell v), c_val (v_cell v), map (fun a => (c_code a, c_val a)) (v_attrs v))) vars.

Lemma ex_subset_ok wide : Forall var_infos_ok (ex_subset wide).
Proof.
  assert (A : forall x y v, is_ok (query ex_btable (wr_var 0 x y)) = true -> var_infos_ok (num x y v)).
  { intros x y v E. split; [exact (ex_info_ok x y E)|constructor]. }
  assert (B : forall v x y k, var_infos_ok v -> v_attrs v = [] -> is_ok (query ex_btable (wr_var 0 x y)) = true ->
    var_infos_ok (with_attr v x y k)).
  { intros v x y k [V1 V2] Ev E. split; [exact V1|]. unfold with_attr. rewrite Ev. cbn [v_attrs seta].
    constructor; [exact (ex_info_ok x y E)|constructor]. }
  assert (W : info_ok wide_info).
  { apply (alter_info_ok (ex_info 1 1) 0 9 0); try (unfold int_min, int_max; lia).
    - apply ex_info_ok. vm_compute. reflexivity.
    - apply get_ok_eq. vm_compute. reflexivity. }
  assert (M : info_ok (bitmap_info 9)).
  { apply (info_ok_of_range (wr_var 2 22 0) TString "CCITTIA5"%string 0 9 0 72); try (unfold int_min, int_max; lia).
    - apply (get_ok_eq no_info). vm_compute. reflexivity. }
  unfold ex_subset.
  apply Forall_cons; [apply (A 1 1 5); vm_compute; reflexivity|].
  apply Forall_cons; [apply (B (num 12 101 28315) 33 7 70); [apply (A 12 101 28315)|reflexivity|]; vm_compute; reflexivity|].
  apply Forall_cons; [apply (A 31 1 2); vm_compute; reflexivity|].
  apply Forall_cons; [apply (A 1 1 6); vm_compute; reflexivity|].
  apply Forall_cons; [apply (A 12 101 0); vm_compute; reflexivity|].
  apply Forall_cons; [apply (A 1 1 7); vm_compute; reflexivity|].
  apply Forall_cons; [apply (B (gone 12 101) 33 7 99); [|reflexivity|vm_compute; reflexivity]|].
  { split; [exact (ex_info_ok 12 101 ltac:(vm_compute; reflexivity))|constructor]. }
  apply Forall_cons; [split; [exact (ex_info_ok 1 11 ltac:(vm_compute; reflexivity))|constructor]|].
  apply Forall_cons; [split; [exact W|constructor]|].
  apply Forall_cons; [split; [exact M|constructor]|].
  apply Forall_nil.
Qed.

Example C21_example :
  table_ok (tb_b ex_tables) /\ Forall (Forall var_infos_ok) [ex_subset 300; ex_subset 400] /\
  (' (g, _) <- transfer_all X86 ex_tables true 100 ex_ops [ex_subset 300; ex_subset 400] empty_local ;; Ok (map view g)) =
  Ok (map view [ex_subset 300; ex_subset 400]) /\
  (' (_, out) <- encode_subsets X86 (mkopts false false None) ex_tables 100 ex_ops [ex_subset 300; ex_subset 400] empty_local out_empty ;;
   ' (g, _, _) <- decode_subsets (mkopts false false None) ex_tables true 100 ex_ops 2 empty_local
                    (mkin (obytes (flush out) ++ [55]) 0 0 0) ;; Ok (map view g)) =
  Ok (map view [ex_subset 300; ex_subset 400]).
Proof.
  split; [exact ex_btable_ok|]. split; [|split; vm_compute; reflexivity].
  repeat (constructor; [exact (ex_subset_ok _)|]). constructor.
Qed.

(** ** C22: attributes travel through bitmaps

    [x_asked] lists the attributes that the template asked for while it was run, as pairs
    of a position and a code (C20 says which ones they are for a given bitmap). *)
Theorem C22_attributes_arrive : forall p T skip vars fuel ops lt s,
  transfer_state p T skip vars fuel ops lt = Ok s ->
  forall pos code v a, In (pos, code) (x_asked s) -> nth_error vars pos = Some v ->
    var_enqa v code = Some a -> isset a = true ->
  exists got, nth_error (x_got s) pos = Some got /\ var_enqa got code = Some a.
Proof.
  intros p T skip vars fuel ops lt s H pos code v a I N Q S. apply transfer_inv in H as [K _].
  pose proof (ti_asked_pos _ _ _ _ K _ _ I) as L. apply nth_error_Some in L.
  destruct (nth_error (x_got s) pos) as [got|] eqn:G; [|contradiction]. exists got. split; auto.
  eapply (ti_asked _ _ _ _ K); eauto.
Qed.

(** Nothing is invented: what the receiver has on the variable at [pos] was on the
    sender's variable at [pos], or is its associated field. *)
Theorem C22_attributes_come_from_the_sender : forall p T skip vars fuel ops lt s,
  transfer_state p T skip vars fuel ops lt = Ok s ->
  forall pos code got a, nth_error (x_got s) pos = Some got -> var_enqa got code = Some a ->
  exists v, nth_error vars pos = Some v /\
   ((exists bits sig, In (pos, (bits, sig)) (x_fields s) /\ x_af T skip bits sig v = Ok [a]) \/
    (In (pos, code) (x_asked s) /\ isset a = true /\ var_enqa v code = Some a)).
Proof.
  intros p T skip vars fuel ops lt s H pos code got a G Q. apply transfer_inv in H as [K _].
  destruct (ti_cells _ _ _ _ K _ _ G) as (v & N & _). exists v. split; auto. eapply (ti_attrs _ _ _ _ K); eauto.
Qed.

(** In the example above the second and seventh variables of each subset are asked about. *)
Example C22_example :
  (s <- transfer_state X86 ex_tables true (ex_subset 300) 100 ex_ops empty_local ;; Ok (x_asked s, view (x_got s))) =
  Ok ([(1%nat, wr_var 0 33 7); (6%nat, wr_var 0 33 7)], view (ex_subset 300)).
Proof. vm_compute. reflexivity. Qed.

(** ** C34: associated fields

    The table of significances (code table B 31 021) that the library knows. *)
Definition significance_attribute (sig : Z) : option Z :=
  match sig with
  | 1 | 8 => Some (wr_var 0 33 2)
  | 2 => Some (wr_var 0 33 3)
  | 6 => Some (wr_var 0 33 50)
  | 7 => Some (wr_var 0 33 40)
  | 21 => Some (wr_var 0 33 41)
  | _ => None
  end.

Lemma af_code_sig sig oc : af_code sig = Ok oc -> oc = significance_attribute sig.
Proof.
  unfold af_code.
  destruct (Z.eqb_spec sig 1) as [->|N1]; [cbn; congruence|]. destruct (Z.eqb_spec sig 8) as [->|N2]; [cbn; congruence|].
  destruct (Z.eqb_spec sig 2) as [->|N3]; [cbn; congruence|]. destruct (Z.eqb_spec sig 6) as [->|N4]; [cbn; congruence|].
  destruct (Z.eqb_spec sig 7) as [->|N5]; [cbn; congruence|]. destruct (Z.eqb_spec sig 21) as [->|N6]; [cbn; congruence|].
  cbn [orb]. destruct ((3 <=? sig) && (sig <=? 63)) eqn:B; [|discriminate]. intros E. injection E as <-.
  unfold significance_attribute. destruct sig as [|q|q]; auto.
  repeat (destruct q as [q|q|]; try reflexivity; try lia).
Qed.

Lemma enqa_code code l a : enqa code l = Some a -> c_code a = code.
Proof.
  induction l as [|b l IH]; cbn [enqa]; [discriminate|]. destruct (c_code b <=? code); [|discriminate].
  destruct (Z.eqb_spec (c_code b) code); [intros [= <-]; auto|auto].
Qed.

(** Every variable sent with an associated field of [bits] bits and significance [sig]
    other than 21: if the significance has an attribute and the sender's variable has it with
    value [k], so does the receiver's variable. *)
Theorem C34_field_arrives : forall p T skip vars fuel ops lt s,
  transfer_state p T skip vars fuel ops lt = Ok s ->
  forall pos bits sig code v sent k, In (pos, (bits, sig)) (x_fields s) -> sig <> 21 ->
    significance_attribute sig = Some code -> nth_error vars pos = Some v ->
    var_enqa v code = Some sent -> c_val sent = Some (VInt k) ->
  exists got a, nth_error (x_got s) pos = Some got /\ var_enqa got code = Some a /\ c_val a = Some (VInt k) /\
    c_code a = code.
Proof.
  intros p T skip vars fuel ops lt s H pos bits sig code v sent k I Ns Ec N Q Qv. apply transfer_inv in H as [K _].
  destruct (ti_fields _ _ _ _ K _ _ _ I) as [L F]. apply nth_error_Some in L.
  destruct (nth_error (x_got s) pos) as [got|] eqn:G; [|contradiction]. destruct (F v got N eq_refl) as (attrs & F1 & F2).
  exists got. unfold x_af in F1. inv_bind F1. apply af_code_sig in Hb. rewrite Ec in Hb. subst a. inv_bind Hk.
  rewrite Q, Qv in Hk0. inv_bind Hk0. destruct (Z.eqb_spec sig 21); [contradiction|]. injection Hk as <-.
  pose proof (query_code _ _ _ Hb) as Hc.
  destruct (F2 _ (or_introl eq_refl)) as [E|(_ & snt & E1 & E2 & E3)]; unfold c_code in *; cbn [c_info] in *; rewrite Hc in *.
  - exists (mkcell a (Some (VInt k))). repeat (split; [assumption || reflexivity|]). exact Hc.
  - assert (snt = sent) as -> by congruence. exists sent. repeat (split; [assumption || reflexivity|]).
    exact (enqa_code _ _ _ E3).
Qed.

(** If the sender's variable does not have it, the receiver's variable has none, or an
    unset one. *)
Theorem C34_missing_field : forall p T skip vars fuel ops lt s,
  transfer_state p T skip vars fuel ops lt = Ok s ->
  forall pos bits sig code v got a, In (pos, (bits, sig)) (x_fields s) -> sig <> 21 ->
    (forall bits' sig', In (pos, (bits', sig')) (x_fields s) -> sig' = sig) ->
    significance_attribute sig = Some code -> nth_error vars pos = Some v ->
    var_enqa v code = None -> nth_error (x_got s) pos = Some got -> var_enqa got code = Some a -> isset a = false.
Proof.
  intros p T skip vars fuel ops lt s H pos bits sig code v got a I Ns One Ec N Q G Qa. apply transfer_inv in H as [K _].
  destruct (ti_attrs _ _ _ _ K _ _ _ _ _ N G Qa) as [(b & g & F1 & F2)|(_ & _ & F)]; [|congruence].
  apply One in F1. subst g. unfold x_af in F2. inv_bind F2. apply af_code_sig in Hb. rewrite Ec in Hb. subst a0. inv_bind Hk.
  rewrite Q in Hk0. destruct (Z.eqb_spec sig 21); [contradiction|].
  destruct (((sig =? 6) || (sig =? 8)) && skip); [discriminate|]. injection Hk0 as <-. reflexivity.
Qed.

(** The decoder and the encoder use the same attribute for a significance. *)
Theorem C34_same_attribute : forall o t skip bits sig value c, o_hook o = None ->
  make_attribute o t skip bits sig value = Ok (Some c) -> significance_attribute sig = Some (c_code c).
Proof.
  intros o t skip bits sig value c Hk' H. unfold make_attribute in H. inv_bind H. inv_bind Hk. apply af_code_sig in Hb0. subst a0.
  destruct (significance_attribute sig) as [code|]; [|discriminate].
  assert (S : forall i k c', seti o (fresh i) k = Done c' -> c_info c' = i).
  { intros i k c' E. unfold seti, assign_i_checked in E. rewrite Hk' in E. cbn [fresh c_info] in E.
    destruct (is_numeric (vi_type i)); [|discriminate]. destruct ((k <? vi_imin i) || (vi_imax i <? k)).
    - destruct (o_silent o); [injection E as <-; reflexivity|]. destruct (o_clamp o); [|discriminate].
      injection E as <-. reflexivity.
    - injection E as <-. reflexivity. }
  assert (D : forall (x : outcome cell) c', of_outcome x = Ok c' -> x = Done c').
  { intros [y|e y|] c' E; cbn in E; try discriminate. congruence. }
  destruct (sig =? 21).
  - destruct (negb skip || negb (value =? a)); [|discriminate]. inv_bind Hk0. inv_bind Hk. injection Hk0 as <-.
    apply D, S in Hb1. apply query_code in Hb0. unfold c_code. rewrite Hb1, Hb0. reflexivity.
  - destruct (value =? a).
    + destruct (((sig =? 6) || (sig =? 8)) && skip); [discriminate|]. inv_bind Hk0. injection Hk as <-.
      apply query_code in Hb0. unfold c_code, fresh. cbn [c_info]. rewrite Hb0. reflexivity.
    + inv_bind Hk0. inv_bind Hk. injection Hk0 as <-. apply D, S in Hb1. apply query_code in Hb0.
      unfold c_code. rewrite Hb1, Hb0. reflexivity.
Qed.

(** Two associated fields with different significances. *)
Definition af_ops : list Z :=
  [wr_var 2 4 7; wr_var 0 31 21; wr_var 0 1 1; wr_var 0 12 101; wr_var 2 4 0; wr_var 0 1 1].
Definition af_subset : list var :=
  [num 31 21 1; with_attr (num 1 1 5) 33 2 2; num 12 101 27315; with_attr (num 1 1 6) 33 2 1].

Example C34_example :
  (s <- transfer_state X86 ex_tables true af_subset 100 af_ops empty_local ;; Ok (x_fields s, view (x_got s))) =
  Ok ([(1%nat, (7, 1)); (2%nat, (7, 1))],
      view [num 31 21 1; with_attr (num 1 1 5) 33 2 2;
            mkvar (v_cell (num 12 101 27315)) [fresh (ex_info 33 2)]; num 1 1 6]).
Proof. vm_compute. reflexivity. Qed.

(** With significance 21 the value is lost: 1 is sent, 0 arrives. *)
Definition af21_ops : list Z := [wr_var 2 4 1; wr_var 0 31 21; wr_var 0 1 1; wr_var 2 4 0].
Definition af21_subset : list var := [num 31 21 21; with_attr (num 1 1 5) 33 41 1].

Theorem C34_significance_21_refuted :
  (' (_, out) <- encode_subsets X86 (mkopts false false None) ex_tables 100
                   [wr_var 2 4 4; wr_var 0 31 21; wr_var 0 1 1; wr_var 2 4 0] [af21_subset] empty_local out_empty ;;
   ' (g, _, _) <- decode_subsets (mkopts false false None) ex_tables true 100
                    [wr_var 2 4 4; wr_var 0 31 21; wr_var 0 1 1; wr_var 2 4 0] 1 empty_local
                    (mkin (obytes (flush out) ++ [55]) 0 0 0) ;; Ok (map view g)) =
  Ok [view [num 31 21 21; with_attr (num 1 1 5) 33 41 0]].
Proof. vm_compute. reflexivity. Qed.

(** ** What the encoder accepts and should not

    A subset with more variables than the template asks for is encoded without them;
    a variable with another code is encoded as if it had the code in the template. *)
Definition sent_and_received (ops : list Z) (vars : list var) :=
  ' (_, out) <- encode_subsets X86 (mkopts false false None) ex_tables 100 ops [vars] empty_local out_empty ;;
  ' (g, _, _) <- decode_subsets (mkopts false false None) ex_tables true 100 ops 1 empty_local
                   (mkin (obytes (flush out) ++ [55]) 0 0 0) ;; Ok (map view g).

Theorem C21_extra_variables_refuted :
  sent_and_received [wr_var 0 1 1] [num 1 1 5; num 1 1 6] = Ok [view [num 1 1 5]].
Proof. vm_compute. reflexivity. Qed.

Theorem C21_other_code_refuted :
  sent_and_received [wr_var 0 1 1] [num 33 7 5] = Ok [view [num 1 1 5]].
Proof. vm_compute. reflexivity. Qed.

(** Encoding the zero reference value of an element (operator 203) counts the leading
    zeroes of 0, which is undefined. *)
Theorem C21_zero_reference_refuted :
  sent_and_received [wr_var 2 3 10; wr_var 0 1 1; wr_var 2 3 255; wr_var 0 1 1] [num 1 1 5] = UB.
Proof. vm_compute. reflexivity. Qed.

(** A missing string of more than 32 bits shifts by more than the width of the type. *)
Theorem C21_missing_string_refuted :
  encode_subsets Strict (mkopts false false None) ex_tables 100 [wr_var 0 1 11] [[gone 1 11]] empty_local out_empty = UB.
Proof. vm_compute. reflexivity. Qed.

Print Assumptions C21_data_section_round_trip.
Print Assumptions C21_values_are_the_same.
Print Assumptions C22_attributes_arrive.
Print Assumptions C22_attributes_come_from_the_sender.
Print Assumptions C34_field_arrives.
Print Assumptions C34_same_attribute.

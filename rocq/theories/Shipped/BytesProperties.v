(** C47 with the tables that come with the library. *)
From Coq Require Import ZifyBool ZifyNat String List ZArith Permutation.
From Verif Require Import Base Bits.Model Bits.Spec Varcode.Model Varinfo.Model Tables.Model Tables.Spec Tables.LoadProofs Select.Model Select.Spec
  Var.Model Interp.Model Interp.Appears Codec.Model Codec.Spec Codec.Checked Message.Model Message.Spec Message.SafeProofs Message.Checked Message.BytesProperties
  Shipped.Text Shipped.Catalog Shipped.Check Shipped.Spec Shipped.Model Shipped.Proofs Shipped.ChoiceProofs Shipped.LoadProofs Shipped.EndProofs
  Shipped.Properties.
From Verif Require Interp.Example Codec.Properties Base.
Import ListNotations.
Local Open Scope Z_scope.

(** All elements can be read but the odd ones. *)
Lemma shipped_element n ls t code : In (n, ls) shipped_b -> crex_name n = false -> ~ In n unloadable -> load_bufr (file ls) = Ok t ->
  ~ In (n, code) odd_elements -> element_ok t 0 code.
Proof.
  intros I C U L Od e Ie Ec. pose proof (load_bufr_entries _ _ L) as K. unfold entries_ok in K. rewrite Forall_forall in K. specialize (K e Ie).
  destruct (b_table n ls I U) as (fs & t' & E & L' & F & W). rewrite C in *. unfold load_b in L'. assert (t' = t) by congruence. subst t'.
  assert (X : exists f, In f fs /\ entry_says f e).
  { clear - F Ie. induction F as [|f e' fs t S F IH]; [destruct Ie|]. destruct Ie as [->|Ie]; [exists f; split; [left; reflexivity|exact S]|].
    destruct (IH Ie) as (g & Ig & Sg). exists g. split; [right; exact Ig|exact Sg]. }
  destruct X as (f & If & Sy). destruct (elements_more _ _ E) as [_ M]. rewrite Forall_forall in M. specialize (M f If).
  destruct Sy as (S1 & S2 & S3 & S4 & S5 & S6 & S7). unfold be_code in Ec.
  destruct (proj1 (W f If)) as [Wf|Wf]; [|exfalso; apply Od; congruence]. unfold width_ok in Wf.
  unfold readable. rewrite S7, S5, S4. destruct (bf_text f).
  - split; [exact Logic.I|]. split; [discriminate|]. lia.
  - destruct (M eq_refl) as (_ & _ & R). destruct (bf_scale f =? 0); (split; [split; [exact K|lia]|split; [discriminate|lia]]).
Qed.

(** What a template must avoid: 207YYY (but for its end, 207000), 203YYY with more than 31 bits, and two elements. *)
Definition usual_code (code : Z) : Prop := operator_ok 0 code /\ code <> B 15 28 /\ code <> B 8 193.

Theorem C47_shipped_tables : forall names opt skip fuel d, Permutation names shipped_names -> Forall is_byte d -> hook_safe opt ->
  (forall l, decode_lead d = Ok l -> ~ (h_centre (l_header l) = 254 /\ h_version (l_header l) = 19)) ->
  (forall l T code, decode_lead d = Ok l -> shipped_load names (tableid_of (l_header l)) = Ok T -> appears T (l_datadesc l) code -> usual_code code) ->
  checked_decode opt (shipped_load names) skip fuel d <> UB /\
  (decode opt (shipped_load names) skip fuel d <> UB \/
   checked_decode opt (shipped_load names) skip fuel d = Err EEof \/ checked_decode opt (shipped_load names) skip fuel d = Err EAlloc).
Proof.
  intros names opt skip fuel d P F H Hv Hc.
  assert (Ids : forall l, decode_lead d = Ok l -> bufr_id_ok (wanted (tableid_of (l_header l)))).
  { intros l E. pose proof (lead_ids d F) as W. unfold defined in W. rewrite E in W. exact W. }
  assert (A : loads_safely (shipped_load names) d).
  { intros l E. specialize (Ids l E). specialize (Hv l E). set (id := tableid_of (l_header l)) in *.
    destruct (Z.eq_dec (t_master_table id) 0) as [M|M]; [|rewrite (proj1 (C46_found names id P Ids)) by auto; discriminate].
    destruct (Z.le_gt_cases (t_version id) 33) as [V|V]; [|rewrite (proj1 (C46_found names id P Ids)) by auto; discriminate].
    destruct (loaded names id P Ids M V Hv) as (T & -> & _). discriminate. }
  assert (B : tame_message (shipped_load names) d).
  { intros l T E Lo. specialize (Ids l E). specialize (Hc l T). specialize (Hv l E).
    assert (X : exists n ls, In (n, ls) shipped_b /\ crex_name n = false /\ ~ In n unloadable /\ load_bufr (file ls) = Ok (tb_b T)).
    { pose proof Lo as Lo'. unfold shipped_load in Lo'. destruct (search_bufr (wanted (tableid_of (l_header l))) (in_dir names)) as [t|] eqn:S; [|discriminate].
      destruct (load_spec names _ t P Ids S) as (n & m & lb & ld & Ib & Im & Cn & En & Em & X). rewrite Lo in X. clear Lo'.
      destruct (load_bufr (file lb)) as [b|e|] eqn:Lb; [|discriminate|discriminate]. cbn [bind] in X.
      destruct (load_dtable (file ld)) as [dt|e|]; [|discriminate|discriminate]. cbn [bind] in X. injection X as ->.
      exists n, lb. split; [exact Ib|]. split; [exact Cn|]. split; [|exact Lb]. intros Un. apply eumetsat_name in Un. rewrite En in Un. apply (eumetsat_choice names _ _ P Ids S) in Un.
      apply Hv. exact Un. }
    destruct X as (n & ls & Ib & Cn & Un & Lb).
    assert (K : forall code, code <> Properties.B 15 28 -> code <> Properties.B 8 193 -> element_ok (tb_b T) 0 code).
    { intros code N1 N2. eapply shipped_element; eauto. intros Io. apply (in_map snd) in Io.
      change (map snd odd_elements) with [3868; 3868; 3868; 3868; 3868; 2241] in Io. change (Properties.B 15 28) with 3868 in N1.
      change (Properties.B 8 193) with 2241 in N2. cbn [snd In] in Io. lia. }
    exists 0. split; [lia|]. split; [|split; apply K; discriminate].
    intros code Ap. destruct (Hc code E Lo Ap) as (O & N1 & N2). auto. }
  split; [apply C47_checked_safe; auto|apply C47_decoding_safe; auto].
Qed.

(** A message without sequences, for version 24, and that message without its last bytes. *)
Definition plain_message : list Z := Eval vm_compute in
  Base.get_ok [] (encode X86 (mkopts false false None) Interp.Example.ex_tables 100 empty_local
    (mkbulletin (mkheader 4 0 200 0 1 0 7 5 24 0 2026 12 31 23 59 58) [] false [wr_var 0 1 1; wr_var 0 12 101]
      [[Codec.Properties.num 1 1 5; Codec.Properties.num 12 101 28315]])).

Example C47_shipped_example : forall d names, In d [plain_message; firstn 60 plain_message] -> Forall is_byte d /\
  (forall l, decode_lead d = Ok l -> ~ (h_centre (l_header l) = 254 /\ h_version (l_header l) = 19)) /\
  (forall l T code, decode_lead d = Ok l -> shipped_load names (tableid_of (l_header l)) = Ok T -> appears T (l_datadesc l) code -> usual_code code) /\
  is_ok (decode_lead d) = true.
Proof.
  intros d names Id.
  assert (L : exists l, decode_lead d = Ok l /\ h_version (l_header l) = 24 /\ l_datadesc l = [wr_var 0 1 1; wr_var 0 12 101]).
  { destruct Id as [<-|[<-|[]]]; eexists; (split; [vm_compute; reflexivity|split; reflexivity]). }
  split; [apply ex_bytes; destruct Id as [<-|[<-|[]]]; vm_compute; reflexivity|].
  destruct L as (l & E & V & D). rewrite E. split; [intros l' [= <-]; lia|]. split; [|reflexivity].
  intros l' T code [= <-] _ A. rewrite D in A.
  assert (K : code = wr_var 0 1 1 \/ code = wr_var 0 12 101).
  { induction A as [code [<-|[<-|[]]]|code d' body _ IH F3 _ _]; auto. destruct IH as [->| ->]; discriminate. }
  destruct K as [->| ->]; (split; [intros X; discriminate|split; discriminate]).
Qed.

Print Assumptions C47_shipped_tables.

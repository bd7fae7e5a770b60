(** C47: decoding arbitrary bytes, the data section included. *)
From Coq Require Import ZifyBool ZifyNat String.
From Verif Require Import Base Codec.ColumnProofs Bits.Model Bits.Spec Bits.Proofs Num.Float Varcode.Model Varinfo.Model
  Varinfo.Proofs Tables.Model Tables.Spec Tables.LoadProofs Var.Model Interp.Model Interp.Appears Interp.SureProofs Interp.Example Codec.Model
  Codec.Compressed Codec.Spec Codec.Checked Codec.CheckedComp Codec.CheckedProofs Codec.CheckedSafe Codec.CheckedCompSafe
  Codec.Properties Codec.CompressedProperties Select.Spec
  Message.Model Message.Spec Message.SafeProofs Message.Checked Message.Properties.
Local Open Scope Z_scope.

(** The templates for which the claim is made: see [tame] in Codec/Checked.v. *)
Definition tame_message (load : tableid -> res tables) (d : list Z) : Prop :=
  forall l T, decode_lead d = Ok l -> load (tableid_of (l_header l)) = Ok T -> tame T (l_datadesc l).

Definition loads_safely (load : tableid -> res tables) (d : list Z) : Prop :=
  forall l, decode_lead d = Ok l -> load (tableid_of (l_header l)) <> UB.

(** The decoder that checks has no undefined behaviour, whatever the bytes. *)
Theorem C47_checked_safe : forall opt load skip fuel d,
  Forall is_byte d -> hook_safe opt -> loads_safely load d -> tame_message load d ->
  checked_decode opt load skip fuel d <> UB.
Proof.
  intros opt load skip fuel d F H HL Ht. unfold checked_decode.
  pose proof (lead_safe d F) as L. unfold tame_message in Ht. unfold loads_safely in HL. destruct (decode_lead d) as [l|e|]; [|discriminate|contradiction].
  cbn [defined] in L. destruct L as (Sc & E & _). specialize (Ht l). specialize (HL l eq_refl). cbn [bind].
  destruct (load (tableid_of (l_header l))) as [T|e|]; [|discriminate|congruence].
  specialize (Ht T eq_refl eq_refl). cbn [bind].
  assert (FS : fine (mkin d (s4 (l_sections l) + 4) 0 0)).
  { split; [exact F|]. cbn [idata icur iplen]. destruct (Nat.le_gt_cases (s4 (l_sections l) + 4) (length d)) as [W|W].
    - left. unfold wf_in. cbn [idata icur iplen ipbyte]. repeat split; try lia. 
    - right. split; [reflexivity|lia]. }
  assert (LF : local_fine empty_local) by (repeat split; constructor).
  assert (X : checked_data opt T skip fuel d l <> UB).
  { unfold checked_data. destruct (Z.eqb_spec (l_expected l) 0) as [N|N]; [discriminate|].
    pose proof (compressed_sure opt T skip fuel (l_datadesc l) (Z.to_nat (l_expected l)) empty_local _ H Ht ltac:(lia) FS LF) as S1.
    pose proof (subsets_sure opt T skip fuel (l_datadesc l) H Ht (Z.to_nat (l_expected l)) empty_local _ FS LF) as S2.
    destruct (l_compression l).
    - destruct (kk_subsets _ _ _ _ _ _ _ _) as [[[g lt] i]|e|]; [|discriminate|contradiction]. cbn [bind].
      destruct (Nat.ltb_spec (length d) (s5 (l_sections l) + 4)); [discriminate|].
      pose proof (zlist_is_safe d F [55; 55; 55; 55] (s5 (l_sections l)) ltac:(cbn; lia)) as Z.
      destruct (zlist_is _ _ _) as [[|]|e|]; [discriminate|discriminate|discriminate|contradiction].
    - destruct (ck_subsets _ _ _ _ _ _ _ _) as [[[g lt] i]|e|]; [|discriminate|contradiction]. cbn [bind].
      destruct (Nat.ltb_spec (length d) (s5 (l_sections l) + 4)); [discriminate|].
      pose proof (zlist_is_safe d F [55; 55; 55; 55] (s5 (l_sections l)) ltac:(cbn; lia)) as Z.
      destruct (zlist_is _ _ _) as [[|]|e|]; [discriminate|discriminate|discriminate|contradiction]. }
  destruct (checked_data opt T skip fuel d l) as [[g lt]|e|]; [discriminate|discriminate|congruence].
Qed.

(** The library gives what the decoder that checks gives, when that does not stop at a check. *)
Theorem C47_same_without_checks : forall opt load skip fuel d,
  checked_decode opt load skip fuel d <> Err EEof -> checked_decode opt load skip fuel d <> Err EAlloc ->
  decode opt load skip fuel d = checked_decode opt load skip fuel d.
Proof.
  intros opt load skip fuel d. unfold checked_decode, decode. destruct (decode_lead d) as [l|e|]; [|cbn [bind]; intros; reflexivity|cbn [bind]; intros; reflexivity]. cbn [bind].
  destruct (load (tableid_of (l_header l))) as [T|e|]; [|cbn [bind]; intros; reflexivity|cbn [bind]; intros; reflexivity]. cbn [bind].
  assert (X : agree (decode_data opt T skip fuel d l) (checked_data opt T skip fuel d l)).
  { unfold decode_data, checked_data. destruct (l_expected l =? 0); [right; right; reflexivity|].
    pose proof (compressed_agree opt T skip fuel (l_datadesc l) (Z.to_nat (l_expected l)) empty_local (mkin d (s4 (l_sections l) + 4) 0 0)) as A1.
    pose proof (subsets_agree opt T skip fuel (l_datadesc l) (Z.to_nat (l_expected l)) empty_local (mkin d (s4 (l_sections l) + 4) 0 0)) as A2.
    destruct (l_compression l).
    - destruct A1 as [->|[->|<-]]; [left; reflexivity|right; left; reflexivity|right; right; reflexivity].
    - destruct A2 as [->|[->|<-]]; [left; reflexivity|right; left; reflexivity|right; right; reflexivity]. }
  destruct X as [->|[->|<-]]; cbn [bind]; intros; congruence.
Qed.

(** So the library is safe on each message on which the checks would not have stopped it. *)
Corollary C47_decoding_safe : forall opt load skip fuel d,
  Forall is_byte d -> hook_safe opt -> loads_safely load d -> tame_message load d ->
  decode opt load skip fuel d <> UB \/
  checked_decode opt load skip fuel d = Err EEof \/ checked_decode opt load skip fuel d = Err EAlloc.
Proof.
  intros opt load skip fuel d F H HL Ht. pose proof (C47_checked_safe opt load skip fuel d F H HL Ht) as X.
  destruct (checked_decode opt load skip fuel d) as [r|e|] eqn:E; [| |congruence].
  - left. rewrite C47_same_without_checks; rewrite E; congruence.
  - destruct e; try (right; left; reflexivity); try (right; right; reflexivity);
      left; (rewrite C47_same_without_checks; rewrite E; congruence).
Qed.


(** ** Small tables *)

(** Codes of a template and its sequences are codes of the template or of the table D. *)
Lemma appears_listed T ops code : appears T ops code -> In code ops \/ In code (dt_codes (tb_d T)).
Proof.
  induction 1 as [code I|code d body _ _ _ E I]; [auto|]. right. unfold dexpand, dquery in E. inv_bind E. injection Hk as <-. inv_bind Hb.
  destruct a0 as [k|]; [|discriminate]. destruct (nth_error _ k) as [e|]; [|discriminate]. injection Hk as <-.
  unfold slice in I. cbn [o_mem o_beg o_end] in I. 
  rewrite <- (firstn_skipn (de_begin e) (dt_codes (tb_d T))). apply in_app_iff. right.
  rewrite <- (firstn_skipn (de_end e - de_begin e) (skipn _ _)). apply in_app_iff. left. exact I.
Qed.

Definition element_fine (w : Z) (e : bentry) : bool :=
  let i := be_info e in
  match vi_type i with TInteger | TDecimal => (1 <=? vi_bit_len i) && (vi_bit_len i <=? 32) | TString => true | TBinary => false end &&
  (Z.abs (vi_bit_ref i) * 10 ^ w <=? 2 ^ 30).
Definition operator_fine (w code : Z) : bool :=
  negb (var_f code =? 2) ||
  ((negb (var_x code =? 3) || (var_y code <=? 31) || (var_y code =? 255)) && (negb (var_x code =? 7) || (var_y code <=? w))).
Lemma fine_tame T ops w : 0 <= w <= 9 -> entries_ok (tb_b T) -> forallb (element_fine w) (tb_b T) = true ->
  forallb (operator_fine w) (ops ++ dt_codes (tb_d T)) = true -> tame T ops.
Proof.
  intros R K E O.
  assert (X : forall code, element_ok (tb_b T) w code).
  { intros code e Ie _. unfold entries_ok in K. rewrite Forall_forall in K. specialize (K e Ie).
    rewrite forallb_forall in E. specialize (E e Ie). unfold element_fine in E. cbv zeta in E. apply andb_prop in E as [E1 E2].
    unfold readable. destruct (vi_type (be_info e)); try discriminate; (split; [|split; [discriminate|lia]]); first [split; [exact K|lia]|exact I]. }
  exists w. split; [exact R|]. split; [|split; apply X]. intros code A. split; [|apply X].
  rewrite forallb_forall in O. specialize (O code). rewrite in_app_iff in O. specialize (O (appears_listed _ _ _ A)).
  unfold operator_fine in O. intros F. rewrite F in O. cbn [negb orb Z.eqb Pos.eqb] in O. lia.
Qed.

Lemma ex_tame ops : forallb (operator_fine 9) (ops ++ ex_dcodes) = true -> tame ex_tables ops.
Proof.
  intros H. apply (fine_tame ex_tables ops 9); [lia|exact (load_bufr_entries _ _ ex_btable_loads)|vm_compute; reflexivity|exact H].
Qed.

(** The message of the examples, and that message with other bytes in its data section. *)
Lemma ex_bytes d : forallb (fun x => (0 <=? x) && (x <? 256)) d = true -> Forall is_byte d.
Proof. intros B. apply Forall_forall. intros x I. rewrite forallb_forall in B. specialize (B x I). unfold is_byte. lia. Qed.

Lemma ex_tame_message d : match decode_lead d with Ok l => forallb (operator_fine 9) (l_datadesc l ++ ex_dcodes) | _ => true end = true ->
  tame_message ex_load d.
Proof.
  intros H l T E. rewrite E in H. unfold ex_load. destruct (_ =? 13); [|discriminate]. intros Et. apply ok_inj in Et. subst T. apply ex_tame. exact H.
Qed.
Lemma ex_loads d : loads_safely ex_load d.
Proof. intros l _. unfold ex_load. destruct (_ =? 13); discriminate. Qed.

Example C47_example : hook_safe (mkopts false false None) /\
  (Forall is_byte (ex_encode 4 40000 2026) /\ loads_safely ex_load (ex_encode 4 40000 2026) /\ tame_message ex_load (ex_encode 4 40000 2026) /\
   is_ok (checked_decode (mkopts false false None) ex_load true 100 (ex_encode 4 40000 2026)) = true) /\
  (Forall is_byte cut_data /\ tame_message ex_load cut_data /\
   checked_decode (mkopts false false None) ex_load true 100 cut_data = Err EEof) /\
  (Forall is_byte short_data /\ tame_message ex_load short_data /\
   checked_decode (mkopts false false None) ex_load true 100 short_data = Err EEof).
Proof.
  split; [exact I|]. split; [|split].
  - split; [apply ex_bytes; vm_compute; reflexivity|]. split; [apply ex_loads|]. split; [apply ex_tame_message; vm_compute; reflexivity|vm_compute; reflexivity].
  - split; [apply ex_bytes; vm_compute; reflexivity|]. split; [apply ex_tame_message; vm_compute; reflexivity|vm_compute; reflexivity].
  - split; [apply ex_bytes; vm_compute; reflexivity|]. split; [apply ex_tame_message; vm_compute; reflexivity|vm_compute; reflexivity].
Qed.

(** ** No check can be left out *)

Definition checked_alone (ops : list Z) (l : list bool) :=
  ' (g, _, _) <- ck_subsets (mkopts false false None) ex_tables true 1000 ops 1 empty_local (mkin (as_bytes l ++ [55; 55]) 0 0 0) ;; Ok (map view g).
Definition checked_together (ops : list Z) (n : nat) (l : list bool) :=
  ' (g, _, _) <- kk_subsets (mkopts false false None) ex_tables true 100 ops n empty_local (mkin (as_bytes l ++ [55; 55]) 0 0 0) ;; Ok (map view g).

(** The end of the data. *)
Theorem C47_end_of_data_refuted : Forall is_byte cut_data /\ tame_message ex_load cut_data /\
  decode (mkopts false false None) ex_load true 100 cut_data = UB.
Proof.
  split; [apply ex_bytes; vm_compute; reflexivity|]. split; [apply ex_tame_message; vm_compute; reflexivity|vm_compute; reflexivity].
Qed.

(** A bitmap without anything present; a second bitmap that is too long while the first is in use. *)
Theorem C47_bitmaps_refuted :
  let empty := [wr_var 0 1 1; wr_var 2 22 0; wr_var 1 1 1; wr_var 0 31 31; wr_var 0 33 7] in
  let second := [wr_var 0 1 1; wr_var 2 22 0; wr_var 1 1 1; wr_var 0 31 31; wr_var 2 22 0; wr_var 1 1 2; wr_var 0 31 31] in
  (tame ex_tables empty /\ decoded_alone empty (bits_of 7 5 ++ bits_of 1 1 ++ bits_of 7 70) = UB /\
   checked_alone empty (bits_of 7 5 ++ bits_of 1 1 ++ bits_of 7 70) = Err EAlloc) /\
  (tame ex_tables second /\ decoded_alone second (bits_of 7 5 ++ bits_of 1 0 ++ bits_of 2 0) = UB /\
   checked_alone second (bits_of 7 5 ++ bits_of 1 0 ++ bits_of 2 0) = Err EAlloc).
Proof. split; (split; [apply ex_tame; vm_compute; reflexivity|split; vm_compute; reflexivity]). Qed.

(** Differences of more than 32 bits, compressed. *)
Theorem C47_differences_refuted :
  tame ex_tables [wr_var 0 1 1] /\ decoded [wr_var 0 1 1] 1 (bits_of 7 0 ++ bits_of 6 33 ++ bits_of 40 1) = UB /\
  checked_together [wr_var 0 1 1] 1 (bits_of 7 0 ++ bits_of 6 33 ++ bits_of 40 1) = Err EAlloc /\
  checked_together [wr_var 0 1 1] 1 (bits_of 7 0 ++ bits_of 6 32 ++ bits_of 40 (5 * 256)) = Ok [view [num 1 1 5]].
Proof. split; [apply ex_tame; vm_compute; reflexivity|]. repeat split; vm_compute; reflexivity. Qed.

(** ** The conditions on the template *)

(** 203YYY with more than 32 bits, 207YYY beyond 9: undefined also with the checks. *)
Theorem C47_operators_refuted :
  let bits := bits_of 40 5 ++ bits_of 40 5 in
  checked_alone [wr_var 2 3 33; wr_var 0 12 101; wr_var 2 3 255] bits = UB /\ operator_fine 9 (wr_var 2 3 33) = false /\
  checked_alone [wr_var 2 7 10; wr_var 0 12 101; wr_var 2 7 0] bits = UB /\ operator_fine 9 (wr_var 2 7 10) = false.
Proof. repeat split; vm_compute; reflexivity. Qed.

Print Assumptions C47_checked_safe.
Print Assumptions C47_same_without_checks.
Print Assumptions C47_decoding_safe.
Print Assumptions C47_end_of_data_refuted.
Print Assumptions C47_bitmaps_refuted.
Print Assumptions C47_differences_refuted.
Print Assumptions C47_operators_refuted.

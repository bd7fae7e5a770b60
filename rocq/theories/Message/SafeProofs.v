(** Reading the header of any byte string: no read is out of bounds. *)
From Coq Require Import ZifyBool ZifyNat.
From Verif Require Import Base Bits.Model Bits.Spec Bits.Proofs Message.Model Message.Spec Message.Proofs.
Local Open Scope Z_scope.

(** The call returns a value with the property, or throws. *)
Definition defined {A} (m : res A) (P : A -> Prop) : Prop :=
  match m with Ok a => P a | Err e => e <> EFuel | UB => False end.

Lemma defined_bind {A B} (m : res A) (k : A -> res B) P Q :
  defined m P -> (forall a, P a -> defined (k a) Q) -> defined (bind m k) Q.
Proof. destruct m; cbn; auto. Qed.

Lemma defined_weaken {A} (m : res A) (P Q : A -> Prop) : defined m P -> (forall a, P a -> Q a) -> defined m Q.
Proof. destruct m; cbn; auto. Qed.

Section Safe.
Context (d : list Z) (HB : Forall is_byte d).

Lemma read_at_safe pos : (pos <= length d)%nat -> defined (read_at d pos) is_byte.
Proof.
  intros H. unfold read_at. destruct (nth_error d pos) as [b|] eqn:E; cbn.
  - apply nth_error_In in E. rewrite Forall_forall in HB. auto.
  - apply nth_error_None in E. replace (Nat.eqb pos (length d)) with true by lia. cbn. unfold is_byte. lia.
Qed.

Lemma read_loop_safe k : forall pos acc, (pos + k <= length d)%nat -> 0 <= acc -> (acc + 1) * 256 ^ Z.of_nat k <= 2 ^ 32 ->
  defined (read_number_loop k pos acc d) (fun v => 0 <= v < (acc + 1) * 256 ^ Z.of_nat k).
Proof.
  induction k as [|k IH]; intros pos acc L Ha Hb; cbn [read_number_loop].
  - cbn [defined]. change (256 ^ Z.of_nat 0) with 1. lia.
  - eapply defined_bind; [apply read_at_safe; lia|]. intros x Hx. unfold is_byte in Hx.
    rewrite Nat2Z.inj_succ, Z.pow_succ_r in * by lia. set (q := 256 ^ Z.of_nat k) in *.
    assert (Hq : 0 < q) by (unfold q; apply Z.pow_pos_nonneg; lia).
    assert (E : 0 <= Z.lor (u32 (256 * acc)) x < 256 * (acc + 1)).
    { unfold u32. rewrite Z.mod_small by nia. split; [apply Z.lor_nonneg; lia|].
      assert (D : Z.land (256 * acc) x = 0).
      { apply Z.bits_inj'. intros j Hj. rewrite Z.land_spec, Z.bits_0.
        destruct (Z.ltb_spec j 8) as [H8|H8].
        - replace (256 * acc) with (acc * 2 ^ 8) by lia. rewrite Z.mul_pow2_bits_low by lia. reflexivity.
        - replace (Z.testbit x j) with false; [apply andb_false_r|]. symmetry.
          destruct (Z.eq_dec x 0) as [->|NZ]; [apply Z.bits_0|]. apply Z.bits_above_log2; try lia.
          apply Z.lt_le_trans with 8; auto. apply Z.log2_lt_pow2; lia. }
      rewrite <- Z.lxor_lor, <- Z.add_nocarry_lxor by exact D. lia. }
    eapply defined_weaken; [apply IH; [lia|lia|]|].
    + fold q. nia.
    + cbv beta. fold q. intros v Hv. nia.
Qed.

Lemma read_number_safe pos k : (k <= 4)%nat -> (pos + k <= length d)%nat ->
  defined (read_number d pos k) (fun v => 0 <= v < 256 ^ Z.of_nat k).
Proof.
  intros Hk L. unfold read_number. eapply defined_weaken; [apply read_loop_safe; auto; try lia|].
  - change (2 ^ 32) with (256 ^ 4). assert (256 ^ Z.of_nat k <= 256 ^ 4) by (apply Z.pow_le_mono_r; lia). lia.
  - cbv beta. intros v Hv. lia.
Qed.

Lemma section_end_safe sec : defined (section_end_at d sec) (fun e => (sec <= e <= length d /\ sec + 3 <= length d)%nat).
Proof.
  unfold section_end_at. destruct (Nat.ltb (length d) (sec + 3)) eqn:E; [discriminate|].
  eapply defined_bind; [apply read_number_safe; lia|]. cbv beta zeta. intros v Hv.
  destruct (Nat.ltb (length d) (sec + Z.to_nat v)) eqn:E2; [discriminate|]. cbn [defined]. lia.
Qed.

(** What is known of the sections after the scan. *)
Definition scanned (se : sections) : Prop :=
  s1 se = 8%nat /\ (s2 se <= s3 se <= s4 se)%nat /\ (s4 se <= s5 se <= length d)%nat /\ (s4 se + 3 <= length d)%nat.

Lemma scan_safe sec2 opt : (sec2 <= length d)%nat -> defined (scan_sections d sec2 opt) scanned.
Proof.
  intros L. unfold scan_sections.
  apply defined_bind with (P := fun e => (sec2 <= e <= length d)%nat).
  { destruct opt; [|cbn; lia]. eapply defined_weaken; [apply section_end_safe|]. cbv beta. lia. }
  intros e3 H3. eapply defined_bind; [apply section_end_safe|]. cbv beta. intros e4 H4.
  eapply defined_bind; [apply section_end_safe|]. cbv beta. intros e5 H5. cbn [defined]. unfold scanned. cbn [s1 s2 s3 s4 s5]. lia.
Qed.

Ltac safe_byte := eapply defined_bind; [apply read_at_safe; lia|]; intros ? ?.
Ltac safe_short := eapply defined_bind; [apply read_number_safe; lia|]; intros ? ?.

Lemma sec1_ed3_safe ed sec2 : (8 + 18 <= length d)%nat -> (sec2 <= length d)%nat ->
  defined (decode_sec1_ed3 d ed sec2) (fun x => scanned (snd (fst x))).
Proof.
  intros L L2. unfold decode_sec1_ed3. cbv zeta. unfold read_byte. safe_byte. safe_byte.
  eapply defined_bind; [apply scan_safe; auto|]. intros se Hs. do 12 safe_byte. cbn [defined fst snd]. exact Hs.
Qed.

Lemma sec1_ed4_safe ed sec2 : (8 + 22 <= length d)%nat -> (sec2 <= length d)%nat ->
  defined (decode_sec1_ed4 d ed sec2) (fun x => scanned (snd (fst x))).
Proof.
  intros L L2. unfold decode_sec1_ed4. cbv zeta. unfold read_byte. safe_byte. do 2 safe_short. do 2 safe_byte.
  eapply defined_bind; [apply scan_safe; auto|]. intros se Hs. destruct (_ && _); [discriminate|].
  do 5 safe_byte. safe_short. do 5 safe_byte. cbn [defined fst snd]. exact Hs.
Qed.

Lemma zlist_is_safe s : forall pos, (pos + length s <= length d)%nat -> defined (zlist_is d pos s) (fun _ => True).
Proof.
  induction s as [|c s IH]; intros pos L; cbn [zlist_is length] in *; [cbn; auto|].
  unfold read_byte. safe_byte. destruct (_ =? c); [apply IH; lia|cbn; auto].
Qed.

Lemma descriptors_safe n : forall pos, (pos + n * 2 <= length d)%nat ->
  defined (read_descriptors d pos n) (fun l => length l = n /\ Forall in_u16 l).
Proof.
  induction n as [|n IH]; intros pos L; cbn [read_descriptors]; [cbn; auto|]. safe_short. rename a into v.
  eapply defined_bind; [apply IH; lia|]. cbv beta. intros vs [E F]. cbn [defined length]. split; [lia|]. constructor; auto.
Qed.

Theorem lead_safe : defined (decode_lead d) (fun l => scanned (l_sections l) /\ 0 <= l_expected l < 65536 /\
  Forall in_u16 (l_datadesc l)).
Proof.
  unfold decode_lead. destruct (Nat.ltb (length d) 8) eqn:E8; [discriminate|].
  eapply defined_bind; [apply zlist_is_safe; cbn [length]; lia|]. intros [] _; cbn [negb]; [|discriminate].
  unfold read_byte at 1. safe_byte. rename a into ed. destruct (negb _) eqn:ED; [discriminate|].
  eapply defined_bind; [apply section_end_safe|]. cbv beta. intros sec2 H2.
  destruct (Nat.ltb (length d) (8 + (if ed =? 4 then 22 else 18))) eqn:E1; [discriminate|].
  apply defined_bind with (P := fun x => scanned (snd (fst x))).
  { destruct (ed =? 4); [apply sec1_ed4_safe|apply sec1_ed3_safe]; lia. }
  intros [[h se] has2] Hs. cbn [fst snd] in Hs. destruct Hs as (S1 & S2 & S3 & S4).
  apply defined_bind with (P := fun _ => True).
  { destruct has2; [|cbn; auto]. destruct (Nat.ltb (s3 se) (s2 se + 3)) eqn:L3; [discriminate|].
    safe_short. destruct (Nat.ltb (s3 se) (s2 se + Z.to_nat a)); [discriminate|]. destruct (a <? 4); [discriminate|]. cbn. auto. }
  intros opt _. destruct (Nat.ltb (s4 se - s3 se) 7) eqn:L7; [discriminate|].
  destruct (Nat.ltb (s4 se) (s3 se + 8)) eqn:L88; [discriminate|]. safe_short. unfold read_byte at 1. safe_byte. cbv zeta.
  destruct (Nat.ltb (s4 se) (s3 se + 7 + (s4 se - s3 se - 7) / 2 * 2)) eqn:LD; [discriminate|].
  eapply defined_bind; [apply descriptors_safe; lia|]. cbv beta. intros ds [_ F]. cbn [defined l_sections l_expected l_datadesc].
  unfold scanned. split; [lia|]. split; [exact H0|exact F].
Qed.
End Safe.

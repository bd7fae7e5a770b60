(** C04: skipping bits. *)
From Verif Require Import Base Bits.Model Bits.Spec Bits.Proofs.
Local Open Scope Z_scope.

(** Skipping n bits does what reading them does, except for their value: where one fails the other fails in the same way, and at the end of the
    data both are errors. *)
Theorem C04_skip_bits : forall n i,
  skip_bits n i = (' (_, i') <- get_bits n i ;; Ok i') /\ (icur i = length (idata i) -> skip_bits n i = Err EParse).
Proof.
  intros n i. unfold skip_bits, get_bits. split.
  - destruct (Nat.eqb (icur i) (length (idata i))); [reflexivity|].
    assert (G : forall acc, skip_bits_loop n i = (' (_, i') <- get_bits_loop n acc i ;; Ok i')); [|apply G].
    revert i. induction n as [|n IH]; intros i acc; cbn [skip_bits_loop get_bits_loop]; [reflexivity|].
    destruct (pull_bit i) as [[b i1]| |]; cbn [bind]; try reflexivity. apply IH.
  - intros E. rewrite E, Nat.eqb_refl. reflexivity.
Qed.
Print Assumptions C04_skip_bits.

(** Whatever bits are before, what is left is what follows them. *)
Theorem C04_skip_bits_left : forall n i bits rest, Forall is_byte (idata i) -> wf_in i -> in_bits i = bits ++ rest -> length bits = n -> (8 <= length (bits ++ rest))%nat ->
  exists i', skip_bits n i = Ok i' /\ in_bits i' = rest /\ wf_in i' /\ idata i' = idata i.
Proof.
  intros n i bits rest B W E L H. subst n. unfold skip_bits. pose proof (in_bits_avail i W) as A. rewrite E in A. specialize (A H).
  replace (Nat.eqb (icur i) (length (idata i))) with false by (symmetry; apply Nat.eqb_neq; exact A). clear A H.
  revert i B W E. induction bits as [|b bits IH]; intros i B W E; cbn [length skip_bits_loop app] in *.
  - exists i. auto.
  - destruct (pull_bit_spec i b (bits ++ rest) B W E) as (i1 & P & R & W1 & D). rewrite P. cbn [bind].
    destruct (IH i1 ltac:(rewrite D; exact B) W1 R) as (i' & S1 & S2 & S3 & S4). exists i'. rewrite S4. auto.
Qed.
Print Assumptions C04_skip_bits_left.

Example C04_skip_example : in_bits (mkin [170; 15] 0 0 0) = [true; false; true] ++ [false; true; false; true; false; false; false; false; false; true; true; true; true] /\
  (' (v, _) <- (i <- skip_bits 3 (mkin [170; 15] 0 0 0) ;; get_bits 5 i) ;; Ok v) = Ok 10.
Proof. split; reflexivity. Qed.

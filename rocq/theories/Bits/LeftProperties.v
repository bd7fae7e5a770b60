(** C04: how many bits are left. *)
From Coq Require Import ZifyNat.
From Verif Require Import Base Bits.Model Bits.Spec Bits.Proofs.
Local Open Scope Z_scope.

(** While the cursor is inside the data, the count is the number of bits not read yet: those of the byte being read and those of the bytes
    that follow. *)
Theorem C04_bits_left : forall i, wf_in i -> Z.of_nat (length (idata i)) < 2 ^ 28 -> bits_left i = Z.of_nat (length (in_bits i)).
Proof.
  intros i (W1 & W2 & W3) S. unfold bits_left, in_bits.
  assert (B : forall d, length (bits_of_bytes d) = (8 * length d)%nat).
  { induction d as [|x d IH]; [reflexivity|]. unfold bits_of_bytes in *. cbn [flat_map]. rewrite app_length, IH. cbn [bits_of length]. lia. }
  rewrite app_length, firstn_length, B, skipn_length. replace (length (bits_of 8 (ipbyte i))) with 8%nat by reflexivity.
  unfold u32. change (2 ^ 28) with 268435456 in S. rewrite Z.mod_small by lia. lia.
Qed.
Print Assumptions C04_bits_left.

(** One byte past the end the count is not negative but about four thousand million. *)
Theorem C04_bits_left_past_refuted : forall d b, bits_left (mkin d (S (length d)) b 0) = 2 ^ 32 - 8.
Proof. intros d b. unfold bits_left, u32. cbn [idata icur iplen]. replace ((Z.of_nat (length d) - Z.of_nat (S (length d))) * 8 + Z.of_nat 0) with (-8) by lia. reflexivity. Qed.
Print Assumptions C04_bits_left_past_refuted.

Example C04_bits_left_example : (' (_, i) <- get_bits 3 (mkin [170; 15] 0 0 0) ;; Ok (bits_left i)) = Ok 13.
Proof. reflexivity. Qed.

From Coq Require Import ZifyBool ZifyNat.
From Verif Require Import Base Varcode.Proofs Strings.Model Strings.Spec.
Local Open Scope Z_scope.

Ltac bools := repeat match goal with
  | |- context [if ?b then _ else _] => let E := fresh "E" in destruct b eqn:E
  end.

Lemma str_eqb_eq a b : str_eqb a b = true <-> a = b.
Proof.
  revert b. induction a as [|x a IH]; destruct b as [|y b]; cbn [str_eqb]; split; intros H; try discriminate; try reflexivity.
  - apply andb_true_iff in H as [H1 H2]. apply Z.eqb_eq in H1. apply IH in H2. congruence.
  - apply andb_true_iff. split; [apply Z.eqb_eq; congruence|]. apply IH. congruence.
Qed.

(** ** Base64 *)

Lemma base64_sextet n : 0 <= n < 64 -> sextet (base64 n) n.
Proof. intros H. unfold base64, sextet. bools; lia. Qed.

Lemma inv_sextet c v : sextet c v -> invbase64 c = Ok v.
Proof.
  intros H.
  assert (X : forallb (fun c => match invbase64 c with Ok v =>
      if (65 <=? c) && (c <=? 90) then v =? c - 65 else if (97 <=? c) && (c <=? 122) then v =? c - 97 + 26
      else if (48 <=? c) && (c <=? 57) then v =? c - 48 + 52 else if c =? 43 then v =? 62 else if c =? 47 then v =? 63 else true | _ => false end)
      (map Z.of_nat (seq 43 80)) = true) by (vm_compute; reflexivity).
  rewrite forallb_forall in X. specialize (X c).
  assert (I : In c (map Z.of_nat (seq 43 80))) by (apply in_map_iff; exists (Z.to_nat c); rewrite in_seq; unfold sextet in H; lia).
  specialize (X I). destruct (invbase64 c) as [u| |]; try discriminate X. f_equal.
  unfold sextet in H. revert X. bools; lia.
Qed.

Lemma inv_pad : invbase64 61 = Ok 0. Proof. reflexivity. Qed.

Lemma land6 a : Z.land a 63 = a mod 64. Proof. exact (Z.land_ones a 6 ltac:(lia)). Qed.
Lemma land8 a : Z.land a 255 = a mod 256. Proof. exact (Z.land_ones a 8 ltac:(lia)). Qed.

Lemma four_digits n : 0 <= n < 2 ^ 24 -> exists p q r t x y z w, four n = [p; q; r; t] /\
  sextet p x /\ sextet q y /\ sextet r z /\ sextet t w /\ n = x * 262144 + y * 4096 + z * 64 + w.
Proof.
  intros H. unfold four. cbn [map]. rewrite !land6, !Z.shiftr_div_pow2 by lia. change (2 ^ 18) with 262144. change (2 ^ 12) with 4096. change (2 ^ 6) with 64. change (2 ^ 0) with 1.
  do 4 eexists. exists ((n / 262144) mod 64), ((n / 4096) mod 64), ((n / 64) mod 64), ((n / 1) mod 64). split; [reflexivity|].
  repeat (split; [apply base64_sextet; Z.to_euclidean_division_equations; lia|]). Z.to_euclidean_division_equations; lia.
Qed.

Lemma three_digits a b c : 0 <= a < 256 -> 0 <= b < 256 -> 0 <= c < 256 -> three (a * 65536 + b * 256 + c) = [a; b; c].
Proof.
  intros A B C. unfold three. rewrite !land8, !Z.shiftr_div_pow2 by lia. change (2 ^ 16) with 65536. change (2 ^ 8) with 256.
  f_equal; [|f_equal; [|f_equal]]; Z.to_euclidean_division_equations; lia.
Qed.

Lemma pack3 a b c : 0 <= a < 256 -> 0 <= b < 256 -> 0 <= c < 256 ->
  Z.lor (Z.lor (Z.shiftl a 16) (Z.shiftl b 8)) c = a * 65536 + b * 256 + c.
Proof.
  intros A B C. rewrite !Z.shiftl_mul_pow2 by lia. rewrite (lor_disjoint_add a 16 (b * 2 ^ 8)) by lia.
  replace (a * 2 ^ 16 + b * 2 ^ 8) with ((a * 256 + b) * 2 ^ 8) by lia. rewrite lor_disjoint_add by lia. lia.
Qed.
Lemma pack2 a b : 0 <= a < 256 -> 0 <= b < 256 -> Z.lor (Z.shiftl a 16) (Z.shiftl b 8) = a * 65536 + b * 256.
Proof. intros A B. pose proof (pack3 a b 0 A B ltac:(lia)) as P. rewrite Z.lor_0_r in P. lia. Qed.

(** The padding is in the last four characters. *)
Definition padded_end (n : nat) (t : list Z) : list Z := if (n =? 0)%nat then t else firstn (length t - (3 - n)) t ++ repeat 61 (3 - n).

Lemma padded_later a b c d n t : (n < 3)%nat -> (n <> 0 -> 4 <= length t)%nat -> padded_end n (a :: b :: c :: d :: t) = a :: b :: c :: d :: padded_end n t.
Proof.
  intros N L. unfold padded_end. destruct (Nat.eqb_spec n 0) as [|E]; [reflexivity|]. specialize (L E). cbn [length].
  replace (S (S (S (S (length t)))) - (3 - n))%nat with (S (S (S (S (length t - (3 - n)))))) by lia. reflexivity.
Qed.

Lemma triplets_length s : (4 * ((length s + 2) / 3) = length (encode_triplets s))%nat.
Proof.
  assert (X : forall n s, (length s <= n)%nat -> (4 * ((length s + 2) / 3) = length (encode_triplets s))%nat).
  { induction n as [|n IH]; intros s' L; [destruct s'; [reflexivity|cbn [length] in L; lia]|].
    destruct s' as [|a [|b [|c r]]]; [reflexivity..|]. cbn [encode_triplets]. rewrite app_length, <- IH by (cbn [length] in L; lia).
    replace (length (a :: b :: c :: r) + 2)%nat with ((length r + 2) + 1 * 3)%nat by (cbn [length]; lia).
    rewrite Nat.div_add by lia. cbn [four map length]. lia. }
  apply (X (length s)). lia.
Qed.

Lemma encoded_in_base64 s : Forall is_byte s -> in_base64 s (encode_base64 s).
Proof.
  intros B. change (encode_base64 s) with (padded_end (length s mod 3) (encode_triplets s)).
  remember (length s) as n eqn:L. assert (L' : (length s <= n)%nat) by lia. rewrite L. clear L. revert s L' B.
  induction n as [|n IH]; intros s L B; [destruct s; [constructor|cbn [length] in L; lia]|].
  destruct s as [|a [|b [|c r]]]; [constructor|..].
  - inversion B as [|? ? A _]; subst. unfold is_byte in A. cbn [encode_triplets]. rewrite Z.shiftl_mul_pow2 by lia.
    destruct (four_digits (a * 2 ^ 16)) as (p & q & r & t & x & y & z & w & -> & S1 & S2 & S3 & S4 & E); [lia|].
    assert (z = 0 /\ w = 0 /\ 0 <= x < 64 /\ 0 <= y < 64) as (-> & -> & _ & _) by (unfold sextet in *; lia).
    apply (b64_one a p q x y); auto. lia.
  - inversion B as [|? ? A B']; subst. inversion B' as [|? ? A' _]; subst. unfold is_byte in *. cbn [encode_triplets]. rewrite pack2 by lia.
    destruct (four_digits (a * 65536 + b * 256)) as (p & q & r & t & x & y & z & w & -> & S1 & S2 & S3 & S4 & E); [lia|].
    assert (w = 0) as -> by (unfold sextet in *; lia). apply (b64_two a b p q r x y z); auto. lia.
  - inversion B as [|? ? A B']; subst. inversion B' as [|? ? A' B'']; subst. inversion B'' as [|? ? A'' B3]; subst. unfold is_byte in A, A', A''.
    cbn [encode_triplets]. rewrite pack3 by lia.
    destruct (four_digits (a * 65536 + b * 256 + c)) as (p & q & r' & t & x & y & z & w & -> & S1 & S2 & S3 & S4 & E); [lia|].
    cbn [app]. replace (length (a :: b :: c :: r) mod 3)%nat with (length r mod 3)%nat
      by (replace (length (a :: b :: c :: r)) with (length r + 1 * 3)%nat by (cbn [length]; lia); rewrite Nat.mod_add by lia; reflexivity).
    rewrite padded_later.
    + eapply b64_three; eauto. apply IH; [cbn [length] in L; lia|exact B3].
    + apply Nat.mod_upper_bound. lia.
    + intros Ne. rewrite <- triplets_length. destruct r; [elim Ne; reflexivity|]. cbn [length]. 
      assert (1 <= (S (length r) + 2) / 3)%nat by (apply Nat.div_le_lower_bound; lia). lia.
Qed.

Lemma sextet_bound c v : sextet c v -> 0 <= v < 64 /\ c <> 61. Proof. unfold sextet. lia. Qed.

Lemma decoded_base64 s t : Forall is_byte s -> in_base64 s t -> decode_base64 t = Ok s.
Proof.
  intros B H. unfold decode_base64.
  assert (X : exists k u, decode_quadruplets t = Ok (s ++ repeat 0 k) /\ t = u ++ repeat 61 k /\ (k <> O -> s <> []) /\
    match rev u with c :: _ => c <> 61 | [] => k = O end).
  { induction H as [|a b c p q r t x y z w l m S1 S2 S3 S4 E H IH|a b p q r x y z S1 S2 S3 E|a p q x y S1 S2 E].
    - exists O, []. repeat split; congruence.
    - inversion B as [|? ? A B']; subst. inversion B' as [|? ? A' B'']; subst. inversion B'' as [|? ? A'' B3]; subst. unfold is_byte in A, A', A''.
      destruct (IH B3) as (k & u & D & Et & K & R). exists k, (p :: q :: r :: t :: u).
      pose proof (sextet_bound _ _ S1). pose proof (sextet_bound _ _ S2). pose proof (sextet_bound _ _ S3). pose proof (sextet_bound _ _ S4).
      split; [|split; [rewrite Et; reflexivity|split; [discriminate|]]].
      + cbn [decode_quadruplets]. rewrite (inv_sextet _ _ S1), (inv_sextet _ _ S2), (inv_sextet _ _ S3), (inv_sextet _ _ S4), D. cbn [bind].
        rewrite !Z.shiftl_mul_pow2 by lia. replace (x * 2 ^ 18 + y * 2 ^ 12 + z * 2 ^ 6 + w) with (a * 65536 + b * 256 + c) by lia. rewrite three_digits by lia. reflexivity.
      + cbn [rev]. destruct (rev u) as [|e v]; cbn [app]; [tauto|exact R].
    - inversion B as [|? ? A B']; subst. inversion B' as [|? ? A' _]; subst. unfold is_byte in A, A'. exists 1%nat, [p; q; r].
      pose proof (sextet_bound _ _ S1). pose proof (sextet_bound _ _ S2). pose proof (sextet_bound _ _ S3).
      split; [|split; [reflexivity|split; [discriminate|cbn [rev app]; tauto]]].
      cbn [decode_quadruplets]. rewrite (inv_sextet _ _ S1), (inv_sextet _ _ S2), (inv_sextet _ _ S3), inv_pad. cbn [bind].
      rewrite !Z.shiftl_mul_pow2 by lia. replace (x * 2 ^ 18 + y * 2 ^ 12 + z * 2 ^ 6 + 0) with (a * 65536 + b * 256 + 0) by lia. rewrite three_digits by lia. reflexivity.
    - inversion B as [|? ? A B']; subst. unfold is_byte in A. exists 2%nat, [p; q].
      pose proof (sextet_bound _ _ S1). pose proof (sextet_bound _ _ S2).
      split; [|split; [reflexivity|split; [discriminate|cbn [rev app]; tauto]]].
      cbn [decode_quadruplets]. rewrite (inv_sextet _ _ S1), (inv_sextet _ _ S2), inv_pad. cbn [bind].
      rewrite !Z.shiftl_mul_pow2 by lia. replace (x * 2 ^ 18 + y * 2 ^ 12 + 0 * 2 ^ 6 + 0) with (a * 65536 + 0 * 256 + 0) by lia. rewrite three_digits by lia. reflexivity. }
  destruct X as (k & u & -> & -> & K & R). cbn [bind]. f_equal. rewrite !rev_app_distr.
  assert (P : forall k l, (k <> O -> l <> []) -> remove_padding (repeat 61 k ++ rev u) (repeat 0 k ++ l) = l).
  { clear -R. intros k'. induction k' as [|k' IH]; intros l K'; cbn [repeat app].
    - destruct (rev u) as [|c v]; [reflexivity|]. cbn [remove_padding]. 
      assert (N : c <> 61) by exact R. destruct (Z.eqb_spec c 61); [congruence|reflexivity].
    - cbn [remove_padding Z.eqb Pos.eqb tl]. specialize (IH l ltac:(intros _; apply K'; discriminate)).
      destruct (repeat 0 k' ++ l) as [|e v] eqn:E; [|exact IH]. apply app_eq_nil in E as [_ ->]. reflexivity. }
  assert (RR : forall (c : Z) n, rev (repeat c n) = repeat c n).
  { clear. intros c n. induction n as [|n IH]; [reflexivity|]. cbn [repeat rev]. rewrite IH. clear. induction n as [|n IH]; [reflexivity|]. cbn [repeat app]. rewrite IH. reflexivity. }
  rewrite !RR, P; [apply rev_involutive|]. intros Ne E. apply (K Ne). apply (f_equal (@rev Z)) in E. rewrite rev_involutive in E. exact E.
Qed.

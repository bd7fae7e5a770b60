From Coq Require Import ZifyBool ZifyNat.
From Verif Require Import Base Varcode.Model.
Local Open Scope Z_scope.
Ltac Zify.zify_post_hook ::= Z.div_mod_to_equations.

Lemma lor_disjoint_add a k b : 0 <= k -> 0 <= b < 2 ^ k -> Z.lor (a * 2 ^ k) b = a * 2 ^ k + b.
Proof.
  intros Hk Hb. rewrite Z.add_nocarry_lxor; [symmetry; apply Z.lxor_lor|];
  apply Z.bits_inj'; intros n Hn; rewrite Z.land_spec, Z.bits_0;
  (destruct (Z.ltb_spec n k);
   [rewrite Z.mul_pow2_bits_low by lia; reflexivity
   |replace (Z.testbit b n) with false; [apply andb_false_r|];
    symmetry; rewrite <- (Z.mod_small b (2 ^ k)) by lia; apply Z.mod_pow2_bits_high; lia]).
Qed.

Lemma shiftl_mul a k : 0 <= k -> Z.shiftl a k = a * 2 ^ k.
Proof. intros. apply Z.shiftl_mul_pow2. lia. Qed.

Lemma wr_var_eq f x y : 0 <= f < 4 -> 0 <= x < 64 -> 0 <= y < 256 ->
  wr_var f x y = f * 2 ^ 14 + x * 2 ^ 8 + y.
Proof.
  intros Hf Hx Hy. unfold wr_var, u32, u16. rewrite !shiftl_mul by lia.
  change (2 ^ 32) with 4294967296. change (2 ^ 16) with 65536.
  change (2 ^ 14) with 16384. change (2 ^ 8) with 256.
  rewrite !(Z.mod_small _ 4294967296) by lia.
  change 16384 with (2 ^ 14). rewrite (lor_disjoint_add f 14) by (change (2 ^ 14) with 16384; lia).
  change (2 ^ 14) with 16384.
  replace (f * 16384 + x * 256) with ((f * 64 + x) * 2 ^ 8) by (change (2 ^ 8) with 256; ring).
  rewrite lor_disjoint_add by (change (2 ^ 8) with 256; lia). change (2 ^ 8) with 256.
  rewrite Z.mod_small by lia. ring.
Qed.

Lemma var_y_eq c : 0 <= c -> var_y c = c mod 256.
Proof. intros. unfold var_y. change 255 with (Z.ones 8). rewrite Z.land_ones by lia. reflexivity. Qed.
Lemma var_x_eq c : 0 <= c -> var_x c = (c / 256) mod 64.
Proof.
  intros. unfold var_x. change 63 with (Z.ones 6). rewrite Z.land_ones by lia.
  rewrite Z.shiftr_div_pow2 by lia. reflexivity.
Qed.
Lemma var_f_eq c : 0 <= c -> var_f c = (c / 16384) mod 4.
Proof.
  intros. unfold var_f. change 3 with (Z.ones 2). rewrite Z.land_ones by lia.
  rewrite Z.shiftr_div_pow2 by lia. reflexivity.
Qed.

Lemma unpack_pack f x y : 0 <= f < 4 -> 0 <= x < 64 -> 0 <= y < 256 ->
  let c := wr_var f x y in 0 <= c < 2 ^ 16 /\ var_f c = f /\ var_x c = x /\ var_y c = y.
Proof.
  intros Hf Hx Hy c. unfold c. rewrite wr_var_eq by auto.
  change (2 ^ 14) with 16384. change (2 ^ 8) with 256. change (2 ^ 16) with 65536.
  rewrite var_f_eq, var_x_eq, var_y_eq by lia. lia.
Qed.

Lemma pack_unpack c : 0 <= c < 2 ^ 16 ->
  0 <= var_f c < 4 /\ 0 <= var_x c < 64 /\ 0 <= var_y c < 256 /\
  wr_var (var_f c) (var_x c) (var_y c) = c.
Proof.
  intros Hc. change (2 ^ 16) with 65536 in Hc.
  rewrite var_f_eq, var_x_eq, var_y_eq by lia.
  assert (0 <= (c / 16384) mod 4 < 4) by lia.
  assert (0 <= (c / 256) mod 64 < 64) by lia.
  assert (0 <= c mod 256 < 256) by lia.
  repeat (split; [lia|]). rewrite wr_var_eq by lia.
  change (2 ^ 14) with 16384. change (2 ^ 8) with 256. lia.
Qed.

Lemma string_to_var_digits x y : 0 <= x < 64 -> 0 <= y < 256 ->
  string_to_var (48 + x / 10) (48 + x mod 10) (48 + y / 100) (48 + (y / 10) mod 10) (48 + y mod 10)
  = x * 256 + y.
Proof.
  intros Hx Hy. unfold string_to_var, u16. rewrite shiftl_mul by lia.
  replace ((48 + x / 10 - 48) * 10 + (48 + x mod 10 - 48)) with x by lia.
  replace ((48 + y / 100 - 48) * 100 + (48 + (y / 10) mod 10 - 48) * 10 + (48 + y mod 10 - 48)) with y by lia.
  rewrite lor_disjoint_add by (change (2 ^ 8) with 256; lia).
  change (2 ^ 8) with 256. change (2 ^ 16) with 65536. rewrite Z.mod_small by lia. reflexivity.
Qed.

Lemma digit_char d : 0 <= d < 10 -> (48 + d =? 0) = false /\ c_isdigit (48 + d) = true.
Proof. unfold c_isdigit. lia. Qed.

(** Parsing six characters: a prefix and five digits. *)
Lemma varcode_parse_six c0 d1 d2 d3 d4 d5 rest : c0 <> 0 ->
  0 <= d1 < 10 -> 0 <= d2 < 10 -> 0 <= d3 < 10 -> 0 <= d4 < 10 -> 0 <= d5 < 10 ->
  varcode_parse (Some (c0 :: 48 + d1 :: 48 + d2 :: 48 + d3 :: 48 + d4 :: 48 + d5 :: rest)) =
  Ok (u16 ((if (c0 =? 66) || (c0 =? 48) then 0
            else if (c0 =? 82) || (c0 =? 49) then Z.shiftl 1 14
            else if (c0 =? 67) || (c0 =? 50) then Z.shiftl 2 14
            else if (c0 =? 68) || (c0 =? 51) then Z.shiftl 3 14
            else 0) + string_to_var (48 + d1) (48 + d2) (48 + d3) (48 + d4) (48 + d5))).
Proof.
  intros H0 H1 H2 H3 H4 H5.
  destruct (digit_char d1 H1) as [A1 B1]. destruct (digit_char d2 H2) as [A2 B2].
  destruct (digit_char d3 H3) as [A3 B3]. destruct (digit_char d4 H4) as [A4 B4].
  destruct (digit_char d5 H5) as [A5 B5].
  unfold varcode_parse. cbn [cchar nth_error bind].
  apply Z.eqb_neq in H0. rewrite H0.
  cbn [check_digits cchar nth_error bind].
  rewrite B1, B2, B3, B4, B5. rewrite !andb_false_r. reflexivity.
Qed.

Lemma parse_format c : 0 <= c < 2 ^ 16 -> varcode_parse (Some (varcode_format c)) = Ok c.
Proof.
  intros Hc. destruct (pack_unpack c Hc) as (Hf & Hx & Hy & E).
  rewrite wr_var_eq in E by auto.
  unfold varcode_format.
  remember (var_f c) as f. remember (var_x c) as x. remember (var_y c) as y.
  rewrite varcode_parse_six; try lia.
  - rewrite string_to_var_digits by auto. rewrite <- E. f_equal.
    match goal with |- u16 (?b + _) = _ => assert (Hb : b = f * 16384) end.
    { clear - Hf. assert (f = 0 \/ f = 1 \/ f = 2 \/ f = 3) as [-> | [-> | [-> | ->]]] by lia; reflexivity. }
    rewrite Hb. unfold u16. change (2 ^ 14) with 16384. change (2 ^ 8) with 256. change (2 ^ 16) with 65536.
    rewrite Z.mod_small; lia.
  - assert (f = 0 \/ f = 1 \/ f = 2 \/ f = 3) as [-> | [-> | [-> | ->]]] by lia; discriminate.
Qed.

Lemma format_length c : length (varcode_format c) = 6%nat.
Proof. reflexivity. Qed.

Lemma check_digits_bad s : forall k i j c, (i <= j < i + k)%nat -> nth_error s j = Some c ->
  (i <= length s)%nat ->
  c <> 0 -> c_isdigit c = false -> check_digits s i k = Err EConsistency.
Proof.
  induction k as [|k IH]; intros i j c Hj Hn Hi H0 Hd; [lia|]. cbn [check_digits].
  assert (j < length s)%nat by (apply nth_error_Some; congruence).
  destruct (nth_error s i) as [ci|] eqn:Ei.
  - unfold cchar at 1. rewrite Ei. cbn [bind].
    destruct (negb (ci =? 0) && negb (c_isdigit ci)) eqn:B; auto.
    destruct (Nat.eq_dec i j) as [->|].
    + rewrite Hn in Ei. injection Ei as <-. rewrite Hd in B. apply Z.eqb_neq in H0. rewrite H0 in B. discriminate.
    + apply (IH (S i) j c); auto; lia.
  - apply nth_error_None in Ei. lia.
Qed.

Lemma parse_rejects s j c : (1 <= j <= 5)%nat -> nth_error s j = Some c -> c <> 0 ->
  c_isdigit c = false -> varcode_parse (Some s) = Err EConsistency.
Proof.
  intros Hj Hn H0 Hd. unfold varcode_parse.
  assert (j < length s)%nat by (apply nth_error_Some; congruence).
  destruct s as [|c0 s']; [cbn in *; lia|]. cbn [cchar nth_error bind].
  destruct (c0 =? 0); auto.
  rewrite (check_digits_bad (c0 :: s') 5 1 j c); auto; try lia.
Qed.

(** Formatted values are read back. *)
From Coq Require Import ZArith Lia ZifyBool ZifyNat Reals Lra.
From Flocq Require Import Core BinarySingleNaN.
From Verif Require Import Base Bits.Model Bits.Spec Num.Float Num.FloatProofs Varinfo.Model Varinfo.Proofs Varinfo.RangeProofs
  Var.Model Var.Spec Var.Proofs Var.TextProofs Var.CodecProofs Var.Format Var.FormatSpec.
Local Open Scope Z_scope.

(** ** Digits *)
Lemma digits_acc_spec : forall fuel n acc, 0 <= n < 2 ^ Z.of_nat fuel -> (0 < fuel)%nat ->
  exists s, digits_acc fuel n acc = s ++ acc /\ forallb c_isdigit s = true /\ dec_value 0 s = n /\
    (forall w, (1 <= w)%nat -> n < 10 ^ Z.of_nat w -> (length s <= w)%nat) /\ (1 <= length s)%nat.
Proof.
  induction fuel as [|k IH]; intros n acc H F; [lia|]. cbn [digits_acc]. destruct (Z.ltb_spec n 10) as [L|L].
  - exists [48 + n]. split; [reflexivity|]. split; [cbn [forallb]; unfold c_isdigit; lia|]. split; [unfold dec_value; cbn [fold_left]; lia|]. cbn [length]. split; intros; lia.
  - rewrite Nat2Z.inj_succ, Z.pow_succ_r in H by lia. assert (0 < Z.of_nat k) by (destruct k; [cbn in H; lia|lia]).
    destruct (IH (n / 10) (48 + n mod 10 :: acc)) as (s & E & D & V & W & O).
    { split; [apply Z.div_pos; lia|]. apply Z.div_lt_upper_bound; lia. }
    { lia. }
    exists (s ++ [48 + n mod 10]). split; [rewrite E, <- app_assoc; reflexivity|]. pose proof (Z.mod_pos_bound n 10). split; [|split; [|split]].
    + rewrite forallb_app, D. cbn [forallb andb]. unfold c_isdigit. lia.
    + rewrite dec_value_app, V. unfold dec_value. cbn [fold_left]. pose proof (Z.div_mod n 10). lia.
    + intros w Hw Hn. rewrite app_length. cbn [length]. destruct (Nat.eq_dec w 1) as [->|N]; [cbn in Hn; lia|].
      specialize (W (w - 1)%nat). enough (length s <= w - 1)%nat by lia. apply W; [lia|].
      apply Z.div_lt_upper_bound; [lia|]. replace (Z.of_nat w) with (Z.succ (Z.of_nat (w - 1))) in Hn by lia.
      rewrite Z.pow_succ_r in Hn by lia. exact Hn.
    + rewrite app_length. cbn. lia.
Qed.

Lemma digits_spec n : 0 <= n -> forallb c_isdigit (digits n) = true /\ dec_value 0 (digits n) = n /\
  (forall w, (1 <= w)%nat -> n < 10 ^ Z.of_nat w -> (length (digits n) <= w)%nat) /\ (1 <= length (digits n))%nat.
Proof.
  intros H. unfold digits. destruct (digits_acc_spec (S (Z.to_nat (Z.log2 n))) n []) as (s & E & A).
  { split; [lia|]. pose proof (Z.log2_nonneg n). replace (Z.of_nat (S (Z.to_nat (Z.log2 n)))) with (Z.succ (Z.log2 n)) by lia.
    destruct (Z.eq_dec n 0) as [->|N]; [reflexivity|]. apply Z.log2_spec. lia. }
  { lia. }
  rewrite app_nil_r in E. rewrite E. exact A.
Qed.

(** The width of a text. *)
Lemma decimal_text_length s neg m w : 0 <= m < 10 ^ Z.of_nat w -> (1 <= w)%nat ->
  (length (decimal_text s neg m) <= 1 + Nat.max (S s) w + (if Nat.eqb s 0 then 0 else 1))%nat.
Proof.
  intros H W. destruct (digits_spec m) as (_ & _ & L & _); [lia|]. specialize (L w W (proj2 H)).
  unfold decimal_text. cbv zeta. rewrite !app_length. set (d := repeat 48 (S s - length (digits m)) ++ digits m).
  assert (Ld : length d = Nat.max (S s) (length (digits m))) by (unfold d; rewrite app_length, repeat_length; lia).
  rewrite firstn_length, Ld. destruct neg; destruct s; cbn [length Nat.eqb]; try rewrite skipn_length, Ld; lia.
Qed.
Lemma decimal_text_nonempty s neg m : decimal_text s neg m <> [].
Proof.
  unfold decimal_text. cbv zeta. destruct neg; [discriminate|]. set (d := repeat 48 (S s - length (digits m)) ++ digits m).
  assert (Ld : length d = Nat.max (S s) (length (digits m))) by (unfold d; rewrite app_length, repeat_length; lia).
  intros E. apply (f_equal (@length Z)) in E. cbn [app] in E. rewrite app_length, firstn_length, Ld in E. cbn [length] in E. lia.
Qed.

(** ** Numbers *)
Lemma rnd_integer z : exists n, rnd (IZR z) = IZR n.
Proof.
  destruct (Z_le_gt_dec (Z.abs z) (2 ^ 53)) as [L|G]; [exists z; apply rnd_generic, format_Z; exact L|].
  unfold rnd, round. set (e := cexp radix2 (FLT_exp (-1074) 53) (IZR z)).
  assert (E : (0 <= e)%Z).
  { unfold e, cexp, FLT_exp. assert (54 <= mag radix2 (IZR z))%Z; [|lia]. apply mag_ge_bpow.
    change (bpow radix2 (54 - 1)) with (IZR (2 ^ 53)). rewrite <- abs_IZR. apply IZR_le. lia. }
  unfold F2R. cbn [Fnum Fexp]. rewrite <- (IZR_Zpower radix2) by exact E. rewrite <- mult_IZR. eexists. reflexivity.
Qed.

(** k 10^j is exact when it has few binary digits. *)
Lemma format_scaled k j : (Z.abs k <= 2 ^ 31)%Z -> (0 <= j)%Z -> (Z.abs k * 10 ^ j < 10 ^ 18)%Z -> generic_format radix2 (FLT_exp (-1074) 53) (IZR (k * 10 ^ j)).
Proof.
  intros H J M. apply generic_format_FLT. exists (Float radix2 (k * 5 ^ j) j); cbn [Fnum Fexp]; [| |lia].
  - unfold F2R. cbn [Fnum Fexp]. rewrite <- (IZR_Zpower radix2) by lia. rewrite <- mult_IZR. f_equal.
    change (radix2 : Z) with 2%Z. rewrite <- Z.mul_assoc, <- Z.pow_mul_l. reflexivity.
  - change (radix2 ^ 53)%Z with 9007199254740992%Z. rewrite Z.abs_mul, (Z.abs_eq (5 ^ j)) by (apply Z.pow_nonneg; lia).
    assert (0 < 5 ^ j)%Z by (apply Z.pow_pos_nonneg; lia). destruct (Z_le_gt_dec j 8) as [L|G].
    + assert (5 ^ j <= 5 ^ 8)%Z by (apply Z.pow_le_mono_r; lia). nia.
    + assert (2 ^ 9 <= 2 ^ j)%Z by (apply Z.pow_le_mono_r; lia). change 10%Z with (2 * 5)%Z in M at 1. rewrite Z.pow_mul_l in M. 
      change (10 ^ 18)%Z with 1000000000000000000%Z in M. change (2 ^ 9)%Z with 512%Z in *. nia.
Qed.

(** The double of a number is positive zero for 0 and has the sign of the number otherwise. *)
Definition is_pos_zero (r : res f64) : bool := match r with Ok (B754_zero false) => true | _ => false end.
Lemma decode_zero s : scale_ok s -> decode_decimal s 0 = Ok (B754_zero false).
Proof.
  intros H. assert (A : forallb (fun n => is_pos_zero (decode_decimal (Z.of_nat n - 16) 0)) (seq 0 33) = true) by (vm_compute; reflexivity).
  rewrite forallb_forall in A. unfold scale_ok in H. specialize (A (Z.to_nat (s + 16))). replace (Z.of_nat (Z.to_nat (s + 16)) - 16) with s in A by lia.
  assert (B : is_pos_zero (decode_decimal s 0) = true) by (apply A; apply in_seq; lia).
  destruct (decode_decimal s 0) as [[[]| | |]| |]; try discriminate. reflexivity.
Qed.

Lemma sign_of (d : f64) : is_finite d = true -> (B2R d < 0)%R -> Bsign d = true.
Proof.
  destruct d as [s|s| |s m e B]; cbn; intros F L; try discriminate; try lra. destruct s; [reflexivity|].
  exfalso. apply (Rlt_irrefl 0). eapply Rle_lt_trans; [|exact L]. apply F2R_ge_0. cbn. lia.
Qed.
Lemma sign_of_pos (d : f64) : is_finite d = true -> (0 < B2R d)%R -> Bsign d = false.
Proof.
  destruct d as [s|s| |s m e B]; cbn; intros F L; try discriminate; try lra. destruct s; [|reflexivity].
  exfalso. apply (Rlt_irrefl 0). eapply Rlt_le_trans; [exact L|]. apply F2R_le_0. cbn. lia.
Qed.

Lemma scaled_sign s k : scale_ok s -> (Z.abs k <= 2 ^ 34)%Z -> (k < 0 -> (scaled s k < 0)%R) /\ (0 < k -> (0 < scaled s k)%R).
Proof.
  intros Hs Hk. assert (Z0 : scaled s 0 = 0%R).
  { unfold scaled. destruct (0 <? s); [|destruct (s <? 0)]; rewrite ?Rmult_0_l; [| |reflexivity].
    - unfold Rdiv. rewrite Rmult_0_l. apply round_0; apply valid_rnd_N.
    - apply round_0; apply valid_rnd_N. }
  split; intros K; rewrite <- Z0; apply scaled_lt; auto; cbn; lia.
Qed.

Lemma enqd_number c k : info_ok (c_info c) -> is_numeric (vi_type (c_info c)) = true -> int_min <= k <= int_max -> c_val c = Some (VInt k) ->
  exists d : f64, enqd c = Ok d /\ is_finite d = true /\ B2R d = scaled (vi_scale (c_info c)) k /\ Bsign d = (k <? 0).
Proof.
  intros Hi Ht Hk V. destruct (enqd_scaled c k Hi Ht Hk V) as (d & E & F & D). exists d. split; [exact E|]. split; [exact F|]. split; [exact D|].
  destruct (info_ok_numeric _ Hi Ht) as (Hs & _). destruct (scaled_sign (vi_scale (c_info c)) k Hs) as [S1 S2]; [unfold int_min, int_max in *; lia|].
  destruct (Z.ltb_spec k 0) as [L|G]; [apply sign_of; [exact F|rewrite D; auto]|].
  destruct (Z.eq_dec k 0) as [->|N]; [|apply sign_of_pos; [exact F|rewrite D; apply S2; lia]].
  unfold enqd in E. rewrite V in E. destruct (vi_type (c_info c)); try discriminate.
  - injection E as <-. reflexivity.
  - rewrite decode_zero in E by exact Hs. injection E as <-. reflexivity.
Qed.

Lemma near_integers (m n : Z) (x : R) : (Rabs (IZR m - x) <= / 2)%R -> (Rabs (x - IZR n) < / 2)%R -> m = n.
Proof.
  intros A B. assert (C : (Rabs (IZR (m - n)) < 1)%R).
  { rewrite minus_IZR. replace (IZR m - IZR n)%R with ((IZR m - x) + (x - IZR n))%R by ring. eapply Rle_lt_trans; [apply Rabs_triang|]. lra. }
  rewrite <- abs_IZR in C. apply (lt_IZR _ 1) in C. lia.
Qed.

Section Printf.
Context (fixed : nat -> f64 -> list Z) (strtod : list Z -> f64).
Context (P : printf_correct fixed) (Q : strtod_correct strtod).

Lemma neg_part (k : Z) : (if k <? 0 then - Z.abs k else Z.abs k) = k.
Proof. destruct (Z.ltb_spec k 0); lia. Qed.

(** Decimals. *)
Lemma print_decimals s k (d : f64) : 0 < s <= 16 -> (Z.abs k <= 2 ^ 31)%Z -> is_finite d = true -> B2R d = scaled s k -> Bsign d = (k <? 0) ->
  fixed (Z.to_nat s) d = decimal_text (Z.to_nat s) (k <? 0) (Z.abs k).
Proof.
  intros Hs Hk F D S. destruct (P (Z.to_nat s) d F) as (m & M & E & N). rewrite E, S. f_equal. apply (near_integers _ _ _ N).
  rewrite Z2Nat.id by lia. rewrite D. unfold scaled. replace (0 <? s) with true by lia. set (T := IZR (10 ^ s)).
  assert (BT : (1 <= T <= 1e16)%R).
  { destruct (pow10_bounds s) as [B1 B2]; [lia|]. unfold T. split; [apply IZR_le in B1; lra|]. apply IZR_le in B2. change (10 ^ 16) with 10000000000000000 in B2. lra. }
  assert (K : (Rabs (IZR k) <= 2147483648)%R) by (rewrite <- abs_IZR; apply IZR_le; exact Hk).
  replace (Rabs (rnd (IZR k / T)) * T - IZR (Z.abs k))%R with ((Rabs (rnd (IZR k / T)) - Rabs (IZR k / T)) * T)%R.
  2:{ rewrite abs_IZR. unfold Rdiv at 2. rewrite Rabs_mult, (Rabs_pos_eq (/ T)). 2:{ apply Rlt_le, Rinv_0_lt_compat. lra. }
      field. lra. }
  rewrite Rabs_mult, (Rabs_pos_eq T) by lra. pose proof (rnd_err (IZR k / T)) as X. pose proof (Rabs_triang_inv2 (rnd (IZR k / T)) (IZR k / T)) as Y.
  assert (Zb : (Rabs (IZR k / T) * T <= 2147483648)%R).
  { unfold Rdiv. rewrite Rabs_mult, (Rabs_pos_eq (/ T)). 2:{ apply Rlt_le, Rinv_0_lt_compat. lra. }
    replace (Rabs (IZR k) * / T * T)%R with (Rabs (IZR k)) by (field; lra). exact K. }
  apply Rle_lt_trans with ((uu * Rabs (IZR k / T) + eta) * T)%R; [apply Rmult_le_compat_r; lra|].
  rewrite Rmult_plus_distr_r, Rmult_assoc. unfold uu, eta in *. lra.
Qed.

(** No decimals: the double is a whole number. *)
Lemma print_whole s k (d : f64) : -16 <= s <= 0 -> (Z.abs k <= 2 ^ 31)%Z -> is_finite d = true -> B2R d = scaled s k -> Bsign d = (k <? 0) ->
  exists n, B2R d = IZR n /\ fixed 0 d = decimal_text 0 (k <? 0) (Z.abs n) /\ (if k <? 0 then - Z.abs n else Z.abs n) = n /\ Z.abs n <= 10 ^ 30 /\
    (Z.abs k * 10 ^ (- s) < 10 ^ 18 -> n = k * 10 ^ (- s)).
Proof.
  intros Hs Hk F D S. assert (X : exists n, scaled s k = IZR n /\ (Z.abs k * 10 ^ (- s) < 10 ^ 18 -> n = k * 10 ^ (- s))).
  { unfold scaled. replace (0 <? s) with false by lia. destruct (Z.ltb_spec s 0) as [L|G].
    - rewrite <- mult_IZR. destruct (Z_lt_le_dec (Z.abs k * 10 ^ (- s)) (10 ^ 18)) as [A|B].
      + exists (k * 10 ^ (- s)). split; [|auto]. apply rnd_generic, format_scaled; [exact Hk|lia|exact A].
      + destruct (rnd_integer (k * 10 ^ (- s))) as (n & E). exists n. split; [exact E|lia].
    - exists k. split; [reflexivity|]. intros _. replace (- s) with 0 by lia. cbn. lia. }
  destruct X as (n & En & Ex). exists n. rewrite En in D. split; [exact D|]. destruct (P 0%nat d F) as (m & M & E & N).
  assert (Em : m = Z.abs n).
  { apply (near_integers _ _ _ N). rewrite D, <- abs_IZR. change (IZR (10 ^ Z.of_nat 0)) with 1%R. rewrite Rmult_1_r, Rminus_diag_eq by reflexivity.
    rewrite Rabs_R0. lra. }
  rewrite E, S, Em. split; [reflexivity|]. split; [|split; [|exact Ex]].
  - destruct (scaled_sign s k) as [S1 S2]; [unfold scale_ok; lia|lia|]. rewrite En in S1, S2. destruct (Z.ltb_spec k 0) as [L|G].
    + apply S1 in L. apply (lt_IZR n 0) in L. lia.
    + destruct (Z.eq_dec k 0) as [->|N0]; [|assert (0 < k) as L by lia; apply S2 in L; apply (lt_IZR 0 n) in L; lia].
      destruct (Z_lt_le_dec n 0) as [L|L]; [|lia]. exfalso. assert (B2R d < 0)%R by (rewrite D; apply (IZR_lt n 0); exact L). apply sign_of in H; [|exact F].
      rewrite S in H. discriminate.
  - assert (Y : (Rabs (scaled s k) <= 1e30)%R).
    { unfold scaled. replace (0 <? s) with false by lia. assert (K : (Rabs (IZR k) <= 2147483648)%R) by (rewrite <- abs_IZR; apply IZR_le; exact Hk).
      destruct (Z.ltb_spec s 0) as [L|G]; [|lra].
      assert (T : (1 <= IZR (10 ^ (- s)) <= 1e16)%R).
      { destruct (pow10_bounds (- s)) as [B1 B2]; [lia|]. split; [apply IZR_le in B1; lra|]. apply IZR_le in B2. change (10 ^ 16) with 10000000000000000 in B2. lra. }
      pose proof (rabs_mul_bound _ _ _ K T) as B. pose proof (rnd_err (IZR k * IZR (10 ^ (- s)))) as Er.
      set (x := (IZR k * IZR (10 ^ (- s)))%R) in *. replace (rnd x) with (x + (rnd x - x))%R by ring.
      eapply Rle_trans; [apply Rabs_triang|]. unfold uu, eta in *. lra. }
    rewrite En, <- abs_IZR in Y. apply le_IZR. change (IZR (10 ^ 30)) with (IZR 1000000000000000000000000000000). lra.
Qed.

(** The text of a number, and the double that is read from it. *)
Lemma print_read c k : info_ok (c_info c) -> is_numeric (vi_type (c_info c)) = true -> int_min <= k <= int_max -> c_val c = Some (VInt k) ->
  exists d t s neg m, enqd c = Ok d /\ fixed (decimals (c_info c)) d = t /\ t = decimal_text s neg m /\ s = decimals (c_info c) /\ 0 <= m <= 10 ^ 30 /\
    is_finite (strtod t) = true /\ B2R (strtod t) = scaled (vi_scale (c_info c)) k /\
    (Z.abs k * 10 ^ Z.max 0 (- vi_scale (c_info c)) < 10 ^ 18 -> neg = (k <? 0) /\ m = Z.abs k * 10 ^ Z.max 0 (- vi_scale (c_info c))).
Proof.
  intros Hi Ht Hk V. destruct (enqd_number c k Hi Ht Hk V) as (d & E & F & D & S). destruct (info_ok_numeric _ Hi Ht) as (Hs & _).
  set (s := vi_scale (c_info c)) in *. unfold scale_ok in Hs. assert (Ak : Z.abs k <= 2 ^ 31) by (unfold int_min, int_max in Hk; lia).
  unfold decimals. fold s. destruct (Z.ltb_spec 0 s) as [L|G].
  - pose proof (print_decimals s k d ltac:(lia) Ak F D S) as T. exists d, (decimal_text (Z.to_nat s) (k <? 0) (Z.abs k)), (Z.to_nat s), (k <? 0), (Z.abs k).
    split; [exact E|]. split; [exact T|]. split; [reflexivity|]. split; [reflexivity|]. split; [lia|].
    destruct (Q (Z.to_nat s) (k <? 0) (Z.abs k)) as [Q1 Q2]; [lia|lia|]. split; [exact Q1|]. split.
    + rewrite Q2, neg_part, Z2Nat.id by lia. unfold scaled. replace (0 <? s) with true by lia. reflexivity.
    + intros _. split; [reflexivity|]. replace (Z.max 0 (- s)) with 0 by lia. cbn. lia.
  - destruct (print_whole s k d ltac:(lia) Ak F D S) as (n & Dn & T & Sn & B & Ex). exists d, (decimal_text 0 (k <? 0) (Z.abs n)), 0%nat, (k <? 0), (Z.abs n).
    split; [exact E|]. split; [exact T|]. split; [reflexivity|]. split; [reflexivity|]. split; [lia|].
    destruct (Q 0%nat (k <? 0) (Z.abs n)) as [Q1 Q2]; [lia|lia|]. split; [exact Q1|]. split.
    + rewrite Q2, Sn, <- D, Dn. change (IZR (10 ^ Z.of_nat 0)) with 1%R. unfold Rdiv. rewrite Rinv_1, Rmult_1_r. rewrite <- Dn.
      apply rnd_generic. rewrite <- fexp_eq. apply generic_format_B2R.
    + replace (Z.max 0 (- s)) with (- s) by lia. intros A. split; [reflexivity|]. rewrite (Ex A), Z.abs_mul. rewrite (Z.abs_eq (10 ^ (- s))) by (apply Z.pow_nonneg; lia). reflexivity.
Qed.
End Printf.

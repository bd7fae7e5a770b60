From Coq Require Import ZArith Bool Reals Lra Psatz ZifyBool.
From Flocq Require Import Core BinarySingleNaN Relative.
From Verif Require Import Base Num.Float.
Local Open Scope R_scope.

Definition rnd (x : R) : R := round radix2 (FLT_exp (-1074) 53) ZnearestE x.

Definition uu : R := / 9007199254740992.        (* 2^-53 *)
Definition eta : R := / 1e60.

Lemma rnd_err x : Rabs (rnd x - x) <= uu * Rabs x + eta.
Proof.
  destruct (relative_error_N_FLT'_ex radix2 (-1074) 53 eq_refl (fun n => negb (Z.even n)) x)
    as (eps & et & He & Ht & _ & E).
  fold (rnd x) in E. rewrite E.
  replace (x * (1 + eps) + et - x) with (x * eps + et) by ring.
  eapply Rle_trans; [apply Rabs_triang|].
  apply Rplus_le_compat.
  - rewrite Rabs_mult, Rmult_comm. apply Rmult_le_compat_r; [apply Rabs_pos|].
    eapply Rle_trans; [exact He|]. unfold u_ro.
    assert (U : / 2 * bpow radix2 (- (53) + 1) = uu).
    { unfold uu. change (bpow radix2 (- (53) + 1)) with (/ 4503599627370496). lra. }
    rewrite U. unfold uu. lra.
  - eapply Rle_trans; [exact Ht|].
    assert (B : bpow radix2 (-1074) <= bpow radix2 (-200)) by (apply bpow_le; lia).
    assert (C : bpow radix2 (-200) <= eta).
    { unfold eta. change (bpow radix2 (-200)) with (/ IZR (2 ^ 200)).
      apply Rinv_le; [lra|]. apply Rle_trans with (IZR (10 ^ 60)); [|apply IZR_le; vm_compute; congruence].
      apply Req_le. lra. }
    pose proof (bpow_gt_0 radix2 (-1074)). lra.
Qed.

Lemma rnd_le x y : x <= y -> rnd x <= rnd y.
Proof. intros H. apply round_le; auto with typeclass_instances. Qed.

Lemma rnd_generic x : generic_format radix2 (FLT_exp (-1074) 53) x -> rnd x = x.
Proof. intros H. apply round_generic; auto with typeclass_instances. Qed.

Definition big : R := bpow radix2 1000.

Lemma fexp_eq : SpecFloat.fexp 53 1024 = FLT_exp (-1074) 53.
Proof. reflexivity. Qed.

Lemma rnd_lt_emax x : Rabs x <= big -> Rlt_bool (Rabs (rnd x)) (bpow radix2 1024) = true.
Proof.
  intros H. apply Rlt_bool_true. apply Rle_lt_trans with big.
  - unfold rnd. apply abs_round_le_generic; auto with typeclass_instances.
    apply generic_format_bpow. cbv; congruence.
  - apply bpow_lt. lia.
Qed.

Lemma fmul_ok x y : is_finite x = true -> is_finite y = true ->
  Rabs (B2R x * B2R y) <= big ->
  is_finite (fmul x y) = true /\ B2R (fmul x y) = rnd (B2R x * B2R y).
Proof.
  intros Fx Fy H. pose proof (Bmult_correct 53 1024 _ _ mode_NE x y) as C.
  change (round radix2 (SpecFloat.fexp 53 1024) (round_mode mode_NE)) with rnd in C.
  rewrite rnd_lt_emax in C by auto. destruct C as (E & F & _).
  unfold fmul. rewrite F, Fx, Fy. auto.
Qed.

Lemma fdiv_ok x y : is_finite x = true -> B2R y <> 0 ->
  Rabs (B2R x / B2R y) <= big ->
  is_finite (fdiv x y) = true /\ B2R (fdiv x y) = rnd (B2R x / B2R y).
Proof.
  intros Fx Fy H. pose proof (Bdiv_correct 53 1024 _ _ mode_NE x y Fy) as C.
  change (round radix2 (SpecFloat.fexp 53 1024) (round_mode mode_NE)) with rnd in C.
  rewrite rnd_lt_emax in C by auto. destruct C as (E & F & _).
  unfold fdiv. rewrite F, Fx. auto.
Qed.

Lemma fadd_ok x y : is_finite x = true -> is_finite y = true ->
  Rabs (B2R x + B2R y) <= big ->
  is_finite (fadd x y) = true /\ B2R (fadd x y) = rnd (B2R x + B2R y).
Proof.
  intros Fx Fy H. pose proof (Bplus_correct 53 1024 _ _ mode_NE x y Fx Fy) as C.
  change (round radix2 (SpecFloat.fexp 53 1024) (round_mode mode_NE)) with rnd in C.
  rewrite rnd_lt_emax in C by auto. destruct C as (E & F & _). auto.
Qed.

Lemma fsub_ok x y : is_finite x = true -> is_finite y = true ->
  Rabs (B2R x - B2R y) <= big ->
  is_finite (fsub x y) = true /\ B2R (fsub x y) = rnd (B2R x - B2R y).
Proof.
  intros Fx Fy H. pose proof (Bminus_correct 53 1024 _ _ mode_NE x y Fx Fy) as C.
  change (round radix2 (SpecFloat.fexp 53 1024) (round_mode mode_NE)) with rnd in C.
  rewrite rnd_lt_emax in C by auto. destruct C as (E & F & _). auto.
Qed.

Lemma big_ge : 1e100 <= big.
Proof.
  unfold big. apply Rle_trans with (IZR (10 ^ 100)); [apply Req_le; lra|].
  apply Rle_trans with (IZR (2 ^ 1000)); [apply IZR_le; vm_compute; congruence|].
  apply Req_le. apply (IZR_Zpower radix2). lia.
Qed.

(** Integers below 2^53 and powers of ten are exact. *)
Lemma format_Z z : (Z.abs z <= 2 ^ 53)%Z -> generic_format radix2 (FLT_exp (-1074) 53) (IZR z).
Proof.
  intros H. destruct (Z.eq_dec (Z.abs z) (2 ^ 53)) as [E|N].
  - assert (IZR z = bpow radix2 53 \/ IZR z = - bpow radix2 53) as [-> | ->].
    { change (bpow radix2 53) with (IZR (2 ^ 53)).
      destruct (Z.abs_spec z) as [[_ A]|[_ A]]; rewrite A in E.
      - left. congruence.
      - right. rewrite <- opp_IZR. f_equal. lia. }
    + apply generic_format_bpow. cbv; congruence.
    + apply generic_format_opp, generic_format_bpow. cbv; congruence.
  - apply generic_format_FLT. exists (Float radix2 z 0); cbn [Fnum Fexp].
    + unfold F2R. cbn. ring.
    + change (radix2 ^ 53)%Z with (2 ^ 53)%Z. lia.
    + lia.
Qed.

Lemma f_of_Z_gen z : generic_format radix2 (FLT_exp (-1074) 53) (IZR z) -> (Z.abs z <= 10 ^ 20)%Z ->
  is_finite (f_of_Z z) = true /\ B2R (f_of_Z z) = IZR z.
Proof.
  intros G H. pose proof (binary_normalize_correct 53 1024 _ _ mode_NE z 0 false) as C. cbv zeta in C.
  change (round radix2 (SpecFloat.fexp 53 1024) (round_mode mode_NE)) with rnd in C.
  assert (E : F2R (Float radix2 z 0) = IZR z) by (unfold F2R; cbn; ring).
  rewrite E in C. rewrite (rnd_generic _ G) in C.
  rewrite Rlt_bool_true in C.
  - destruct C as (A & B & _). auto.
  - apply Rle_lt_trans with big; [|apply bpow_lt; lia].
    apply Rle_trans with 1e100; [|apply big_ge].
    rewrite <- abs_IZR. apply Rle_trans with (IZR (10 ^ 20)); [apply IZR_le; auto|]. lra.
Qed.

Lemma f_of_Z_ok z : (Z.abs z <= 2 ^ 53)%Z -> is_finite (f_of_Z z) = true /\ B2R (f_of_Z z) = IZR z.
Proof.
  intros H. apply f_of_Z_gen; [apply format_Z; auto|]. change (10 ^ 20)%Z with 100000000000000000000%Z. lia.
Qed.

Lemma format_pow10 s : (0 <= s <= 16)%Z -> generic_format radix2 (FLT_exp (-1074) 53) (IZR (10 ^ s)).
Proof.
  intros H. apply generic_format_FLT. exists (Float radix2 (5 ^ s) s); cbn [Fnum Fexp]; [| |lia].
  - unfold F2R. cbn [Fnum Fexp]. rewrite <- (IZR_Zpower radix2) by lia. rewrite <- mult_IZR. f_equal.
    change (radix2 : Z) with 2%Z. rewrite <- Z.pow_mul_l. reflexivity.
  - rewrite Z.abs_eq by (apply Z.pow_nonneg; lia).
    apply Z.le_lt_trans with (5 ^ 16)%Z; [apply Z.pow_le_mono_r; lia|]. reflexivity.
Qed.

Lemma pow10_bounds s : (0 <= s <= 16)%Z -> (1 <= 10 ^ s <= 10 ^ 16)%Z.
Proof.
  intros H. split.
  - assert (0 < 10 ^ s)%Z by (apply Z.pow_pos_nonneg; lia). lia.
  - apply Z.pow_le_mono_r; lia.
Qed.

Lemma f_pow10_ok s : (0 <= s <= 16)%Z ->
  is_finite (f_of_Z (10 ^ s)) = true /\ B2R (f_of_Z (10 ^ s)) = IZR (10 ^ s).
Proof.
  intros H. apply f_of_Z_gen; [apply format_pow10; auto|].
  pose proof (pow10_bounds s H). change (10 ^ 16)%Z with 10000000000000000%Z in *.
  change (10 ^ 20)%Z with 100000000000000000000%Z. lia.
Qed.

(** ** Error bounds for the scale / unscale pairs *)

(** k is a 34-bit integer, P a scale. *)
Definition tiny : R := / 100000.

Lemma unscale_div_mul k P : (Z.abs k <= 2 ^ 34)%Z -> 1 <= P <= 1e16 ->
  Rabs (rnd (rnd (IZR k / P) * P) - IZR k) <= tiny.
Proof.
  intros Hk HP.
  assert (K : Rabs (IZR k) <= 17179869184) by (rewrite <- abs_IZR; apply IZR_le; auto).
  pose proof (Rabs_pos (IZR k)) as K0.
  set (d := rnd (IZR k / P)).
  assert (E1 : Rabs (d * P - IZR k) <= uu * Rabs (IZR k) + eta * 1e16).
  { replace (d * P - IZR k) with ((d - IZR k / P) * P) by (field; lra).
    rewrite Rabs_mult, (Rabs_pos_eq P) by lra.
    pose proof (rnd_err (IZR k / P)) as E. fold d in E.
    unfold Rdiv in E at 2. rewrite Rabs_mult, (Rabs_pos_eq (/ P)) in E.
    2:{ apply Rlt_le, Rinv_0_lt_compat. lra. }
    apply Rle_trans with ((uu * (Rabs (IZR k) * / P) + eta) * P).
    - apply Rmult_le_compat_r; lra.
    - rewrite Rmult_plus_distr_r.
      replace (uu * (Rabs (IZR k) * / P) * P) with (uu * Rabs (IZR k)) by (field; lra).
      apply Rplus_le_compat_l. apply Rmult_le_compat_l; [|lra].
      unfold eta. lra. }
  pose proof (rnd_err (d * P)) as E2.
  assert (DP : Rabs (d * P) <= Rabs (IZR k) + Rabs (d * P - IZR k)).
  { replace (d * P) with (IZR k + (d * P - IZR k)) at 1 by ring. apply Rabs_triang. }
  assert (T : Rabs (rnd (d * P) - IZR k) <= Rabs (rnd (d * P) - d * P) + Rabs (d * P - IZR k)).
  { replace (rnd (d * P) - IZR k) with ((rnd (d * P) - d * P) + (d * P - IZR k)) by ring. apply Rabs_triang. }
  unfold uu, eta, tiny in *. lra.
Qed.

Lemma unscale_mul_div k P : (Z.abs k <= 2 ^ 34)%Z -> 1 <= P <= 1e16 ->
  Rabs (rnd (rnd (IZR k * P) / P) - IZR k) <= tiny.
Proof.
  intros Hk HP.
  assert (K : Rabs (IZR k) <= 17179869184) by (rewrite <- abs_IZR; apply IZR_le; auto).
  pose proof (Rabs_pos (IZR k)) as K0.
  set (d := rnd (IZR k * P)).
  assert (IP : 0 < / P <= 1).
  { split; [apply Rinv_0_lt_compat; lra|]. rewrite <- Rinv_1. apply Rinv_le; lra. }
  assert (E1 : Rabs (d / P - IZR k) <= uu * Rabs (IZR k) + eta).
  { replace (d / P - IZR k) with ((d - IZR k * P) * / P) by (field; lra).
    rewrite Rabs_mult, (Rabs_pos_eq (/ P)) by lra.
    pose proof (rnd_err (IZR k * P)) as E. fold d in E.
    rewrite Rabs_mult, (Rabs_pos_eq P) in E by lra.
    apply Rle_trans with ((uu * (Rabs (IZR k) * P) + eta) * / P).
    - apply Rmult_le_compat_r; lra.
    - rewrite Rmult_plus_distr_r.
      replace (uu * (Rabs (IZR k) * P) * / P) with (uu * Rabs (IZR k)) by (field; lra).
      apply Rplus_le_compat_l. rewrite <- (Rmult_1_r eta) at 2.
      apply Rmult_le_compat_l; [|lra]. unfold eta. lra. }
  pose proof (rnd_err (d / P)) as E2.
  assert (DP : Rabs (d / P) <= Rabs (IZR k) + Rabs (d / P - IZR k)).
  { replace (d / P) with (IZR k + (d / P - IZR k)) at 1 by ring. apply Rabs_triang. }
  assert (T : Rabs (rnd (d / P) - IZR k) <= Rabs (rnd (d / P) - d / P) + Rabs (d / P - IZR k)).
  { replace (rnd (d / P) - IZR k) with ((rnd (d / P) - d / P) + (d / P - IZR k)) by ring. apply Rabs_triang. }
  unfold uu, eta, tiny in *. lra.
Qed.

(** Subtracting an integer reference from an almost-integer. *)
Lemma sub_ref_near e k r : (Z.abs k <= 2 ^ 34)%Z -> (Z.abs r <= 2 ^ 33)%Z -> Rabs (e - IZR k) <= tiny ->
  Rabs (rnd (e - IZR r) - IZR (k - r)) <= 2 * tiny.
Proof.
  intros Hk Hr He.
  assert (K : Rabs (IZR k) <= 17179869184) by (rewrite <- abs_IZR; apply IZR_le; auto).
  assert (R' : Rabs (IZR r) <= 8589934592) by (rewrite <- abs_IZR; apply IZR_le; auto).
  pose proof (rnd_err (e - IZR r)) as E.
  assert (A : Rabs (e - IZR r) <= Rabs (e - IZR k) + Rabs (IZR k) + Rabs (IZR r)).
  { replace (e - IZR r) with ((e - IZR k) + (IZR k - IZR r)) by ring.
    eapply Rle_trans; [apply Rabs_triang|]. rewrite Rplus_assoc. apply Rplus_le_compat_l.
    unfold Rminus. eapply Rle_trans; [apply Rabs_triang|]. rewrite Rabs_Ropp. lra. }
  rewrite minus_IZR.
  replace (rnd (e - IZR r) - (IZR k - IZR r)) with ((rnd (e - IZR r) - (e - IZR r)) + (e - IZR k)) by ring.
  eapply Rle_trans; [apply Rabs_triang|].
  unfold uu, eta, tiny in *. lra.
Qed.

(** ** Rounding to integers *)

Lemma round_FIX0 rndf x : round radix2 (FIX_exp 0) rndf x = IZR (rndf x).
Proof.
  unfold round, scaled_mantissa, cexp, FIX_exp, F2R. cbn [Fnum Fexp Z.opp bpow].
  rewrite !Rmult_1_r. reflexivity.
Qed.

Lemma Btrunc_Z (x : f64) k : B2R x = IZR k -> Btrunc x = k.
Proof.
  intros H. pose proof (Btrunc_correct 53 1024 _ x) as C. rewrite round_FIX0, H, Ztrunc_IZR in C.
  apply eq_IZR in C. exact C.
Qed.

Lemma frint_near (x : f64) k : is_finite x = true -> Rabs (B2R x - IZR k) < / 2 ->
  is_finite (frint x) = true /\ B2R (frint x) = IZR k /\ Btrunc (frint x) = k.
Proof.
  intros F H. destruct (Bnearbyint_correct 53 1024 _ mode_NE x) as (E & F' & _).
  assert (B2R (frint x) = IZR k).
  { unfold frint. rewrite E, round_FIX0. f_equal. apply Znearest_imp. exact H. }
  split; [unfold frint; congruence|]. split; auto. apply Btrunc_Z. auto.
Qed.

Lemma fround_near (x : f64) k : is_finite x = true -> Rabs (B2R x - IZR k) < / 2 ->
  is_finite (fround x) = true /\ B2R (fround x) = IZR k /\ Btrunc (fround x) = k.
Proof.
  intros F H. destruct (Bnearbyint_correct 53 1024 _ mode_NA x) as (E & F' & _).
  assert (B2R (fround x) = IZR k).
  { unfold fround. rewrite E, round_FIX0. f_equal. apply Znearest_imp. exact H. }
  split; [unfold fround; congruence|]. split; auto. apply Btrunc_Z. auto.
Qed.

(** Comparisons. *)
Lemma flt_spec x y : is_finite x = true -> is_finite y = true ->
  flt x y = Rlt_bool (B2R x) (B2R y).
Proof. intros. apply Bltb_correct; auto. Qed.
Lemma fle_spec x y : is_finite x = true -> is_finite y = true ->
  fle x y = Rle_bool (B2R x) (B2R y).
Proof. intros. apply Bleb_correct; auto. Qed.

Lemma finite_not_nan (x : f64) : is_finite x = true -> fisnan x = false.
Proof. destruct x; cbn; auto; discriminate. Qed.

Lemma f_to_Z_range_ok lo hi x k : is_finite x = true -> Btrunc x = k -> (lo <= k <= hi)%Z ->
  f_to_Z_range lo hi x = Ok k.
Proof.
  intros F E H. unfold f_to_Z_range. rewrite F, E.
  replace ((lo <=? k) && (k <=? hi))%Z with true by lia. reflexivity.
Qed.

Lemma feq_spec (x y : f64) : is_finite x = true -> is_finite y = true -> B2R x = B2R y -> feq x y = true.
Proof. intros Fx Fy E. unfold feq. rewrite Beqb_correct by auto. apply Req_bool_true. auto. Qed.

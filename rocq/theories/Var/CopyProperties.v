(** C64: a value copied into a variable with another definition is converted. *)
From Coq Require Import String QArith Qreals Reals Lra Psatz ZifyBool ZifyNat.
From Flocq Require Import Core BinarySingleNaN.
From Verif Require Import Base Bits.Spec Num.Float Num.FloatProofs Varcode.Model Varinfo.Model Varinfo.Proofs Varinfo.RangeProofs
  Var.Model Var.Spec Var.Proofs Var.CodecProofs Conv.Model Conv.Spec Conv.Proofs.
From Verif Require Var.Properties Conv.Properties.
Local Open Scope Z_scope.

(** The number that the integer [k] stands for under a definition with scale [s], and the number of
    steps of such a definition that [x] takes. *)
Definition amount (s k : Z) : R := if 0 <=? s then (IZR k / IZR (10 ^ s))%R else (IZR k * IZR (10 ^ (- s)))%R.
Definition steps (s : Z) (x : R) : R := if 0 <=? s then (x * IZR (10 ^ s))%R else (x / IZR (10 ^ (- s)))%R.

(** ** Helpers *)
Lemma pow_pos s : 0 <= s -> (1 <= IZR (10 ^ s))%R.
Proof. intros H. apply (IZR_le 1). assert (0 < 10 ^ s) by (apply Z.pow_pos_nonneg; lia). lia. Qed.

Lemma steps_amount s k : steps s (amount s k) = IZR k.
Proof.
  unfold steps, amount. destruct (Z.leb_spec 0 s) as [H|H].
  - pose proof (pow_pos s H). field. lra.
  - pose proof (pow_pos (- s) ltac:(lia)). field. lra.
Qed.

Lemma steps_sub s x y : steps s (x - y) = (steps s x - steps s y)%R.
Proof. unfold steps. destruct (0 <=? s); unfold Rdiv; ring. Qed.

Lemma amount_add s a b : (amount s a + amount s b = amount s (a + b))%R.
Proof. unfold amount. rewrite plus_IZR. destruct (0 <=? s); unfold Rdiv; ring. Qed.

Lemma scaled_amount s k : Z.abs k <= 2 ^ 34 -> scaled s k = rnd (amount s k).
Proof.
  intros K. unfold scaled, amount. destruct (Z.ltb_spec 0 s); [replace (0 <=? s) with true by lia; reflexivity|].
  destruct (Z.ltb_spec s 0); [replace (0 <=? s) with false by lia; reflexivity|]. assert (s = 0) as -> by lia. cbn [Z.leb Z.compare].
  change (IZR (10 ^ 0)) with 1%R. unfold Rdiv. rewrite Rinv_1, Rmult_1_r. symmetry. apply rnd_generic, format_Z. lia.
Qed.

Lemma unscaled_steps s (d : f64) : unscaled s d = steps s (B2R d).
Proof. reflexivity. Qed.

(** What is copied is the value of the source, converted. *)
Lemma setval_numeric conv o c src k : info_ok (c_info src) -> is_numeric (vi_type (c_info src)) = true -> is_numeric (vi_type (c_info c)) = true ->
  int_min <= k <= int_max -> c_val src = Some (VInt k) ->
  exists d : f64, is_finite d = true /\ B2R d = rnd (amount (vi_scale (c_info src)) k) /\
    setval conv o c src = match conv (vi_unit (c_info src)) (vi_unit (c_info c)) d with
                          | Ok y => setd o c y | Err e => Thrown e c | UB => Undef end.
Proof.
  intros Hi Ts Tc K V. destruct (enqd_scaled src k Hi Ts K V) as (d & E & F & D). exists d. split; [exact F|].
  split; [rewrite D; apply scaled_amount; unfold int_min, int_max in K; lia|].
  unfold setval, isset. rewrite V, E. cbn [negb bind]. destruct (vi_type (c_info c)); try discriminate; reflexivity.
Qed.

Lemma flt_real (x y : f64) : is_finite x = true -> is_finite y = true -> flt x y = true <-> (B2R x < B2R y)%R.
Proof. intros Fx Fy. unfold flt. rewrite Bltb_correct by auto. destruct (Rlt_bool_spec (B2R x) (B2R y)); split; intros; auto; try discriminate; lra. Qed.

(** A finite number stored in a decimal variable: either it is out of the declared range or it is
    rounded to the nearest step. *)
Lemma setd_real o c (y : f64) : cell_ok c -> vi_type (c_info c) = TDecimal -> is_finite y = true ->
  (B2R (vi_dmin (c_info c)) <= B2R y <= B2R (vi_dmax (c_info c)))%R ->
  exists n, setd o c y = Done (with_val c (VInt n)) /\ vi_imin (c_info c) <= n <= vi_imax (c_info c) /\
    (Rabs (IZR n - steps (vi_scale (c_info c)) (B2R y)) <= / 2 + / 100000)%R.
Proof.
  intros Hc Ht Fy [L H]. pose proof Hc as [Hi _]. destruct (info_ok_numeric _ Hi) as (_ & _ & _ & _ & _ & _ & [F1 _] & [F2 _]); [rewrite Ht; reflexivity|].
  destruct (setd_decimal_nearest o c y Hc Ht) as (n & r & E & R & N & _).
  - apply finite_not_nan; auto.
  - apply not_true_iff_false. intros X. apply flt_real in X; auto. lra.
  - apply not_true_iff_false. intros X. apply flt_real in X; auto. lra.
  - exists n. auto.
Qed.

Lemma in_range_abs i k : info_ok i -> is_numeric (vi_type i) = true -> vi_imin i <= k <= vi_imax i -> int_min <= k <= int_max.
Proof. intros Hi Ht R. destruct (info_ok_numeric _ Hi Ht) as (_ & I1 & I2 & _). lia. Qed.

Lemma numeric_value i v : value_ok i v -> is_numeric (vi_type i) = true -> exists k, v = VInt k /\ vi_imin i <= k <= vi_imax i.
Proof. unfold value_ok. destruct (vi_type i), v; cbn; intros H T; try discriminate; try contradiction; eauto. Qed.

(** ** Unset values, and variables with the same definition *)

(** A variable is unset by copying an unset one. *)
Theorem C64_unset conv o c src : c_val src = None -> setval conv o c src = Done (mkcell (c_info c) None).
Proof. intros V. unfold setval, isset. rewrite V. reflexivity. Qed.

(** With the same definition the copy is the same; a binary value must have no bits set above the
    declared number. *)
Theorem C64_same_definition repo o c src : cell_ok src -> c_info c = c_info src ->
  (forall b, c_val src = Some (VBin b) -> mask_last (c_info src) b = b /\ (0 < ilen (c_info src))%nat) ->
  setval (convert_units repo) o c src = Done src.
Proof.
  intros [Hi Hv] I0 M. destruct src as [i w]. cbn [c_info c_val] in *. unfold setval, isset. cbn [c_info c_val]. rewrite I0.
  destruct w as [w|]; [|unfold unset; rewrite I0; reflexivity]. cbn [negb]. unfold value_ok in Hv.
  assert (N : is_numeric (vi_type i) = true -> forall k, w = VInt k -> vi_imin i <= k <= vi_imax i ->
    match (d <- enqd (mkcell i (Some w)) ;; convert_units repo (vi_unit i) (vi_unit i) d) with Ok d => setd o c d | Err e => Thrown e c | UB => Undef end = Done (mkcell i (Some w))).
  { intros T k -> R. destruct (Var.Properties.C09_enqd_setd o (mkcell i (Some (VInt k))) k Hi) as (x & E & Rx); cbn [c_info c_val]; auto.
    rewrite E. cbn [bind]. rewrite Conv.Properties.C31_same_unit. apply Rx. exact I0. }
  destruct (vi_type i) eqn:T; destruct w as [k|s|b]; try contradiction.
  - apply (N eq_refl k); auto.
  - apply (N eq_refl k); auto.
  - unfold enqc. cbn [c_val c_info]. rewrite T. destruct Hv as [L F]. unfold assign_c_checked. rewrite I0, Nat.ltb_irrefl, strncpy_cstring.
    unfold with_val. rewrite I0. replace (cstr s) with s by (symmetry; clear - F; induction F as [|c0 l0 H _ IH]; cbn; auto; replace (c0 =? 0) with false by lia; rewrite IH; reflexivity).
    rewrite firstn_all2 by exact L. reflexivity.
  - unfold enqc. cbn [c_val c_info]. rewrite T. destruct (M b eq_refl) as [Mb P]. unfold assign_b_checked. rewrite I0. cbv zeta. unfold with_val. rewrite I0.
    rewrite Nat.ltb_irrefl, Hv, Nat.ltb_irrefl. replace (Nat.eqb (ilen i) 0) with false by lia. rewrite andb_false_r, firstn_all2, Mb by lia. reflexivity.
Qed.

(** ** Numbers in the same unit *)

(** If the definition of the destination can represent the value exactly, with more or fewer decimals, that
    is what is stored, for every unit, known or not. *)
Theorem C64_exact repo o c src k n : info_ok (c_info src) -> is_numeric (vi_type (c_info src)) = true -> c_val src = Some (VInt k) -> int_min <= k <= int_max ->
  info_ok (c_info c) -> is_numeric (vi_type (c_info c)) = true -> vi_unit (c_info c) = vi_unit (c_info src) ->
  amount (vi_scale (c_info c)) n = amount (vi_scale (c_info src)) k -> vi_imin (c_info c) <= n <= vi_imax (c_info c) ->
  setval (convert_units repo) o c src = Done (with_val c (VInt n)).
Proof.
  intros Hs Ts V K Hc Tc U A R. destruct (setval_numeric (convert_units repo) o c src k Hs Ts Tc K V) as (d & F & D & ->).
  rewrite U, Conv.Properties.C31_same_unit. pose proof (in_range_abs _ n Hc Tc R) as N. apply setd_scaled; auto.
  rewrite scaled_amount by (unfold int_min, int_max in N; lia). rewrite A. exact D.
Qed.

(** ... and a value out of the range of the destination is refused. *)
Theorem C64_exact_refused repo o c src k n : info_ok (c_info src) -> is_numeric (vi_type (c_info src)) = true -> c_val src = Some (VInt k) -> int_min <= k <= int_max ->
  info_ok (c_info c) -> is_numeric (vi_type (c_info c)) = true -> vi_unit (c_info c) = vi_unit (c_info src) ->
  amount (vi_scale (c_info c)) n = amount (vi_scale (c_info src)) k -> int_min <= n <= int_max -> ~ (vi_imin (c_info c) <= n <= vi_imax (c_info c)) ->
  o_clamp o = false -> o_hook o = None ->
  setval (convert_units repo) o c src = if o_silent o then Done (unset c) else Thrown EDomain (unset c).
Proof.
  intros Hs Ts V K Hc Tc U A N R Oc Oh. destruct (setval_numeric (convert_units repo) o c src k Hs Ts Tc K V) as (d & F & D & ->).
  rewrite U, Conv.Properties.C31_same_unit. apply (setd_scaled_refused o c n); auto.
  rewrite scaled_amount by (unfold int_min, int_max in N; lia). rewrite A. exact D.
Qed.

(** With fewer decimals the nearest value is stored. *)
Theorem C64_nearest repo o c src k : info_ok (c_info src) -> is_numeric (vi_type (c_info src)) = true -> c_val src = Some (VInt k) -> int_min <= k <= int_max ->
  cell_ok c -> vi_type (c_info c) = TDecimal -> vi_unit (c_info c) = vi_unit (c_info src) ->
  let x := amount (vi_scale (c_info src)) k in let s := vi_scale (c_info c) in
  (amount s (vi_imin (c_info c)) <= x <= amount s (vi_imax (c_info c)))%R ->
  exists n, setval (convert_units repo) o c src = Done (with_val c (VInt n)) /\ vi_imin (c_info c) <= n <= vi_imax (c_info c) /\
    (Rabs (IZR n - steps s x) <= / 2 + / 10000)%R.
Proof.
  intros Hs Ts V K Hc Tc U x s [L H]. pose proof Hc as [Hi _]. assert (Tn : is_numeric (vi_type (c_info c)) = true) by (rewrite Tc; reflexivity).
  destruct (info_ok_numeric _ Hi Tn) as (Hsc & I1 & I2 & _ & _ & _ & [F1 R1] & [F2 R2]).
  destruct (setval_numeric (convert_units repo) o c src k Hs Ts Tn K V) as (d & F & D & ->). fold x in D.
  rewrite U, Conv.Properties.C31_same_unit. unfold int_min, int_max in *.
  destruct (setd_real o c d Hc Tc F) as (n & E & R & N).
  { rewrite R1, R2, D, !scaled_amount by lia. split; apply rnd_le; auto. }
  exists n. split; [exact E|]. split; [exact R|]. fold s in N. rewrite D in N.
  assert (B : (Rabs (steps s x) <= 3000000000)%R).
  { assert (P : forall a b, (a <= b -> steps s a <= steps s b)%R).
    { intros a b Q. unfold steps. destruct (Z.leb_spec 0 s) as [Q0|Q0].
      - pose proof (pow_pos s Q0). apply Rmult_le_compat_r; lra.
      - pose proof (pow_pos (- s) ltac:(lia)). unfold Rdiv. apply Rmult_le_compat_r; auto. left. apply Rinv_0_lt_compat. lra. }
    apply P in L. apply P in H. rewrite steps_amount in L, H.
    assert (B1 : (-2147483648 <= IZR (vi_imin (c_info c)))%R) by (apply IZR_le; lia).
    assert (B2 : (IZR (vi_imax (c_info c)) <= 2147483647)%R) by (apply IZR_le; lia). apply Rabs_le. lra. }
  assert (Q : (Rabs (steps s (rnd x) - steps s x) <= / 100000)%R).
  { rewrite <- steps_sub. pose proof (rnd_err x) as Er. unfold scale_ok in Hsc. fold s in Hsc. unfold steps in *. destruct (Z.leb_spec 0 s) as [Q0|Q0].
    - destruct (scales_ok s) as (p & _ & _ & _ & P); [lia|]. rewrite Rabs_mult, (Rabs_pos_eq (IZR _)) in * by lra.
      apply Rle_trans with ((uu * Rabs x + eta) * IZR (10 ^ s))%R; [apply Rmult_le_compat_r; lra|].
      replace ((uu * Rabs x + eta) * IZR (10 ^ s))%R with (uu * (Rabs x * IZR (10 ^ s)) + eta * IZR (10 ^ s))%R by ring. unfold uu, eta. lra.
    - pose proof (pow_pos (- s) ltac:(lia)) as P. assert (Pi : (0 < / IZR (10 ^ (- s)) <= 1)%R).
      { split; [apply Rinv_0_lt_compat; lra|]. rewrite <- Rinv_1. apply Rinv_le; lra. }
      unfold Rdiv in *. rewrite Rabs_mult, (Rabs_pos_eq (/ _)) in * by lra.
      apply Rle_trans with ((uu * Rabs x + eta) * / IZR (10 ^ (- s)))%R; [apply Rmult_le_compat_r; lra|].
      replace ((uu * Rabs x + eta) * / IZR (10 ^ (- s)))%R with (uu * (Rabs x * / IZR (10 ^ (- s))) + eta * / IZR (10 ^ (- s)))%R by ring. unfold uu, eta. lra. }
  replace (IZR n - steps s x)%R with ((IZR n - steps s (rnd x)) + (steps s (rnd x) - steps s x))%R by ring.
  eapply Rle_trans; [apply Rabs_triang|]. lra.
Qed.

(** A definition with at least as many decimals and room enough holds the value, and copying it back
    restores the original. *)
Lemma amount_finer s1 s2 k : s1 <= s2 -> amount s2 (k * 10 ^ (s2 - s1)) = amount s1 k.
Proof.
  intros H. unfold amount. rewrite mult_IZR. destruct (Z.leb_spec 0 s1) as [A|A], (Z.leb_spec 0 s2) as [B|B]; try lia.
  - replace (10 ^ s2) with (10 ^ s1 * 10 ^ (s2 - s1)) by (rewrite <- Z.pow_add_r by lia; f_equal; lia). rewrite mult_IZR.
    pose proof (pow_pos s1 A). pose proof (pow_pos (s2 - s1) ltac:(lia)). field. split; lra.
  - replace (10 ^ (s2 - s1)) with (10 ^ s2 * 10 ^ (- s1)) by (rewrite <- Z.pow_add_r by lia; f_equal; lia). rewrite mult_IZR.
    pose proof (pow_pos s2 B). field. lra.
  - replace (10 ^ (- s1)) with (10 ^ (s2 - s1) * 10 ^ (- s2)) by (rewrite <- Z.pow_add_r by lia; f_equal; lia). rewrite mult_IZR. ring.
Qed.

Theorem C64_there_and_back repo o c src src0 k : cell_ok src -> is_numeric (vi_type (c_info src)) = true -> c_val src = Some (VInt k) ->
  c_info src0 = c_info src -> info_ok (c_info c) -> is_numeric (vi_type (c_info c)) = true -> vi_unit (c_info c) = vi_unit (c_info src) ->
  vi_scale (c_info src) <= vi_scale (c_info c) ->
  vi_imin (c_info c) <= k * 10 ^ (vi_scale (c_info c) - vi_scale (c_info src)) <= vi_imax (c_info c) ->
  exists c1, setval (convert_units repo) o c src = Done c1 /\ c_info c1 = c_info c /\ setval (convert_units repo) o src0 c1 = Done src.
Proof.
  intros [Hi Hv] Ts V I0 Hc Tc U S R. rewrite V in Hv. destruct (numeric_value _ _ Hv Ts) as (k' & Ek & Rk). injection Ek as <-.
  pose proof (in_range_abs _ _ Hi Ts Rk) as K. pose proof (in_range_abs _ _ Hc Tc R) as K2.
  set (n := k * 10 ^ (vi_scale (c_info c) - vi_scale (c_info src))) in *.
  assert (A : amount (vi_scale (c_info c)) n = amount (vi_scale (c_info src)) k) by (apply amount_finer; exact S).
  exists (with_val c (VInt n)). split; [apply (C64_exact repo o c src k n); auto|]. split; [reflexivity|].
  assert (E : setval (convert_units repo) o src0 (with_val c (VInt n)) = Done (with_val src0 (VInt k))).
  { apply (C64_exact repo o src0 (with_val c (VInt n)) n k); cbn [with_val c_info c_val]; rewrite ?I0; auto. }
  rewrite E. unfold with_val. rewrite I0. destruct src as [i w]. cbn in *. rewrite V. reflexivity.
Qed.

(** ** Kelvin and Celsius *)

Lemma kelvin_step s (y z : R) : 0 <= s <= 4 -> (Rabs (y - z) <= 3.1e-5)%R -> (Rabs (steps s y - steps s z) <= 0.31)%R.
Proof.
  intros S H. rewrite <- steps_sub. unfold steps. replace (0 <=? s) with true by lia. rewrite Rabs_mult.
  assert (P : (1 <= IZR (10 ^ s) <= 10000)%R).
  { split; [apply pow_pos; lia|]. apply (IZR_le _ 10000). apply (Z.pow_le_mono_r 10 s 4); lia. }
  rewrite (Rabs_pos_eq (IZR _)) by lra. apply Rle_trans with (3.1e-5 * 10000)%R; [|lra]. apply Rmult_le_compat; try lra; apply Rabs_pos.
Qed.

Lemma amount_lt s a b : 0 <= s <= 4 -> a < b -> (amount s a + 1e-4 <= amount s b)%R.
Proof.
  intros S H. unfold amount. replace (0 <=? s) with true by lia.
  assert (P : (1 <= IZR (10 ^ s) <= 10000)%R).
  { split; [apply pow_pos; lia|]. apply (IZR_le _ 10000). apply (Z.pow_le_mono_r 10 s 4); lia. }
  assert (H1 : (IZR a + 1 <= IZR b)%R) by (rewrite <- (plus_IZR a 1); apply IZR_le; lia).
  assert (Pi : (1e-4 <= / IZR (10 ^ s))%R).
  { apply Rle_trans with (/ 10000)%R; [lra|]. apply Rinv_le; lra. }
  apply Rle_trans with ((IZR a + 1) / IZR (10 ^ s))%R; [unfold Rdiv; lra|]. unfold Rdiv. apply Rmult_le_compat_r; lra.
Qed.

Lemma kelvin_copy o c (y : f64) n z : cell_ok c -> vi_type (c_info c) = TDecimal -> 0 <= vi_scale (c_info c) <= 4 -> is_finite y = true ->
  (Rabs (B2R y - z) <= 3.1e-5)%R -> amount (vi_scale (c_info c)) n = z -> vi_imin (c_info c) < n < vi_imax (c_info c) ->
  setd o c y = Done (with_val c (VInt n)).
Proof.
  intros Hc Tc S Fy N A R. pose proof Hc as [Hi _]. assert (Tn : is_numeric (vi_type (c_info c)) = true) by (rewrite Tc; reflexivity).
  destruct (info_ok_numeric _ Hi Tn) as (Hsc & I1 & I2 & _ & _ & _ & [F1 R1] & [F2 R2]). unfold int_min, int_max in *.
  pose proof (amount_lt _ (vi_imin (c_info c)) n S ltac:(lia)) as L1. pose proof (amount_lt _ n (vi_imax (c_info c)) S ltac:(lia)) as L2. rewrite A in L1, L2.
  assert (B : forall k, -2147483648 <= k <= 2147483647 -> (Rabs (rnd (amount (vi_scale (c_info c)) k) - amount (vi_scale (c_info c)) k) <= 1e-5)%R).
  { intros k K. eapply Rle_trans; [apply rnd_err|]. assert (Q : (Rabs (amount (vi_scale (c_info c)) k) <= 2147483648)%R).
    { unfold amount. replace (0 <=? vi_scale (c_info c)) with true by lia. apply rabs_div_bound; [|apply pow_pos; lia].
      apply (IZR_abs_le k 2147483648). lia. }
    unfold uu, eta. lra. }
  pose proof (B (vi_imin (c_info c)) ltac:(lia)) as B1. pose proof (B (vi_imax (c_info c)) ltac:(lia)) as B2.
  destruct (setd_real o c y Hc Tc Fy) as (m & E & Rm & Nm).
  { rewrite R1, R2, !scaled_amount by lia. split_Rabs; lra. }
  rewrite E. do 3 f_equal. pose proof (kelvin_step _ _ _ S N) as K. rewrite <- A, steps_amount in K.
  assert (Q : (Rabs (IZR m - IZR n) < 1)%R) by (split_Rabs; lra). rewrite <- minus_IZR, <- abs_IZR in Q. apply (lt_IZR _ 1) in Q. lia.
Qed.

(** Between kelvin and degrees Celsius, to a definition with up to four decimals: the stored value is
    exactly the one of the source less, or plus, 273.15, if that can be represented and is inside the range. *)
Theorem C64_kelvin repo o c src k n : sorted_repo repo -> info_ok (c_info src) -> is_numeric (vi_type (c_info src)) = true ->
  c_val src = Some (VInt k) -> int_min <= k <= int_max -> cell_ok c -> vi_type (c_info c) = TDecimal -> 0 <= vi_scale (c_info c) <= 4 ->
  (Rabs (amount (vi_scale (c_info src)) k) <= 1e7)%R ->
  (vi_unit (c_info src) = "K"%string /\ vi_unit (c_info c) = "C"%string /\ amount (vi_scale (c_info c)) n = (amount (vi_scale (c_info src)) k - 273.15)%R \/
   vi_unit (c_info src) = "C"%string /\ vi_unit (c_info c) = "K"%string /\ amount (vi_scale (c_info c)) n = (amount (vi_scale (c_info src)) k + 273.15)%R) ->
  vi_imin (c_info c) < n < vi_imax (c_info c) ->
  setval (convert_units repo) o c src = Done (with_val c (VInt n)).
Proof.
  intros SR Hs Ts V K Hc Tc S B U R. assert (Tn : is_numeric (vi_type (c_info c)) = true) by (rewrite Tc; reflexivity).
  destruct (setval_numeric (convert_units repo) o c src k Hs Ts Tn K V) as (d & F & D & ->).
  set (x := amount (vi_scale (c_info src)) k) in *. pose proof (rnd_err x) as Er. rewrite <- D in Er.
  assert (Q : (Rabs (B2R d - x) <= 1e-6)%R) by (eapply Rle_trans; [exact Er|]; unfold uu, eta; lra).
  destruct (Conv.Properties.C44_kelvin repo d SR F) as [(y1 & E1 & G1 & N1) (y2 & E2 & G2 & N2)]; [split_Rabs; lra|].
  destruct U as [(U1 & U2 & A)|(U1 & U2 & A)]; rewrite U1, U2.
  - rewrite E1. apply (kelvin_copy o c y1 n (x - 273.15)%R); auto. split_Rabs; lra.
  - rewrite E2. apply (kelvin_copy o c y2 n (x + 273.15)%R); auto. split_Rabs; lra.
Qed.

(** ** Other units *)

(** Between other units of the same quantity: what is stored is the value converted as the SI says, within two
    parts in 100000 and the rounding to the nearest step; or the value is out of the declared range and the
    variable is unset. *)
Theorem C64_units repo c src k : sorted_repo repo -> info_ok (c_info src) -> is_numeric (vi_type (c_info src)) = true ->
  c_val src = Some (VInt k) -> int_min <= k <= int_max -> cell_ok c -> vi_type (c_info c) = TDecimal ->
  Conv.Properties.known (vi_unit (c_info src)) (vi_unit (c_info c)) -> Conv.Properties.not_si (vi_unit (c_info src)) (vi_unit (c_info c)) = false ->
  vi_unit (c_info src) <> vi_unit (c_info c) ->
  exists quantity units a b, In (quantity, units) si_units /\ unit_of units (vi_unit (c_info src)) = Some a /\ unit_of units (vi_unit (c_info c)) = Some b /\
  let x := (amount (vi_scale (c_info src)) k * Q2R (a / b))%R in
  let s := vi_scale (c_info c) in let err := (2.2e-5 * Rabs x + / 1e39)%R in
  (exists n, setval (convert_units repo) default_options c src = Done (with_val c (VInt n)) /\ vi_imin (c_info c) <= n <= vi_imax (c_info c) /\
     (Rabs (IZR n - steps s x) <= / 2 + / 100000 + steps s err)%R) \/
  (setval (convert_units repo) default_options c src = Thrown EDomain (unset c) /\
     (x < B2R (vi_dmin (c_info c)) + err \/ B2R (vi_dmax (c_info c)) - err < x)%R).
Proof.
  intros SR Hs Ts V K Hc Tc Kn Nsi Ne. assert (Tn : is_numeric (vi_type (c_info c)) = true) by (rewrite Tc; reflexivity).
  destruct (setval_numeric (convert_units repo) default_options c src k Hs Ts Tn K V) as (d & F & D & E).
  assert (Nsc : Conv.Properties.not_scaling (vi_unit (c_info src)) (vi_unit (c_info c)) = false).
  { unfold Conv.Properties.not_si, Conv.Properties.not_scaling in *. cbn [existsb] in *. apply orb_false_iff in Nsi as [-> Nsi].
    apply orb_false_iff in Nsi as [-> Nsi]. apply orb_false_iff in Nsi as [-> _]. reflexivity. }
  set (w := amount (vi_scale (c_info src)) k) in *.
  assert (Hr : (Rabs (B2R d - w) <= 2 * uu * Rabs w)%R).
  { destruct (info_ok_numeric _ Hs Ts) as (Ss & _). unfold scale_ok in Ss. rewrite D. destruct (Z.eq_dec k 0) as [K0|K0].
    - assert (W0 : w = 0%R) by (unfold w, amount, Rdiv; rewrite K0, !Rmult_0_l; destruct (0 <=? vi_scale (c_info src)); reflexivity).
      rewrite W0, (rnd_generic 0%R) by apply generic_format_0. rewrite Rminus_0_r, Rabs_R0. lra.
    - eapply Rle_trans; [apply rnd_err|]. assert (W : (1e-16 <= Rabs w)%R).
      { assert (K1 : (1 <= Rabs (IZR k))%R) by (rewrite <- abs_IZR; apply (IZR_le 1); lia). unfold w, amount. destruct (Z.leb_spec 0 (vi_scale (c_info src))) as [P|P].
        - destruct (scales_ok (vi_scale (c_info src))) as (p & _ & _ & _ & B); [lia|]. unfold Rdiv. rewrite Rabs_mult, (Rabs_pos_eq (/ _)); [|left; apply Rinv_0_lt_compat; lra].
          apply Rle_trans with (1 * / IZR (10 ^ vi_scale (c_info src)))%R; [|apply Rmult_le_compat_r; [left; apply Rinv_0_lt_compat|]; lra].
          apply Rle_trans with (/ 1e16)%R; [lra|]. replace (1 * / IZR (10 ^ vi_scale (c_info src)))%R with (/ IZR (10 ^ vi_scale (c_info src)))%R by ring. apply Rinv_le; lra.
        - pose proof (pow_pos (- vi_scale (c_info src)) ltac:(lia)) as B. rewrite Rabs_mult, (Rabs_pos_eq (IZR (10 ^ _))) by lra.
          apply Rle_trans with (1 * 1)%R; [lra|]. apply Rmult_le_compat; lra. }
      unfold uu, eta. lra. }
  assert (Wb : (Rabs w <= 1e30)%R).
  { destruct (info_ok_numeric _ Hs Ts) as (Ss & _). unfold scale_ok in Ss. unfold int_min, int_max in K.
    pose proof (IZR_abs_le k (2 ^ 34) ltac:(lia)) as K1. change (IZR (2 ^ 34)) with 17179869184%R in K1. unfold w, amount. destruct (Z.leb_spec 0 (vi_scale (c_info src))) as [P|P].
    - eapply Rle_trans; [apply rabs_div_bound; [exact K1|apply pow_pos; lia]|]. lra.
    - destruct (scales_ok (- vi_scale (c_info src))) as (p & _ & _ & _ & B); [lia|]. eapply Rle_trans; [apply rabs_mul_bound; [exact K1|lra]|]. lra. }
  assert (Db : (Rabs (B2R d) <= 1e40)%R). { pose proof (Rabs_pos w). unfold uu in Hr. split_Rabs; lra. }
  destruct (Conv.Properties.C31_round_trip repo _ _ d SR Kn Ne Nsc F Db) as (y & z & Ey & _).
  destruct (Conv.Properties.C44_units repo _ _ d y SR Nsi Ne Ey F Db) as (q & u & a & b & Iu & Ea & Eb & Fy & Ny).
  exists q, u, a, b. split; [exact Iu|]. split; [exact Ea|]. split; [exact Eb|]. cbv zeta. set (f := Q2R (a / b)) in *.
  set (err := (2.2e-5 * Rabs (w * f) + / 1e39)%R).
  assert (Xd : (Rabs (B2R d * f - w * f) <= 2 * uu * Rabs (w * f))%R).
  { replace (B2R d * f - w * f)%R with ((B2R d - w) * f)%R by ring. rewrite !Rabs_mult. rewrite <- Rmult_assoc. apply Rmult_le_compat_r; [apply Rabs_pos|exact Hr]. }
  assert (Nx : (Rabs (B2R y - w * f) <= err)%R).
  { unfold err. pose proof (Rabs_pos (w * f)). assert (Rabs (B2R d * f) <= (1 + 2 * uu) * Rabs (w * f))%R by (pose proof (Rabs_triang (B2R d * f - w * f) (w * f)) as T; replace (B2R d * f - w * f + w * f)%R with (B2R d * f)%R in T by ring; lra).
    replace (B2R y - w * f)%R with ((B2R y - B2R d * f) + (B2R d * f - w * f))%R by ring. eapply Rle_trans; [apply Rabs_triang|]. unfold uu in *. lra. }
  rewrite E, Ey. pose proof Hc as [Hi _]. destruct (info_ok_numeric _ Hi Tn) as (_ & _ & _ & _ & _ & _ & [F1 _] & [F2 _]).
  destruct (Rlt_or_le (B2R y) (B2R (vi_dmin (c_info c)))) as [L|L]; [right|destruct (Rlt_or_le (B2R (vi_dmax (c_info c))) (B2R y)) as [G|G]; [right|left]].
  - split; [|left; split_Rabs; lra]. apply (setd_decimal_refused default_options); auto. right. left. apply flt_real; auto.
  - split; [|right; split_Rabs; lra]. apply (setd_decimal_refused default_options); auto. right. right. apply flt_real; auto.
  - destruct (setd_real default_options c y Hc Tc Fy (conj L G)) as (n & En & Rn & Nn). exists n. split; [exact En|]. split; [exact Rn|].
    assert (St : (Rabs (steps (vi_scale (c_info c)) (B2R y) - steps (vi_scale (c_info c)) (w * f)) <= steps (vi_scale (c_info c)) err)%R).
    { rewrite <- steps_sub. unfold steps. destruct (Z.leb_spec 0 (vi_scale (c_info c))) as [P|P].
      - pose proof (pow_pos _ P). rewrite Rabs_mult, (Rabs_pos_eq (IZR _)) by lra. apply Rmult_le_compat_r; lra.
      - pose proof (pow_pos (- vi_scale (c_info c)) ltac:(lia)). assert (0 < / IZR (10 ^ (- vi_scale (c_info c))))%R by (apply Rinv_0_lt_compat; lra).
        unfold Rdiv. rewrite Rabs_mult, (Rabs_pos_eq (/ _)) by lra. apply Rmult_le_compat_r; lra. }
    replace (IZR n - steps (vi_scale (c_info c)) (w * f))%R with ((IZR n - steps (vi_scale (c_info c)) (B2R y)) + (steps (vi_scale (c_info c)) (B2R y) - steps (vi_scale (c_info c)) (w * f)))%R by ring.
    eapply Rle_trans; [apply Rabs_triang|]. lra.
Qed.

(** The ratio of two units does not depend on the quantity they are found under. *)
Lemma ratio_unique q1 u1 a1 b1 q2 u2 a2 b2 from to : In (q1, u1) si_units -> In (q2, u2) si_units ->
  unit_of u1 from = Some a1 -> unit_of u1 to = Some b1 -> unit_of u2 from = Some a2 -> unit_of u2 to = Some b2 -> Q2R (a1 / b1) = Q2R (a2 / b2).
Proof.
  intros I1 I2 A1 B1 A2 B2. apply Qeq_eqR.
  assert (C : forallb (fun p => forallb (fun q => forallb (fun e => forallb (fun f => match unit_of (snd q) (fst e), unit_of (snd q) (fst f) with
    | Some a, Some b => Qeq_bool (snd e / snd f) (a / b) | _, _ => true end) (snd p)) (snd p)) si_units) si_units = true) by (vm_compute; reflexivity).
  assert (U : forall u x a, unit_of u x = Some a -> In (x, a) u).
  { intros u x a H. unfold unit_of in H. destruct (find _ u) as [e|] eqn:F; [|discriminate]. injection H as <-. apply find_some in F as [F E].
    apply String.eqb_eq in E. subst x. destruct e; exact F. }
  rewrite forallb_forall in C. specialize (C _ I1). rewrite forallb_forall in C. specialize (C _ I2). rewrite forallb_forall in C. specialize (C _ (U _ _ _ A1)).
  rewrite forallb_forall in C. specialize (C _ (U _ _ _ B1)). cbn [fst snd] in C. rewrite A2, B2 in C. apply Qeq_bool_iff. exact C.
Qed.

Lemma check_exact : check_si (3 # 10000000000000000) (fun f t => Conv.Properties.not_si f t || Conv.Properties.twice_listed f t) = true.
Proof. vm_cast_no_check (eq_refl true). Qed.

(** Rounding the number that an integer stands for is a relative error. *)
Lemma amount_rounded s k : -16 <= s <= 16 -> (Rabs (rnd (amount s k) - amount s k) <= 2 * uu * Rabs (amount s k))%R.
Proof.
  intros Ss. destruct (Z.eq_dec k 0) as [K0|K0].
  - assert (W0 : amount s k = 0%R) by (unfold amount, Rdiv; rewrite K0, !Rmult_0_l; destruct (0 <=? s); reflexivity).
    rewrite W0, (rnd_generic 0%R) by apply generic_format_0. rewrite Rminus_0_r, Rabs_R0. lra.
  - eapply Rle_trans; [apply rnd_err|]. assert (W : (1e-16 <= Rabs (amount s k))%R).
    { assert (K1 : (1 <= Rabs (IZR k))%R) by (rewrite <- abs_IZR; apply (IZR_le 1); lia). unfold amount. destruct (Z.leb_spec 0 s) as [P|P].
      - destruct (scales_ok s) as (p & _ & _ & _ & B); [lia|]. unfold Rdiv. rewrite Rabs_mult, (Rabs_pos_eq (/ _)); [|left; apply Rinv_0_lt_compat; lra].
        apply Rle_trans with (1 * / IZR (10 ^ s))%R; [|apply Rmult_le_compat_r; [left; apply Rinv_0_lt_compat|]; lra].
        apply Rle_trans with (/ 1e16)%R; [lra|]. replace (1 * / IZR (10 ^ s))%R with (/ IZR (10 ^ s))%R by ring. apply Rinv_le; lra.
      - pose proof (pow_pos (- s) ltac:(lia)) as B. rewrite Rabs_mult, (Rabs_pos_eq (IZR (10 ^ _))) by lra.
        apply Rle_trans with (1 * 1)%R; [lra|]. apply Rmult_le_compat; lra. }
    unfold uu, eta. lra.
Qed.

Lemma amount_bounded s k : -16 <= s <= 16 -> int_min <= k <= int_max -> (Rabs (amount s k) <= 1e30)%R.
Proof.
  intros Ss K. unfold int_min, int_max in K.
  pose proof (IZR_abs_le k (2 ^ 34) ltac:(lia)) as K1. change (IZR (2 ^ 34)) with 17179869184%R in K1. unfold amount. destruct (Z.leb_spec 0 s) as [P|P].
  - eapply Rle_trans; [apply rabs_div_bound; [exact K1|apply pow_pos; lia]|]. lra.
  - destruct (scales_ok (- s)) as (p & _ & _ & _ & B); [lia|]. eapply Rle_trans; [apply rabs_mul_bound; [exact K1|lra]|]. lra.
Qed.

(** A step, and what is far less than one. *)
Definition step (s : Z) : R := amount s 1.
Lemma amount_step s k : amount s k = (IZR k * step s)%R.
Proof. unfold step, amount. destruct (0 <=? s); unfold Rdiv; ring. Qed.
Lemma step_bounds s : -16 <= s <= 16 -> (/ 1e16 <= step s)%R.
Proof.
  intros Ss. unfold step, amount. destruct (Z.leb_spec 0 s) as [P|P].
  - destruct (scales_ok s) as (p & _ & _ & _ & B); [lia|]. replace (1 / IZR (10 ^ s))%R with (/ IZR (10 ^ s))%R by (unfold Rdiv; ring). apply Rinv_le; lra.
  - pose proof (pow_pos (- s) ltac:(lia)). lra.
Qed.

Lemma near_copy o c (y : f64) n : cell_ok c -> vi_type (c_info c) = TDecimal -> is_finite y = true ->
  (Rabs (B2R y - amount (vi_scale (c_info c)) n) <= 0.01 * step (vi_scale (c_info c)))%R -> vi_imin (c_info c) < n < vi_imax (c_info c) ->
  setd o c y = Done (with_val c (VInt n)).
Proof.
  intros Hc Tc Fy N R. pose proof Hc as [Hi _]. assert (Tn : is_numeric (vi_type (c_info c)) = true) by (rewrite Tc; reflexivity).
  destruct (info_ok_numeric _ Hi Tn) as (Hsc & I1 & I2 & _ & _ & _ & [F1 R1] & [F2 R2]). unfold int_min, int_max, scale_ok in *.
  set (s := vi_scale (c_info c)) in *. pose proof (step_bounds s Hsc) as Sb.
  assert (B : forall k, -2147483648 <= k <= 2147483647 -> (Rabs (rnd (amount s k) - IZR k * step s) <= 0.01 * step s)%R).
  { intros k K. rewrite <- amount_step. eapply Rle_trans; [apply amount_rounded; exact Hsc|]. rewrite amount_step, Rabs_mult, (Rabs_pos_eq (step s)) by lra.
    rewrite <- Rmult_assoc. apply Rmult_le_compat_r; [lra|]. pose proof (IZR_abs_le k 2147483648 ltac:(lia)). unfold uu. lra. }
  pose proof (B (vi_imin (c_info c)) ltac:(lia)) as B1. pose proof (B (vi_imax (c_info c)) ltac:(lia)) as B2. rewrite amount_step in N.
  assert (L1 : (IZR (vi_imin (c_info c)) * step s + step s <= IZR n * step s)%R).
  { replace (IZR (vi_imin (c_info c)) * step s + step s)%R with ((IZR (vi_imin (c_info c)) + 1) * step s)%R by ring. apply Rmult_le_compat_r; [lra|].
    rewrite <- (plus_IZR _ 1). apply IZR_le. lia. }
  assert (L2 : (IZR n * step s + step s <= IZR (vi_imax (c_info c)) * step s)%R).
  { replace (IZR n * step s + step s)%R with ((IZR n + 1) * step s)%R by ring. apply Rmult_le_compat_r; [lra|].
    rewrite <- (plus_IZR _ 1). apply IZR_le. lia. }
  destruct (setd_real o c y Hc Tc Fy) as (m & E & Rm & Nm).
  { rewrite R1, R2, !scaled_amount by lia. fold s. apply Rabs_le_inv in B1, B2, N. lra. }
  rewrite E. do 3 f_equal. fold s in Nm.
  assert (St : (Rabs (steps s (B2R y) - IZR n) <= 0.01)%R).
  { rewrite <- (steps_amount s n), <- steps_sub, amount_step. set (z := (B2R y - IZR n * step s)%R) in *. unfold steps, step, amount in *. destruct (Z.leb_spec 0 s) as [P|P].
    - pose proof (pow_pos s P). rewrite Rabs_mult, (Rabs_pos_eq (IZR _)) by lra. apply Rle_trans with (0.01 * (1 / IZR (10 ^ s)) * IZR (10 ^ s))%R; [apply Rmult_le_compat_r; lra|]. right. field. lra.
    - pose proof (pow_pos (- s) ltac:(lia)). assert (0 < / IZR (10 ^ (- s)))%R by (apply Rinv_0_lt_compat; lra).
      unfold Rdiv. rewrite Rabs_mult, (Rabs_pos_eq (/ _)) by lra. apply Rle_trans with (0.01 * (1 * IZR (10 ^ (- s))) * / IZR (10 ^ (- s)))%R; [apply Rmult_le_compat_r; lra|]. right. field. lra. }
  assert (Q : (Rabs (IZR m - IZR n) < 1)%R) by (split_Rabs; lra). rewrite <- minus_IZR, <- abs_IZR in Q. apply (lt_IZR _ 1) in Q. lia.
Qed.

(** Where the library has the units right and lists them once, the copy is exact if the new definition can
    represent the value, away from the ends of its range. *)
Theorem C64_units_exact repo o c src k n quantity units a b : sorted_repo repo -> info_ok (c_info src) -> is_numeric (vi_type (c_info src)) = true ->
  c_val src = Some (VInt k) -> int_min <= k <= int_max -> cell_ok c -> vi_type (c_info c) = TDecimal ->
  Conv.Properties.known (vi_unit (c_info src)) (vi_unit (c_info c)) -> vi_unit (c_info src) <> vi_unit (c_info c) ->
  Conv.Properties.not_si (vi_unit (c_info src)) (vi_unit (c_info c)) = false -> Conv.Properties.twice_listed (vi_unit (c_info src)) (vi_unit (c_info c)) = false ->
  In (quantity, units) si_units -> unit_of units (vi_unit (c_info src)) = Some a -> unit_of units (vi_unit (c_info c)) = Some b ->
  amount (vi_scale (c_info c)) n = (amount (vi_scale (c_info src)) k * Q2R (a / b))%R -> vi_imin (c_info c) < n < vi_imax (c_info c) ->
  setval (convert_units repo) o c src = Done (with_val c (VInt n)).
Proof.
  intros SR Hs Ts V K Hc Tc Kn Ne Nsi Ntw Iu Ua Ub A R. assert (Tn : is_numeric (vi_type (c_info c)) = true) by (rewrite Tc; reflexivity).
  destruct (setval_numeric (convert_units repo) o c src k Hs Ts Tn K V) as (d & F & D & ->).
  destruct (info_ok_numeric _ Hs Ts) as (Ss & _). unfold scale_ok in Ss. pose proof Hc as [Hi _]. destruct (info_ok_numeric _ Hi Tn) as (Sc & I1 & I2 & _). unfold scale_ok in Sc.
  assert (Nsc : Conv.Properties.not_scaling (vi_unit (c_info src)) (vi_unit (c_info c)) = false).
  { clear - Nsi. unfold Conv.Properties.not_si, Conv.Properties.not_scaling in *. cbn [existsb] in *. apply orb_false_iff in Nsi as [-> Nsi].
    apply orb_false_iff in Nsi as [-> Nsi]. apply orb_false_iff in Nsi as [-> _]. reflexivity. }
  pose proof (amount_rounded (vi_scale (c_info src)) k Ss) as Hr. rewrite <- D in Hr. pose proof (amount_bounded (vi_scale (c_info src)) k Ss K) as Wb.
  set (w := amount (vi_scale (c_info src)) k) in *.
  assert (Db : (Rabs (B2R d) <= 1e40)%R). { pose proof (Rabs_pos w). unfold uu in Hr. split_Rabs; lra. }
  destruct (Conv.Properties.C31_round_trip repo _ _ d SR Kn Ne Nsc F Db) as (y & z & Ey & _).
  destruct (check_si_ok (3 # 10000000000000000) (fun f t => Conv.Properties.not_si f t || Conv.Properties.twice_listed f t) repo (vi_unit (c_info src)) (vi_unit (c_info c)) d y check_exact) as (q' & u' & a' & b' & Iu' & Ea & Eb & Fy & Ny);
    [unfold Q2R; cbn [Qnum Qden]; lra|exact SR|cbv beta; rewrite Nsi, Ntw; reflexivity|exact Ne|exact Ey|exact F|exact Db|].
  rewrite Ey, <- (ratio_unique _ _ _ _ _ _ _ _ _ _ Iu Iu' Ua Ub Ea Eb) in *. clear Iu Iu' Ua Ub Ea Eb a' b' q' u'. set (f := Q2R (a / b)) in *.
  assert (Xd : (Rabs (B2R d * f - w * f) <= 2 * uu * Rabs (w * f))%R).
  { replace (B2R d * f - w * f)%R with ((B2R d - w) * f)%R by ring. rewrite !Rabs_mult. rewrite <- Rmult_assoc. apply Rmult_le_compat_r; [apply Rabs_pos|exact Hr]. }
  apply near_copy; auto. rewrite A. pose proof (step_bounds _ Sc) as Sb. set (s := vi_scale (c_info c)) in *.
  assert (Wn : (Rabs (w * f) <= 2147483648 * step s)%R).
  { rewrite <- A, amount_step, Rabs_mult, (Rabs_pos_eq (step s)) by lra. apply Rmult_le_compat_r; [lra|]. apply (IZR_abs_le n 2147483648). unfold int_min, int_max in *. lia. }
  assert (Nx : (Rabs (B2R y - w * f) <= 1e-15 * Rabs (w * f) + / 1e40)%R).
  { pose proof (Rabs_pos (w * f)). assert (Rabs (B2R d * f) <= (1 + 2 * uu) * Rabs (w * f))%R by (pose proof (Rabs_triang (B2R d * f - w * f) (w * f)) as T; replace (B2R d * f - w * f + w * f)%R with (B2R d * f)%R in T by ring; lra).
    replace (B2R y - w * f)%R with ((B2R y - B2R d * f) + (B2R d * f - w * f))%R by ring. eapply Rle_trans; [apply Rabs_triang|]. unfold uu, small, Q2R in *. cbn [Qnum Qden] in *. lra. }
  lra.
Qed.

(** ... and the way back gives the original. *)
Theorem C64_units_back repo o c src src0 k n quantity units a b : sorted_repo repo -> cell_ok src -> vi_type (c_info src) = TDecimal ->
  c_val src = Some (VInt k) -> vi_imin (c_info src) < k < vi_imax (c_info src) -> cell_ok src0 -> c_info src0 = c_info src -> cell_ok c -> vi_type (c_info c) = TDecimal ->
  Conv.Properties.known (vi_unit (c_info src)) (vi_unit (c_info c)) -> vi_unit (c_info src) <> vi_unit (c_info c) ->
  Conv.Properties.not_si (vi_unit (c_info src)) (vi_unit (c_info c)) = false -> Conv.Properties.twice_listed (vi_unit (c_info src)) (vi_unit (c_info c)) = false ->
  In (quantity, units) si_units -> unit_of units (vi_unit (c_info src)) = Some a -> unit_of units (vi_unit (c_info c)) = Some b ->
  amount (vi_scale (c_info c)) n = (amount (vi_scale (c_info src)) k * Q2R (a / b))%R -> vi_imin (c_info c) < n < vi_imax (c_info c) ->
  exists c1, setval (convert_units repo) o c src = Done c1 /\ c_info c1 = c_info c /\ setval (convert_units repo) o src0 c1 = Done src.
Proof.
  intros SR Hs Ts V Rk H0 I0 Hc Tc Kn Ne Nsi Ntw Iu Ua Ub A R. pose proof Hs as [Hi _]. pose proof Hc as [Hci _].
  assert (Tsn : is_numeric (vi_type (c_info src)) = true) by (rewrite Ts; reflexivity). assert (Tcn : is_numeric (vi_type (c_info c)) = true) by (rewrite Tc; reflexivity).
  pose proof (in_range_abs _ k Hi Tsn ltac:(lia)) as K. pose proof (in_range_abs _ n Hci Tcn ltac:(lia)) as Kc.
  exists (with_val c (VInt n)). split; [apply (C64_units_exact repo o c src k n quantity units a b); auto|]. split; [reflexivity|].
  assert (Sym : forall l : list (string * string), existsb (fun p => (String.eqb (fst p) (vi_unit (c_info c)) && String.eqb (snd p) (vi_unit (c_info src))) || (String.eqb (fst p) (vi_unit (c_info src)) && String.eqb (snd p) (vi_unit (c_info c)))) l =
    existsb (fun p => (String.eqb (fst p) (vi_unit (c_info src)) && String.eqb (snd p) (vi_unit (c_info c))) || (String.eqb (fst p) (vi_unit (c_info c)) && String.eqb (snd p) (vi_unit (c_info src)))) l).
  { intros l. induction l as [|p l IH]; [reflexivity|]. cbn [existsb]. rewrite IH. f_equal. apply orb_comm. }
  assert (P : (0 < Q2R a /\ 0 < Q2R b)%R).
  { assert (C : forallb (fun p => forallb (fun e => negb (Qle_bool (snd e) 0)) (snd p)) si_units = true) by (vm_compute; reflexivity).
    assert (U : forall x v, unit_of units x = Some v -> (0 < Q2R v)%R).
    { intros x v H. unfold unit_of in H. destruct (find _ units) as [e|] eqn:Fe; [|discriminate]. injection H as <-. apply find_some in Fe as [Fe _].
      rewrite forallb_forall in C. specialize (C _ Iu). cbn [snd] in C. rewrite forallb_forall in C. specialize (C _ Fe). apply negb_true_iff in C.
      destruct (Qlt_le_dec 0 (snd e)) as [L|L]; [apply Qlt_Rlt in L; rewrite RMicromega.Q2R_0 in L; exact L|]. apply Qle_bool_iff in L. congruence. }
    split; eapply U; eauto. }
  assert (E : setval (convert_units repo) o src0 (with_val c (VInt n)) = Done (with_val src0 (VInt k))).
  { apply (C64_units_exact repo o src0 (with_val c (VInt n)) n k quantity units b a); cbn [with_val c_info c_val]; rewrite ?I0; auto.
    - apply Conv.Properties.C31_both_ways. exact Kn.
    - unfold Conv.Properties.not_si in *. rewrite Sym. exact Nsi.
    - unfold Conv.Properties.twice_listed in *. rewrite Sym. exact Ntw.
    - rewrite A, !Q2R_div by (intros X; apply Qeq_eqR in X; rewrite RMicromega.Q2R_0 in X; lra). field. lra. }
  rewrite E. unfold with_val. rewrite I0. destruct src as [i w]. cbn in *. rewrite V. reflexivity.
Qed.

(** Units between which the library has no conversion: an error, and the variable keeps the value it had. *)
Theorem C64_unknown repo o c src k : sorted_repo repo -> info_ok (c_info src) -> is_numeric (vi_type (c_info src)) = true ->
  c_val src = Some (VInt k) -> int_min <= k <= int_max -> is_numeric (vi_type (c_info c)) = true ->
  ~ Conv.Properties.known (vi_unit (c_info src)) (vi_unit (c_info c)) -> vi_unit (c_info src) <> vi_unit (c_info c) ->
  setval (convert_units repo) o c src = Thrown EUnimpl c.
Proof.
  intros SR Hs Ts V K Tn Kn Ne. destruct (setval_numeric (convert_units repo) o c src k Hs Ts Tn K V) as (d & F & D & ->).
  destruct (Conv.Properties.C31_lookup repo (vi_unit (c_info src)) (vi_unit (c_info c)) d SR Ne) as [(cv & I & _)|[_ ->]]; [|reflexivity].
  contradiction Kn. exists cv. exact I.
Qed.

(** ** Text *)

(** Any value that can be read as text is copied to a text variable as that text, cut to its length; so the
    digits of a number too long for the variable are lost without notice. *)
Theorem C64_text conv o c src s : vi_type (c_info c) = TString -> enqs src = Ok s ->
  exists c', setval conv o c src = Done c' /\ c_info c' = c_info c /\ enqs c' = Ok (firstn (ilen (c_info c)) s).
Proof.
  intros T E. unfold enqs in E. inv_bind E. destruct (existsb (Z.eqb 0) a) eqn:X; [|discriminate]. injection Hk as <-. unfold setval.
  assert (S0 : isset src = true) by (unfold isset, enqc in *; destruct (c_val src); [reflexivity|discriminate]).
  rewrite S0. cbn [negb]. rewrite T, Hb. unfold assign_c_checked. rewrite Nat.ltb_irrefl.
  assert (Q : strncpy_str a (ilen (c_info c)) = Some (firstn (ilen (c_info c)) (cstr a))).
  { generalize (ilen (c_info c)) as n. clear - X. unfold strncpy_str. intros n.
    assert (C1 : cstr (firstn n a) = firstn n (cstr a)).
    { clear X. revert n. induction a as [|x a IH]; intros [|n]; cbn; auto. destruct (x =? 0); cbn; auto. rewrite IH. reflexivity. }
    assert (C2 : (length (cstr a) < length a)%nat).
    { clear C1. induction a as [|x a IH]; [discriminate|]. cbn [cstr length existsb] in *. destruct (Z.eqb_spec x 0); cbn [length]; [lia|]. replace (0 =? x) with false in X by lia. cbn [orb] in X. specialize (IH X). lia. }
    rewrite C1. replace (Nat.eqb (length (firstn n (cstr a))) (length a)) with false; [rewrite andb_false_r; reflexivity|].
    symmetry. apply Nat.eqb_neq. rewrite firstn_length. lia. }
  rewrite Q. eexists. split; [reflexivity|]. split; [reflexivity|]. unfold enqs, enqc. cbn [with_val c_val c_info]. rewrite T. cbn [bind].
  rewrite existsb_app. cbn. rewrite orb_true_r.
  assert (N : Forall (fun ch => ch <> 0) (firstn (ilen (c_info c)) (cstr a))).
  { pose proof (cstr_no_zero a) as Z0. rewrite Forall_forall in *. intros x I. apply Z0. rewrite <- (firstn_skipn (ilen (c_info c)) (cstr a)). apply in_or_app. auto. }
  apply f_equal. clear - N. induction N as [|x l Hx _ IH]; [reflexivity|]. cbn [app cstr]. replace (x =? 0) with false by lia. rewrite IH. reflexivity.
Qed.

(** Text copied to a number is refused and the number kept. *)
Theorem C64_text_to_number conv o c src s : is_numeric (vi_type (c_info c)) = true -> vi_type (c_info src) = TString -> c_val src = Some (VStr s) ->
  setval conv o c src = Thrown EType c.
Proof.
  intros Tc Ts V. unfold setval, isset, enqd. rewrite V, Ts. cbn [negb bind]. destruct (vi_type (c_info c)); try discriminate; reflexivity.
Qed.

(** A binary variable longer than what it is copied from is filled by reading after the end of the source. *)
Theorem C64_binary_refuted conv o c src buf : vi_type (c_info c) = TBinary -> enqc src = Ok buf -> (length buf < ilen (c_info c))%nat ->
  setval conv o c src = Undef.
Proof.
  intros T E L. unfold setval. assert (S0 : isset src = true) by (unfold isset, enqc in *; destruct (c_val src); [reflexivity|discriminate]).
  rewrite S0. cbn [negb]. rewrite T, E. unfold assign_b_checked. rewrite Nat.ltb_irrefl. replace (Nat.ltb (length buf) (ilen (c_info c))) with true by lia. reflexivity.
Qed.

(** With enough bytes in the source its first ones are copied, less the bits above the declared number. *)
Theorem C64_binary conv o c src buf : vi_type (c_info c) = TBinary -> enqc src = Ok buf -> (0 < ilen (c_info c) <= length buf)%nat ->
  setval conv o c src = Done (with_val c (VBin (mask_last (c_info c) (firstn (ilen (c_info c)) buf)))).
Proof.
  intros T E L. unfold setval. assert (S0 : isset src = true) by (unfold isset, enqc in *; destruct (c_val src); [reflexivity|discriminate]).
  rewrite S0. cbn [negb]. rewrite T, E. unfold assign_b_checked. rewrite Nat.ltb_irrefl. replace (Nat.ltb (length buf) (ilen (c_info c))) with false by lia.
  replace (Nat.eqb (ilen (c_info c)) 0) with false by lia. rewrite andb_false_r. reflexivity.
Qed.

(** ** Examples *)

(** 273.1 K with one decimal, copied to a definition in kelvin with two decimals, to one in degrees Celsius
    with two decimals, and back. *)
Definition kelvin1 : res varinfo := set_bufr (wr_var 0 12 1) "K" 1 4 0 12.
Definition celsius2 : res varinfo := set_bufr (wr_var 0 12 101) "C" 2 5 (-30000) 17.
Definition pascal : res varinfo := set_bufr (wr_var 0 10 4) "PA" (-1) 5 0 14.
Definition hecto : res varinfo := set_bufr (wr_var 0 10 4) "hPa" 1 5 0 14.

Example C64_example : exists i j k, kelvin1 = Ok i /\ Var.Properties.temp = Ok j /\ celsius2 = Ok k /\
  let src := mkcell i (Some (VInt 2731)) in
  setval (convert_units (sort_repo repo0)) default_options (fresh j) src = Done (mkcell j (Some (VInt 27310))) /\
  setval (convert_units (sort_repo repo0)) default_options (fresh k) src = Done (mkcell k (Some (VInt (-5)))) /\
  setval (convert_units (sort_repo repo0)) default_options (fresh i) (mkcell j (Some (VInt 27310))) = Done src.
Proof.
  destruct (res_view kelvin1 (fun i => (vi_type i, vi_imin i, vi_imax i, vi_scale i, vi_unit i)) (TDecimal, 0, 4094, 1, "K"%string) ltac:(vm_compute; reflexivity)) as (i & Ei & Vi).
  destruct (res_view Var.Properties.temp (fun i => (vi_type i, vi_imin i, vi_imax i, vi_scale i, vi_unit i)) (TDecimal, 0, 65534, 2, "K"%string) ltac:(vm_compute; reflexivity)) as (j & Ej & Vj).
  destruct (res_view celsius2 (fun i => (vi_type i, vi_imin i, vi_imax i, vi_scale i, vi_unit i)) (TDecimal, -30000, 99998, 2, "C"%string) ltac:(vm_compute; reflexivity)) as (k & Ek & Vk).
  injection Vi as A1 A2 A3 A4 A5. injection Vj as B1 B2 B3 B4 B5. injection Vk as C1 C2 C3 C4 C5. exists i, j, k. split; [exact Ei|]. split; [exact Ej|]. split; [exact Ek|]. cbv zeta.
  assert (Hi : info_ok i) by (unfold kelvin1 in Ei; eapply (set_bufr_ok _ _ _ _ _ _ _) in Ei; auto; try (unfold int_min, int_max; lia); apply Ei).
  assert (Hj : info_ok j) by (unfold Var.Properties.temp in Ej; eapply (set_bufr_ok _ _ _ _ _ _ _) in Ej; auto; try (unfold int_min, int_max; lia); apply Ej).
  assert (Hk : info_ok k) by (unfold celsius2 in Ek; eapply (set_bufr_ok _ _ _ _ _ _ _) in Ek; auto; try (unfold int_min, int_max; lia); apply Ek).
  clear Ei Ej Ek. assert (N : forall t, t = TDecimal -> is_numeric t = true) by (intros t ->; reflexivity). unfold int_min, int_max.
  split; [|split].
  - apply (C64_exact _ _ (fresh j) _ 2731 27310); cbn [fresh c_info c_val]; auto; unfold int_min, int_max; try lia; [congruence|].
    rewrite A4, B4. apply (amount_finer 1 2 2731). lia.
  - apply (C64_kelvin _ _ (fresh k) _ 2731 (-5)); cbn [fresh c_info c_val]; auto; unfold int_min, int_max; try lia; [apply sort_is_sorted|split; cbn; auto|rewrite A4; unfold amount; cbn; split_Rabs; lra|].
    left. split; [exact A5|]. split; [exact C5|]. rewrite A4, C4. unfold amount. cbn. lra.
  - apply (C64_exact _ _ (fresh i) _ 27310 2731); cbn [fresh c_info c_val]; auto; unfold int_min, int_max; try lia; [congruence|].
    rewrite A4, B4. symmetry. apply (amount_finer 1 2 2731). lia.
Qed.

(** 101320 Pa is 1013.2 hPa, a pair of units that C64_units is about; a text of three characters keeps three
    of the digits of 12345. *)
Example C64_units_example : Conv.Properties.known "PA" "hPa" /\ Conv.Properties.not_si "PA" "hPa" = false /\ Conv.Properties.twice_listed "PA" "hPa" = false /\
  (exists units a b, In ("pressure"%string, units) si_units /\ unit_of units "PA" = Some a /\ unit_of units "hPa" = Some b /\ amount 1 10132 = (amount (-1) 10132 * Q2R (a / b))%R) /\
  (i <- pascal ;; j <- hecto ;; match setval (convert_units (sort_repo repo0)) default_options (fresh j) (mkcell i (Some (VInt 10132))) with
                                | Done c => Ok (c_val c) | _ => Err EFuel end) = Ok (Some (VInt 10132)).
Proof.
  split; [|split; [vm_compute; reflexivity|split; [vm_compute; reflexivity|split; [|vm_compute; reflexivity]]]].
  2: { eexists _, 1%Q, 100%Q. split; [unfold si_units; cbn [In]; do 3 right; left; reflexivity|]. split; [reflexivity|]. split; [reflexivity|].
    unfold amount, Q2R. cbn. lra. }
  unfold Conv.Properties.known. assert (H : existsb (fun c => String.eqb (cv_from c) "PA" && String.eqb (cv_to c) "hPa") repo0 = true) by (vm_compute; reflexivity).
  apply existsb_exists in H as ([f t c] & I & Q). cbn [cv_from cv_to] in Q. apply andb_true_iff in Q as [Q1 Q2]. apply String.eqb_eq in Q1, Q2. subst. exists c. exact I.
Qed.

Example C64_text_example :
  (i <- pascal ;; j <- set_bufr (wr_var 0 1 11) "CCITTIA5" 0 3 0 24 ;;
   match setval (convert_units (sort_repo repo0)) default_options (fresh j) (mkcell i (Some (VInt 12345))) with Done c => enqs c | _ => Err EFuel end) = Ok [49; 50; 51].
Proof. vm_compute. reflexivity. Qed.

Print Assumptions C64_exact.
Print Assumptions C64_there_and_back.
Print Assumptions C64_kelvin.
Print Assumptions C64_units.
Print Assumptions C64_units_exact.
Print Assumptions C64_units_back.
Print Assumptions C64_text.

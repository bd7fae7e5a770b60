From Coq Require Import ZArith Bool Reals Lra Psatz ZifyBool String.
From Flocq Require Import Core BinarySingleNaN.
From Verif Require Import Base Num.Float Num.FloatProofs Varcode.Model Varinfo.Model.
Local Open Scope R_scope.

Definition scale_ok (s : Z) : Prop := (-16 <= s <= 16)%Z.

Lemma scales_ok i : (0 <= i <= 16)%Z -> exists p : f64, scales i = Ok p /\
  is_finite p = true /\ B2R p = IZR (10 ^ i) /\ 1 <= IZR (10 ^ i) <= 1e16.
Proof.
  intros H. exists (f_of_Z (10 ^ i)). unfold scales.
  replace ((0 <=? i) && (i <=? 16))%Z with true by lia.
  destruct (f_pow10_ok i H) as [F E]. pose proof (pow10_bounds i H) as [L U].
  repeat split; auto; [apply IZR_le; auto|].
  apply Rle_trans with (IZR (10 ^ 16)); [apply IZR_le; auto|]. lra.
Qed.

(** The real value denoted by the scaled integer. *)
Definition scaled (s k : Z) : R :=
  if (0 <? s)%Z then rnd (IZR k / IZR (10 ^ s))
  else if (s <? 0)%Z then rnd (IZR k * IZR (10 ^ (- s)))
  else IZR k.

Lemma IZR_abs_le k m : (Z.abs k <= m)%Z -> Rabs (IZR k) <= IZR m.
Proof. intros H. rewrite <- abs_IZR. apply IZR_le; auto. Qed.

Lemma rabs_mul_bound a P b : Rabs a <= b -> 1 <= P <= 1e16 -> Rabs (a * P) <= b * 1e16.
Proof.
  intros H HP. rewrite Rabs_mult, (Rabs_pos_eq P) by lra.
  apply Rmult_le_compat; try lra. apply Rabs_pos.
Qed.
Lemma rabs_div_bound a P b : Rabs a <= b -> 1 <= P -> Rabs (a / P) <= b.
Proof.
  intros H HP. unfold Rdiv. rewrite Rabs_mult.
  assert (0 < / P <= 1). { split; [apply Rinv_0_lt_compat; lra|]. rewrite <- Rinv_1. apply Rinv_le; lra. }
  rewrite (Rabs_pos_eq (/ P)) by lra. pose proof (Rabs_pos a).
  rewrite <- (Rmult_1_r b). apply Rmult_le_compat; lra.
Qed.

Lemma decode_scaled s k (v : f64) : scale_ok s -> (Z.abs k <= 2 ^ 34)%Z -> is_finite v = true -> B2R v = IZR k ->
  exists d : f64, (if (0 <? s)%Z then p <- scales s ;; Ok (fdiv v p)
             else if (s <? 0)%Z then p <- scales (- s) ;; Ok (fmul v p) else Ok v) = Ok d /\
  is_finite d = true /\ B2R d = scaled s k.
Proof.
  intros Hs Hk Fv Ev. unfold scale_ok in Hs. pose proof big_ge as BG.
  pose proof (IZR_abs_le _ _ Hk) as K. change (IZR (2 ^ 34)) with 17179869184 in K.
  unfold scaled. destruct (Z.ltb_spec 0 s); [|destruct (Z.ltb_spec s 0)].
  - destruct (scales_ok s) as (p & -> & Fp & Ep & B); [lia|]. cbn [bind].
    destruct (fdiv_ok v p) as [F E]; auto.
    + rewrite Ep. lra.
    + rewrite Ev, Ep. eapply Rle_trans; [apply rabs_div_bound; [exact K|lra]|lra].
    + eexists; split; [reflexivity|]. rewrite E, Ev, Ep. auto.
  - destruct (scales_ok (- s)) as (p & -> & Fp & Ep & B); [lia|]. cbn [bind].
    destruct (fmul_ok v p) as [F E]; auto.
    + rewrite Ev, Ep. eapply Rle_trans; [apply rabs_mul_bound; [exact K|lra]|lra].
    + eexists; split; [reflexivity|]. rewrite E, Ev, Ep. auto.
  - exists v. auto.
Qed.

Lemma decode_decimal_ok s k : scale_ok s -> (Z.abs k <= 2 ^ 34)%Z ->
  exists d : f64, decode_decimal s k = Ok d /\ is_finite d = true /\ B2R d = scaled s k.
Proof.
  intros Hs Hk. destruct (f_of_Z_ok k) as [F E]; [lia|].
  apply (decode_scaled s k (f_of_Z k)); auto.
Qed.

(** Scaling back lands next to the integer. *)
Lemma scale_back s k (d : f64) : scale_ok s -> (Z.abs k <= 2 ^ 34)%Z -> is_finite d = true -> B2R d = scaled s k ->
  exists e : f64, (if (0 <? s)%Z then p <- scales s ;; Ok (fmul d p)
             else if (s <? 0)%Z then p <- scales (- s) ;; Ok (fdiv d p) else Ok d) = Ok e /\
  is_finite e = true /\ Rabs (B2R e - IZR k) <= tiny.
Proof.
  intros Hs Hk Fd Ed. unfold scale_ok in Hs. pose proof big_ge as BG.
  pose proof (IZR_abs_le _ _ Hk) as K. change (IZR (2 ^ 34)) with 17179869184 in K.
  unfold scaled in Ed. destruct (Z.ltb_spec 0 s); [|destruct (Z.ltb_spec s 0)].
  - destruct (scales_ok s) as (p & -> & Fp & Ep & B); [lia|]. cbn [bind].
    assert (Dd : Rabs (B2R d) <= 1e20).
    { pose proof (rnd_err (IZR k / IZR (10 ^ s))) as R.
      pose proof (rabs_div_bound _ (IZR (10 ^ s)) _ K ltac:(lra)) as Q.
      rewrite Ed. unfold uu, eta in R. split_Rabs; lra. }
    destruct (fmul_ok d p) as [F E]; auto.
    + rewrite Ep. eapply Rle_trans; [apply rabs_mul_bound; [exact Dd|lra]|lra].
    + eexists; split; [reflexivity|]. split; auto. rewrite E, Ed, Ep. apply unscale_div_mul; auto.
  - destruct (scales_ok (- s)) as (p & -> & Fp & Ep & B); [lia|]. cbn [bind].
    assert (Dd : Rabs (B2R d) <= 1e40).
    { pose proof (rnd_err (IZR k * IZR (10 ^ (- s)))) as R.
      pose proof (rabs_mul_bound _ (IZR (10 ^ (-s))) _ K ltac:(lra)) as Q.
      rewrite Ed. unfold uu, eta in R. split_Rabs; lra. }
    destruct (fdiv_ok d p) as [F E]; auto.
    + rewrite Ep. lra.
    + rewrite Ep. eapply Rle_trans; [apply rabs_div_bound; [exact Dd|lra]|lra].
    + eexists; split; [reflexivity|]. split; auto. rewrite E, Ed, Ep. apply unscale_mul_div; auto.
  - exists d. split; auto. split; auto. rewrite Ed. replace (IZR k - IZR k) with 0 by ring.
    rewrite Rabs_R0. unfold tiny. lra.
Qed.

Lemma encode_decimal_alt s d : encode_decimal s d =
  (e <- (if (0 <? s)%Z then p <- scales s ;; Ok (fmul d p)
         else if (s <? 0)%Z then p <- scales (- s) ;; Ok (fdiv d p) else Ok d) ;;
   f_to_int (frint e)).
Proof.
  unfold encode_decimal. destruct (0 <? s)%Z; [destruct (scales s); reflexivity|].
  destruct (s <? 0)%Z; [destruct (scales (- s)); reflexivity|reflexivity].
Qed.

Lemma encode_scaled s k (d : f64) : scale_ok s -> (int_min <= k <= int_max)%Z ->
  is_finite d = true -> B2R d = scaled s k -> encode_decimal s d = Ok k.
Proof.
  intros Hs Hk Fd Ed. unfold int_min, int_max in Hk.
  destruct (scale_back s k d) as (e & E & Fe & Ne); auto; [lia|].
  rewrite encode_decimal_alt, E. cbn [bind].
  destruct (frint_near e k) as (A & B & C); auto; [unfold tiny in Ne; lra|].
  apply f_to_Z_range_ok; auto.
Qed.

Lemma encode_decode_decimal s k : scale_ok s -> (int_min <= k <= int_max)%Z ->
  exists d : f64, decode_decimal s k = Ok d /\ encode_decimal s d = Ok k.
Proof.
  intros Hs Hk. destruct (decode_decimal_ok s k) as (d & E & F & R); auto.
  { unfold int_min, int_max in Hk. lia. }
  exists d. split; auto. apply encode_scaled; auto.
Qed.

(** Monotonicity. *)
Lemma scaled_le s a b : scale_ok s -> (a <= b)%Z -> scaled s a <= scaled s b.
Proof.
  intros Hs H. unfold scaled, scale_ok in *. apply IZR_le in H.
  destruct (Z.ltb_spec 0 s); [|destruct (Z.ltb_spec s 0)]; auto; apply rnd_le.
  - destruct (scales_ok s) as (_ & _ & _ & _ & B); [lia|]. apply Rmult_le_compat_r; auto.
    apply Rlt_le, Rinv_0_lt_compat. lra.
  - destruct (scales_ok (- s)) as (_ & _ & _ & _ & B); [lia|]. apply Rmult_le_compat_r; lra.
Qed.

Lemma scaled_inj s a b : scale_ok s -> (Z.abs a <= 2 ^ 34)%Z -> (Z.abs b <= 2 ^ 34)%Z ->
  scaled s a = scaled s b -> a = b.
Proof.
  intros Hs Ha Hb E.
  destruct (decode_decimal_ok s a) as (d & _ & F & R); auto.
  destruct (scale_back s a d) as (e & E1 & Fe & Ne); auto.
  destruct (scale_back s b d) as (e' & E2 & Fe' & Ne'); auto; [congruence|].
  rewrite E1 in E2. injection E2 as <-.
  destruct (frint_near e a) as (_ & _ & C); auto; [unfold tiny in Ne; lra|].
  destruct (frint_near e b) as (_ & _ & C'); auto; [unfold tiny in Ne'; lra|]. congruence.
Qed.

Lemma scaled_lt s a b : scale_ok s -> (Z.abs a <= 2 ^ 34)%Z -> (Z.abs b <= 2 ^ 34)%Z ->
  (a < b)%Z -> scaled s a < scaled s b.
Proof.
  intros Hs Ha Hb H. destruct (scaled_le s a b Hs ltac:(lia)) as [|E]; auto.
  apply scaled_inj in E; auto. lia.
Qed.

Lemma flt_scaled s a b (da db : f64) : scale_ok s -> (Z.abs a <= 2 ^ 34)%Z -> (Z.abs b <= 2 ^ 34)%Z ->
  is_finite da = true -> B2R da = scaled s a -> is_finite db = true -> B2R db = scaled s b ->
  flt da db = (a <? b)%Z.
Proof.
  intros Hs Ha Hb Fa Ea Fb Eb. rewrite flt_spec, Ea, Eb by auto.
  destruct (Z.ltb_spec a b).
  - apply Rlt_bool_true. apply scaled_lt; auto.
  - apply Rlt_bool_false. apply scaled_le; auto.
Qed.

(** decode_binary denotes the scaled integer ival + bit_ref. *)
Lemma decode_binary_ok i ival : (vi_bit_len i <> 0)%Z -> scale_ok (vi_scale i) ->
  (0 <= ival < 2 ^ 32)%Z -> (int_min <= vi_bit_ref i <= int_max)%Z ->
  exists d : f64, decode_binary i ival = Ok d /\ is_finite d = true /\
    B2R d = scaled (vi_scale i) (ival + vi_bit_ref i).
Proof.
  intros Hl Hs Hi Hr. unfold int_min, int_max in Hr. unfold decode_binary.
  replace (vi_bit_len i =? 0)%Z with false by lia.
  destruct (f_of_Z_ok ival) as [F1 E1]; [lia|].
  destruct (f_of_Z_ok (vi_bit_ref i)) as [F2 E2]; [lia|].
  assert (Hsum : (Z.abs (ival + vi_bit_ref i) <= 2 ^ 34)%Z) by lia.
  pose proof (IZR_abs_le _ _ Hsum) as K. change (IZR (2 ^ 34)) with 17179869184 in K.
  pose proof big_ge as BG.
  destruct (fadd_ok (f_of_Z ival) (f_of_Z (vi_bit_ref i))) as [F E]; auto.
  { rewrite E1, E2, <- plus_IZR. lra. }
  rewrite E1, E2, <- plus_IZR in E. rewrite rnd_generic in E by (apply format_Z; lia).
  set (v := fadd _ _) in *.
  destruct (decode_scaled (vi_scale i) (ival + vi_bit_ref i) v) as (d & D & Fd & Ed); auto.
  destruct (Z.ltb_spec 0 (vi_scale i)); [|destruct (Z.ltb_spec (vi_scale i) 0)].
  - exists d. replace (0 <=? vi_scale i)%Z with true by lia. auto.
  - exists d. replace (0 <=? vi_scale i)%Z with false by lia. auto.
  - (* division by 1.0 *)
    assert (vi_scale i = 0)%Z as Z0 by lia. rewrite Z0. cbn [Z.leb Z.compare scales andb bind].
    injection D as <-.
    destruct (fdiv_ok v (f_of_Z (10 ^ 0))) as [F' E']; auto.
    + destruct (f_pow10_ok 0) as [_ ->]; [lia|]. cbn. lra.
    + destruct (f_pow10_ok 0) as [_ ->]; [lia|]. cbn. rewrite E. unfold Rdiv. rewrite Rinv_1, Rmult_1_r. lra.
    + eexists. split; [reflexivity|]. split; auto. rewrite E'.
      destruct (f_pow10_ok 0) as [_ ->]; [lia|]. cbn [Z.pow].
      rewrite E. unfold Rdiv. rewrite Rinv_1, Rmult_1_r. rewrite rnd_generic by (apply format_Z; lia).
      reflexivity.
Qed.

Lemma encode_binary_alt i d : vi_bit_len i <> 0%Z -> encode_binary i d =
  (e <- (if (0 <? vi_scale i)%Z then p <- scales (vi_scale i) ;; Ok (fmul d p)
         else if (vi_scale i <? 0)%Z then p <- scales (- vi_scale i) ;; Ok (fdiv d p) else Ok d) ;;
   let x := frint (fsub e (f_of_Z (vi_bit_ref i))) in
   if flt x fzero then Err EConsistency else f_to_unsigned x).
Proof.
  intros H. unfold encode_binary. replace (vi_bit_len i =? 0)%Z with false by lia.
  destruct (0 <? vi_scale i)%Z; [destruct (scales (vi_scale i)); reflexivity|].
  destruct (vi_scale i <? 0)%Z; [destruct (scales (- vi_scale i)); reflexivity|reflexivity].
Qed.

(** encode_binary of the double denoting the scaled integer k gives k - bit_ref. *)
Lemma encode_binary_scaled i k (d : f64) : (vi_bit_len i <> 0)%Z -> scale_ok (vi_scale i) ->
  (int_min <= vi_bit_ref i <= int_max)%Z -> (Z.abs k <= 2 ^ 34)%Z ->
  is_finite d = true -> B2R d = scaled (vi_scale i) k ->
  encode_binary i d = if (k <? vi_bit_ref i)%Z then Err EConsistency
                      else if (k - vi_bit_ref i <? 2 ^ 32)%Z then Ok (k - vi_bit_ref i)%Z else UB.
Proof.
  intros Hl Hs Hr Hk Fd Ed. unfold int_min, int_max in Hr. pose proof big_ge as BG.
  pose proof (IZR_abs_le _ _ Hk) as K. change (IZR (2 ^ 34)) with 17179869184 in K.
  assert (Hr' : (Z.abs (vi_bit_ref i) <= 2 ^ 33)%Z) by lia.
  pose proof (IZR_abs_le _ _ Hr') as R. change (IZR (2 ^ 33)) with 8589934592 in R.
  destruct (scale_back (vi_scale i) k d) as (e & E & Fe & Ne); auto.
  rewrite encode_binary_alt, E by auto. cbn [bind]. cbv zeta.
  destruct (f_of_Z_ok (vi_bit_ref i)) as [F2 E2]; [lia|].
  destruct (fsub_ok e (f_of_Z (vi_bit_ref i))) as [F3 E3]; auto.
  { rewrite E2. unfold tiny in Ne. split_Rabs; lra. }
  rewrite E2 in E3.
  pose proof (sub_ref_near (B2R e) k (vi_bit_ref i) Hk Hr' Ne) as N. rewrite <- E3 in N.
  destruct (frint_near (fsub e (f_of_Z (vi_bit_ref i))) (k - vi_bit_ref i)) as (A & B & C); auto.
  { unfold tiny in N. lra. }
  set (x := frint _) in *.
  rewrite flt_spec by auto. rewrite B. change (B2R fzero) with 0.
  destruct (Z.ltb_spec k (vi_bit_ref i)).
  - rewrite Rlt_bool_true; auto. apply IZR_lt. lia.
  - rewrite Rlt_bool_false by (apply IZR_le; lia).
    unfold f_to_unsigned, f_to_Z_range. rewrite A, C.
    destruct (Z.ltb_spec (k - vi_bit_ref i) (2 ^ 32)).
    + replace ((0 <=? k - vi_bit_ref i) && (k - vi_bit_ref i <=? 2 ^ 32 - 1))%Z with true by lia. reflexivity.
    + replace ((0 <=? k - vi_bit_ref i) && (k - vi_bit_ref i <=? 2 ^ 32 - 1))%Z with false by lia. reflexivity.
Qed.

Lemma encode_decode_binary i ival : (vi_bit_len i <> 0)%Z -> scale_ok (vi_scale i) ->
  (0 <= ival < 2 ^ 32)%Z -> (int_min <= vi_bit_ref i <= int_max)%Z ->
  exists d : f64, decode_binary i ival = Ok d /\ encode_binary i d = Ok ival.
Proof.
  intros Hl Hs Hi Hr. destruct (decode_binary_ok i ival) as (d & D & F & E); auto.
  exists d. split; auto. rewrite (encode_binary_scaled i (ival + vi_bit_ref i)); auto.
  - replace (ival + vi_bit_ref i <? vi_bit_ref i)%Z with false by lia.
    replace (ival + vi_bit_ref i - vi_bit_ref i)%Z with ival by ring.
    replace (ival <? 2 ^ 32)%Z with true by lia. reflexivity.
  - unfold int_min, int_max in Hr. lia.
Qed.

(** round_decimal leaves representable values alone. *)
Lemma round_decode s k : scale_ok s -> (Z.abs k <= 2 ^ 34)%Z ->
  exists d r : f64, decode_decimal s k = Ok d /\ round_decimal s d = Ok r /\ feq r d = true.
Proof.
  intros Hs Hk. destruct (decode_decimal_ok s k) as (d & D & Fd & Ed); auto.
  destruct (scale_back s k d) as (e & E & Fe & Ne); auto.
  destruct (fround_near e k) as (A & B & C); auto; [unfold tiny in Ne; lra|].
  destruct (decode_scaled s k (fround e)) as (r & R & Fr & Er); auto.
  exists d, r. split; auto. split.
  - unfold round_decimal. destruct (0 <? s)%Z.
    + destruct (scales s) as [p| |]; try discriminate. cbn [bind] in *. injection E as <-. exact R.
    + destruct (s <? 0)%Z.
      * destruct (scales (- s)) as [p| |]; try discriminate. cbn [bind] in *. injection E as <-. exact R.
      * injection E as <-. exact R.
  - apply feq_spec; auto. congruence.
Qed.

(** encode_decimal returns an integer next to the scaled argument. *)
Lemma encode_decimal_nearest s (d : f64) : scale_ok s -> is_finite d = true ->
  let x := if (0 <=? s)%Z then B2R d * IZR (10 ^ s) else B2R d / IZR (10 ^ (- s)) in
  Rabs x <= 2147483647 ->
  exists n, encode_decimal s d = Ok n /\ Rabs (IZR n - x) <= / 2 + tiny.
Proof.
  intros Hs Fd x Hx. pose proof big_ge as BG. unfold scale_ok in Hs.
  assert (Q : exists e : f64, (if (0 <? s)%Z then p <- scales s ;; Ok (fmul d p)
             else if (s <? 0)%Z then p <- scales (- s) ;; Ok (fdiv d p) else Ok d) = Ok e /\
             is_finite e = true /\ Rabs (B2R e - x) <= / 1000000 /\ Rabs (B2R e) <= 2147483647).
  { assert (G : forall y, Rabs y <= 2147483647 -> Rabs (rnd y - y) <= / 1000000 /\ Rabs (rnd y) <= 2147483647).
    { intros y Hy. split.
      - eapply Rle_trans; [apply rnd_err|]. unfold uu, eta. lra.
      - unfold rnd. apply abs_round_le_generic; auto with typeclass_instances. apply (format_Z 2147483647). lia. }
    unfold x in *. destruct (Z.ltb_spec 0 s); [|destruct (Z.ltb_spec s 0)].
    - replace (0 <=? s)%Z with true in * by lia.
      destruct (scales_ok s) as (p & -> & Fp & Ep & B); [lia|]. cbn [bind].
      destruct (fmul_ok d p) as [F E]; auto; [rewrite Ep; lra|].
      eexists; split; [reflexivity|]. split; auto. rewrite E, Ep. apply G; auto.
    - replace (0 <=? s)%Z with false in * by lia.
      destruct (scales_ok (- s)) as (p & -> & Fp & Ep & B); [lia|]. cbn [bind].
      destruct (fdiv_ok d p) as [F E]; auto; [rewrite Ep; lra|rewrite Ep; lra|].
      eexists; split; [reflexivity|]. split; auto. rewrite E, Ep. apply G; auto.
    - replace (0 <=? s)%Z with true in * by lia. assert (s = 0)%Z as -> by lia.
      change (IZR (10 ^ 0)) with 1 in *. rewrite Rmult_1_r in *. eexists; split; [reflexivity|].
      split; auto. split; auto. replace (B2R d - B2R d) with 0 by ring. rewrite Rabs_R0. lra. }
  destruct Q as (e & E & Fe & Ne & Be).
  rewrite encode_decimal_alt, E. cbn [bind].
  destruct (Bnearbyint_correct 53 1024 _ mode_NE e) as (E' & F' & _).
  rewrite round_FIX0 in E'. change (round_mode mode_NE) with ZnearestE in E'.
  pose proof (Znearest_half (fun n => negb (Z.even n)) (B2R e)) as Hh.
  exists (ZnearestE (B2R e)). split.
  - apply f_to_Z_range_ok.
    + unfold frint. congruence.
    + apply Btrunc_Z. exact E'.
    + assert (A : (- 2147483647 <= ZnearestE (B2R e) <= 2147483647)%Z).
      { rewrite <- (Zrnd_IZR ZnearestE (-2147483647)), <- (Zrnd_IZR ZnearestE 2147483647).
        split; apply Zrnd_le; auto with typeclass_instances; split_Rabs; lra. }
      unfold int_min, int_max. lia.
  - unfold tiny. split_Rabs; lra.
Qed.

From Coq Require Import Reals Lra Psatz ZifyBool ZifyNat String.
From Flocq Require Import Core BinarySingleNaN.
From Verif Require Import Base Bits.Spec Num.Float Num.FloatProofs Varcode.Model Varinfo.Model
  Varinfo.Proofs Varinfo.RangeProofs Var.Model Var.Spec.
Local Open Scope Z_scope.
Ltac Zify.zify_post_hook ::= Z.div_mod_to_equations.

(** ** Encoding a double between two representable values *)

Local Open Scope R_scope.

Lemma scaled_bound s k : scale_ok s -> (Z.abs k <= 2 ^ 34)%Z -> Rabs (scaled s k) <= 1e40.
Proof.
  intros Hs Hk. pose proof (IZR_abs_le _ _ Hk) as K. change (IZR (2 ^ 34)) with 17179869184 in K.
  unfold scaled, scale_ok in *. destruct (Z.ltb_spec 0 s); [|destruct (Z.ltb_spec s 0)].
  - destruct (scales_ok s) as (_ & _ & _ & _ & B); [lia|].
    pose proof (rnd_err (IZR k / IZR (10 ^ s))) as R.
    pose proof (rabs_div_bound _ (IZR (10 ^ s)) _ K ltac:(lra)) as Q.
    unfold uu, eta in R. split_Rabs; lra.
  - destruct (scales_ok (- s)) as (_ & _ & _ & _ & B); [lia|].
    pose proof (rnd_err (IZR k * IZR (10 ^ (- s)))) as R.
    pose proof (rabs_mul_bound _ (IZR (10 ^ (-s))) _ K ltac:(lra)) as Q.
    unfold uu, eta in R. split_Rabs; lra.
  - lra.
Qed.

Lemma scale_back_mono s (d1 d2 : f64) e1 e2 : scale_ok s ->
  is_finite d1 = true -> is_finite d2 = true -> Rabs (B2R d1) <= 1e40 -> Rabs (B2R d2) <= 1e40 ->
  B2R d1 <= B2R d2 ->
  (if (0 <? s)%Z then p <- scales s ;; Ok (fmul d1 p)
   else if (s <? 0)%Z then p <- scales (- s) ;; Ok (fdiv d1 p) else Ok d1) = Ok e1 ->
  (if (0 <? s)%Z then p <- scales s ;; Ok (fmul d2 p)
   else if (s <? 0)%Z then p <- scales (- s) ;; Ok (fdiv d2 p) else Ok d2) = Ok e2 ->
  is_finite e1 = true /\ is_finite e2 = true /\ B2R e1 <= B2R e2.
Proof.
  intros Hs F1 F2 B1 B2 L E1 E2. unfold scale_ok in Hs. pose proof big_ge as BG.
  destruct (Z.ltb_spec 0 s); [|destruct (Z.ltb_spec s 0)].
  - destruct (scales_ok s) as (p & Ep & Fp & Rp & B); [lia|]. rewrite Ep in E1, E2. cbn [bind] in *.
    injection E1 as <-. injection E2 as <-.
    destruct (fmul_ok d1 p) as [G1 H1]; auto.
    { rewrite Rp. eapply Rle_trans; [apply rabs_mul_bound; [exact B1|lra]|lra]. }
    destruct (fmul_ok d2 p) as [G2 H2]; auto.
    { rewrite Rp. eapply Rle_trans; [apply rabs_mul_bound; [exact B2|lra]|lra]. }
    split; auto. split; auto. rewrite H1, H2, Rp. apply rnd_le. apply Rmult_le_compat_r; lra.
  - destruct (scales_ok (- s)) as (p & Ep & Fp & Rp & B); [lia|]. rewrite Ep in E1, E2. cbn [bind] in *.
    injection E1 as <-. injection E2 as <-.
    destruct (fdiv_ok d1 p) as [G1 H1]; auto; [rewrite Rp; lra| |].
    { rewrite Rp. eapply Rle_trans; [apply rabs_div_bound; [exact B1|lra]|lra]. }
    destruct (fdiv_ok d2 p) as [G2 H2]; auto; [rewrite Rp; lra| |].
    { rewrite Rp. eapply Rle_trans; [apply rabs_div_bound; [exact B2|lra]|lra]. }
    split; auto. split; auto. rewrite H1, H2, Rp. apply rnd_le. apply Rmult_le_compat_r; auto.
    apply Rlt_le, Rinv_0_lt_compat. lra.
  - injection E1 as <-. injection E2 as <-. auto.
Qed.

Lemma scale_back_total s (d : f64) : scale_ok s -> exists e : f64,
  (if (0 <? s)%Z then p <- scales s ;; Ok (fmul d p)
   else if (s <? 0)%Z then p <- scales (- s) ;; Ok (fdiv d p) else Ok d) = Ok e.
Proof.
  intros Hs. unfold scale_ok in Hs. destruct (Z.ltb_spec 0 s); [|destruct (Z.ltb_spec s 0)].
  - destruct (scales_ok s) as (p & -> & _); [lia|]. eexists; reflexivity.
  - destruct (scales_ok (- s)) as (p & -> & _); [lia|]. eexists; reflexivity.
  - eexists; reflexivity.
Qed.

Lemma encode_between s a b (d : f64) : scale_ok s ->
  (int_min <= a)%Z -> (a <= int_max)%Z -> (int_min <= b <= int_max)%Z ->
  is_finite d = true -> scaled s a <= B2R d <= scaled s b ->
  exists n, encode_decimal s d = Ok n /\ (a <= n <= b)%Z.
Proof.
  intros Hs Ha Ha' Hb Fd Hd. unfold int_min, int_max in *.
  assert (A : (Z.abs a <= 2 ^ 34)%Z) by lia. assert (B : (Z.abs b <= 2 ^ 34)%Z) by lia.
  pose proof (scaled_bound s a Hs A) as SA. pose proof (scaled_bound s b Hs B) as SB.
  destruct (decode_decimal_ok s a Hs A) as (da & _ & Fa & Ra).
  destruct (decode_decimal_ok s b Hs B) as (db & _ & Fb & Rb).
  assert (Bd : Rabs (B2R d) <= 1e40) by (split_Rabs; lra).
  destruct (scale_back_total s d Hs) as [e E].
  destruct (scale_back s a da Hs A Fa Ra) as (ea & Ea & Fea & Na).
  destruct (scale_back s b db Hs B Fb Rb) as (eb & Eb & Feb & Nb).
  rewrite <- Ra in SA, Hd. rewrite <- Rb in SB, Hd.
  destruct (scale_back_mono s da d ea e) as (_ & Fe & La); auto; try tauto.
  destruct (scale_back_mono s d db e eb) as (_ & _ & Lb); auto; try tauto.
  rewrite encode_decimal_alt, E. cbn [bind].
  destruct (Bnearbyint_correct 53 1024 _ mode_NE e) as (E' & F' & _).
  rewrite round_FIX0 in E'. change (round_mode mode_NE) with ZnearestE in E'.
  assert (Ia : ZnearestE (B2R ea) = a) by (apply Znearest_imp; unfold tiny in Na; lra).
  assert (Ib : ZnearestE (B2R eb) = b) by (apply Znearest_imp; unfold tiny in Nb; lra).
  assert (Q1 : (a <= ZnearestE (B2R e))%Z).
  { rewrite <- Ia. apply Zrnd_le; auto with typeclass_instances. }
  assert (Q2 : (ZnearestE (B2R e) <= b)%Z).
  { rewrite <- Ib. apply Zrnd_le; auto with typeclass_instances. }
  exists (ZnearestE (B2R e)). split; [|lia].
  apply f_to_Z_range_ok.
  - unfold frint. congruence.
  - apply Btrunc_Z. exact E'.
  - unfold int_min, int_max. lia.
Qed.

(** A double that is not NaN and lies between two finite doubles is finite. *)
Lemma between_finite (d lo hi : f64) : is_finite lo = true -> is_finite hi = true ->
  fisnan d = false -> flt d lo = false -> flt hi d = false ->
  is_finite d = true /\ B2R lo <= B2R d <= B2R hi.
Proof.
  intros Fl Fh N L H.
  assert (F : is_finite d = true).
  { destruct d as [s|s| |s m e B]; auto.
    destruct s; [destruct lo; cbn in *; discriminate || auto
                |destruct hi as [s| | |s]; try destruct s; cbn in *; discriminate || auto]. }
  split; auto. rewrite flt_spec in L, H by auto.
  split.
  - destruct (Rlt_bool_spec (B2R d) (B2R lo)); [discriminate|auto].
  - destruct (Rlt_bool_spec (B2R hi) (B2R d)); [discriminate|auto].
Qed.

Local Close Scope R_scope.

(** ** The setters *)

Lemma isnum_cases i : is_numeric (vi_type i) = true -> vi_type i = TInteger \/ vi_type i = TDecimal.
Proof. destruct (vi_type i); cbn; auto; discriminate. Qed.

Lemma value_ok_int i n : is_numeric (vi_type i) = true -> (value_ok i (VInt n) <-> vi_imin i <= n <= vi_imax i).
Proof. unfold value_ok. destruct (vi_type i); cbn; try discriminate; tauto. Qed.

Lemma cell_ok_unset c : cell_ok c -> cell_ok (unset c).
Proof. intros [H _]. split; cbn; auto. Qed.

Lemma assign_i_ok o c v c' : hook_ok o -> cell_ok c -> is_numeric (vi_type (c_info c)) = true ->
  vi_imin (c_info c) <= vi_imax (c_info c) ->
  after (assign_i_checked o c v) = Some c' -> cell_ok c'.
Proof.
  intros Ho Hc Ht R. pose proof Hc as [Hi _]. unfold assign_i_checked.
  destruct ((v <? vi_imin (c_info c)) || (vi_imax (c_info c) <? v)) eqn:Q.
  - destruct (o_silent o); [cbn; intros [= <-]; apply cell_ok_unset; auto|].
    destruct (o_clamp o).
    + cbn. intros [= <-]. split; cbn; auto. apply value_ok_int; auto.
      destruct (Z.ltb_spec v (vi_imin (c_info c))); [lia|].
      destruct (Z.ltb_spec (vi_imax (c_info c)) v); lia.
    + unfold hook_ok in Ho. destruct (o_hook o) as [h|]; [intros Hh; apply (Ho c _ c' Hc Hh)|].
      cbn; intros [= <-]; apply cell_ok_unset; auto.
  - cbn. intros [= <-]. split; cbn; auto. apply value_ok_int; auto. lia.
Qed.

Lemma store_d_ok c (d : f64) : cell_ok c -> is_numeric (vi_type (c_info c)) = true ->
  fisnan d = false -> flt d (vi_dmin (c_info c)) = false -> flt (vi_dmax (c_info c)) d = false ->
  exists n, store_d c d = Done (with_val c (VInt n)) /\
    vi_imin (c_info c) <= n <= vi_imax (c_info c) /\ encode_decimal (vi_scale (c_info c)) d = Ok n.
Proof.
  intros [Hi _] Ht N L H. destruct (info_ok_numeric _ Hi Ht) as (Hs & I1 & I2 & _ & _ & _ & [F1 R1] & [F2 R2]).
  destruct (between_finite d _ _ F1 F2 N L H) as [Fd B]. rewrite R1, R2 in B.
  destruct (encode_between (vi_scale (c_info c)) (vi_imin (c_info c)) (vi_imax (c_info c)) d) as (n & E & Q); auto; try lia.
  exists n. unfold store_d. rewrite E. auto.
Qed.

Lemma flt_irrefl (x : f64) : flt x x = false.
Proof.
  unfold flt, Bltb, SpecFloat.SFltb, SpecFloat.SFcompare. destruct x as [s|s| |s m e B]; cbn; auto.
  - destruct s; auto.
  - destruct s; rewrite Z.compare_refl, ?Pos.compare_refl, ?Pos.compare_cont_refl; cbn; auto.
Qed.

Lemma info_range_flt i : info_ok i -> is_numeric (vi_type i) = true ->
  flt (vi_dmax i) (vi_dmin i) = (vi_imax i <? vi_imin i).
Proof.
  intros Hi Ht. destruct (info_ok_numeric _ Hi Ht) as (Hs & I1 & I2 & _ & _ & _ & [F1 R1] & [F2 R2]).
  unfold int_min, int_max in *. apply (flt_scaled (vi_scale i)); auto; lia.
Qed.

Lemma dlimits_not_nan i : info_ok i -> is_numeric (vi_type i) = true ->
  fisnan (vi_dmin i) = false /\ fisnan (vi_dmax i) = false.
Proof.
  intros Hi Ht. destruct (info_ok_numeric _ Hi Ht) as (_ & _ & _ & _ & _ & _ & [F1 R1] & [F2 R2]).
  split; apply finite_not_nan; auto.
Qed.

Lemma assign_d_ok o c d c' : hook_ok o -> cell_ok c -> is_numeric (vi_type (c_info c)) = true ->
  vi_imin (c_info c) <= vi_imax (c_info c) ->
  after (assign_d_checked o c d) = Some c' -> cell_ok c'.
Proof.
  intros Ho Hc Ht R. pose proof Hc as [Hi _]. unfold assign_d_checked.
  destruct (fisnan d) eqn:N.
  { destruct (o_silent o); [cbn; intros [= <-]; apply cell_ok_unset; auto|].
    unfold hook_ok in Ho. destruct (o_hook o) as [h|]; [intros Hh; apply (Ho c _ c' Hc Hh)|].
    cbn; intros [= <-]; apply cell_ok_unset; auto. }
  assert (ST : forall x : f64, fisnan x = false -> flt x (vi_dmin (c_info c)) = false ->
     flt (vi_dmax (c_info c)) x = false -> after (store_d c x) = Some c' -> cell_ok c').
  { intros x Nx L H. destruct (store_d_ok c x Hc Ht Nx L H) as (n & -> & B & _). cbn. intros [= <-].
    split; cbn; auto. apply value_ok_int; auto. }
  destruct (dlimits_not_nan _ Hi Ht) as [N1 N2].
  pose proof (info_range_flt _ Hi Ht) as RF. replace (vi_imax (c_info c) <? vi_imin (c_info c)) with false in RF by lia.
  destruct (flt d (vi_dmin (c_info c))) eqn:L; cbn [orb].
  - destruct (o_silent o); [cbn; intros [= <-]; apply cell_ok_unset; auto|].
    destruct (o_clamp o).
    + apply ST; auto. apply flt_irrefl.
    + unfold hook_ok in Ho. destruct (o_hook o) as [h|]; [intros Hh; apply (Ho c _ c' Hc Hh)|].
      cbn; intros [= <-]; apply cell_ok_unset; auto.
  - destruct (flt (vi_dmax (c_info c)) d) eqn:H; [|apply ST; auto].
    destruct (o_silent o); [cbn; intros [= <-]; apply cell_ok_unset; auto|].
    destruct (o_clamp o).
    + apply ST; auto. apply flt_irrefl.
    + unfold hook_ok in Ho. destruct (o_hook o) as [h|]; [intros Hh; apply (Ho c _ c' Hc Hh)|].
      cbn; intros [= <-]; apply cell_ok_unset; auto.
Qed.

Lemma cstr_no_zero s : Forall (fun ch => ch <> 0) (cstr s).
Proof. induction s as [|ch s IH]; cbn; auto. destruct (Z.eqb_spec ch 0); auto. Qed.

Lemma cstr_length s : (length (cstr s) <= length s)%nat.
Proof. induction s as [|ch s IH]; cbn; auto. destruct (ch =? 0); cbn; lia. Qed.

Lemma assign_c_ok c buf size c' : cell_ok c -> vi_type (c_info c) = TString ->
  after (assign_c_checked c buf size) = Some c' -> cell_ok c'.
Proof.
  intros [Hi _] Ht. unfold assign_c_checked.
  set (n := if Nat.ltb size (ilen (c_info c)) then size else ilen (c_info c)).
  assert (Hn : (n <= ilen (c_info c))%nat) by (unfold n; destruct (Nat.ltb_spec size (ilen (c_info c))); lia).
  unfold strncpy_str. destruct (Nat.ltb (length buf) n && Nat.eqb (length (cstr (firstn n buf))) (length buf)); [discriminate|].
  cbn. intros [= <-]. split; cbn; auto. unfold value_ok. rewrite Ht. split; [|apply cstr_no_zero].
  pose proof (cstr_length (firstn n buf)). rewrite firstn_length in H. lia.
Qed.

Lemma mask_last_length i b : length (mask_last i b) = length b.
Proof.
  unfold mask_last. destruct (vi_bit_len i mod 8 =? 0); auto.
  destruct (rev b) eqn:E.
  - apply (f_equal (@length Z)) in E. rewrite rev_length in E. cbn in *. lia.
  - rewrite rev_length. cbn. apply (f_equal (@length Z)) in E. rewrite rev_length in E. cbn in E. lia.
Qed.

Lemma assign_b_ok c buf size c' : cell_ok c -> vi_type (c_info c) = TBinary ->
  after (assign_b_checked c buf size) = Some c' -> cell_ok c'.
Proof.
  intros [Hi _] Ht. unfold assign_b_checked. cbv zeta.
  destruct (Nat.ltb_spec size (ilen (c_info c))).
  - destruct (Nat.ltb_spec (length buf) size); [discriminate|]. cbn. intros [= <-]. split; cbn; auto.
    unfold value_ok. rewrite Ht. rewrite app_length, firstn_length, repeat_length. lia.
  - destruct (Nat.ltb_spec (length buf) (ilen (c_info c))); [discriminate|].
    destruct (negb (vi_bit_len (c_info c) mod 8 =? 0) && Nat.eqb (ilen (c_info c)) 0); [discriminate|].
    cbn. intros [= <-]. split; cbn; auto.
    unfold value_ok. rewrite Ht. rewrite mask_last_length, firstn_length. lia.
Qed.

(** Definitions with an empty range (possible only with an odd combination of
    reference value and length) cannot hold a number. *)
Definition range_nonempty (c : cell) : Prop :=
  is_numeric (vi_type (c_info c)) = true -> vi_imin (c_info c) <= vi_imax (c_info c).

Lemma set_number_ok o c s c' : hook_ok o -> cell_ok c -> is_numeric (vi_type (c_info c)) = true ->
  vi_imin (c_info c) <= vi_imax (c_info c) ->
  after (set_number o c s) = Some c' -> cell_ok c'.
Proof.
  intros Ho Hc Ht R. unfold set_number. destruct (isnumber s); cbn [negb].
  - assert (A : forall v, after (assign_i_checked o c v) = Some c' -> cell_ok c')
      by (intros v; apply assign_i_ok; auto).
    destruct s as [|z s]; [apply A|]. destruct z; try apply A.
    do 6 (try (destruct p; try apply A)).
  - cbn. intros [= <-]. apply cell_ok_unset; auto.
Qed.

Lemma setd_ok o c d c' : hook_ok o -> cell_ok c -> range_nonempty c ->
  after (setd o c d) = Some c' -> cell_ok c'.
Proof.
  intros Ho Hc R. unfold setd, range_nonempty in *. destruct (vi_type (c_info c)) eqn:Ht.
  - destruct (f_lround d); try discriminate. apply assign_i_ok; auto. rewrite Ht; auto.
  - apply assign_d_ok; auto. rewrite Ht; auto.
  - cbn. intros [= <-]. auto.
  - cbn. intros [= <-]. auto.
Qed.

Lemma run_op_ok strtod conv o c x c' : hook_ok o -> cell_ok c -> range_nonempty c ->
  (forall src, x = OpAssign src -> cell_ok src) ->
  after (run_op strtod conv o c x) = Some c' -> cell_ok c'.
Proof.
  intros Ho Hc R Hx. destruct x; cbn [run_op].
  - unfold seti. destruct (is_numeric (vi_type (c_info c))) eqn:Ht.
    + apply assign_i_ok; auto.
    + cbn. intros [= <-]. auto.
  - apply setd_ok; auto.
  - unfold setc. destruct (vi_type (c_info c)) eqn:Ht; unfold range_nonempty in R; rewrite Ht in R.
    + apply set_number_ok; auto. rewrite Ht; auto.
    + apply set_number_ok; auto. rewrite Ht; auto.
    + apply assign_c_ok; auto.
    + apply assign_b_ok; auto.
  - unfold setc_truncate. destruct (vi_type (c_info c)) eqn:Ht.
    + cbn. intros [= <-]. auto.
    + cbn. intros [= <-]. auto.
    + apply assign_c_ok; auto.
    + apply assign_b_ok; auto.
  - unfold sets. destruct (vi_type (c_info c)) eqn:Ht; unfold range_nonempty in R; rewrite Ht in R.
    + apply set_number_ok; auto. rewrite Ht; auto.
    + apply set_number_ok; auto. rewrite Ht; auto.
    + apply assign_c_ok; auto.
    + apply assign_b_ok; auto.
  - unfold setf. destruct s as [[|ch s]|]; try (cbn; intros [= <-]; apply cell_ok_unset; auto).
    destruct (vi_type (c_info c)) eqn:Ht.
    + apply setd_ok; auto.
    + apply setd_ok; auto.
    + apply assign_c_ok; auto.
    + cbn. intros [= <-]. auto.
  - cbn. intros [= <-]. apply cell_ok_unset; auto.
  - unfold setval. destruct (isset src); cbn [negb]; [|cbn; intros [= <-]; apply cell_ok_unset; auto].
    destruct (vi_type (c_info c)) eqn:Ht.
    + destruct (d <- enqd src;; conv (vi_unit (c_info src)) (vi_unit (c_info c)) d);
        [apply setd_ok; auto|cbn; intros [= <-]; auto|discriminate].
    + destruct (d <- enqd src;; conv (vi_unit (c_info src)) (vi_unit (c_info c)) d);
        [apply setd_ok; auto|cbn; intros [= <-]; auto|discriminate].
    + destruct (enqc src); [apply assign_c_ok; auto|cbn; intros [= <-]; auto|discriminate].
    + destruct (enqc src); [apply assign_b_ok; auto|cbn; intros [= <-]; auto|discriminate].
  - cbn. intros [= <-]. auto.
Qed.

(** Setters keep the definition. *)
Lemma assign_i_info o c v c' : hook_ok o -> cell_ok c -> after (assign_i_checked o c v) = Some c' -> c_info c' = c_info c.
Proof.
  intros Ho Hc. unfold assign_i_checked, hook_ok in *.
  destruct (_ || _), (o_silent o), (o_clamp o), (o_hook o); cbn; intros H;
    try (injection H as <-; reflexivity); apply (Ho c _ c' Hc H).
Qed.

Lemma store_d_info c d c' : after (store_d c d) = Some c' -> c_info c' = c_info c.
Proof. unfold store_d. destruct (encode_decimal _ d); cbn; intros H; try discriminate; injection H as <-; reflexivity. Qed.

Lemma assign_d_info o c v c' : hook_ok o -> cell_ok c -> after (assign_d_checked o c v) = Some c' -> c_info c' = c_info c.
Proof.
  intros Ho Hc. unfold assign_d_checked, hook_ok in *.
  destruct (fisnan v).
  - destruct (o_silent o), (o_hook o); cbn; intros H;
    try (injection H as <-; reflexivity); apply (Ho c _ c' Hc H).
  - destruct (_ || _); [|apply store_d_info]. destruct (o_silent o); [cbn; intros [= <-]; reflexivity|].
    destruct (o_clamp o); [apply store_d_info|]. destruct (o_hook o); cbn; intros H;
    try (injection H as <-; reflexivity); apply (Ho c _ c' Hc H).
Qed.

Lemma assign_c_info c b n c' : after (assign_c_checked c b n) = Some c' -> c_info c' = c_info c.
Proof.
  unfold assign_c_checked. cbv zeta. destruct (strncpy_str _ _); cbn; intros H; try discriminate.
  injection H as <-; reflexivity.
Qed.

Lemma assign_b_info c b n c' : after (assign_b_checked c b n) = Some c' -> c_info c' = c_info c.
Proof.
  unfold assign_b_checked. cbv zeta. destruct (Nat.ltb n _), (Nat.ltb (length b) _); cbn; intros H; try discriminate;
  try (injection H as <-; reflexivity).
  destruct (_ && _); cbn in H; [discriminate|]. injection H as <-; reflexivity.
Qed.

Lemma set_number_info o c s c' : hook_ok o -> cell_ok c -> after (set_number o c s) = Some c' -> c_info c' = c_info c.
Proof.
  intros Ho Hc. unfold set_number. destruct (isnumber s); cbn [negb].
  - assert (A : forall v, after (assign_i_checked o c v) = Some c' -> c_info c' = c_info c)
      by (intros v; apply assign_i_info; auto).
    destruct s as [|z s]; [apply A|]. destruct z; try apply A. do 6 (try (destruct p; try apply A)).
  - cbn. intros [= <-]. reflexivity.
Qed.

Lemma setd_info o c d c' : hook_ok o -> cell_ok c -> after (setd o c d) = Some c' -> c_info c' = c_info c.
Proof.
  intros Ho Hc. unfold setd. destruct (vi_type (c_info c)).
  - destruct (f_lround d); try discriminate. apply assign_i_info; auto.
  - apply assign_d_info; auto.
  - cbn; intros [= <-]; reflexivity.
  - cbn; intros [= <-]; reflexivity.
Qed.

Lemma run_op_info strtod conv o c x c' : hook_ok o -> cell_ok c ->
  after (run_op strtod conv o c x) = Some c' -> x = OpAssign c' \/ c_info c' = c_info c.
Proof.
  intros Ho Hc H. destruct x; cbn [run_op] in H; [right..|left].
  - unfold seti in H. destruct (is_numeric _); [eapply assign_i_info; eauto|injection H as <-; reflexivity].
  - eapply setd_info; eauto.
  - unfold setc in H. destruct (vi_type (c_info c)); eauto using set_number_info, assign_c_info, assign_b_info.
  - unfold setc_truncate in H. destruct (vi_type (c_info c)); eauto using assign_c_info, assign_b_info;
      injection H as <-; reflexivity.
  - unfold sets in H. destruct (vi_type (c_info c)); eauto using set_number_info, assign_c_info, assign_b_info.
  - unfold setf in H. destruct s as [[|ch s]|]; try (injection H as <-; reflexivity).
    destruct (vi_type (c_info c)); eauto using setd_info, assign_c_info. injection H as <-; reflexivity.
  - injection H as <-; reflexivity.
  - unfold setval in H. destruct (isset src); cbn [negb] in H; [|injection H as <-; reflexivity].
    destruct (vi_type (c_info c)).
    + destruct (bind _ _); [eauto using setd_info|injection H as <-; reflexivity|discriminate].
    + destruct (bind _ _); [eauto using setd_info|injection H as <-; reflexivity|discriminate].
    + destruct (enqc src); [eauto using assign_c_info|injection H as <-; reflexivity|discriminate].
    + destruct (enqc src); [eauto using assign_b_info|injection H as <-; reflexivity|discriminate].
  - injection H as <-. reflexivity.
Qed.

Lemma run_history_ok strtod conv hist : forall c c',
  Forall (fun ox => hook_ok (fst ox) /\ forall src, snd ox = OpAssign src -> cell_ok src /\ range_nonempty src) hist ->
  cell_ok c -> range_nonempty c -> run_history strtod conv hist c = Some c' -> cell_ok c' /\ range_nonempty c'.
Proof.
  induction hist as [|[o x] hist IH]; intros c c' F Hc R H; cbn [run_history] in H.
  - injection H as <-. auto.
  - inversion F as [|? ? [Ho Hx] F']; subst. cbn in Ho, Hx.
    destruct (after (run_op strtod conv o c x)) as [c1|] eqn:E; [|discriminate].
    apply (IH c1 c' F'); auto.
    + apply (run_op_ok strtod conv o c x c1); auto. intros src S. apply (Hx src S).
    + destruct (run_op_info strtod conv o c x c1 Ho Hc E) as [S|S].
      * apply (Hx c1 S).
      * unfold range_nonempty. rewrite S. exact R.
Qed.

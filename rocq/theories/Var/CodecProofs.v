(** Storing decoded numbers in variables. *)
From Coq Require Import Reals Lra Psatz ZifyBool ZifyNat String.
From Flocq Require Import Core BinarySingleNaN.
From Verif Require Import Base Bits.Spec Bits.StringProofs Num.Float Num.FloatProofs Varcode.Model Varinfo.Model
  Varinfo.Proofs Varinfo.RangeProofs Var.Model Var.Spec Var.Proofs Var.TextProofs.
Local Open Scope Z_scope.

Lemma wrap_int_id k : int_min <= k <= int_max -> wrap_int k = k.
Proof. unfold wrap_int, int_min, int_max. intros H. rewrite Z.mod_small; lia. Qed.

Lemma lround_scaled0 k (d : f64) : Z.abs k <= 2 ^ 34 -> is_finite d = true -> B2R d = IZR k -> f_lround d = Ok k.
Proof.
  intros Hk F E. unfold f_lround. destruct (fround_near d k) as (A & B & C); auto.
  { rewrite E. replace (IZR k - IZR k)%R with 0%R by ring. rewrite Rabs_R0. lra. }
  apply f_to_Z_range_ok; auto. lia.
Qed.

Lemma scaled_0 k : scaled 0 k = IZR k.
Proof. reflexivity. Qed.

(** What setd does with the double that denotes the scaled integer k. *)
Lemma setd_scaled o c k (d : f64) : info_ok (c_info c) -> is_numeric (vi_type (c_info c)) = true ->
  int_min <= k <= int_max -> is_finite d = true -> B2R d = scaled (vi_scale (c_info c)) k ->
  vi_imin (c_info c) <= k <= vi_imax (c_info c) ->
  setd o c d = Done (with_val c (VInt k)).
Proof.
  intros Hi Ht Hk F E R. pose proof Hi as [_ _ _ _ _ Hint].
  destruct (info_ok_numeric _ Hi Ht) as (Hs & I1 & I2 & _ & _ & _ & [F1 R1] & [F2 R2]).
  unfold int_min, int_max in *. unfold setd.
  destruct (vi_type (c_info c)) eqn:T; try discriminate.
  - rewrite (Hint eq_refl), scaled_0 in E. rewrite (lround_scaled0 k) by (auto; lia).
    rewrite wrap_int_id by (unfold int_min, int_max; lia). unfold assign_i_checked.
    replace ((k <? vi_imin (c_info c)) || (vi_imax (c_info c) <? k)) with false by lia. reflexivity.
  - unfold assign_d_checked. rewrite (finite_not_nan d F).
    rewrite (flt_scaled (vi_scale (c_info c)) k (vi_imin (c_info c))) by (auto; lia).
    rewrite (flt_scaled (vi_scale (c_info c)) (vi_imax (c_info c)) k) by (auto; lia).
    replace ((k <? vi_imin (c_info c)) || (vi_imax (c_info c) <? k)) with false by lia.
    unfold store_d. rewrite (encode_scaled _ k) by auto. reflexivity.
Qed.

Lemma setd_scaled_refused o c k (d : f64) : info_ok (c_info c) -> is_numeric (vi_type (c_info c)) = true ->
  int_min <= k <= int_max -> is_finite d = true -> B2R d = scaled (vi_scale (c_info c)) k ->
  ~ (vi_imin (c_info c) <= k <= vi_imax (c_info c)) -> o_clamp o = false -> o_hook o = None ->
  setd o c d = if o_silent o then Done (unset c) else Thrown EDomain (unset c).
Proof.
  intros Hi Ht Hk F E R Oc Oh. pose proof Hi as [_ _ _ _ _ Hint].
  destruct (info_ok_numeric _ Hi Ht) as (Hs & I1 & I2 & _ & _ & _ & [F1 R1] & [F2 R2]).
  unfold int_min, int_max in *. unfold setd.
  destruct (vi_type (c_info c)) eqn:T; try discriminate.
  - rewrite (Hint eq_refl), scaled_0 in E. rewrite (lround_scaled0 k) by (auto; lia).
    rewrite wrap_int_id by (unfold int_min, int_max; lia). unfold assign_i_checked.
    replace ((k <? vi_imin (c_info c)) || (vi_imax (c_info c) <? k)) with true by lia.
    rewrite Oc, Oh. reflexivity.
  - unfold assign_d_checked. rewrite (finite_not_nan d F).
    rewrite (flt_scaled (vi_scale (c_info c)) k (vi_imin (c_info c))) by (auto; lia).
    rewrite (flt_scaled (vi_scale (c_info c)) (vi_imax (c_info c)) k) by (auto; lia).
    replace ((k <? vi_imin (c_info c)) || (vi_imax (c_info c) <? k)) with true by lia.
    rewrite Oc, Oh. reflexivity.
Qed.

(** Reading a set numeric cell as a double. *)
Lemma enqd_scaled c k : info_ok (c_info c) -> is_numeric (vi_type (c_info c)) = true ->
  int_min <= k <= int_max -> c_val c = Some (VInt k) ->
  exists d : f64, enqd c = Ok d /\ is_finite d = true /\ B2R d = scaled (vi_scale (c_info c)) k.
Proof.
  intros Hi Ht Hk V. pose proof Hi as [_ _ _ _ _ Hint].
  destruct (info_ok_numeric _ Hi Ht) as (Hs & _). unfold int_min, int_max in *.
  unfold enqd. rewrite V. destruct (vi_type (c_info c)) eqn:T; try discriminate.
  - rewrite (Hint eq_refl). destruct (f_of_Z_ok k) as [F E]; [lia|]. eauto.
  - destruct (decode_decimal_ok (vi_scale (c_info c)) k) as (d & D & F & E); auto; [lia|]. eauto.
Qed.

(** Encoding the value of a set numeric cell. *)
Lemma encode_cell c k : info_ok (c_info c) -> is_numeric (vi_type (c_info c)) = true ->
  vi_bit_len (c_info c) <> 0 -> int_min <= k <= int_max -> c_val c = Some (VInt k) ->
  (d <- enqd c ;; encode_binary (c_info c) d) =
  if k <? vi_bit_ref (c_info c) then Err EConsistency else Ok (k - vi_bit_ref (c_info c)).
Proof.
  intros Hi Ht Hb Hk V. destruct (enqd_scaled c k Hi Ht Hk V) as (d & -> & F & E). cbn [bind].
  destruct (info_ok_numeric _ Hi Ht) as (Hs & _). pose proof (io_ref _ Hi) as Hr.
  unfold int_min, int_max in *.
  rewrite (encode_binary_scaled _ k) by (auto; unfold int_min, int_max; lia).
  destruct (Z.ltb_spec k (vi_bit_ref (c_info c))); auto.
  replace (k - vi_bit_ref (c_info c) <? 2 ^ 32) with true by lia. reflexivity.
Qed.

(** Decoding a raw field into a fresh variable and encoding it again. *)
Lemma raw_var_roundtrip o i raw : info_ok i -> is_numeric (vi_type i) = true -> vi_bit_len i <> 0 ->
  0 <= raw < 2 ^ 32 -> vi_imin i <= raw + vi_bit_ref i <= vi_imax i ->
  exists d c, decode_binary i raw = Ok d /\ setd o (fresh i) d = Done c /\
    c = mkcell i (Some (VInt (raw + vi_bit_ref i))) /\
    (d <- enqd c ;; encode_binary i d) = Ok raw.
Proof.
  intros Hi Ht Hb Hr R. destruct (info_ok_numeric _ Hi Ht) as (Hs & I1 & I2 & _).
  pose proof (io_ref _ Hi) as Href.
  destruct (decode_binary_ok i raw) as (d & D & F & E); auto.
  exists d, (mkcell i (Some (VInt (raw + vi_bit_ref i)))). split; auto.
  rewrite (setd_scaled o (fresh i) (raw + vi_bit_ref i)); auto; [|unfold int_min, int_max in *; cbn; lia].
  split; auto. split; auto.
  rewrite (encode_cell (mkcell i _) (raw + vi_bit_ref i)); auto; [|unfold int_min, int_max in *; cbn; lia]. cbn.
  replace (raw + vi_bit_ref i <? vi_bit_ref i) with false by lia. f_equal. lia.
Qed.

(** C08 for doubles. *)
Lemma setd_decimal_refused o c (d : f64) : info_ok (c_info c) -> vi_type (c_info c) = TDecimal ->
  (fisnan d = true \/ flt d (vi_dmin (c_info c)) = true \/ flt (vi_dmax (c_info c)) d = true) ->
  o_hook o = None -> (o_clamp o = false \/ fisnan d = true) ->
  setd o c d = if o_silent o then Done (unset c) else Thrown EDomain (unset c).
Proof.
  intros Hi Ht Hd Oh Oc. unfold setd. rewrite Ht. unfold assign_d_checked. rewrite Oh.
  destruct (fisnan d) eqn:N; [destruct (o_silent o); reflexivity|].
  destruct Oc as [Oc|]; [|discriminate]. destruct Hd as [|Hd]; [discriminate|].
  replace (flt d (vi_dmin (c_info c)) || flt (vi_dmax (c_info c)) d) with true
    by (destruct Hd as [->| ->]; [reflexivity|rewrite orb_true_r; reflexivity]).
  rewrite Oc. destruct (o_silent o); reflexivity.
Qed.

Lemma setd_decimal_clamped o c (d : f64) : info_ok (c_info c) -> vi_type (c_info c) = TDecimal ->
  fisnan d = false -> o_silent o = false -> o_clamp o = true ->
  setd o c d = if flt d (vi_dmin (c_info c)) then Done (with_val c (VInt (vi_imin (c_info c))))
               else if flt (vi_dmax (c_info c)) d then Done (with_val c (VInt (vi_imax (c_info c))))
               else setd default_options c d.
Proof.
  intros Hi Ht N Os Oc.
  assert (Hn : is_numeric (vi_type (c_info c)) = true) by (rewrite Ht; reflexivity).
  destruct (info_ok_numeric _ Hi Hn) as (Hs & I1 & I2 & _ & _ & _ & [F1 R1] & [F2 R2]).
  unfold setd. rewrite Ht. unfold assign_d_checked. rewrite N, Os, Oc. cbn [o_silent o_clamp o_hook default_options].
  destruct (flt d (vi_dmin (c_info c))); cbn [orb].
  - unfold store_d. rewrite (encode_scaled _ (vi_imin (c_info c))) by auto. reflexivity.
  - destruct (flt (vi_dmax (c_info c)) d); auto.
    unfold store_d. rewrite (encode_scaled _ (vi_imax (c_info c))) by auto. reflexivity.
Qed.

(** C09 for strings. *)
Lemma existsb_zero_app s : existsb (Z.eqb 0) (s ++ [0]) = true.
Proof. rewrite existsb_app. cbn. rewrite orb_true_r. reflexivity. Qed.

Lemma firstn_app_short {A} n (s t : list A) : (n <= length s)%nat -> firstn n (s ++ t) = firstn n s.
Proof. intros H. rewrite firstn_app. replace (n - length s)%nat with 0%nat by lia. apply app_nil_r. Qed.

Lemma cstr_firstn n : forall s, cstr (firstn n (s ++ [0])) = firstn n (cstr s).
Proof.
  induction n as [|n IH]; intros s; [reflexivity|]. destruct s as [|ch s]; cbn [app firstn cstr].
  - destruct n; reflexivity.
  - destruct (ch =? 0); [reflexivity|]. cbn [firstn]. rewrite IH. reflexivity.
Qed.

Lemma strncpy_cstring n s : strncpy_str (s ++ [0]) n = Some (firstn n (cstr s)).
Proof.
  unfold strncpy_str. rewrite cstr_firstn.
  destruct (Nat.ltb_spec (length (s ++ [0])) n); cbn [andb]; auto.
  destruct (Nat.eqb_spec (length (firstn n (cstr s))) (length (s ++ [0]))); auto.
  pose proof (cstr_length s). rewrite firstn_length, app_length in *. cbn in *. lia.
Qed.

Lemma setc_string o c s : vi_type (c_info c) = TString ->
  setc o c (s ++ [0]) = Done (with_val c (VStr (firstn (ilen (c_info c)) (cstr s)))).
Proof.
  intros Ht. unfold setc. rewrite Ht. unfold assign_c_checked. rewrite Nat.ltb_irrefl, strncpy_cstring. reflexivity.
Qed.

Lemma sets_string o c s : vi_type (c_info c) = TString ->
  sets o c s = Done (with_val c (VStr (firstn (ilen (c_info c)) (cstr s)))).
Proof.
  intros Ht. unfold sets. rewrite Ht. unfold assign_c_checked.
  destruct (Nat.ltb_spec (length s) (ilen (c_info c))); rewrite strncpy_cstring; auto.
  pose proof (cstr_length s). rewrite !firstn_all2 by lia. reflexivity.
Qed.

Lemma enqs_string c s : vi_type (c_info c) = TString -> c_val c = Some (VStr s) ->
  Forall (fun ch => ch <> 0) s -> enqs c = Ok s.
Proof.
  intros Ht V F. unfold enqs, enqc. rewrite V, Ht. cbn [bind]. rewrite existsb_zero_app.
  rewrite cstr_app_zero; auto.
Qed.

Lemma Forall_firstn {A} (P : A -> Prop) n l : Forall P l -> Forall P (firstn n l).
Proof. intros H. revert n. induction H; intros [|n]; cbn; auto. Qed.

Lemma set_get_string o c s : vi_type (c_info c) = TString ->
  exists c', setc o c (s ++ [0]) = Done c' /\ sets o c s = Done c' /\
    enqs c' = Ok (firstn (ilen (c_info c)) (cstr s)).
Proof.
  intros Ht. eexists. split; [apply setc_string; auto|]. split; [apply sets_string; auto|].
  apply enqs_string; auto. apply Forall_firstn, cstr_no_zero.
Qed.

(** C10. *)
Lemma text_roundtrip o c k : is_numeric (vi_type (c_info c)) = true -> c_val c = Some (VInt k) ->
  vi_imin (c_info c) <= k <= vi_imax (c_info c) -> int_min < k <= int_max ->
  exists s buf, enqs c = Ok s /\ enqc c = Ok buf /\
    forall c0, c_info c0 = c_info c ->
      sets o c0 s = Done (mkcell (c_info c) (Some (VInt k))) /\
      setc o c0 buf = Done (mkcell (c_info c) (Some (VInt k))).
Proof.
  intros Ht V R Hk. destruct (int32_to_str_ok k Hk) as (t & D & Vt & L & E).
  set (s := if k <? 0 then 45 :: t else t) in *.
  assert (Q : enqc c = Ok (s ++ [0])).
  { unfold enqc. rewrite V. destruct (isnum_cases _ Ht) as [-> | ->]; rewrite E; reflexivity. }
  exists s, (s ++ [0]). split; [|split; auto].
  - unfold enqs. rewrite Q. cbn [bind]. rewrite existsb_zero_app. f_equal. apply (int32_to_str_cstr k); auto.
  - intros c0 Hc.
    assert (A : assign_i_checked o c0 k = Done (mkcell (c_info c) (Some (VInt k)))).
    { unfold assign_i_checked. rewrite Hc.
      replace ((k <? vi_imin (c_info c)) || (vi_imax (c_info c) <? k)) with false by lia.
      unfold with_val. rewrite Hc. reflexivity. }
    assert (C : cstr s = s).
    { rewrite <- (int32_to_str_cstr k s) at 1 by auto. rewrite Bits.StringProofs.cstr_idem. apply (int32_to_str_cstr k); auto. }
    unfold sets, setc. rewrite Hc. destruct (isnum_cases _ Ht) as [-> | ->].
    + rewrite C, (set_number_text o c0 k s), (int32_to_str_cstr k s), (set_number_text o c0 k s) by auto. auto.
    + rewrite C, (set_number_text o c0 k s), (int32_to_str_cstr k s), (set_number_text o c0 k s) by auto. auto.
Qed.

(** The stored integer is the nearest one to the scaled double. *)
Definition unscaled (s : Z) (d : f64) : R :=
  if 0 <=? s then (B2R d * IZR (10 ^ s))%R else (B2R d / IZR (10 ^ (- s)))%R.

Lemma scale_back_value s (d e : f64) : scale_ok s -> is_finite d = true -> (Rabs (B2R d) <= 1e40)%R ->
  (if (0 <? s)%Z then p <- scales s ;; Ok (fmul d p)
   else if (s <? 0)%Z then p <- scales (- s) ;; Ok (fdiv d p) else Ok d) = Ok e ->
  (Rabs (B2R e - unscaled s d) <= uu * Rabs (unscaled s d) + eta)%R.
Proof.
  intros Hs Fd Bd E. pose proof big_ge as BG. unfold scale_ok in Hs. unfold unscaled.
  destruct (Z.ltb_spec 0 s); [|destruct (Z.ltb_spec s 0)].
  - replace (0 <=? s) with true by lia. destruct (scales_ok s) as (p & Ep0 & Fp & Ep & B); [lia|].
    rewrite Ep0 in E. cbn [bind] in E. injection E as <-.
    destruct (fmul_ok d p) as [F E]; auto.
    { rewrite Ep, Rabs_mult. rewrite (Rabs_pos_eq (IZR (10 ^ s))) by lra.
      apply Rle_trans with (1e40 * 1e16)%R; [|lra]. apply Rmult_le_compat; try lra. apply Rabs_pos. }
    rewrite E, Ep. apply rnd_err.
  - replace (0 <=? s) with false by lia. destruct (scales_ok (- s)) as (p & Ep0 & Fp & Ep & B); [lia|].
    rewrite Ep0 in E. cbn [bind] in E. injection E as <-.
    destruct (fdiv_ok d p) as [F E]; auto; [rewrite Ep; lra| |].
    { rewrite Ep. unfold Rdiv. rewrite Rabs_mult, (Rabs_pos_eq (/ _)).
      2:{ left. apply Rinv_0_lt_compat. lra. }
      apply Rle_trans with (1e40 * 1)%R; [|lra]. apply Rmult_le_compat; try lra; [apply Rabs_pos|left; apply Rinv_0_lt_compat; lra|].
      rewrite <- Rinv_1. apply Rinv_le; lra. }
    rewrite E, Ep. apply rnd_err.
  - replace (0 <=? s) with true by lia. assert (s = 0) as -> by lia. injection E as <-.
    change (IZR (10 ^ 0)) with 1%R. rewrite Rmult_1_r. replace (B2R d - B2R d)%R with 0%R by ring. rewrite Rabs_R0.
    pose proof (Rabs_pos (B2R d)). unfold uu, eta. lra.
Qed.

Lemma encode_near s n (d : f64) : scale_ok s -> is_finite d = true -> (Rabs (B2R d) <= 1e40)%R ->
  encode_decimal s d = Ok n -> (Rabs (IZR n - unscaled s d) <= / 2 + / 100000)%R.
Proof.
  intros Hs Fd Bd E. rewrite encode_decimal_alt in E. inv_bind E.
  pose proof (scale_back_value s d a Hs Fd Bd Hb) as N.
  unfold f_to_int, f_to_Z_range in Hk. destruct (is_finite (frint a)) eqn:F; [|discriminate].
  destruct (Bnearbyint_correct 53 1024 _ mode_NE a) as (E' & F' & _).
  rewrite round_FIX0 in E'. change (round_mode mode_NE) with ZnearestE in E'.
  pose proof (Znearest_half (fun n => negb (Z.even n)) (B2R a)) as Hh.
  assert (T : Btrunc (frint a) = ZnearestE (B2R a)) by (apply Btrunc_Z; exact E').
  rewrite T in Hk.
  destruct ((int_min <=? ZnearestE (B2R a)) && (ZnearestE (B2R a) <=? int_max)) eqn:R; [|discriminate].
  injection Hk as <-. unfold int_min, int_max in R.
  assert (R' : - 2147483648 <= ZnearestE (B2R a) <= 2147483647) by lia. destruct R' as [R1 R2].
  apply IZR_le in R1. apply IZR_le in R2.
  set (x := unscaled s d) in *. pose proof (Rabs_pos x).
  assert (Hx : (Rabs x <= 3000000000)%R). { unfold uu, eta in N. split_Rabs; lra. }
  assert (uu * Rabs x + eta <= / 100000)%R. { unfold uu, eta. lra. }
  split_Rabs; lra.
Qed.

Lemma setd_decimal_nearest o c (d : f64) : cell_ok c -> vi_type (c_info c) = TDecimal ->
  fisnan d = false -> flt d (vi_dmin (c_info c)) = false -> flt (vi_dmax (c_info c)) d = false ->
  exists n r, setd o c d = Done (with_val c (VInt n)) /\ vi_imin (c_info c) <= n <= vi_imax (c_info c) /\
    (Rabs (IZR n - unscaled (vi_scale (c_info c)) d) <= / 2 + / 100000)%R /\
    enqd (with_val c (VInt n)) = Ok r /\ decode_decimal (vi_scale (c_info c)) n = Ok r.
Proof.
  intros Hc Ht N L H. assert (Hn : is_numeric (vi_type (c_info c)) = true) by (rewrite Ht; auto).
  destruct (store_d_ok c d Hc Hn N L H) as (n & S & R & E). pose proof Hc as [Hi _].
  destruct (info_ok_numeric _ Hi Hn) as (Hs & I1 & I2 & _ & _ & _ & [F1 R1] & [F2 R2]).
  destruct (decode_decimal_ok (vi_scale (c_info c)) n) as (r & D & _); auto;
    [unfold int_min, int_max in *; lia|].
  exists n, r. unfold setd. rewrite Ht. unfold assign_d_checked. rewrite N, L, H. cbn [orb].
  split; auto. split; auto. split; [|split; auto].
  2:{ unfold enqd. cbn. rewrite Ht. auto. }
  destruct (between_finite d _ _ F1 F2 N L H) as (Fd & B1 & B2).
  apply encode_near; auto. rewrite R1 in B1. rewrite R2 in B2. unfold int_min, int_max in *.
  pose proof (scaled_bound _ (vi_imin (c_info c)) Hs ltac:(lia)) as S1.
  pose proof (scaled_bound _ (vi_imax (c_info c)) Hs ltac:(lia)) as S2.
  split_Rabs; lra.
Qed.

Lemma lround_near (d : f64) n : f_lround d = Ok n -> (Rabs (IZR n - B2R d) <= / 2)%R.
Proof.
  unfold f_lround, f_to_Z_range. destruct (is_finite (fround d)) eqn:F; [|discriminate].
  destruct (Bnearbyint_correct 53 1024 _ mode_NA d) as (E' & F' & _).
  rewrite round_FIX0 in E'. change (round_mode mode_NA) with ZnearestA in E'.
  assert (T : Btrunc (fround d) = ZnearestA (B2R d)) by (apply Btrunc_Z; exact E').
  rewrite T. match goal with |- (if ?b then _ else _) = _ -> _ => destruct b; [|discriminate] end.
  intros [= <-]. pose proof (Znearest_half (Zle_bool 0) (B2R d)). split_Rabs; lra.
Qed.

Lemma setd_integer_nearest o c (d : f64) n : vi_type (c_info c) = TInteger ->
  f_lround d = Ok n -> vi_imin (c_info c) <= n <= vi_imax (c_info c) -> info_ok (c_info c) ->
  setd o c d = Done (with_val c (VInt n)) /\ (Rabs (IZR n - B2R d) <= / 2)%R /\
  enqd (with_val c (VInt n)) = Ok (f_of_Z n) /\ enqi (with_val c (VInt n)) = Ok n.
Proof.
  intros Ht E R Hi. destruct (info_ok_numeric _ Hi) as (_ & I1 & I2 & _); [rewrite Ht; auto|].
  unfold setd. rewrite Ht, E, wrap_int_id by lia. unfold assign_i_checked.
  replace ((n <? vi_imin (c_info c)) || (vi_imax (c_info c) <? n)) with false by lia.
  split; auto. split; [apply lround_near; auto|]. unfold enqd, enqi. cbn. rewrite Ht. auto.
Qed.

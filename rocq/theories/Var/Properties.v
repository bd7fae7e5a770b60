(** Properties C06 (through variables), C07, C08, C09, C10, C11 (equality), C12, C13. *)
From Coq Require Import String Reals Sorting.Sorted.
From Flocq Require Import Core BinarySingleNaN.
From Verif Require Import Base Bits.Spec Num.Float Varcode.Model Varinfo.Model Varinfo.RangeProofs
  Var.Model Var.Spec Var.Proofs Var.TextProofs Var.AttrProofs Var.CodecProofs.
Local Open Scope Z_scope.

(** Definitions used in the examples. *)
Definition temp : res varinfo := set_bufr (wr_var 0 12 101) "K" 2 5 0 16.
Definition lat : res varinfo := set_bufr (wr_var 0 5 1) "DEGREE" 5 8 (-9000000) 25.
Definition block : res varinfo := set_bufr (wr_var 0 1 1) "NUMERIC" 0 3 0 7.
Definition name8 : res varinfo := set_bufr (wr_var 0 1 11) "CCITTIA5" 0 9 0 72.

Ltac get_info r view val :=
  let i := fresh "i" in let E := fresh "E" in let V := fresh "V" in
  destruct (res_view r view val ltac:(vm_compute; reflexivity)) as (i & E & V).

(** C06: a raw field whose value is in the declared range, decoded, stored in a
    variable and encoded from the variable, is the same raw field. *)
Theorem C06_field_through_variable : forall o i raw,
  info_ok i -> is_numeric (vi_type i) = true -> vi_bit_len i <> 0 ->
  0 <= raw < 2 ^ 32 -> vi_imin i <= raw + vi_bit_ref i <= vi_imax i ->
  exists d c, decode_binary i raw = Ok d /\ setd o (fresh i) d = Done c /\
    c = mkcell i (Some (VInt (raw + vi_bit_ref i))) /\
    (d <- enqd c ;; encode_binary i d) = Ok raw.
Proof. exact raw_var_roundtrip. Qed.

(** C06: outside class 31 and below 10 digits the range contains every raw field
    but the missing one, provided it also fits the declared number of digits: so the
    only fields that do not survive are those. *)
Theorem C06_raw_in_range : forall i raw, info_ok i -> is_numeric (vi_type i) = true ->
  0 < vi_len i < 10 -> 0 < vi_bit_len i <= 31 -> var_x (vi_code i) <> 31 ->
  0 <= raw < 2 ^ vi_bit_len i - 1 -> Z.abs (raw + vi_bit_ref i) < 10 ^ vi_len i - 1 ->
  vi_imin i <= raw + vi_bit_ref i <= vi_imax i.
Proof.
  intros i raw Hi Ht Hl Hb Hx Hr Hd. destruct (info_ok_numeric _ Hi Ht) as (_ & _ & _ & R & _).
  destruct (compute_irange_cases _ _ _ _ _ _ _ Ht R) as [(?&?&?)|[(?&?&?&?)|(?&?&?&?&?&E1&E2)]]; try lia.
  destruct (Z.eqb_spec (var_x (vi_code i)) 31); [contradiction|]. lia.
Qed.

Example C06_variable_example : exists i, lat = Ok i /\ info_ok i /\ is_numeric (vi_type i) = true /\
  vi_bit_len i <> 0 /\ vi_imin i <= 13450312 + vi_bit_ref i <= vi_imax i.
Proof.
  get_info lat (fun i => (vi_type i, vi_bit_len i, vi_bit_ref i, vi_imin i, vi_imax i))
    (TDecimal, 25, -9000000, -9000000, 24554430).
  injection V as V1 V2 V3 V4 V5. exists i. rewrite V1, V2, V3, V4, V5. repeat split; auto; try discriminate.
  all: eapply (set_bufr_ok _ _ _ _ _ _ _) in E; auto; try (unfold int_min, int_max; lia); apply E.
Qed.

(** C06 is false for 32-bit Integer fields with the high bit set: they are stored
    as negative numbers and cannot be encoded again. *)
Theorem C06_wide_integer_refuted : exists i, set_bufr (wr_var 0 1 101) "NUMERIC" 0 10 0 32 = Ok i /\
  exists d, decode_binary i 3000000000 = Ok d /\
  setd default_options (fresh i) d = Done (mkcell i (Some (VInt (-1294967296)))) /\
  (e <- enqd (mkcell i (Some (VInt (-1294967296)))) ;; encode_binary i e) = Err EConsistency.
Proof.
  get_info (i <- set_bufr (wr_var 0 1 101) "NUMERIC" 0 10 0 32 ;; d <- decode_binary i 3000000000 ;; Ok (i, d))
    (fun '(i, d) => ((vi_type i, vi_imin i, vi_imax i), f_lround d,
       (e <- enqd (mkcell i (Some (VInt (-1294967296)))) ;; encode_binary i e)))
    ((TInteger, int_min, int_max), Ok 3000000000, @Err Z EConsistency).
  destruct i as [i d]. inv_bind E. inv_bind Hk. injection Hk0 as -> ->.
  injection V as V1 V2 V3 V4 V5. exists i. split; auto. exists d. split; auto. split; [|exact V5].
  unfold setd. cbn [fresh c_info]. rewrite V1, V4. unfold assign_i_checked. cbn [fresh c_info]. rewrite V2, V3.
  reflexivity.
Qed.

(** C07: after any history of setter calls, with any domain-error options at each
    call, a numeric variable is unset or holds an integer in its declared range. *)
Theorem C07_always_in_range : forall strtod conv hist c c',
  (forall o x, In (o, x) hist -> hook_ok o /\
     forall src, x = OpAssign src -> cell_ok src /\ range_nonempty src) ->
  cell_ok c -> range_nonempty c ->
  run_history strtod conv hist c = Some c' -> is_numeric (vi_type (c_info c')) = true ->
  c_val c' = None \/ exists n, c_val c' = Some (VInt n) /\ vi_imin (c_info c') <= n <= vi_imax (c_info c').
Proof.
  intros strtod conv hist c c' H Hc R E Ht.
  destruct (run_history_ok strtod conv hist c c') as [[_ V] _]; auto.
  { apply Forall_forall. intros [o x] Hin. apply (H o x Hin). }
  destruct (c_val c') as [v|]; auto. right. unfold value_ok in V.
  destruct (vi_type (c_info c')); try discriminate; destruct v as [n| |]; try contradiction; eauto.
Qed.

(** ... and the same for strings and binary values: they fit. *)
Theorem C07_history_ok : forall strtod conv hist c c',
  (forall o x, In (o, x) hist -> hook_ok o /\
     forall src, x = OpAssign src -> cell_ok src /\ range_nonempty src) ->
  cell_ok c -> range_nonempty c -> run_history strtod conv hist c = Some c' -> cell_ok c'.
Proof.
  intros strtod conv hist c c' H Hc R E.
  destruct (run_history_ok strtod conv hist c c') as [V _]; auto.
  apply Forall_forall. intros [o x] Hin. apply (H o x Hin).
Qed.

(** The hypotheses on the starting variable hold for a new variable of a table
    definition. *)
Example C07_example : exists i, temp = Ok i /\ cell_ok (fresh i) /\ range_nonempty (fresh i) /\
  forall strtod conv, run_history strtod conv
    [(default_options, OpSeti 27315); (default_options, OpSeti 70000); (default_options, OpSets [50; 56; 48; 48; 48])]
    (fresh i) = Some (mkcell i (Some (VInt 28000))).
Proof.
  get_info temp (fun i => (vi_type i, vi_imin i, vi_imax i)) (TDecimal, 0, 65534).
  injection V as V1 V2 V3. exists i. split; auto.
  eapply set_bufr_ok in E; try (unfold int_min, int_max; lia).
  split; [split; cbn; auto|]. split; [unfold range_nonempty; cbn; rewrite V2, V3; discriminate|].
  intros strtod conv.
  assert (S : forall c k, c_info c = i -> seti default_options c k =
    if (k <? 0) || (65534 <? k) then Thrown EDomain (unset c) else Done (with_val c (VInt k))).
  { intros c k Hc. unfold seti, assign_i_checked. rewrite Hc, V1, V2, V3. reflexivity. }
  assert (T : forall c, c_info c = i -> sets default_options c [50; 56; 48; 48; 48] = seti default_options c 28000).
  { intros c Hc. unfold sets, seti. rewrite Hc, V1. reflexivity. }
  cbn [run_history run_op]. rewrite S by reflexivity. cbn [after Z.ltb Z.compare orb].
  cbn -[seti sets]. rewrite S by reflexivity. cbn -[seti sets]. rewrite T, S by reflexivity. reflexivity.
Qed.

(** C07 fails for move assignment between definitions: the value moves, the
    definition does not. *)
Theorem C07_move_assign_refuted : exists i j, block = Ok i /\ temp = Ok j /\
  let src := mkcell j (Some (VInt 28000)) in
  cell_ok src /\ cell_ok (fresh i) /\ ~ cell_ok (move_assign (fresh i) src).
Proof.
  get_info (i <- block ;; j <- temp ;; Ok (i, j))
    (fun '(i, j) => (vi_type i, vi_imax i, vi_type j, vi_imin j, vi_imax j)) (TInteger, 126, TDecimal, 0, 65534).
  destruct i as [i j]. inv_bind E. inv_bind Hk. injection Hk0 as -> ->.
  injection V as V1 V2 V3 V4 V5. exists i, j. split; auto. split; auto.
  eapply set_bufr_ok in Hb; try (unfold int_min, int_max; lia).
  eapply set_bufr_ok in Hb0; try (unfold int_min, int_max; lia). cbv zeta.
  split; [split; cbn; auto; unfold value_ok; rewrite V3, V4, V5; lia|].
  split; [split; cbn; auto|]. intros [_ H]. cbn in H. unfold value_ok in H. rewrite V1, V2 in H. lia.
Qed.

(** C08: integers.  A value out of range leaves the variable unset, whether the
    error is thrown or silenced, and clamping stores the nearest value in range. *)
Theorem C08_seti_refused : forall o c v, is_numeric (vi_type (c_info c)) = true ->
  ~ (vi_imin (c_info c) <= v <= vi_imax (c_info c)) -> o_hook o = None ->
  match seti o c v with
  | Done c' =>
    c_info c' = c_info c /\
    if o_silent o then c_val c' = None
    else exists n, c_val c' = Some (VInt n) /\ o_clamp o = true /\
         (vi_imin (c_info c) <= vi_imax (c_info c) ->
          vi_imin (c_info c) <= n <= vi_imax (c_info c) /\
          forall k, vi_imin (c_info c) <= k <= vi_imax (c_info c) -> Z.abs (n - v) <= Z.abs (k - v))
  | Thrown e c' => e = EDomain /\ c' = unset c /\ o_silent o = false /\ o_clamp o = false
  | Undef => False
  end.
Proof.
  intros o c v Ht R Oh. unfold seti. rewrite Ht. unfold assign_i_checked. rewrite Oh.
  replace ((v <? vi_imin (c_info c)) || (vi_imax (c_info c) <? v)) with true by lia.
  destruct (o_silent o); [split; reflexivity|]. destruct (o_clamp o); [|auto].
  split; [reflexivity|]. eexists. split; [reflexivity|]. split; auto. intros R'.
  destruct (Z.ltb_spec v (vi_imin (c_info c))); [split; [lia|intros; lia]|].
  destruct (Z.ltb_spec (vi_imax (c_info c)) v); [split; [lia|intros; lia]|]. lia.
Qed.

(** C08: doubles on decimal variables, NaN included. *)
Theorem C08_setd_refused : forall o c (d : f64), info_ok (c_info c) -> vi_type (c_info c) = TDecimal ->
  (fisnan d = true \/ flt d (vi_dmin (c_info c)) = true \/ flt (vi_dmax (c_info c)) d = true) ->
  o_hook o = None -> (o_clamp o = false \/ fisnan d = true) ->
  setd o c d = if o_silent o then Done (unset c) else Thrown EDomain (unset c).
Proof. exact setd_decimal_refused. Qed.

Theorem C08_setd_clamped : forall o c (d : f64), info_ok (c_info c) -> vi_type (c_info c) = TDecimal ->
  fisnan d = false -> o_silent o = false -> o_clamp o = true ->
  setd o c d = if flt d (vi_dmin (c_info c)) then Done (with_val c (VInt (vi_imin (c_info c))))
               else if flt (vi_dmax (c_info c)) d then Done (with_val c (VInt (vi_imax (c_info c))))
               else setd default_options c d.
Proof. exact setd_decimal_clamped. Qed.

(** C08: whatever the setter, a domain error leaves the variable unset. *)
Theorem C08_domain_error_unsets : forall strtod conv o c x c', o_hook o = None ->
  (forall src, x <> OpSetval src) -> run_op strtod conv o c x = Thrown EDomain c' -> c' = unset c.
Proof.
  intros strtod conv o c x c' Oh Hx.
  assert (A : forall v, assign_i_checked o c v = Thrown EDomain c' -> c' = unset c).
  { intros v. unfold assign_i_checked. rewrite Oh.
    destruct (_ || _), (o_silent o), (o_clamp o); intros H; try discriminate; injection H as <-; reflexivity. }
  assert (D : forall d, setd o c d = Thrown EDomain c' -> c' = unset c).
  { intros d. unfold setd. destruct (vi_type (c_info c)); try discriminate.
    - destruct (f_lround d); try discriminate. apply A.
    - unfold assign_d_checked, store_d. rewrite Oh.
      destruct (fisnan d); [destruct (o_silent o); intros H; try discriminate; injection H as <-; reflexivity|].
      destruct (flt d _ || flt _ d).
      + destruct (o_silent o); [discriminate|]. destruct (o_clamp o).
        * match goal with |- match ?e with _ => _ end = _ -> _ => destruct e; discriminate end.
        * intros H; injection H as <-; reflexivity.
      + match goal with |- match ?e with _ => _ end = _ -> _ => destruct e; discriminate end. }
  assert (S : forall b n, assign_c_checked c b n = Thrown EDomain c' -> c' = unset c).
  { intros b n. unfold assign_c_checked. cbv zeta. destruct (strncpy_str _ _); discriminate. }
  assert (B : forall b n, assign_b_checked c b n = Thrown EDomain c' -> c' = unset c).
  { intros b n. unfold assign_b_checked. cbv zeta.
    destruct (Nat.ltb n _), (Nat.ltb (length b) _); try discriminate. destruct (_ && _); discriminate. }
  assert (N : forall s, set_number o c s = Thrown EDomain c' -> c' = unset c).
  { intros s. unfold set_number. destruct (isnumber s); [|discriminate]. cbn [negb].
    destruct s as [|z s]; [apply A|]. destruct z; try apply A. do 6 (try (destruct p; try apply A)). }
  destruct x; cbn [run_op].
  - unfold seti. destruct (is_numeric _); [apply A|discriminate].
  - apply D.
  - unfold setc. destruct (vi_type (c_info c)); eauto.
  - unfold setc_truncate. destruct (vi_type (c_info c)); try discriminate; eauto.
  - unfold sets. destruct (vi_type (c_info c)); eauto.
  - unfold setf. destruct s as [[|ch s]|]; try discriminate. destruct (vi_type (c_info c)); try discriminate; eauto.
  - discriminate.
  - exfalso. eapply Hx. reflexivity.
  - discriminate.
Qed.

(** C08 is false for setval: when the unit conversion itself fails with a domain
    error, the variable keeps its old value. *)
Theorem C08_setval_refuted : forall (conv : string -> string -> f64 -> res f64) o c src (d : f64),
  is_numeric (vi_type (c_info c)) = true -> isset src = true -> enqd src = Ok d ->
  conv (vi_unit (c_info src)) (vi_unit (c_info c)) d = Err EDomain ->
  setval conv o c src = Thrown EDomain c.
Proof.
  intros conv o c src d Ht S E C. unfold setval. rewrite S, E. cbn [negb bind]. rewrite C.
  destruct (vi_type (c_info c)); try discriminate; reflexivity.
Qed.

(** C08 is false for setd on Integer variables: the value is wrapped modulo 2^32
    before the range check, so 4294967301 is stored as 5. *)
Theorem C08_setd_integer_refuted : exists i, block = Ok i /\ vi_imax i = 126 /\
  setd default_options (fresh i) (f_of_Z 4294967301) = Done (mkcell i (Some (VInt 5))).
Proof.
  get_info block (fun i => (vi_type i, vi_imin i, vi_imax i)) (TInteger, 0, 126).
  injection V as V1 V2 V3. exists i. split; auto. split; auto.
  unfold setd. cbn [fresh c_info]. rewrite V1.
  replace (f_lround (f_of_Z 4294967301)) with (@Ok Z 4294967301) by (vm_compute; reflexivity).
  unfold assign_i_checked. cbn [fresh c_info]. rewrite V2, V3. reflexivity.
Qed.

(** ... and NaN reaches lround, whose result is unspecified. *)
Theorem C08_setd_integer_nan_refuted : exists i, block = Ok i /\
  setd default_options (fresh i) B754_nan = Undef.
Proof.
  get_info block (fun i => vi_type i) TInteger. exists i. split; auto.
  unfold setd. cbn [fresh c_info]. rewrite V. reflexivity.
Qed.

(** C09: integers. *)
Theorem C09_seti_enqi : forall o c v, is_numeric (vi_type (c_info c)) = true ->
  vi_imin (c_info c) <= v <= vi_imax (c_info c) ->
  exists c', seti o c v = Done c' /\ enqi c' = Ok v /\ c_info c' = c_info c.
Proof.
  intros o c v Ht R. unfold seti. rewrite Ht. unfold assign_i_checked.
  replace ((v <? vi_imin (c_info c)) || (vi_imax (c_info c) <? v)) with false by lia.
  eexists. split; [reflexivity|]. split; [|reflexivity]. unfold enqi. cbn.
  destruct (vi_type (c_info c)); try discriminate; reflexivity.
Qed.

(** C09: doubles on decimal variables: the stored integer is the one nearest to
    d * 10^scale (the tolerance covers the rounding of the multiplication), in
    range, and reading gives that multiple of 10^-scale. *)
Theorem C09_setd_enqd : forall o c (d : f64), cell_ok c -> vi_type (c_info c) = TDecimal ->
  fisnan d = false -> flt d (vi_dmin (c_info c)) = false -> flt (vi_dmax (c_info c)) d = false ->
  exists n r, setd o c d = Done (with_val c (VInt n)) /\ vi_imin (c_info c) <= n <= vi_imax (c_info c) /\
    (Rabs (IZR n - unscaled (vi_scale (c_info c)) d) <= / 2 + / 100000)%R /\
    enqd (with_val c (VInt n)) = Ok r /\ decode_decimal (vi_scale (c_info c)) n = Ok r.
Proof. exact setd_decimal_nearest. Qed.

Theorem C09_setd_enqd_integer : forall o c (d : f64) n, vi_type (c_info c) = TInteger ->
  f_lround d = Ok n -> vi_imin (c_info c) <= n <= vi_imax (c_info c) -> info_ok (c_info c) ->
  setd o c d = Done (with_val c (VInt n)) /\ (Rabs (IZR n - B2R d) <= / 2)%R /\
  enqd (with_val c (VInt n)) = Ok (f_of_Z n) /\ enqi (with_val c (VInt n)) = Ok n.
Proof. exact setd_integer_nearest. Qed.

(** C09: what enqd returns can be stored again without change. *)
Theorem C09_enqd_setd : forall o c k, info_ok (c_info c) -> is_numeric (vi_type (c_info c)) = true ->
  vi_imin (c_info c) <= k <= vi_imax (c_info c) -> c_val c = Some (VInt k) ->
  exists d, enqd c = Ok d /\ forall c0, c_info c0 = c_info c -> setd o c0 d = Done c.
Proof.
  intros o c k Hi Ht R V. destruct (info_ok_numeric _ Hi Ht) as (Hs & I1 & I2 & _).
  destruct (enqd_scaled c k Hi Ht) as (d & E & F & D); auto; [lia|].
  exists d. split; auto. intros c0 H0.
  rewrite (setd_scaled o c0 k d); try (rewrite H0; auto); auto; [|lia].
  destruct c as [i v]. cbn in V. unfold with_val. rewrite H0, V. reflexivity.
Qed.

(** C09: strings: the C string, cut to the length of the variable, is read back. *)
Theorem C09_string : forall o c s, vi_type (c_info c) = TString ->
  exists c', setc o c (s ++ [0]) = Done c' /\ sets o c s = Done c' /\
    enqs c' = Ok (firstn (ilen (c_info c)) (cstr s)).
Proof. exact set_get_string. Qed.

Example C09_example : exists i, name8 = Ok i /\ vi_type i = TString /\ ilen i = 9%nat /\
  exists c, sets default_options (fresh i) [65; 66; 0; 67] = Done c /\ enqs c = Ok [65; 66].
Proof.
  get_info name8 (fun i => (vi_type i, vi_len i)) (TString, 9). injection V as V1 V2.
  exists i. unfold ilen. rewrite V2. repeat split; auto.
  destruct (set_get_string default_options (fresh i) [65; 66; 0; 67] V1) as (c & _ & S & Q).
  exists c. split; auto. rewrite Q. unfold ilen. cbn [fresh c_info]. rewrite V2. reflexivity.
Qed.

(** C10: the text of an integer value restores it, through both string setters. *)
Theorem C10_text_roundtrip : forall o c k, is_numeric (vi_type (c_info c)) = true ->
  c_val c = Some (VInt k) -> vi_imin (c_info c) <= k <= vi_imax (c_info c) -> int_min < k <= int_max ->
  exists s buf, enqs c = Ok s /\ enqc c = Ok buf /\
    forall c0, c_info c0 = c_info c ->
      sets o c0 s = Done (mkcell (c_info c) (Some (VInt k))) /\
      setc o c0 buf = Done (mkcell (c_info c) (Some (VInt k))).
Proof. exact text_roundtrip. Qed.

(** The text is the decimal representation. *)
Theorem C10_text_is_decimal : forall k, int_min < k <= int_max ->
  exists s, forallb c_isdigit s = true /\ dec_value 0 s = Z.abs k /\
    int32_to_str k = Ok (if k <? 0 then 45 :: s else s).
Proof. intros k H. destruct (int32_to_str_ok k H) as (s & A & B & _ & C). eauto. Qed.

(** C10 is false at the bottom of the range: INT_MIN, which a variable with 10 or
    more digits accepts, is negated before conversion and overflows. *)
Theorem C10_int_min_refuted : exists i, set_bufr (wr_var 0 2 121) "Hz" (-8) 10 0 32 = Ok i /\
  seti default_options (fresh i) int_min = Done (mkcell i (Some (VInt int_min))) /\
  enqc (mkcell i (Some (VInt int_min))) = UB.
Proof.
  get_info (set_bufr (wr_var 0 2 121) "Hz" (-8) 10 0 32) (fun i => (vi_type i, vi_imin i, vi_imax i))
    (TDecimal, int_min, int_max).
  injection V as V1 V2 V3. exists i. split; auto. unfold seti, assign_i_checked, enqc. cbn [fresh c_info c_val].
  rewrite V1, V2, V3. split; reflexivity.
Qed.

(** C10: text that does not fit 32 bits is accepted and wraps. *)
Theorem C10_wrap_refuted : exists i, block = Ok i /\
  setc default_options (fresh i) ([52;50;57;52;57;54;55;51;48;49] ++ [0]) = Done (mkcell i (Some (VInt 5))).
Proof.
  get_info block (fun i => (vi_type i, vi_imin i, vi_imax i)) (TInteger, 0, 126).
  injection V as V1 V2 V3. exists i. split; auto. unfold setc. cbn [fresh c_info]. rewrite V1.
  unfold set_number. cbn -[assign_i_checked str_to_unsigned]. 
  replace (wrap_int (str_to_unsigned [52;50;57;52;57;54;55;51;48;49])) with 5 by reflexivity.
  unfold assign_i_checked. cbn [fresh c_info]. rewrite V2, V3. reflexivity.
Qed.

(** C11: equality of variables made with the same definitions is equality of code,
    value and attributes: it is total, hence an equivalence relation, and true of
    every copy. *)
Theorem C11_equality : forall a b, all_ok a -> all_ok b -> all_comparable (chain a) (chain b) ->
  exists r, var_equals a b = Ok r /\ (r = true <-> a = b).
Proof. exact var_equals_spec. Qed.

Theorem C11_equality_refl : forall a, all_ok a -> all_comparable (chain a) (chain a) -> var_equals a a = Ok true.
Proof. intros a H C. destruct (var_equals_spec a a H H C) as (r & E & Q). rewrite E. f_equal. apply Q. reflexivity. Qed.

Theorem C11_equality_sym : forall a b, all_ok a -> all_ok b -> all_comparable (chain a) (chain b) ->
  var_equals a b = var_equals b a.
Proof.
  intros a b Ha Hb C. destruct (var_equals_spec a b Ha Hb C) as (r & E & Q).
  destruct (var_equals_spec b a Hb Ha) as (r' & E' & Q').
  { intros x y Hx Hy Hc. symmetry. apply C; auto. }
  rewrite E, E'. f_equal. destruct r, r'; auto.
  - symmetry. apply Q'. symmetry. apply Q. reflexivity.
  - apply Q. symmetry. apply Q'. reflexivity.
Qed.

Theorem C11_equality_trans : forall a b c, all_ok a -> all_ok b -> all_ok c ->
  all_comparable (chain a) (chain b) -> all_comparable (chain b) (chain c) ->
  var_equals a b = Ok true -> var_equals b c = Ok true -> var_equals a c = Ok true.
Proof.
  intros a b c Ha Hb Hc C1 C2 E1 E2.
  destruct (var_equals_spec a b Ha Hb C1) as (r & E & Q). rewrite E in E1. injection E1 as ->.
  destruct (proj1 Q eq_refl). rewrite E2. reflexivity.
Qed.

(** C11 is false for variables with the same code and different types: comparing a
    number with a text reads the wrong member of a union. *)
Theorem C11_mixed_types_refuted : exists i j, block = Ok i /\
  set_bufr (wr_var 0 1 1) "CCITTIA5" 0 1 0 8 = Ok j /\
  var_equals (mkvar (mkcell i (Some (VInt 5))) []) (mkvar (mkcell j (Some (VStr [53]))) []) = UB.
Proof.
  get_info (i <- block ;; j <- set_bufr (wr_var 0 1 1) "CCITTIA5" 0 1 0 8 ;; Ok (i, j))
    (fun '(i, j) => (vi_type i, vi_code i, vi_code j)) (TInteger, wr_var 0 1 1, wr_var 0 1 1).
  destruct i as [i j]. inv_bind E. inv_bind Hk. injection Hk0 as -> ->. injection V as V1 V2 V3.
  exists i, j. split; auto. split; auto. unfold var_equals. cbn [v_cell v_attrs chain_equals].
  unfold c_code. cbn [c_info]. rewrite V2, V3, Z.eqb_refl. cbn [negb]. unfold value_equals. cbn [c_val c_info].
  rewrite V1. reflexivity.
Qed.

(** C12: after any sequence of attribute operations on a new variable, lookup is
    the lookup in a map, attributes come in strictly increasing code order and the
    variable's own value is untouched. *)
Theorem C12_attributes_map : forall ops c code,
  let v := fold_left run_aop ops (mkvar c []) in
  StronglySorted (fun a b => c_code a < c_code b) (v_attrs v) /\
  v_cell v = c /\
  var_enqa v code = fold_left (map_aop code) ops None.
Proof. intros ops c code. apply (run_aops_map ops (mkvar c []) code). constructor. Qed.

(** ... from any variable whose attributes are in order. *)
Theorem C12_attributes_map_from : forall ops v code, StronglySorted (fun a b => c_code a < c_code b) (v_attrs v) ->
  sorted (v_attrs (fold_left run_aop ops v)) /\
  v_cell (fold_left run_aop ops v) = v_cell v /\
  var_enqa (fold_left run_aop ops v) code = fold_left (map_aop code) ops (var_enqa v code).
Proof. exact run_aops_map. Qed.

(** The attributes are exactly those that lookup finds. *)
Theorem C12_iteration : forall l a, StronglySorted (fun a b => c_code a < c_code b) l ->
  (In a l <-> enqa (c_code a) l = Some a).
Proof.
  intros l a S. split.
  - induction S as [|b l S IH F]; cbn; [tauto|]. intros [->|H].
    + rewrite Z.leb_refl, Z.eqb_refl. reflexivity.
    + rewrite Forall_forall in F. pose proof (F _ H). destruct (Z.leb_spec (c_code b) (c_code a)); [|lia].
      destruct (Z.eqb_spec (c_code b) (c_code a)); [lia|]. auto.
  - clear S. induction l as [|b l IH]; cbn; [discriminate|].
    destruct (c_code b <=? c_code a); [|discriminate]. destruct (c_code b =? c_code a); [intros [= ->]; auto|auto].
Qed.

Example C12_example : exists i j k, block = Ok i /\ temp = Ok j /\ lat = Ok k /\
  let v := fold_left run_aop
    [ASet (mkvar (mkcell j (Some (VInt 7))) []); ASet (mkvar (fresh k) [fresh j]);
     ASet (mkvar (mkcell j (Some (VInt 8))) []); AUnset (wr_var 0 1 2)] (mkvar (fresh i) []) in
  v_attrs v = [fresh k; mkcell j (Some (VInt 8))].
Proof.
  get_info (i <- block ;; j <- temp ;; k <- lat ;; Ok (i, j, k)) (fun p : varinfo * varinfo * varinfo => (vi_code (snd (fst p)), vi_code (snd p)))
    (wr_var 0 12 101, wr_var 0 5 1).
  destruct i as [[i j] k]. inv_bind E. inv_bind Hk. inv_bind Hk0. injection Hk as -> -> ->. injection V as V1 V2.
  exists i, j, k. repeat split; auto. cbv zeta. cbn [fold_left run_aop var_seta var_unseta v_attrs v_cell seta].
  unfold c_code. cbn [fresh c_info]. rewrite V1, V2. cbn [Z.ltb Z.compare].
  repeat (cbn [unseta seta v_attrs v_cell]; unfold c_code; cbn [fresh c_info]; rewrite ?V1, ?V2; cbn).
  reflexivity.
Qed.

(** C13: diff is total, does not depend on the order, and zero means same code,
    value and (for set variables) attributes. *)
Theorem C13_diff : forall a b, diff_ready (chain a) (chain b) ->
  exists n, var_diff a b = Ok n /\ var_diff b a = Ok n /\ 0 <= n /\
    (n = 0 -> same_cell (v_cell a) (v_cell b) /\
      (isset (v_cell a) = true -> Forall2 same_cell (v_attrs a) (v_attrs b))).
Proof. intros a b R. apply diff_chain_spec; auto. Qed.

Theorem C13_diff_self : forall a, diff_ready (chain a) (chain a) -> var_diff a a = Ok 0.
Proof. intros a R. apply diff_chain_refl; auto. Qed.

(** C13 is false for unset variables: their attributes are not compared. *)
Theorem C13_unset_refuted : forall i a, var_diff (mkvar (fresh i) []) (mkvar (fresh i) [a]) = Ok 0.
Proof. intros i a. unfold var_diff. cbn. rewrite Z.eqb_refl. reflexivity. Qed.

Example C13_example : exists i, block = Ok i /\
  let a := mkvar (mkcell i (Some (VInt 5))) [mkcell i (Some (VInt 6))] in
  diff_ready (chain a) (chain a).
Proof.
  get_info block (fun i => (vi_type i, vi_imin i, vi_imax i)) (TInteger, 0, 126).
  injection V as V1 V2 V3. exists i. split; auto. cbv zeta.
  eapply set_bufr_ok in E; try (unfold int_min, int_max; lia).
  assert (A : forall k, 0 <= k <= 126 -> cell_ok (mkcell i (Some (VInt k)))).
  { intros k Hk. split; cbn; auto. unfold value_ok. rewrite V1, V2, V3. auto. }
  assert (B : forall k, 0 <= k <= 126 -> printable_cell (mkcell i (Some (VInt k)))).
  { intros k Hk. exists tt. left. unfold diff_log, enqc. cbn [c_val c_info]. rewrite V1.
    destruct (int32_to_str_ok k) as (s & _ & _ & _ & ->); [unfold int_min, int_max; lia|]. reflexivity. }
  unfold diff_ready, chain. cbn [v_cell v_attrs].
  split; [constructor; [apply A; lia|constructor; [apply A; lia|constructor]]|]. split; [constructor; [apply A; lia|constructor; [apply A; lia|constructor]]|].
  split; [constructor; [apply B; lia|constructor; [apply B; lia|constructor]]|]. split; [constructor; [apply B; lia|constructor; [apply B; lia|constructor]]|].
  intros x y Hx Hy. cbn in Hx, Hy. unfold bin_compat.
  destruct Hx as [<-|[<-|[]]], Hy as [<-|[<-|[]]]; auto.
Qed.

Print Assumptions C06_field_through_variable.
Print Assumptions C06_raw_in_range.
Print Assumptions C07_always_in_range.
Print Assumptions C08_seti_refused.
Print Assumptions C08_setd_refused.
Print Assumptions C08_setd_clamped.
Print Assumptions C08_domain_error_unsets.
Print Assumptions C09_seti_enqi.
Print Assumptions C09_setd_enqd.
Print Assumptions C09_enqd_setd.
Print Assumptions C09_string.
Print Assumptions C10_text_roundtrip.
Print Assumptions C11_equality.
Print Assumptions C12_attributes_map.
Print Assumptions C13_diff.

(** Properties C35 (data present bitmaps) and C13 (comparison) of subsets. *)
From Coq Require Import String ZifyBool ZifyNat Sorted.
From Verif Require Import Base Bits.Model Num.Float Varcode.Model Varinfo.Model Tables.Model Var.Model Var.Spec Var.Proofs Var.AttrProofs
  Interp.Model Interp.Spec Codec.Model Subset.Model Subset.Spec Subset.Proofs.
Local Open Scope Z_scope.

(** append_dpb over all the data variables of the subset succeeds (unless the same bitmap
    is in use under another operator), returns the number of data variables that carry
    the attribute, and appends a bitmap of that many entries; read by the interpreter, it
    refers to the positions of the variables that carry the attribute, and to no other. *)
Theorem C35_append_dpb : forall o lt ccode attr vars, bitmaps_ok lt -> var_f ccode = 2 ->
  (exists v, In v vars /\ is_data v = true) ->
  (forall chars i, In (chars, i) (lt_bitmaps lt) -> vi_code i = ccode) ->
  exists lt' i chars refs,
    let vars' := vars ++ [mkvar (mkcell i (Some (VStr chars))) []] in
    append_dpb o lt ccode (length (filter is_data vars)) attr vars =
      Ok (length (filter (fun v => is_data v && carries attr v) vars), vars', lt') /\
    vi_code i = ccode /\ vi_type i = TString /\ vi_len i = Z.of_nat (length (filter is_data vars)) /\
    bitmaps_ok lt' /\
    make_bitmap (codes_of vars') chars = Ok refs /\
    (forall p, In p refs <-> exists v, nth_error vars p = Some v /\ is_data v = true /\ carries attr v = true) /\
    (forall p s pending, e_pos s = length vars ->
      exists s', e_bitmap p vars' pending (Z.of_nat (length (filter is_data vars))) s = Ok (codes_of vars', chars, s')).
Proof.
  intros o lt ccode attr vars B F (v0 & V1 & V2) NC.
  assert (Ne : filter is_data vars <> []).
  { intros E. assert (X : In v0 (filter is_data vars)) by (apply filter_In; auto). rewrite E in X. contradiction. }
  set (chars := map (fun v => mark (carries attr v)) (filter is_data vars)).
  assert (Z0 : Forall (fun c => c <> 0) chars).
  { apply Forall_forall. intros c Hc. apply in_map_iff in Hc as (v & <- & _). destruct (carries attr v); cbn; lia. }
  destruct (append_c_with_dpb_total o lt ccode chars vars B Z0 (NC chars)) as (vars' & lt' & E).
  destruct (append_c_with_dpb_spec _ _ _ _ _ _ _ B Z0 E) as (B' & i & I1 & I2 & I3 & ->).
  assert (Lc : length chars = length (filter is_data vars)) by (unfold chars; apply map_length).
  exists lt', i, chars, (map fst (filter (fun pv => is_data (snd pv) && carries attr (snd pv)) (indexed vars))). cbv zeta.
  split.
  { unfold append_dpb. rewrite dpb_chars_spec, Nat.leb_refl, firstn_all. cbn [bind]. fold chars. rewrite E. cbn [bind].
    f_equal. f_equal. f_equal. unfold chars. rewrite count_plus_marks, filter_filter. reflexivity. }
  split; [exact I1|]. split; [exact I3|]. split; [rewrite I2, Lc; reflexivity|]. split; [exact B'|].
  split. { apply full_bitmap; auto. unfold is_data, c_code. cbn [v_cell c_info]. rewrite I1, F. reflexivity. }
  split. { intros p. apply full_refs. }
  intros p s pending Hp. unfold e_bitmap, e_next, get_var. rewrite Hp.
  rewrite nth_error_app2, Nat.sub_diag by lia. cbn [nth_error bind v_cell c_info].
  unfold c_code. cbn [c_info]. rewrite I1, F. cbn [Z.eqb negb]. rewrite I2, Lc, Z.eqb_refl. cbn [negb].
  destruct (Z.eqb_spec (Z.of_nat (length (filter is_data vars))) 0) as [E0|E0].
  { destruct (filter is_data vars); [contradiction|cbn in E0; lia]. }
  unfold bitmap_chars, enqc. cbn [c_val c_info]. rewrite I3. cbn [bind].
  replace (Nat.ltb (length (chars ++ [0])) (ilen i)) with false by (rewrite app_length; unfold ilen; cbn [length]; lia).
  cbn [bind]. replace (firstn (ilen i) (chars ++ [0])) with chars.
  2: { rewrite firstn_app. replace (ilen i - length chars)%nat with 0%nat by (unfold ilen; lia). cbn [firstn].
       rewrite app_nil_r, firstn_all2 by (unfold ilen; lia). reflexivity. }
  assert (Pb : forall cs out, exists out', put_bitmap p cs out = Ok out').
  { induction cs as [|c cs IH]; intros o0; cbn [put_bitmap]; [eauto|].
    assert (A : exists o1, add_bits p (if c =? 43 then 0 else 1) 1 o0 = Ok o1)
      by (unfold add_bits, shl1; cbn [Z.of_nat Z.sub Z.leb]; eexists; reflexivity).
    destruct A as (o1 & ->). cbn [bind]. apply IH. }
  cbn [e_out]. unfold e_put. destruct (Pb chars (e_out s)) as (out' & ->). cbn [bind e_pos e_lt].
  eexists. f_equal. f_equal. f_equal.
  rewrite firstn_all2 by (rewrite app_length; cbn; lia). reflexivity.
Qed.

(** For a smaller size, the count is about the first variables... *)
Theorem C35_first_variables : forall o lt ccode n attr vars, bitmaps_ok lt ->
  (n <= length (filter is_data vars))%nat ->
  (forall chars i, In (chars, i) (lt_bitmaps lt) -> vi_code i = ccode) ->
  exists vars' lt', append_dpb o lt ccode n attr vars =
    Ok (length (filter (carries attr) (firstn n (filter is_data vars))), vars', lt').
Proof.
  intros o lt ccode n attr vars B L NC. unfold append_dpb. rewrite dpb_chars_spec.
  replace (Nat.leb n (length (filter is_data vars))) with true by lia. cbn [bind]. rewrite count_plus_marks.
  set (chars := map (fun v => mark (carries attr v)) (firstn n (filter is_data vars))).
  assert (Z0 : Forall (fun c => c <> 0) chars).
  { apply Forall_forall. intros c Hc. apply in_map_iff in Hc as (v & <- & _). destruct (carries attr v); cbn; lia. }
  destruct (append_c_with_dpb_total o lt ccode chars vars B Z0 (NC chars)) as (vars' & lt' & E). rewrite E. cbn [bind]. eauto.
Qed.

(** ... but the bitmap is about the last ones. *)
Definition c22 : Z := wr_var 2 22 0.
Definition conf : Z := wr_var 0 33 7.
Definition some_info (x y : Z) : varinfo := mkinfo (wr_var 0 x y) TInteger "NUMERIC" 0 3 0 7 0 126 fzero fzero.
Definition some_cell (x y k : Z) : cell := mkcell (some_info x y) (Some (VInt k)).
Definition two_vars : list var := [mkvar (some_cell 1 1 5) []; mkvar (some_cell 1 2 7) [some_cell 33 7 50]].

Theorem C35_short_bitmap_refuted :
  exists v1 v2 lt' b, two_vars = [v1; v2] /\ carries conf v1 = false /\ carries conf v2 = true /\
    append_dpb default_options empty_local c22 1 conf two_vars = Ok (0%nat, two_vars ++ [b], lt') /\
    (exists chars, enqc (v_cell b) = Ok chars /\ chars = [45; 0] /\
      make_bitmap (codes_of (two_vars ++ [b])) [43] = Ok [1%nat]).
Proof. do 4 eexists. split; [reflexivity|]. split; [reflexivity|]. split; [reflexivity|]. split; [reflexivity|]. eexists. repeat split; reflexivity. Qed.

(** A size larger than the number of data variables reads memory that was never
    written, or variables that do not exist. *)
Theorem C35_long_bitmap_refuted : forall o lt ccode n attr vars,
  (length (filter is_data vars) < n)%nat -> append_dpb o lt ccode n attr vars = UB.
Proof.
  intros o lt ccode n attr vars L. unfold append_dpb. rewrite dpb_chars_spec.
  replace (Nat.leb n (length (filter is_data vars))) with false by lia. reflexivity.
Qed.

(** append_fixed_dpb: all the last [n] data variables are referred to. *)
Theorem C35_append_fixed_dpb : forall o lt ccode n vars, bitmaps_ok lt -> var_f ccode = 2 ->
  (1 <= n <= length (filter is_data vars))%nat ->
  (forall chars i, In (chars, i) (lt_bitmaps lt) -> vi_code i = ccode) ->
  exists lt' i,
    let vars' := vars ++ [mkvar (mkcell i (Some (VStr (repeat 43 n)))) []] in
    append_fixed_dpb o lt ccode n vars = Ok (vars', lt') /\
    vi_code i = ccode /\ vi_len i = Z.of_nat n /\
    make_bitmap (codes_of vars') (repeat 43 n) = Ok (lastn n (data_positions (codes_of vars))).
Proof.
  intros o lt ccode n vars B F L NC.
  assert (Z0 : Forall (fun c => c <> 0) (repeat 43 n)) by (apply Forall_forall; intros c Hc; apply repeat_spec in Hc; lia).
  destruct (append_c_with_dpb_total o lt ccode (repeat 43 n) vars B Z0 (NC _)) as (vars' & lt' & E).
  destruct (append_c_with_dpb_spec _ _ _ _ _ _ _ B Z0 E) as (B' & i & I1 & I2 & I3 & ->).
  exists lt', i. cbv zeta. split; [exact E|]. split; [exact I1|]. split; [rewrite I2, repeat_length; reflexivity|].
  assert (D : is_data (mkvar (mkcell i (Some (VStr (repeat 43 n)))) []) = false)
    by (unfold is_data, c_code; cbn [v_cell c_info]; rewrite I1, F; reflexivity).
  rewrite Interp.BitmapProofs.make_bitmap_present, !data_positions_data, data_snoc by exact D.
  rewrite repeat_length, map_length, data_length.
  replace (Nat.leb 1 n && Nat.leb n (length (filter is_data vars)))%bool with true by lia. f_equal.
  unfold present. rewrite data_positions_data, data_snoc, repeat_length by exact D.
  assert (H : forall l : list nat, length l = n -> map fst (filter (fun pb => snd pb =? 43) (combine l (repeat 43 n))) = l).
  { clear. intros l. revert n. induction l as [|a l IH]; intros n L; [reflexivity|]. destruct n as [|n]; [discriminate|].
    cbn [repeat combine filter snd]. change (43 =? 43) with true. cbn [map fst]. f_equal. apply IH. cbn in L. lia. }
  apply H. unfold lastn. rewrite skipn_length, map_length, data_length. lia.
Qed.

Lemma empty_bitmaps_ok : bitmaps_ok empty_local.
Proof. constructor. Qed.

(** Two data variables, one with a confidence. *)
Example C35_example :
  length (filter is_data two_vars) = 2%nat /\
  exists vars' lt', append_dpb default_options empty_local c22 2 conf two_vars = Ok (1%nat, vars', lt') /\
    make_bitmap (codes_of vars') [45; 43] = Ok [1%nat].
Proof. split; [reflexivity|]. do 2 eexists. split; reflexivity. Qed.

(** ** Comparison of subsets *)

(** Subset::diff is total, does not depend on the order of the arguments, and 0 means that
    the variables have the same codes and values (and attributes, where set). *)
Theorem C13_subset_diff : forall path1 path2 a b,
  (length a = length b -> Forall2 (fun x y => diff_ready (chain x) (chain y)) a b) ->
  exists n, subset_diff path1 path2 a b = Ok n /\ subset_diff path2 path1 b a = Ok n /\ 0 <= n /\
    (n = 0 -> path1 = path2 /\ Forall2 (fun x y => same_cell (v_cell x) (v_cell y) /\
        (isset (v_cell x) = true -> Forall2 same_cell (v_attrs x) (v_attrs y))) a b).
Proof.
  intros path1 path2 a b R. unfold subset_diff. rewrite (String.eqb_sym path2 path1), (Nat.eqb_sym (length b)).
  destruct (String.eqb_spec path1 path2) as [->|]; cbn [negb]; [|exists 1; split; [auto|split; [auto|split; [lia|discriminate]]]].
  destruct (Nat.eqb_spec (length a) (length b)) as [L|]; cbn [negb]; [|exists 1; split; [auto|split; [auto|split; [lia|discriminate]]]].
  destruct (diff_vars_spec a b L (R L)) as (n & N1 & N2 & N3 & N4). exists n.
  split; [exact N1|]. split; [exact N2|]. split; [exact N3|]. intros E. split; [reflexivity|auto].
Qed.

Theorem C13_subset_diff_self : forall path a, Forall (fun x => diff_ready (chain x) (chain x)) a ->
  subset_diff path path a a = Ok 0.
Proof.
  intros path a F. unfold subset_diff. rewrite String.eqb_refl, Nat.eqb_refl. cbn [negb]. apply diff_vars_refl. exact F.
Qed.

Print Assumptions C35_append_dpb.
Print Assumptions C35_append_fixed_dpb.
Print Assumptions C13_subset_diff.

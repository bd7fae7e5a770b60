(** C64: a variable stored in a subset under another code. *)
From Coq Require Import String Reals Lra.
From Flocq Require Import Core BinarySingleNaN.
From Verif Require Import Base Bits.Spec Num.Float Varcode.Model Varinfo.Model Varinfo.RangeProofs Tables.Model Var.Model Var.Spec Var.Proofs Var.CodecProofs Conv.Model
  Codec.Model Subset.Model Subset.Copy.
From Verif Require Var.CopyProperties Conv.Properties Subset.StoreProperties.
Import Var.CopyProperties.
Local Open Scope Z_scope.

(** A number in the same unit is stored as the same amount, with the decimals of the definition of the new code, after what was there and with the
    attributes it had. *)
Theorem C64_store_as : forall repo o t code i src vars k n, query t code = Ok i -> info_ok i -> is_numeric (vi_type i) = true ->
  info_ok (c_info (v_cell src)) -> is_numeric (vi_type (c_info (v_cell src))) = true -> c_val (v_cell src) = Some (VInt k) -> int_min <= k <= int_max ->
  vi_unit i = vi_unit (c_info (v_cell src)) -> amount (vi_scale i) n = amount (vi_scale (c_info (v_cell src))) k -> vi_imin i <= n <= vi_imax i ->
  store_variable_as (convert_units repo) o t code src vars = Ok (vars ++ [mkvar (mkcell i (Some (VInt n))) (v_attrs src)]).
Proof.
  intros repo o t code i src vars k n Q Hi Ti Hs Ts V K U A R. unfold store_variable_as. rewrite Q. cbn [bind].
  rewrite (C64_exact repo o (fresh i) (v_cell src) k n) by auto. reflexivity.
Qed.
Print Assumptions C64_store_as.

(** With fewer decimals the nearest amount is stored. *)
Theorem C64_store_as_nearest : forall repo o t code i src vars k, query t code = Ok i -> info_ok i -> vi_type i = TDecimal ->
  info_ok (c_info (v_cell src)) -> is_numeric (vi_type (c_info (v_cell src))) = true -> c_val (v_cell src) = Some (VInt k) -> int_min <= k <= int_max ->
  vi_unit i = vi_unit (c_info (v_cell src)) ->
  let x := amount (vi_scale (c_info (v_cell src))) k in (amount (vi_scale i) (vi_imin i) <= x <= amount (vi_scale i) (vi_imax i))%R ->
  exists n, store_variable_as (convert_units repo) o t code src vars = Ok (vars ++ [mkvar (mkcell i (Some (VInt n))) (v_attrs src)]) /\
    (Rabs (IZR n - steps (vi_scale i) x) <= / 2 + / 10000)%R.
Proof.
  intros repo o t code i src vars k Q Hi Ti Hs Ts V K U x R.
  destruct (C64_nearest repo o (fresh i) (v_cell src) k Hs Ts V K) as (n & S & _ & B); auto.
  { split; [exact Hi|exact Logic.I]. }
  exists n. split; [|exact B]. unfold store_variable_as. rewrite Q. cbn [bind]. rewrite S. reflexivity.
Qed.
Print Assumptions C64_store_as_nearest.

(** An unset variable stays unset; a code that the table does not have is refused. *)
Theorem C64_store_as_unset : forall conv o t code i src vars, query t code = Ok i -> c_val (v_cell src) = None ->
  store_variable_as conv o t code src vars = Ok (vars ++ [mkvar (mkcell i None) (v_attrs src)]).
Proof. intros conv o t code i src vars Q V. unfold store_variable_as. rewrite Q. cbn [bind]. rewrite C64_unset by exact V. reflexivity. Qed.
Print Assumptions C64_store_as_unset.
Theorem C64_store_as_refused : forall conv o t code src vars, query t code = Err ENotFound -> store_variable_as conv o t code src vars = Err ENotFound.
Proof. intros conv o t code src vars Q. unfold store_variable_as. rewrite Q. reflexivity. Qed.
Print Assumptions C64_store_as_refused.

(** A temperature with one decimal stored under the code of one with two. *)
Definition temp1 : res varinfo := set_bufr (wr_var 0 12 1) "K" 1 4 0 12.
Example C64_store_as_example : forall repo, exists i j, Var.Properties.temp = Ok i /\ temp1 = Ok j /\ forall a,
  store_variable_as (convert_units repo) default_options [mkbentry i []] (vi_code i) (mkvar (mkcell j (Some (VInt 2831))) a) [] = Ok [mkvar (mkcell i (Some (VInt 28310))) a].
Proof.
  intros repo. Var.Properties.get_info Var.Properties.temp (fun i => (vi_type i, vi_imin i, vi_imax i, vi_unit i, vi_scale i)) (TDecimal, 0, 65534, "K"%string, 2). injection V as V1 V2 V3 V4 V5.
  rename E into E1. Var.Properties.get_info temp1 (fun i => (vi_type i, vi_unit i, vi_scale i)) (TDecimal, "K"%string, 1). injection V as W1 W2 W3.
  exists i, i0. split; [auto|]. split; [auto|]. intros a.
  assert (I : info_ok i) by (eapply set_bufr_ok; [| | | |exact E1]; cbn; split; (discriminate || reflexivity)).
  assert (I0 : info_ok i0) by (eapply set_bufr_ok; [| | | |exact E]; cbn; split; (discriminate || reflexivity)).
  apply (C64_store_as repo default_options [mkbentry i []] (vi_code i) i (mkvar (mkcell i0 (Some (VInt 2831))) a) [] 2831 28310); cbn [v_cell c_info c_val]; auto;
    try (rewrite ?V1, ?V2, ?V3, ?V4, ?W1, ?W2; (reflexivity || (split; discriminate))).
  - unfold query, query_entry, find_code. cbn [map length bsearch be_code be_info]. change (1 <? Z.of_nat 1 - -1) with true. change (Z.quot (Z.of_nat 1 + -1) 2) with 0.
    cbn [at_code Z.ltb Z.compare Z.to_nat nth_error bind]. rewrite Z.ltb_irrefl. change (1 <? Z.of_nat 1 - 0) with false. cbn [bind Z.eqb at_code Z.ltb Z.compare Z.to_nat nth_error].
    rewrite Z.eqb_refl. reflexivity.
  - rewrite V5, W3. unfold amount. change (0 <=? 2) with true. change (0 <=? 1) with true. cbv iota. change (10 ^ 2) with 100. change (10 ^ 1) with 10. lra.
Qed.

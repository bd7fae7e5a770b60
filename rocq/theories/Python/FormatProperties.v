(** C59: the text of a variable in Python and in Lua. *)
From Coq Require Import String Reals ZifyBool ZifyNat.
From Verif Require Import Base Bits.Spec Num.Float Varcode.Model Varinfo.Model Varinfo.RangeProofs Var.Model Var.Spec Var.Proofs Var.Format Var.FormatSpec Var.FormatProofs.
From Verif Require Var.FormatProperties.
From Verif Require Import Python.Model Python.Utf8Proofs Python.Properties.
Local Open Scope Z_scope.

(** Var.format() of Python and tostring() of Lua give the same decimal text for a number, whatever default is given. *)
Theorem C59_format : forall fixed v k default b, printf_correct fixed -> cell_ok (v_cell v) -> is_numeric (vi_type (c_info (v_cell v))) = true ->
  c_val (v_cell v) = Some (VInt k) -> Z.abs k * 10 ^ Z.max 0 (- vi_scale (c_info (v_cell v))) < 10 ^ 18 -> arg_s default = Return b ->
  let text := decimal_text (Z.to_nat (vi_scale (c_info (v_cell v)))) (k <? 0) (Z.abs k * 10 ^ Z.max 0 (- vi_scale (c_info (v_cell v)))) in
  py_format fixed v default = Return (PStr text) /\ lua_tostring fixed v = LReturn (LText text).
Proof.
  intros fixed v k default b P Ok_ Ht V Sc D text.
  assert (E : forall u, format fixed (v_cell v) u = Ok text) by (intros u; apply (Var.FormatProperties.C50_number_text fixed P (v_cell v) k u Ok_ Ht V Sc)).
  assert (A : Forall (fun c => 0 <= c < 128) text).
  { apply decimal_text_ascii. apply Z.mul_nonneg_nonneg; [lia|]. apply Z.pow_nonneg. lia. }
  unfold py_format, lua_tostring. rewrite D. cbn [pbind]. rewrite !E. cbn [catch]. unfold str_of_bytes. rewrite ascii_decode by exact A. auto.
Qed.
Print Assumptions C59_format.

(** An unset variable gives the default, any text without NULs, in Python and "(undef)" in Lua. *)
Theorem C59_format_unset : forall fixed v default, c_val (v_cell v) = None -> forallb scalar default = true -> Forall (fun c => c <> 0) default ->
  py_format fixed v default = Return (PStr default) /\ lua_tostring fixed v = LReturn (LText (Var.FormatProperties.text "(undef)")).
Proof.
  intros fixed v default V S N. unfold py_format, lua_tostring, arg_s, utf8_encode, format. rewrite V, S.
  assert (Z0 : existsb (Z.eqb 0) (utf8 default) = false).
  { apply not_true_iff_false. intros E. apply existsb_exists in E as (c & I & E). apply Z.eqb_eq in E. subst c.
    pose proof (utf8_no_zero default S N) as F. rewrite Forall_forall in F. exact (F 0 I eq_refl). }
  rewrite Z0. cbn [pbind catch]. unfold str_of_bytes. rewrite decode_utf8 by exact S. auto.
Qed.
Print Assumptions C59_format_unset.

(** An unset temperature with the default "e-acute"; the numbers for which the first theorem holds are those of C59_str. *)
Example C59_format_example : forall fixed i, py_format fixed (mkvar (fresh i) []) [233] = Return (PStr [233]).
Proof. intros fixed i. apply C59_format_unset; [reflexivity|reflexivity|]. repeat constructor; discriminate. Qed.

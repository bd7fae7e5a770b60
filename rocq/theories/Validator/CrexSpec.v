(** What the check of a subset before encoding can promise for CREX. *)
From Verif Require Import Base Num.Float Varcode.Model Varinfo.Model Varinfo.Proofs Tables.Model Var.Model Interp.Model Interp.Appears
  Codec.Model Crex.Model Crex.Spec.
Local Open Scope Z_scope.

(** Templates made of elements, replications and sequences, at all levels. *)
Definition plain_op (c : Z) : bool := negb (var_f c =? 2).
Definition plain_template (T : tables) (ops : list Z) : Prop := forall c, appears T ops c -> plain_op c = true.

(** Scales that the library has, and no scale for integers. *)
Definition usual_scale (i : varinfo) : Prop :=
  is_numeric (vi_type i) = true -> scale_ok (vi_scale i) /\ (vi_type i = TInteger -> vi_scale i = 0).

(** The variable has the definition that the tables give to its code. *)
Definition own_definition (T : tables) (v : var) : Prop :=
  forall i, query (tb_b T) (c_code (v_cell v)) = Ok i -> c_info (v_cell v) = i.

(** The value of the variable fits its field, without check digits. *)
Definition fits_field (v : var) : Prop := crex_fits false (c_info (v_cell v)) (c_val (v_cell v)) = true.

(** The delayed replication factors that are always written with four digits have a value that can be
    written so: [cx_factor_fits] in Crex/Spec.v. *)
Definition factors_fit (vars : list var) : Prop :=
  forall n v, nth_error vars n = Some v -> four_digits (c_code (v_cell v)) = true ->
  exists k, c_val (v_cell v) = Some (VInt k) /\ cx_factor_fits (c_info (v_cell v)) k (nth_error vars (S n)) = true.

(** Variables of class 31 (the delayed replication factors) are not missing. *)
Definition factors_set (vars : list var) : Prop :=
  forall v, In v vars -> var_x (c_code (v_cell v)) = 31 -> isset (v_cell v) = true.

(** What is sent of a variable in CREX: no attributes. *)
Definition without_attrs (v : var) : var := mkvar (v_cell v) [].

(** What a variable that came out of a message is like. *)
From Coq Require Import ZArith.
From Verif Require Import Base Varinfo.Model Varinfo.RangeProofs Var.Model Var.Spec Var.AttrProofs.
Local Open Scope Z_scope.

(** The value agrees with the definition ([cell_ok]): a number in the range of the definition, a text no longer than it and
    without NUL, as many bytes as it says.  The only exception are the definitions whose range is empty, when values out
    of range are replaced by the nearest limit. *)
Definition sound (o : options) (c : cell) : Prop :=
  cell_ok c \/
  (o_clamp o = true /\ info_ok (c_info c) /\ is_numeric (vi_type (c_info c)) = true /\ vi_imax (c_info c) < vi_imin (c_info c) /\
   (c_val c = Some (VInt (vi_imin (c_info c))) \/ c_val c = Some (VInt (vi_imax (c_info c))))).

(** Attributes too, and they are in the order of their codes, without repetitions. *)
Definition sound_var (o : options) (v : var) : Prop := sound o (v_cell v) /\ Forall (sound o) (v_attrs v) /\ sorted (v_attrs v).

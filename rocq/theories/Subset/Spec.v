(** Notions used to state what append_dpb does. *)
From Verif Require Import Base Varcode.Model Varinfo.Model Tables.Model Var.Model.
Local Open Scope Z_scope.

(** A data element, as opposed to the variables that hold bitmaps and character data. *)
Definition is_data (v : var) : bool := var_f (c_code (v_cell v)) =? 0.

(** The variable has an attribute with that code. *)
Definition carries (attr : Z) (v : var) : bool := match var_enqa v attr with None => false | Some _ => true end.

(** The bitmaps that a message already uses have definitions made by the library. *)
Definition bitmaps_ok (lt : localtables) : Prop :=
  Forall (fun e => exists code, set_string code (Z.of_nat (length (fst e))) = Ok (snd e)) (lt_bitmaps lt).

(** A variable stored under another code: wreport/subset.cc. *)
From Coq Require Import String.
From Verif Require Import Base Num.Float Varcode.Model Varinfo.Model Tables.Model Var.Model Codec.Model Subset.Model.
Local Open Scope Z_scope.

(** store_variable(Varcode, const Var&): subset.cc:40-44, with the constructor Var(Varinfo, const Var&): var.cc:142-147, which copies the value
    with setval and all the attributes with setattrs (var.cc:710-715).  [conv] is convert_units. *)
Definition store_variable_as (conv : string -> string -> f64 -> res f64) (o : options) (t : btable) (code : Z) (src : var) (vars : list var) : res (list var) :=
  i <- query t code ;; c <- of_outcome (setval conv o (fresh i) (v_cell src)) ;; Ok (store_variable (mkvar c (v_attrs src)) vars).

(** The descriptors of a template, with those of its sequences. *)
From Verif Require Import Base Varcode.Model Tables.Model Interp.Model.
Local Open Scope Z_scope.

Inductive appears (T : tables) (ops : list Z) (code : Z) : Prop :=
| ap_here : In code ops -> appears T ops code
| ap_inside d body : appears T ops d -> var_f d = 3 -> dexpand (tb_d T) d = Ok body -> In code body -> appears T ops code.

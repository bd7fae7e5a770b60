(** Specification-level notions for variables. *)
From Coq Require Import String.
From Verif Require Import Base Bits.Spec Num.Float Varinfo.Model Varinfo.RangeProofs Var.Model.
Local Open Scope Z_scope.

(** The number written in decimal by a list of digit characters. *)
Definition dec_value (acc : Z) (s : list Z) : Z := fold_left (fun a ch => a * 10 + (ch - 48)) s acc.

(** The value held by a cell agrees with its definition: numbers are inside the
    declared range, strings are NUL-free and fit, binary values have the declared
    number of bytes. *)
Definition value_ok (i : varinfo) (v : value) : Prop :=
  match vi_type i, v with
  | TInteger, VInt n | TDecimal, VInt n => vi_imin i <= n <= vi_imax i
  | TString, VStr s => (length s <= ilen i)%nat /\ Forall (fun ch => ch <> 0) s
  | TBinary, VBin b => length b = ilen i
  | _, _ => False
  end.

Definition cell_ok (c : cell) : Prop :=
  info_ok (c_info c) /\ match c_val c with None => True | Some v => value_ok (c_info c) v end.

(** The state left behind by an outcome. *)
Definition after {A} (r : outcome A) : option A :=
  match r with Done a | Thrown _ a => Some a | Undef => None end.

(** A hook that leaves the variable in a consistent state and keeps its definition. *)
Definition hook_ok (o : options) : Prop :=
  match o_hook o with
  | None => True
  | Some h => forall c x c', cell_ok c -> after (h c x) = Some c' ->
    cell_ok c' /\ c_info c' = c_info c
  end.

(** A program using one variable: a list of setter calls, each with the options in
    force at that moment.  Exceptions are caught and the program goes on; [None]
    means that undefined behaviour was reached. *)
Fixpoint run_history (strtod : list Z -> f64) (conv : String.string -> String.string -> f64 -> res f64)
  (hist : list (options * op)) (c : cell) : option cell :=
  match hist with
  | [] => Some c
  | (o, x) :: rest =>
    match after (run_op strtod conv o c x) with
    | Some c' => run_history strtod conv rest c'
    | None => None
    end
  end.

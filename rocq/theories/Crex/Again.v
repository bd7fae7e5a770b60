(** What is asked of a decoded CREX message, for it to be encoded and decoded again. *)
From Coq Require Import ZArith.
From Verif Require Import Base Num.Float Varcode.Model Varinfo.Model Tables.Model Var.Model Interp.Model Codec.Model Codec.Spec Crex.Model Crex.Spec.
Local Open Scope Z_scope.

(** Values out of range are refused, not replaced. *)
Definition plain_options (o : options) : Prop := o_silent o = false /\ o_clamp o = false /\ o_hook o = None.

(** The definition of a variable: from 1 to 253 characters, not binary, and a range whose values have
    no more digits than the field; those that count repetitions (class 31) are numbers. *)
Definition again_definition (i : varinfo) : bool :=
  (1 <=? vi_len i) && (vi_len i <=? 253) && match vi_type i with TBinary => false | TString => negb (var_x (vi_code i) =? 31) | _ => true end &&
  (- 10 ^ vi_len i <? vi_imin i) && (vi_imax i <? 10 ^ vi_len i).

(** The delayed replication factors that are always written with four digits have a value that can be
    written so. *)
Fixpoint again_factors (vars : list var) : bool :=
  match vars with
  | [] => true
  | v :: rest =>
    (negb (four_digits (c_code (v_cell v))) ||
     match c_val (v_cell v) with Some (VInt k) => cx_factor_fits (c_info (v_cell v)) k (hd_error rest) | _ => false end) &&
    again_factors rest
  end.

Definition again_subset (vars : list var) : bool :=
  forallb (fun v => again_definition (c_info (v_cell v))) vars && again_factors vars.

(** The header can be written, and the message has no check digits: the encoder never writes them.  The subcategory
    255 is not written, and the local subcategory is 0 where it is not found. *)
Definition again_header (h : cheader) : bool :=
  crex_header_ok h && negb (ch_check h) && (negb (ch_subcategory h =? 255) || (ch_subcategory_local h =? 0)).

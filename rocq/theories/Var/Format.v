(** Var::format: text for people, read back by Var::setf. *)
From Verif Require Import Base Bits.Model Num.Float Varinfo.Model Var.Model.
Local Open Scope Z_scope.

(** snprintf("%02hhX") of one byte. *)
Definition hex_digit (x : Z) : Z := if x <? 10 then 48 + x else 55 + x.
Definition hex2 (b : Z) : list Z := [hex_digit (u8 b / 16); hex_digit (u8 b mod 16)].

(** Number of decimals: var.cc:738 and 764. *)
Definition decimals (i : varinfo) : nat := Z.to_nat (if 0 <? vi_scale i then vi_scale i else 0).

Section Printf.
(** [fixed n x] is what the C library prints for "%.*f" with n decimals, in the "C" locale. *)
Context (fixed : nat -> f64 -> list Z).

(** Var::format(FILE*, ifundef): var.cc:745-769; what is written to the file. *)
Definition format_file (c : cell) (ifundef : list Z) : res (list Z) :=
  match c_val c with
  | None => Ok ifundef
  | Some v =>
    match vi_type (c_info c), v with
    | TBinary, VBin b => if Nat.ltb (length b) (ilen (c_info c)) then UB else Ok (flat_map hex2 (firstn (ilen (c_info c)) b))
    | TString, VStr s => Ok s
    | TInteger, VInt _ | TDecimal, VInt _ => d <- enqd c ;; Ok (fixed (decimals (c_info c)) d)
    | _, _ => UB
    end
  end.

(** Var::format(ifundef): var.cc:717-743.  snprintf is given 20 characters, terminator included. *)
Definition format (c : cell) (ifundef : list Z) : res (list Z) :=
  match c_val c with
  | None => Ok ifundef
  | Some v =>
    match vi_type (c_info c), v with
    | TBinary, VBin b => if Nat.ltb (length b) (ilen (c_info c)) then UB else Ok (flat_map hex2 (firstn (ilen (c_info c)) b))
    | TString, VStr s => Ok s
    | TInteger, VInt _ | TDecimal, VInt _ => d <- enqd c ;; Ok (firstn 19 (fixed (decimals (c_info c)) d))
    | _, _ => UB
    end
  end.
End Printf.

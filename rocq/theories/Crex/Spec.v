(** What can be sent in a CREX message, without its text. *)
From Coq Require Import String.
From Verif Require Import Base Bits.Spec Num.Float Varcode.Model Varinfo.Model Tables.Model Var.Model Interp.Model Interp.Appears
  Codec.Model Codec.Spec Crex.Model.
Local Open Scope Z_scope.

(** The values that a CREX field can carry.  Numbers have at most as many digits as the field;
    texts do not begin with a slash (that is how missing values are written) and do not end with
    a space (fields are padded with spaces).  Without check digits, texts do not begin with a
    space either; with check digits, there are no missing values. *)
Definition crex_number (i : varinfo) (k : Z) : bool :=
  (vi_imin i <=? k) && (k <=? vi_imax i) && in_int k && (Z.abs k <? 10 ^ vi_len i).

Definition no_space_at_end (s : list Z) : bool := negb (c_isspace (last s 0)).

Definition crex_text (check : bool) (i : varinfo) (s : list Z) : bool :=
  (Z.of_nat (length s) <=? vi_len i) && forallb (fun ch => (1 <=? ch) && (ch <? 256)) s &&
  negb (hd 0 s =? 47) && no_space_at_end s &&
  (check || match s with c :: _ => negb (c_isspace c) | [] => false end).

Definition crex_fits (check : bool) (i : varinfo) (v : option value) : bool :=
  (1 <=? vi_len i) && (vi_len i <=? 253) &&
  match v, vi_type i with
  | None, (TInteger | TDecimal | TString) => negb check
  | Some (VInt k), (TInteger | TDecimal) => crex_number i k
  | Some (VStr s), TString => crex_text check i s
  | _, _ => false
  end.

(** ** The ideal transmission of a subset *)

Record cxfer : Type := mkcx { cx_pos : nat; cx_got : list var }.

Section Transfer.
Context (vars : list var).

(** The next variable of the sender: it has the definition [i] and it is received without its
    attributes. *)
Definition cx_take (i : varinfo) (s : cxfer) : res var :=
  v <- get_var vars (cx_pos s) ;;
  if varinfo_eq_dec (c_info (v_cell v)) i then Ok v else Err EConsistency.
Definition cx_give (v : var) (s : cxfer) : cxfer :=
  mkcx (S (cx_pos s)) (cx_got s ++ [mkvar (v_cell v) []]).

Definition cx_var (i : varinfo) (s : cxfer) : res cxfer :=
  v <- cx_take i s ;;
  _ <- guard (crex_fits false i (c_val (v_cell v))) ;;
  Ok (cx_give v s).

(** The delayed replication factors B 31 001, 002, 011 and 012 are written with four digits
    whatever the length of their field: either the field has as many digits as are written, or
    it has one more and the next variable has a value (its leading space is taken as a part of
    the field).  The other factors can also be missing, which stands for as many repetitions as
    there can be. *)
Definition cx_factor_fits (i : varinfo) (k : Z) (next : option var) : bool :=
  if (var_f (vi_code i) =? 0) && (var_x (vi_code i) =? 31) &&
     ((var_y (vi_code i) =? 1) || (var_y (vi_code i) =? 2) || (var_y (vi_code i) =? 11) || (var_y (vi_code i) =? 12)) then
    (0 <=? k) &&
    (((vi_len i =? 4) && (k <? 10000)) ||
     ((vi_len i =? 5) && (10000 <=? k) && (k <? 100000)) ||
     ((vi_len i =? 5) && (k <? 10000) && match next with Some v => isset (v_cell v) | None => false end))
  else true.
Definition cx_factor (i : varinfo) (s : cxfer) : res (Z * cxfer) :=
  v <- cx_take i s ;;
  match c_val (v_cell v) with
  | Some (VInt k) =>
    _ <- guard (crex_fits false i (Some (VInt k)) && cx_factor_fits i k (nth_error vars (S (cx_pos s)))) ;;
    Ok (u32 k, cx_give v s)
  | None =>
    _ <- guard (crex_fits false i None && negb (four_digits (vi_code i))) ;;
    Ok (4294967295, cx_give v s)
  | _ => Err EConsistency
  end.

(** CREX has nothing for associated fields, bitmaps, character data, new reference values and
    elements that are not in the tables. *)
Definition c_transmitter : visitor cxfer :=
  mkvisitor cx_var (fun _ _ _ _ => Err EUnimpl) cx_factor (fun _ _ => Err EUnimpl) (fun _ _ => Err EUnimpl)
    (fun _ _ => Err EUnimpl) (fun _ _ _ => Err EUnimpl) (fun _ _ => Err EUnimpl) (fun _ _ _ => Err EUnimpl)
    (fun _ _ _ => Err EUnimpl) (fun _ _ _ => Err EUnimpl).

Definition crex_transfer (T : tables) (fuel : nat) (ops : list Z) : res (list var) :=
  ' (_, s) <- run c_transmitter T fuel ops (ist_init, mkcx 0 []) ;;
  _ <- guard (Nat.eqb (cx_pos s) (length vars)) ;;
  Ok (cx_got s).
End Transfer.

(** ** Messages *)

(** What a CREX message says of its header: the versions of the BUFR and local tables, the
    local subcategory and the presence of check digits are those of a message without
    them. *)
Definition crex_received (h : cheader) : cheader :=
  mkcheader (ch_mtn h) (ch_edition h) (ch_mtv h) 0 0 (ch_category h) (ch_subcategory h)
    (if ch_subcategory h =? 255 then 0 else 255) false.

(** Headers that can be written: numbers with two digits, categories and subcategories printed as
    signed characters. *)
Definition crex_header_ok (h : cheader) : bool :=
  (0 <=? ch_mtn h) && (ch_mtn h <? 100) && (0 <=? ch_edition h) && (ch_edition h <? 100) &&
  (0 <=? ch_mtv h) && (ch_mtv h <? 100) && (0 <=? ch_category h) && (ch_category h <? 128) &&
  (((0 <=? ch_subcategory h) && (ch_subcategory h <? 128)) || (ch_subcategory h =? 255)).

(** Templates that can be written: not empty, and without B 31 000, 001 and 002, which are left
    out. *)
Definition crex_ops_ok (ops : list Z) : bool :=
  negb (Nat.eqb (length ops) 0) &&
  forallb (fun c => (0 <=? c) && (c <? 65536) &&
                    negb ((var_f c =? 0) && (var_x c =? 31) && (var_y c <? 3))) ops.

(** ** Lines of values *)
Fixpoint append_vars (cells : list cell) (c : cout) : res cout :=
  match cells with
  | [] => Ok c
  | v :: rest => c' <- append_var (c_info v) v c ;; append_vars rest c'
  end.
Fixpoint read_vars (o : options) (infos : list varinfo) (c : cin) : res (list cell * cin) :=
  match infos with
  | [] => Ok ([], c)
  | i :: rest =>
    ' (_, v, c') <- read_variable o i c ;;
    ' (vs, c'') <- read_vars o rest c' ;;
    Ok (v :: vs, c'')
  end.

(** ** Safe decoding *)

(** A hook for invalid values, if there is one, has no undefined behaviour. *)
Definition hook_defined (o : options) : Prop :=
  match o_hook o with None => True | Some h => forall c v, h c v <> Undef end.

(** CREX definitions have no reference value. *)
Definition crex_elements (t : btable) : Prop := Forall (fun e => vi_bit_ref (be_info e) = 0) t.

(** 207YYY with YYY above 9 is not in the template, nor in the sequences. *)
Definition calm (code : Z) : bool := negb ((var_f code =? 2) && (var_x code =? 7) && (9 <? var_y code)).
Definition calm_template (T : tables) (ops : list Z) : Prop := forall code, appears T ops code -> calm code = true.

(** The CREX encoder with the checks that the library does not make.  Everything else is as in
    Crex/Model.v, where the definitions have comments.  Nothing of this exists in /repo: it is what
    C53 compares the library with.  The encoder throws EAlloc and EEof in no other place. *)
From Coq Require Import String.
From Verif Require Import Base Bits.Model Num.Float Varcode.Model Varinfo.Model Tables.Model
  Var.Model Interp.Model Interp.Appears Codec.Model Codec.Checked Codec.CheckedEnc Message.Model Crex.Model.
Local Open Scope Z_scope.

(** Check 1: no more than 255 characters are formatted at a time. *)
Definition sc_appendf (s : list Z) (c : cout) : res cout :=
  if Nat.ltb 255 (length s) then Err EAlloc else raw_appendf s c.

(** Check 2: the characters to write are there ([sf_enqc]: and the smallest int is not written as a text). *)
Definition sc_fmt_s (n : nat) (buf : list Z) : res (list Z) :=
  if negb (existsb (Z.eqb 0) buf) && Nat.ltb (length buf) n then Err EAlloc else fmt_s n buf.

Definition sc_value (i : varinfo) (v : cell) (c : cout) : res cout :=
  if negb (isset v) then Ok (append_missing i c)
  else
    let c1 := encode_check_digit (raw_append [32] c) in
    match vi_type i with
    | TString => buf <- sf_enqc v ;; s <- sc_fmt_s (ilen i) buf ;; sc_appendf s c1
    | TBinary => Err EUnimpl
    | TInteger | TDecimal =>
      k <- enqi v ;;
      sc_appendf (fmt_0d (if k <? 0 then S (ilen i) else ilen i) k) c1
    end.

Section Encoder.
Context (o : options) (vars : list var).

Definition sc_var (i : varinfo) (s : cenc) : res cenc :=
  ' (v, s1) <- ce_next vars s ;; ce_put s1 (sc_value i (v_cell v) (ce_out s1)).

Definition sc_factor (i : varinfo) (s : cenc) : res (Z * cenc) :=
  ' (v, s1) <- ce_next vars s ;;
  if four_digits (vi_code i) then
    n <- enqi (v_cell v) ;;
    let count := u32 n in
    s2 <- ce_put s1 (raw_appendf (zeros 4 (decimal count)) (encode_check_digit (raw_append [32] (ce_out s1)))) ;;
    Ok (count, s2)
  else
    s2 <- ce_put s1 (sc_value i (v_cell v) (ce_out s1)) ;;
    if isset (v_cell v) then n <- enqi (v_cell v) ;; Ok (u32 n, s2) else Ok (4294967295, s2).

(** Check 3: the bitmap has all its characters (EAlloc), can be used, and marks something (EEof: the library
    only fails when it uses the bitmap). *)
Definition sc_bitmap (pending size : Z) (s : cenc) : res (list Z * list Z * cenc) :=
  ' (v, s1) <- ce_next vars s ;;
  if negb (var_f (c_code (v_cell v)) =? 2) then Err EConsistency
  else
    chars <- sf_bitmap_chars (v_cell v) ;;
    let codes := codes_of (firstn (ce_pos s1) vars) in
    if usable_bitmap codes chars then Ok (codes, chars, s1) else Err EEof.

Definition sc_encoder : visitor cenc :=
  mkvisitor sc_var (ce_var_af vars) sc_factor (ce_bitmap_factor o vars) (ce_significance vars)
    (fun _ _ => Err EUnimpl) (fun _ _ _ => Err EUnimpl) (fun _ _ => Err EUnimpl) (fun _ _ _ => Err EUnimpl)
    sc_bitmap ce_unknown.
End Encoder.

Fixpoint checked_csubsets (o : options) (T : tables) (fuel : nat) (ops : list Z) (first : bool)
  (subsets : list (list var)) (lt : localtables) (c : cout) : res cout :=
  match subsets with
  | [] => Ok c
  | vars :: rest =>
    let c1 := if first then c else raw_append [43; 13; 13; 10] c in
    ' (_, s) <- run (sc_encoder o vars) T fuel ops (ist_init, mkcenc 0 c1 lt) ;;
    checked_csubsets o T fuel ops false rest (ce_lt s) (ce_out s)
  end.

Definition checked_crex (o : options) (T : tables) (fuel : nat) (lt : localtables) (b : cbulletin) : res (list Z) :=
  c <- encode_sec1 (cb_header b) (cb_datadesc b) (raw_append (crex_start ++ [13; 13; 10]) cout_empty) ;;
  c1 <- checked_csubsets o T fuel (cb_datadesc b) true (cb_subsets b) lt c ;;
  Ok (co_text c1 ++ crex_end).

(** ** Bulletins on which no check stops the encoder *)

(** Definitions of CREX tables: no reference value and no size in bits; no more than 254 characters. *)
Definition crex_definition (i : varinfo) : Prop := vi_bit_ref i = 0 /\ vi_bit_len i = 0 /\ vi_len i <= 254.
Definition crex_definitions (t : btable) : Prop := Forall (fun e => crex_definition (be_info e)) t.

(** The operators that are left out: 201YYY that takes bits away, 207YYY with more than nine digits,
    208YYY with more than 251 characters, and the bitmaps (222000 and 223000). *)
Definition modest (code : Z) : bool :=
  negb ((var_f code =? 2) && ((var_x code =? 1) && negb (var_y code =? 0) && (var_y code <? 128) ||
                              (var_x code =? 7) && (9 <? var_y code) || (var_x code =? 8) && (251 <? var_y code) ||
                              (var_x code =? 22) || (var_x code =? 23))).
Definition modest_template (T : tables) (ops : list Z) : Prop := forall code, appears T ops code -> modest code = true.

(** Values that can be written as a text: not binary values, nor the smallest int. *)
Definition written_value (c : cell) : Prop :=
  match c_val c with Some (VBin _) => False | Some (VInt v) => v <> int_min | _ => True end.

(** The check of a subset before encoding: wreport/bulletin/dds-validator.{h,cc}, on top of
    UncompressedEncoder (wreport/bulletin/internals.cc). *)
From Verif Require Import Base Bits.Model Num.Float Varcode.Model Varinfo.Model Tables.Model
  Var.Model Interp.Model Codec.Model.
Local Open Scope Z_scope.

(** current_var and the local part of the tables of the bulletin. *)
Record check : Type := mkcheck { k_pos : nat; k_lt : localtables }.

Section Validator.
Context (p : shift_policy) (o : options) (is_crex : bool) (T : tables) (vars : list var).

(** DDSValidator::check_fits: dds-validator.cc:15-45.  [encoded] is an unsigned. *)
Definition check_fits (i : varinfo) (c : cell) : res unit :=
  if negb (c_code c =? vi_code i) then Err EConsistency
  else if negb (isset c) then Ok tt
  else
    match vi_type i with
    | TString | TBinary => Ok tt
    | TInteger | TDecimal =>
      d <- enqd c ;;
      encoded <- (if is_crex then n <- encode_decimal (vi_scale i) d ;; Ok (u32 n) else encode_binary i d) ;;
      if is_crex then Ok tt
      else
        limit <- shl1 p (vi_bit_len i) ;;
        if limit <=? encoded then Err EConsistency else Ok tt
    end.

Definition k_next (s : check) : res (var * check) :=
  v <- get_var vars (k_pos s) ;; Ok (v, mkcheck (S (k_pos s)) (k_lt s)).

(** define_variable: internals.cc:70-73; encode_var: dds-validator.cc:54-57. *)
Definition k_var (i : varinfo) (s : check) : res check :=
  ' (v, s1) <- k_next s ;; _ <- check_fits i (v_cell v) ;; Ok s1.

(** define_variable_with_associated_field: internals.cc:75-80; encode_associated_field
    does nothing: 66-68. *)
Definition k_var_af (bits sig : Z) (i : varinfo) (s : check) : res check := k_var i s.

(** define_delayed_replication_factor: internals.cc:82-87. *)
Definition k_factor (i : varinfo) (s : check) : res (Z * check) :=
  ' (v, s1) <- k_next s ;; _ <- check_fits i (v_cell v) ;; n <- enqi (v_cell v) ;; Ok (u32 n, s1).

(** define_associated_field_significance: internals.cc:89-94. *)
Definition k_significance (i : varinfo) (s : check) : res (Z * check) :=
  ' (v, s1) <- k_next s ;; _ <- check_fits i (v_cell v) ;;
  n <- (if isset (v_cell v) then enqi (v_cell v) else Ok 63) ;; Ok (u32 n, s1).

(** define_bitmap_delayed_replication_factor: internals.cc:96-102. *)
Definition k_bitmap_factor (i : varinfo) (s : check) : res (Z * check) :=
  v <- get_var vars (k_pos s) ;;
  let len := vi_len (c_info (v_cell v)) in
  c <- of_outcome (seti o (fresh i) (wrap_int len)) ;;
  _ <- check_fits i c ;; Ok (len, s).

(** check_attr: dds-validator.cc:47-52; define_attribute: 66-69. *)
Definition k_attr (i : varinfo) (pos : nat) (s : check) : res check :=
  v <- get_var vars pos ;;
  match var_enqa v (vi_code i) with
  | Some a => _ <- check_fits i a ;; Ok s
  | None => Ok s
  end.

(** define_substituted_value: dds-validator.cc:59-64. *)
Definition k_subst (pos : nat) (s : check) : res check :=
  match nth_error vars pos with
  | None => UB
  | Some v => k_attr (c_info (v_cell v)) pos s
  end.

(** define_raw_character_data: dds-validator.cc:71-78. *)
Definition k_raw (code : Z) (s : check) : res check :=
  ' (v, s1) <- k_next s ;;
  if negb (c_code (v_cell v) =? code) then Err EConsistency else Ok s1.

(** define_c03_refval_override: dds-validator.cc:80-119. *)
Definition k_refval (bits code : Z) (s : check) : res (Z * check) :=
  ref <- find_ref T vars code ;;
  nbits <- (if ref <? 0 then
              m <- int_checked (- ref) ;;
              w <- bit_width m ;;
              _ <- shl1 p (bits - 1) ;; Ok w
            else bit_width ref) ;;
  if bits <? nbits + 1 then Err EConsistency else Ok (ref, s).

(** define_bitmap: internals.cc:51-59; the bitmap is read by Bitmap::Bitmap
    (bitmaps.cc:13-55). *)
Definition k_bitmap (pending size : Z) (s : check) : res (list Z * list Z * check) :=
  ' (v, s1) <- k_next s ;;
  if negb (var_f (c_code (v_cell v)) =? 2) then Err EConsistency
  else
    chars <- (if vi_len (c_info (v_cell v)) =? 0 then Ok [] else bitmap_chars (v_cell v)) ;;
    Ok (codes_of (firstn (k_pos s1) vars), chars, s1).

Definition k_unknown (code bits : Z) (s : check) : res (varinfo * check) :=
  ' (i, lt) <- get_unknown (k_lt s) code bits ;; Ok (i, mkcheck (k_pos s) lt).

Definition validator : visitor check :=
  mkvisitor k_var k_var_af k_factor k_bitmap_factor k_significance k_subst k_attr k_raw k_refval
    k_bitmap k_unknown.

(** DDSValidator(bulletin, subset).run(): accepted when nothing is thrown. *)
Definition validate (fuel : nat) (ops : list Z) (lt : localtables) : res (istate * check) :=
  run validator T fuel ops (ist_init, mkcheck 0 lt).
End Validator.

(** The encoder with the checks that the library does not make.  Everything else is as in
    Codec/Model.v, where the definitions have comments.  Nothing of this exists in /repo: it is what
    C49 compares the library with.  The encoder throws EAlloc and EEof in no other place. *)
From Coq Require Import String.
From Verif Require Import Base Bits.Model Num.Float Varcode.Model Varinfo.Model Tables.Model
  Var.Model Interp.Model Codec.Model Codec.Checked.
Local Open Scope Z_scope.

(** Check 1: a shift by less than 0 or more than 31 bits. *)
Definition narrow (p : shift_policy) (n : nat) : bool :=
  match p with X86 => true | Strict => Nat.leb 1 n && Nat.leb n 32 end.
Definition sf_add_bits (p : shift_policy) (val : Z) (n : nat) (o : bufout) : res bufout :=
  if narrow p n then add_bits p val n o else Err EAlloc.
Definition sf_missing (p : shift_policy) (n : nat) (o : bufout) : res bufout := sf_add_bits p (2 ^ 32 - 1) n o.

(** Check 2: the number to write is below 2^32. *)
Definition sf_binary (i : varinfo) (fval : f64) : res Z :=
  if vi_bit_len i =? 0 then Err EConsistency
  else
    let ref := f_of_Z (vi_bit_ref i) in
    x <- (if 0 <? vi_scale i then p <- scales (vi_scale i) ;; Ok (frint (fsub (fmul fval p) ref))
          else if vi_scale i <? 0 then p <- scales (- vi_scale i) ;; Ok (frint (fsub (fdiv fval p) ref))
          else Ok (frint (fsub fval ref))) ;;
    if flt x fzero then Err EConsistency
    else if flt x (f_of_Z (2 ^ 32)) then f_to_unsigned x else Err EAlloc.

(** Check 3: the characters to write are there, and the smallest int is not written as a text. *)
Definition sf_enqc (c : cell) : res (list Z) :=
  match c_val c with
  | Some (VInt v) => if v =? int_min then Err EAlloc else enqc c
  | _ => enqc c
  end.
Definition sf_chars (p : shift_policy) (buf : list Z) (n : nat) (o : bufout) : res bufout :=
  if negb (existsb (Z.eqb 0) buf) && Nat.ltb (length buf) (n / 8) then Err EAlloc else append_chars p buf n o.
Definition sf_bytes (p : shift_policy) (buf : list Z) (n : nat) (o : bufout) : res bufout :=
  if Nat.ltb (8 * length buf) n then Err EAlloc else append_binary p buf n o.

Definition sf_value (p : shift_policy) (i : varinfo) (c : cell) (o : bufout) : res bufout :=
  if negb (isset c) then sf_missing p (bit_len_nat i) o
  else
    match vi_type i with
    | TString => buf <- sf_enqc c ;; sf_chars p buf (bit_len_nat i) o
    | TBinary => buf <- sf_enqc c ;; sf_bytes p buf (bit_len_nat i) o
    | TInteger | TDecimal =>
      d <- enqd c ;; n <- sf_binary i d ;; sf_add_bits p n (bit_len_nat i) o
    end.

Section Encoder.
Context (p : shift_policy) (o : options) (T : tables) (vars : list var).

Definition sf_var (i : varinfo) (s : enc) : res enc :=
  ' (v, s1) <- e_next vars s ;; e_put s1 (sf_value p i (v_cell v) (e_out s1)).

Definition sf_var_af (bits sig : Z) (i : varinfo) (s : enc) : res enc :=
  ' (v, s1) <- e_next vars s ;;
  s2 <- e_af p bits sig v s1 ;;
  e_put s2 (sf_value p i (v_cell v) (e_out s2)).

Definition sf_factor (i : varinfo) (s : enc) : res (Z * enc) :=
  ' (v, s1) <- e_next vars s ;;
  s2 <- e_put s1 (sf_value p i (v_cell v) (e_out s1)) ;;
  n <- enqi (v_cell v) ;; Ok (u32 n, s2).

Definition sf_significance (i : varinfo) (s : enc) : res (Z * enc) :=
  ' (v, s1) <- e_next vars s ;;
  s2 <- e_put s1 (sf_value p i (v_cell v) (e_out s1)) ;;
  n <- (if isset (v_cell v) then enqi (v_cell v) else Ok 63) ;; Ok (u32 n, s2).

Definition sf_bitmap_factor (i : varinfo) (s : enc) : res (Z * enc) :=
  v <- get_var vars (e_pos s) ;;
  let len := vi_len (c_info (v_cell v)) in
  c <- of_outcome (seti o (fresh i) (wrap_int len)) ;;
  s1 <- e_put s (sf_value p i c (e_out s)) ;;
  Ok (len, s1).

Definition sf_attr_code (i : varinfo) (pos : nat) (code : Z) (s : enc) : res enc :=
  v <- get_var vars pos ;;
  match var_enqa v code with
  | Some a => e_put s (sf_value p i a (e_out s))
  | None => e_put s (sf_missing p (bit_len_nat i) (e_out s))
  end.
Definition sf_attr (i : varinfo) (pos : nat) (s : enc) : res enc := sf_attr_code i pos (vi_code i) s.
Definition sf_subst (pos : nat) (s : enc) : res enc :=
  match nth_error vars pos with
  | None => UB
  | Some v => let i := c_info (v_cell v) in sf_attr_code i pos (vi_code i) s
  end.

Definition sf_raw (code : Z) (s : enc) : res enc :=
  ' (v, s1) <- e_next vars s ;;
  buf <- (if isset (v_cell v) then sf_enqc (v_cell v) else Ok [0]) ;;
  e_put s1 (sf_chars p buf (Z.to_nat (var_y code * 8)) (e_out s1)).

(** Check 4: the reference value is not 0 (nor the smallest int). *)
Definition sf_refval (bits code : Z) (s : enc) : res (Z * enc) :=
  ref <- find_ref T vars code ;;
  if (ref =? 0) || (ref =? int_min) then Err EAlloc
  else
  ' (encoded, nbits) <-
    (if ref <? 0 then
       m <- int_checked (- ref) ;;
       w <- bit_width m ;;
       sign <- shl1 p (bits - 1) ;;
       Ok (Z.lor m sign, w)
     else w <- bit_width ref ;; Ok (ref, w)) ;;
  if bits <? nbits + 1 then Err EConsistency
  else
    s1 <- e_put s (add_bits p encoded (Z.to_nat bits) (e_out s)) ;;
    Ok (ref, s1).

(** Check 5: the bitmap has all its characters (EAlloc), can be used, and marks something (EEof: the library
    only fails when it uses the bitmap). *)
Definition sf_bitmap_chars (c : cell) : res (list Z) :=
  buf <- sf_enqc c ;;
  if Nat.ltb (length buf) (ilen (c_info c)) then Err EAlloc else Ok (firstn (ilen (c_info c)) buf).
Definition sf_bitmap (pending size : Z) (s : enc) : res (list Z * list Z * enc) :=
  ' (v, s1) <- e_next vars s ;;
  if negb (var_f (c_code (v_cell v)) =? 2) then Err EConsistency
  else if negb (vi_len (c_info (v_cell v)) =? size) then Err EConsistency
  else
    chars <- (if size =? 0 then Ok [] else sf_bitmap_chars (v_cell v)) ;;
    s2 <- e_put s1 (put_bitmap p chars (e_out s1)) ;;
    let codes := codes_of (firstn (e_pos s1) vars) in
    if usable_bitmap codes chars then Ok (codes, chars, s2) else Err EEof.

Definition sf_encoder : visitor enc :=
  mkvisitor sf_var sf_var_af sf_factor sf_bitmap_factor sf_significance sf_subst sf_attr sf_raw sf_refval
    sf_bitmap e_unknown.

End Encoder.

Fixpoint sf_subsets (p : shift_policy) (o : options) (T : tables) (fuel : nat) (ops : list Z)
  (subsets : list (list var)) (lt : localtables) (out : bufout) : res (localtables * bufout) :=
  match subsets with
  | [] => Ok (lt, out)
  | vars :: rest =>
    ' (_, s) <- run (sf_encoder p o T vars) T fuel ops (ist_init, mkenc 0 out lt) ;;
    sf_subsets p o T fuel ops rest (e_lt s) (e_out s)
  end.

(** Variables as the library makes them: the value is of the type of the variable, numbers are ints,
    the scale is one of those of the table of powers of ten, and the reference value is an int. *)
Definition made (c : cell) : Prop :=
  (is_numeric (vi_type (c_info c)) = true -> -16 <= vi_scale (c_info c) <= 16) /\
  int_min <= vi_bit_ref (c_info c) <= int_max /\
  match c_val c with
  | None => True
  | Some (VInt v) => is_numeric (vi_type (c_info c)) = true /\ int_min <= v <= int_max
  | Some (VStr _) => vi_type (c_info c) = TString
  | Some (VBin _) => vi_type (c_info c) = TBinary
  end.
Definition made_var (v : var) : Prop := made (v_cell v) /\ Forall made (v_attrs v).

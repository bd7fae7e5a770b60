(** The decoder of uncompressed data with two more checks: a read that goes past the end of the
    data throws, and so does a bitmap that cannot be used, or that marks nothing.  Everything else
    is as in Codec/Model.v, where the definitions have comments. *)
From Coq Require Import String.
From Verif Require Import Base Bits.Model Num.Float Varcode.Model Varinfo.Model Varinfo.RangeProofs Tables.Model
  Var.Model Interp.Model Interp.Appears Codec.Model.
Local Open Scope Z_scope.

(** The checks that are missing in the library.  No other part of the decoder throws EEof or
    EAlloc. *)
Definition unread_bits (i : input) : nat := iplen i + 8 * (length (idata i) - icur i).
Definition take_bits (n : nat) (i : input) : res (Z * input) :=
  if Nat.ltb (unread_bits i) n then Err EEof else get_bits n i.

Definition usable_bitmap (codes bits : list Z) : bool :=
  match make_bitmap codes bits with Ok (_ :: _) => true | _ => false end.

Fixpoint ck_read_chars (fuel toread : nat) (i : input) : res (list Z * input) :=
  match fuel with
  | O => if Nat.eqb toread 0 then Ok ([], i) else Err EFuel
  | S fuel' =>
    if Nat.eqb toread 0 then Ok ([], i)
    else
      let count := if Nat.ltb 8 toread then 8%nat else toread in
      '(c, i1) <- take_bits count i ;;
      '(cs, i2) <- ck_read_chars fuel' (toread - count) i1 ;;
      Ok (c :: cs, i2)
  end.

Definition ck_decode_string_raw (bit_len : nat) (i : input) : res (option (list Z) * input) :=
  '(cs, i1) <- ck_read_chars bit_len bit_len i ;;
  if forallb (fun c => (c =? 255) || (c =? 0)) cs
  then Ok (None, i1)
  else Ok (Some (trim_tail cs), i1).

Definition ck_decode_binary_raw (bit_len : nat) (i : input) : res (option (list Z) * input) :=
  '(cs, i1) <- ck_read_chars bit_len bit_len i ;;
  if forallb (fun c => c =? 255) cs then Ok (None, i1) else Ok (Some cs, i1).

Section Decoder.
Context (o : options) (T : tables) (skip_missing : bool).

Definition ck_decode_number (i : varinfo) (inp : input) : res (cell * input) :=
  ' (v, inp1) <- take_bits (bit_len_nat i) inp ;;
  missing <- (if no_missing (vi_code i) then Ok false
              else m <- all_ones (bit_len_nat i) ;; Ok (v =? m)) ;;
  if missing : bool then Ok (fresh i, inp1)
  else d <- decode_binary i v ;; c <- of_outcome (setd o (fresh i) d) ;; Ok (c, inp1).

Definition ck_decode_value (i : varinfo) (inp : input) : res (cell * input) :=
  match vi_type i with
  | TString =>
    ' (r, inp1) <- ck_decode_string_raw (bit_len_nat i) inp ;;
    match r with
    | None => Ok (fresh i, inp1)
    | Some s => c <- of_outcome (setc o (fresh i) (s ++ [0])) ;; Ok (c, inp1)
    end
  | TBinary =>
    ' (r, inp1) <- ck_decode_binary_raw (bit_len_nat i) inp ;;
    match r with
    | None => Ok (fresh i, inp1)
    | Some b => c <- of_outcome (setc o (fresh i) b) ;; Ok (c, inp1)
    end
  | TInteger | TDecimal => ck_decode_number i inp
  end.


Definition ck_var (i : varinfo) (s : dec) : res dec :=
  ' (c, inp) <- ck_decode_value i (d_in s) ;; Ok (d_store c inp s).

Definition ck_var_af (bits sig : Z) (i : varinfo) (s : dec) : res dec :=
  ' (v, inp1) <- take_bits (Z.to_nat bits) (d_in s) ;;
  a <- make_attribute o (tb_b T) skip_missing (Z.to_nat bits) sig v ;;
  ' (c, inp2) <- ck_decode_value i inp1 ;;
  Ok (mkdec inp2 (d_vars s ++ [mkvar c (match a with Some x => seta x [] | None => [] end)]) (d_lt s)).

Definition ck_factor (i : varinfo) (s : dec) : res (Z * dec) :=
  ' (c, inp) <- ck_decode_value i (d_in s) ;;
  n <- enqi c ;; Ok (u32 n, d_store c inp s).
Definition ck_significance (i : varinfo) (s : dec) : res (Z * dec) :=
  ' (c, inp) <- ck_decode_value i (d_in s) ;;
  n <- (if isset c then enqi c else Ok 63) ;; Ok (u32 n, d_store c inp s).
Definition ck_bitmap_factor (i : varinfo) (s : dec) : res (Z * dec) :=
  ' (c, inp) <- ck_decode_value i (d_in s) ;;
  n <- enqi c ;; Ok (u32 n, mkdec inp (d_vars s) (d_lt s)).

Definition ck_attr (i : varinfo) (pos : nat) (s : dec) : res dec :=
  ' (c, inp) <- ck_decode_value i (d_in s) ;;
  if negb (isset c) then Ok (mkdec inp (d_vars s) (d_lt s))
  else match nth_error (d_vars s) pos with
       | None => UB
       | Some v => Ok (mkdec inp (update (d_vars s) pos (mkvar (v_cell v) (seta c (v_attrs v)))) (d_lt s))
       end.

Definition ck_subst (pos : nat) (s : dec) : res dec :=
  match nth_error (d_vars s) pos with
  | None => UB
  | Some v => ck_attr (c_info (v_cell v)) pos s
  end.

Fixpoint ck_read_bytes (n : nat) (inp : input) : res (list Z * input) :=
  match n with
  | O => Ok ([], inp)
  | S k => ' (c, inp1) <- take_bits 8 inp ;; ' (cs, inp2) <- ck_read_bytes k inp1 ;; Ok (c :: cs, inp2)
  end.

Definition ck_raw (code : Z) (s : dec) : res dec :=
  ' (i, lt) <- get_chardata (d_lt s) code (var_y code) ;;
  ' (buf, inp) <- ck_read_bytes (ilen i) (d_in s) ;;
  c <- of_outcome (sets o (fresh i) buf) ;;
  Ok (mkdec inp (d_vars s ++ [mkvar c []]) lt).

Definition ck_refval (bits code : Z) (s : dec) : res (Z * dec) :=
  ' (v, inp) <- take_bits (Z.to_nat bits) (d_in s) ;;
  sign <- shl1 Strict (bits - 1) ;;
  Ok (wrap_int (if Z.land v sign =? 0 then v else - (Z.land v (2 ^ 32 - 1 - sign))),
      mkdec inp (d_vars s) (d_lt s)).

Fixpoint ck_read_bitmap (n : nat) (inp : input) : res (list Z * input) :=
  match n with
  | O => Ok ([], inp)
  | S k =>
    ' (b, inp1) <- take_bits 1 inp ;; ' (bs, inp2) <- ck_read_bitmap k inp1 ;;
    Ok ((if b =? 0 then 43 else 45) :: bs, inp2)
  end.

Definition ck_bitmap (pending size : Z) (s : dec) : res (list Z * list Z * dec) :=
  ' (chars, inp) <- ck_read_bitmap (Z.to_nat size) (d_in s) ;;
  ' (i, lt) <- get_bitmap (d_lt s) pending chars ;;
  c <- of_outcome (sets o (fresh i) chars) ;;
  let vars := d_vars s ++ [mkvar c []] in
  bits <- (if vi_len i =? 0 then Ok [] else bitmap_chars c) ;;
  if usable_bitmap (codes_of vars) bits then Ok (codes_of vars, bits, mkdec inp vars lt) else Err EAlloc.

Definition ck_decoder : visitor dec :=
  mkvisitor ck_var ck_var_af ck_factor ck_bitmap_factor ck_significance ck_subst ck_attr ck_raw ck_refval
    ck_bitmap d_unknown.

End Decoder.

Fixpoint ck_subsets (o : options) (T : tables) (skip : bool) (fuel : nat) (ops : list Z) (n : nat)
  (lt : localtables) (inp : input) : res (list (list var) * localtables * input) :=
  match n with
  | O => Ok ([], lt, inp)
  | S k =>
    ' (_, s) <- run (ck_decoder o T skip) T fuel ops (ist_init, mkdec inp [] lt) ;;
    ' (rest, lt', inp') <- ck_subsets o T skip fuel ops k (d_lt s) (d_in s) ;;
    Ok (d_vars s :: rest, lt', inp')
  end.

(** ** Where it is enough *)

(** Hooks for invalid values have no undefined behaviour, keep the definition of the variable, and
    give numbers to numeric variables. *)
Definition shaped (c : cell) : Prop :=
  match c_val c with
  | None | Some (VInt _) => True
  | Some _ => is_numeric (vi_type (c_info c)) = false
  end.
Definition hook_safe (o : options) : Prop :=
  match o_hook o with
  | None => True
  | Some h => forall c v, match h c v with Done c' => shaped c' /\ c_info c' = c_info c | Thrown _ _ => True | Undef => False end
  end.

(** Definitions that the decoder can read: numbers have from 1 to 32 bits. *)
Definition readable (i : varinfo) : Prop :=
  match vi_type i with
  | TInteger | TDecimal => info_ok i /\ 1 <= vi_bit_len i <= 32
  | TString => True
  | TBinary => 1 <= vi_bit_len i /\ vi_len i = (vi_bit_len i + 7) / 8
  end.
(** Codes: operators with at most 31 bits in 203YYY and at most [w] in 207YYY; elements that can be read, and their reference
    value is not above 2^30, also after 207YYY. *)
Definition element_ok (t : btable) (w code : Z) : Prop :=
  forall e, In e t -> be_code e = code ->
    readable (be_info e) /\ vi_type (be_info e) <> TBinary /\ Z.abs (vi_bit_ref (be_info e)) * 10 ^ w <= 2 ^ 30.
Definition operator_ok (w code : Z) : Prop :=
  var_f code = 2 -> (var_x code = 3 -> var_y code <= 31 \/ var_y code = 255) /\ (var_x code = 7 -> var_y code <= w).

(** The codes of a template, of the sequences in it, and those that the library asks for by itself. *)
Definition tame (T : tables) (ops : list Z) : Prop :=
  exists w, 0 <= w <= 9 /\
    (forall code, appears T ops code -> operator_ok w code /\ element_ok (tb_b T) w code) /\
    element_ok (tb_b T) w var_B31012 /\ element_ok (tb_b T) w var_B31021.

(** Variable definitions: wreport/varinfo.h:112-300, wreport/varinfo.cc:40-296. *)
From Coq Require Import String.
From Verif Require Import Base Num.Float Varcode.Model.
Local Open Scope Z_scope.

(** Vartype: varinfo.h:112-122. *)
Inductive vartype : Type := TInteger | TDecimal | TString | TBinary.
Definition vartype_eqb (a b : vartype) : bool :=
  match a, b with
  | TInteger, TInteger | TDecimal, TDecimal | TString, TString | TBinary, TBinary => true
  | _, _ => false
  end.
Definition is_numeric (t : vartype) : bool :=
  match t with TInteger | TDecimal => true | _ => false end.

(** _Varinfo: varinfo.h:138-200.  The description is left out: it is only
    printed.  Units are compared as whole strings (the C++ field holds at most 23
    characters). *)
Record varinfo : Type := mkinfo {
  vi_code : Z;
  vi_type : vartype;
  vi_unit : string;
  vi_scale : Z;
  vi_len : Z;
  vi_bit_ref : Z;
  vi_bit_len : Z;
  vi_imin : Z;
  vi_imax : Z;
  vi_dmin : f64;
  vi_dmax : f64 }.

(** scales[]: varinfo.cc:219-237, a table of 17 powers of ten; other indices are
    out of bounds. *)
Definition scales (i : Z) : res f64 :=
  if (0 <=? i) && (i <=? 16) then Ok (f_of_Z (10 ^ i)) else UB.

(** _Varinfo::decode_decimal: varinfo.cc:239-247, as a function of the scale. *)
Definition decode_decimal (scale val : Z) : res f64 :=
  if 0 <? scale then p <- scales scale ;; Ok (fdiv (f_of_Z val) p)
  else if scale <? 0 then p <- scales (- scale) ;; Ok (fmul (f_of_Z val) p)
  else Ok (f_of_Z val).

(** _Varinfo::decode_binary: varinfo.cc:249-258. *)
Definition decode_binary (i : varinfo) (ival : Z) : res f64 :=
  if vi_bit_len i =? 0 then Err EConsistency
  else
    let v := fadd (f_of_Z ival) (f_of_Z (vi_bit_ref i)) in
    if 0 <=? vi_scale i then p <- scales (vi_scale i) ;; Ok (fdiv v p)
    else p <- scales (- vi_scale i) ;; Ok (fmul v p).

(** _Varinfo::encode_decimal: varinfo.cc:260-268. *)
Definition encode_decimal (scale : Z) (fval : f64) : res Z :=
  if 0 <? scale then p <- scales scale ;; f_to_int (frint (fmul fval p))
  else if scale <? 0 then p <- scales (- scale) ;; f_to_int (frint (fdiv fval p))
  else f_to_int (frint fval).

(** _Varinfo::round_decimal: varinfo.cc:270-278. *)
Definition round_decimal (scale : Z) (val : f64) : res f64 :=
  if 0 <? scale then p <- scales scale ;; Ok (fdiv (fround (fmul val p)) p)
  else if scale <? 0 then p <- scales (- scale) ;; Ok (fmul (fround (fdiv val p)) p)
  else Ok (fround val).

(** _Varinfo::encode_binary: varinfo.cc:280-296. *)
Definition encode_binary (i : varinfo) (fval : f64) : res Z :=
  if vi_bit_len i =? 0 then Err EConsistency
  else
    let ref := f_of_Z (vi_bit_ref i) in
    x <- (if 0 <? vi_scale i then p <- scales (vi_scale i) ;; Ok (frint (fsub (fmul fval p) ref))
          else if vi_scale i <? 0 then p <- scales (- vi_scale i) ;; Ok (frint (fsub (fdiv fval p) ref))
          else Ok (frint (fsub fval ref))) ;;
    if flt x fzero then Err EConsistency
    else f_to_unsigned x.

(** intexp10: varinfo.cc:40-57. *)
Definition intexp10 (x : Z) : res Z :=
  if (0 <=? x) && (x <=? 9) then Ok (10 ^ x) else Err EDomain.

(** Signed int arithmetic: overflow is undefined. *)
Definition int_checked (z : Z) : res Z := if in_int z then Ok z else UB.

(** _Varinfo::compute_range: varinfo.cc:171-217.  [len], [bit_len] are unsigned.
    The double arithmetic of -(10^len - 1.0) and 10^len - 2.0 is exact.  Shifting
    1 by 31 or more is taken as undefined (a shift by 31 gives INT_MIN on usual
    compilers). *)
Definition compute_irange (t : vartype) (code len bit_ref bit_len : Z) : res (Z * Z) :=
  match t with
  | TString | TBinary => Ok (0, 0)
  | TInteger | TDecimal =>
    if 10 <=? len then Ok (int_min, int_max)
    else if bit_len =? 0 then
      p <- intexp10 len ;; Ok (- (p - 1), p - 2)
    else
      if 31 <=? bit_len then UB else
      bit_max0 <- int_checked (2 ^ bit_len + bit_ref) ;;
      bit_max <- (if negb (var_x code =? 31) then int_checked (bit_max0 - 2) else Ok bit_max0) ;;
      p <- intexp10 len ;;
      Ok (Z.max bit_ref (- (p - 1)), Z.min bit_max (p - 2))
  end.

Definition compute_range (code : Z) (t : vartype) (unit : string) (scale len bit_ref bit_len : Z)
  : res varinfo :=
  ' (imin, imax) <- compute_irange t code len bit_ref bit_len ;;
  match t with
  | TString | TBinary =>
    Ok (mkinfo code t unit scale len bit_ref bit_len imin imax fzero fzero)
  | _ =>
    dmin <- decode_decimal scale imin ;;
    dmax <- decode_decimal scale imax ;;
    Ok (mkinfo code t unit scale len bit_ref bit_len imin imax dmin dmax)
  end.

Local Open Scope string_scope.

Definition bufr_type (unit : string) (scale : Z) : vartype :=
  if String.eqb unit "CCITTIA5" then TString else if (scale =? 0)%Z then TInteger else TDecimal.
Definition crex_type (unit : string) (scale : Z) : vartype :=
  if String.eqb unit "CHARACTER" then TString else if (scale =? 0)%Z then TInteger else TDecimal.

(** _Varinfo::set_bufr: varinfo.cc:101-121. *)
Definition set_bufr (code : Z) (unit : string) (scale len bit_ref bit_len : Z) : res varinfo :=
  compute_range code (bufr_type unit scale) unit scale len bit_ref bit_len.

(** _Varinfo::set_crex: varinfo.cc:123-142. *)
Definition set_crex (code : Z) (unit : string) (scale len : Z) : res varinfo :=
  compute_range code (crex_type unit scale) unit scale len 0 0.

(** _Varinfo::set_string: varinfo.cc:144-155 (len*8 is unsigned). *)
Definition set_string (code : Z) (len : Z) : res varinfo :=
  compute_range code TString "CCITTIA5" 0 len 0 (u32 (len * 8)).

(** _Varinfo::set_binary: varinfo.cc:157-168.  ceil(bit_len / 8.0) is exact. *)
Definition set_binary (code : Z) (bit_len : Z) : res varinfo :=
  compute_range code TBinary "UNKNOWN" 0 ((bit_len + 7) / 8) 0 bit_len.

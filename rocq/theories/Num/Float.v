(** IEEE 754 binary64 arithmetic (C++ double), from Flocq; round to nearest even
    is the default rounding mode of the C++ environment, which the library never
    changes. *)
From Coq Require Import ZArith Bool.
From Flocq Require Import Core BinarySingleNaN.
From Verif Require Import Base.
Local Open Scope Z_scope.

#[export] Instance prec53_gt_0 : Prec_gt_0 53 := eq_refl.
#[export] Instance prec53_lt_emax : Prec_lt_emax 53 1024 := eq_refl.

Definition f64 : Type := binary_float 53 1024.

Definition fadd (x y : f64) : f64 := Bplus mode_NE x y.
Definition fsub (x y : f64) : f64 := Bminus mode_NE x y.
Definition fmul (x y : f64) : f64 := Bmult mode_NE x y.
Definition fdiv (x y : f64) : f64 := Bdiv mode_NE x y.
Definition flt (x y : f64) : bool := Bltb x y.
Definition fle (x y : f64) : bool := Bleb x y.
Definition fisnan (x : f64) : bool := is_nan x.

(** Conversion from an integer type. *)
Definition f_of_Z (z : Z) : f64 := binary_normalize 53 1024 _ _ mode_NE z 0 false.

(** C library rint (current rounding mode: nearest even) and round (halfway cases
    away from zero). *)
Definition frint (x : f64) : f64 := Bnearbyint mode_NE x.
Definition fround (x : f64) : f64 := Bnearbyint mode_NA x.
(** ceil *)
Definition fceil (x : f64) : f64 := Bnearbyint mode_UP x.

(** C++ conversion from double to an integer type with range [lo..hi]: the
    fractional part is discarded; out of range (or NaN) is undefined. *)
Definition f_to_Z_range (lo hi : Z) (x : f64) : res Z :=
  if is_finite x then
    let t := Btrunc x in
    if (lo <=? t) && (t <=? hi) then Ok t else UB
  else UB.
Definition f_to_int (x : f64) : res Z := f_to_Z_range int_min int_max x.
Definition f_to_unsigned (x : f64) : res Z := f_to_Z_range 0 (2 ^ 32 - 1) x.

(** C library lround: round half away from zero to a 64-bit long; the result is
    unspecified when out of range or NaN (here: [UB]). *)
Definition f_lround (x : f64) : res Z := f_to_Z_range (- 2 ^ 63) (2 ^ 63 - 1) (fround x).

(** Conversion of a long to int32_t: modulo 2^32, two's complement. *)
Definition wrap_int (z : Z) : Z := (z + 2 ^ 31) mod 2 ^ 32 - 2 ^ 31.

Definition fzero : f64 := B754_zero false.

(** C++ == on doubles. *)
Definition feq (x y : f64) : bool := Beqb x y.

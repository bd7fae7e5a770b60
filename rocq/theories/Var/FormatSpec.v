(** Decimal texts, and what is asked of the C library functions that write and read them. *)
From Coq Require Import ZArith Reals.
From Flocq Require Import Core BinarySingleNaN.
From Verif Require Import Base Num.Float Num.FloatProofs.
Local Open Scope Z_scope.

(** The digits of a number, without zeros in front. *)
Fixpoint digits_acc (fuel : nat) (n : Z) (acc : list Z) : list Z :=
  match fuel with
  | O => acc
  | S k => if n <? 10 then 48 + n :: acc else digits_acc k (n / 10) (48 + n mod 10 :: acc)
  end.
Definition digits (n : Z) : list Z := digits_acc (S (Z.to_nat (Z.log2 n))) n [].

(** m / 10^s with s decimals and at least one digit before the point, for instance 283.15 or -0.05. *)
Definition decimal_text (s : nat) (negative : bool) (m : Z) : list Z :=
  let d := repeat 48 (S s - length (digits m)) ++ digits m in
  (if negative then [45] else []) ++ firstn (length d - s) d ++
  (match s with O => [] | _ => 46 :: skipn (length d - s) d end).

(** "%.*f" prints the decimal number with that many decimals that is nearest to the double. *)
Definition printf_correct (fixed : nat -> f64 -> list Z) : Prop :=
  forall s x, is_finite x = true ->
    exists m, 0 <= m /\ fixed s x = decimal_text s (Bsign x) m /\
      (Rabs (IZR m - Rabs (B2R x) * IZR (10 ^ Z.of_nat s)) <= / 2)%R.

(** strtod gives the double nearest to the decimal number in the text. *)
Definition strtod_correct (strtod : list Z -> f64) : Prop :=
  forall s negative m, (s <= 40)%nat -> 0 <= m <= 10 ^ 40 ->
    is_finite (strtod (decimal_text s negative m)) = true /\
    B2R (strtod (decimal_text s negative m)) = rnd (IZR (if negative then - m else m) / IZR (10 ^ Z.of_nat s)).

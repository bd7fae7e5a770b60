(** Variable codes: wreport/varinfo.h:59-108, wreport/varinfo.cc:59-99. *)
From Verif Require Import Base.
Local Open Scope Z_scope.

(** WR_VAR: varinfo.h:67.  Arguments are unsigned; the result is cast to 16 bits. *)
Definition wr_var (f x y : Z) : Z :=
  u16 (Z.lor (Z.lor (u32 (Z.shiftl f 14)) (u32 (Z.shiftl x 8))) y).

(** WR_VAR_F, WR_VAR_X, WR_VAR_Y: varinfo.h:81-87. *)
Definition var_f (c : Z) : Z := Z.land (Z.shiftr c 14) 3.
Definition var_x (c : Z) : Z := Z.land (Z.shiftr c 8) 63.
Definition var_y (c : Z) : Z := Z.land c 255.

(** WR_STRING_TO_VAR on five characters: varinfo.h:75-78 (characters may be NUL,
    giving negative terms, as in C++). *)
Definition string_to_var (c0 c1 c2 c3 c4 : Z) : Z :=
  u16 (Z.lor (Z.shiftl ((c0 - 48) * 10 + (c1 - 48)) 8)
             ((c2 - 48) * 100 + (c3 - 48) * 10 + (c4 - 48))).

(** [entry[i]] for a C string whose content is [s]: the terminator is readable,
    what follows is out of bounds. *)
Definition cchar (s : list Z) (i : nat) : res Z :=
  match nth_error s i with
  | Some c => Ok c
  | None => if Nat.eqb i (length s) then Ok 0 else UB
  end.

(** The digit check loop: varinfo.cc:86-88. *)
Fixpoint check_digits (s : list Z) (i k : nat) : res unit :=
  match k with
  | O => Ok tt
  | S k' =>
    c <- cchar s i ;;
    if negb (c =? 0) && negb (c_isdigit c) then Err EConsistency
    else check_digits s (S i) k'
  end.

(** varcode_parse: varinfo.cc:59-91.  [None] is a NULL pointer. *)
Definition varcode_parse (entry : option (list Z)) : res Z :=
  match entry with
  | None => Err EConsistency
  | Some s =>
    c0 <- cchar s 0 ;;
    if c0 =? 0 then Err EConsistency
    else
      let base :=
        if (c0 =? 66) || (c0 =? 48) then 0
        else if (c0 =? 82) || (c0 =? 49) then Z.shiftl 1 14
        else if (c0 =? 67) || (c0 =? 50) then Z.shiftl 2 14
        else if (c0 =? 68) || (c0 =? 51) then Z.shiftl 3 14
        else 0 in
      _ <- check_digits s 1 5 ;;
      c1 <- cchar s 1 ;; c2 <- cchar s 2 ;; c3 <- cchar s 3 ;;
      c4 <- cchar s 4 ;; c5 <- cchar s 5 ;;
      Ok (u16 (base + string_to_var c1 c2 c3 c4 c5))
  end.

(** varcode_format: varinfo.cc:93-99.  "%02d%03d" of a 6-bit and an 8-bit
    number always gives 2 and 3 digits. *)
Definition varcode_format (c : Z) : list Z :=
  let x := var_x c in let y := var_y c in
  [ nth (Z.to_nat (var_f c)) [66; 82; 67; 68] 0;
    48 + x / 10; 48 + x mod 10;
    48 + y / 100; 48 + (y / 10) mod 10; 48 + y mod 10 ].

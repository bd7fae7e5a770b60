(** Variables: wreport/var.cc, wreport/var.h, wreport/options.h.

    This is the value-level model: a variable holds an optional value, strings are
    C strings of at most [len] bytes and binary values are [len] bytes.  The
    memory-level behaviour (buffers, ownership) is modelled in Var/Memory.v. *)
From Coq Require Import String.
From Verif Require Import Base Bits.Spec Num.Float Varcode.Model Varinfo.Model.
Local Open Scope Z_scope.

Inductive value : Type :=
| VInt (i : Z)
| VStr (s : list Z)       (* bytes before the terminator *)
| VBin (b : list Z).      (* len bytes *)

(** One Var without its attribute chain: var.h members m_info, m_isset, m_value. *)
Record cell : Type := mkcell { c_info : varinfo; c_val : option value }.

(** A Var: m_attrs points to the first attribute, whose own m_attrs points to the
    next one, so a Var is a cell followed by a chain of cells. *)
Record var : Type := mkvar { v_cell : cell; v_attrs : list cell }.

Definition isset (c : cell) : bool := match c_val c with Some _ => true | None => false end.
Definition unset (c : cell) : cell := mkcell (c_info c) None.
Definition with_val (c : cell) (v : value) : cell := mkcell (c_info c) (Some v).
Definition fresh (i : varinfo) : cell := mkcell i None.
Definition c_code (c : cell) : Z := vi_code (c_info c).
Definition ilen (i : varinfo) : nat := Z.to_nat (vi_len i).

(** Result of a setter: normal return, exception (the object survives in the given
    state), undefined behaviour. *)
Inductive outcome (A : Type) : Type :=
| Done (a : A)
| Thrown (e : err) (a : A)
| Undef.
Arguments Done {A} a.
Arguments Thrown {A} e a.
Arguments Undef {A}.

(** Domain error options: options.h:37-66.  A hook receives the variable and the
    rejected value; hooks that change attributes are not modelled. *)
Record options : Type := mkopts {
  o_silent : bool;
  o_clamp : bool;
  o_hook : option (cell -> Z + f64 -> outcome cell) }.
Definition default_options : options := mkopts false false None.

(** Var::assign_i_checked: var.cc:404-430. *)
Definition assign_i_checked (o : options) (c : cell) (val : Z) : outcome cell :=
  let i := c_info c in
  if (val <? vi_imin i) || (vi_imax i <? val) then
    if o_silent o then Done (unset c)
    else if o_clamp o then
      Done (with_val c (VInt (if val <? vi_imin i then vi_imin i
                              else if vi_imax i <? val then vi_imax i else val)))
    else match o_hook o with
         | Some h => h c (inl val)
         | None => Thrown EDomain (unset c)
         end
  else Done (with_val c (VInt val)).

(** The end of Var::assign_d_checked: var.cc:475-476. *)
Definition store_d (c : cell) (val : f64) : outcome cell :=
  match encode_decimal (vi_scale (c_info c)) val with
  | Ok n => Done (with_val c (VInt n))
  | _ => Undef
  end.

(** Var::assign_d_checked: var.cc:432-477. *)
Definition assign_d_checked (o : options) (c : cell) (val : f64) : outcome cell :=
  let i := c_info c in
  if fisnan val then
    if o_silent o then Done (unset c)
    else match o_hook o with
         | Some h => h c (inr val)
         | None => Thrown EDomain (unset c)
         end
  else if flt val (vi_dmin i) || flt (vi_dmax i) val then
    if o_silent o then Done (unset c)
    else if o_clamp o then
      store_d c (if flt val (vi_dmin i) then vi_dmin i
                 else if flt (vi_dmax i) val then vi_dmax i else val)
    else match o_hook o with
         | Some h => h c (inr val)
         | None => Thrown EDomain (unset c)
         end
  else store_d c val.

(** Var::assign_b_checked: var.cc:479-494.  [buf] is the readable memory at the
    pointer: reading more is undefined.  The masked byte is the last one. *)
Definition mask_last (i : varinfo) (b : list Z) : list Z :=
  if vi_bit_len i mod 8 =? 0 then b
  else match rev b with
       | [] => []
       | x :: r => rev (Z.land x (2 ^ (vi_bit_len i mod 8) - 1) :: r)
       end.

Definition assign_b_checked (c : cell) (buf : list Z) (size : nat) : outcome cell :=
  let i := c_info c in
  let n := ilen i in
  if Nat.ltb size n then
    if Nat.ltb (length buf) size then Undef
    else Done (with_val c (VBin (firstn size buf ++ repeat 0 (n - size))))
  else
    if Nat.ltb (length buf) n then Undef
    else if (negb (vi_bit_len i mod 8 =? 0)) && Nat.eqb n 0 then Undef
    else Done (with_val c (VBin (mask_last i (firstn n buf)))).

(** strncpy of at most [n] bytes from [buf] followed by a terminator: the string
    that results; reading past the end of [buf] without meeting a NUL is undefined. *)
Definition strncpy_str (buf : list Z) (n : nat) : option (list Z) :=
  let s := cstr (firstn n buf) in
  if Nat.ltb (length buf) n && Nat.eqb (length s) (length buf) then None else Some s.

(** Var::assign_c_checked: var.cc:496-508. *)
Definition assign_c_checked (c : cell) (buf : list Z) (size : nat) : outcome cell :=
  let n := if Nat.ltb size (ilen (c_info c)) then size else ilen (c_info c) in
  match strncpy_str buf n with
  | Some s => Done (with_val c (VStr s))
  | None => Undef
  end.

(** Var::seti: var.cc:510-525.  The argument is an int. *)
Definition seti (o : options) (c : cell) (val : Z) : outcome cell :=
  if is_numeric (vi_type (c_info c)) then assign_i_checked o c val else Thrown EType c.

(** Var::setd: var.cc:527-540. *)
Definition setd (o : options) (c : cell) (val : f64) : outcome cell :=
  match vi_type (c_info c) with
  | TString | TBinary => Thrown EType c
  | TInteger =>
    match f_lround val with
    | Ok n => assign_i_checked o c (wrap_int n)
    | _ => Undef
    end
  | TDecimal => assign_d_checked o c val
  end.

(** str_to_unsigned: var.cc:78-84, on the characters before the terminator. *)
Fixpoint str_to_unsigned_acc (acc : Z) (s : list Z) : Z :=
  match s with
  | [] => acc
  | ch :: s' => str_to_unsigned_acc (u32 (acc * 10 + (ch - 48))) s'
  end.
Definition str_to_unsigned (s : list Z) : Z := str_to_unsigned_acc 0 s.

(** isnumber: var.cc:86-93. *)
Definition isnumber (s : list Z) : bool :=
  match s with
  | ch :: s' => if ch =? 45 then forallb c_isdigit s' else forallb c_isdigit s
  | [] => true
  end.

(** The numeric branch of setc and sets: var.cc:550-556, 583-589.  Unsigned
    arithmetic, then conversion to int32_t. *)
Definition set_number (o : options) (c : cell) (s : list Z) : outcome cell :=
  if negb (isnumber s) then Done (unset c)
  else match s with
       | 45 :: s' => assign_i_checked o c (wrap_int (u32 (- str_to_unsigned s')))
       | _ => assign_i_checked o c (wrap_int (str_to_unsigned s))
       end.

(** Var::setc: var.cc:542-558.  [buf] is the readable memory at the pointer,
    terminator included. *)
Definition setc (o : options) (c : cell) (buf : list Z) : outcome cell :=
  match vi_type (c_info c) with
  | TString => assign_c_checked c buf (ilen (c_info c))
  | TBinary => assign_b_checked c buf (ilen (c_info c))
  | TInteger | TDecimal => set_number o c (cstr buf)
  end.

(** Var::setc_truncate: var.cc:560-573. *)
Definition setc_truncate (c : cell) (buf : list Z) : outcome cell :=
  match vi_type (c_info c) with
  | TInteger | TDecimal => Thrown EType c
  | TString => assign_c_checked c buf (length (cstr buf))
  | TBinary => assign_b_checked c buf (ilen (c_info c))
  end.

(** Var::sets: var.cc:575-591.  [s] is the std::string content (it may contain
    NULs); c_str() is followed by a terminator. *)
Definition sets (o : options) (c : cell) (s : list Z) : outcome cell :=
  match vi_type (c_info c) with
  | TString => assign_c_checked c (s ++ [0]) (length s)
  | TBinary => assign_b_checked c (s ++ [0]) (length s)
  | TInteger | TDecimal => set_number o c (cstr s)
  end.

(** Var::setf: var.cc:593-618.  [strtod] is the C library function; [None] is
    NULL. *)
Definition setf (strtod : list Z -> f64) (o : options) (c : cell) (arg : option (list Z)) : outcome cell :=
  match arg with
  | None | Some [] => Done (unset c)
  | Some s =>
    match vi_type (c_info c) with
    | TString => assign_c_checked c (s ++ [0]) (ilen (c_info c))
    | TBinary => Thrown EUnimpl c
    | TInteger | TDecimal => setd o c (strtod s)
    end
  end.

(** Var::enqi: var.cc:275-293.  A value whose kind does not match the type would be
    a union misread. *)
Definition enqi (c : cell) : res Z :=
  match c_val c with
  | None => Err ENotFound
  | Some v =>
    match vi_type (c_info c), v with
    | TString, _ | TBinary, _ => Err EType
    | _, VInt i => Ok i
    | _, _ => UB
    end
  end.

(** Var::enqd: var.cc:295-314. *)
Definition enqd (c : cell) : res f64 :=
  match c_val c with
  | None => Err ENotFound
  | Some v =>
    match vi_type (c_info c), v with
    | TString, _ | TBinary, _ => Err EType
    | TInteger, VInt i => Ok (f_of_Z i)
    | TDecimal, VInt i => decode_decimal (vi_scale (c_info c)) i
    | _, _ => UB
    end
  end.

(** count_digits: var.cc:20-46. *)
Definition count_digits (x : Z) : nat :=
  if 10000 <=? x then
    if 10000000 <=? x then
      if 100000000 <=? x then
        if 1000000000 <=? x then 10 else 9
      else 8
    else if 100000 <=? x then
      if 1000000 <=? x then 7 else 6
    else 5
  else if 100 <=? x then
    if 1000 <=? x then 4 else 3
  else if 10 <=? x then 2 else 1.

(** uint32_to_str: var.cc:49-75.  The digits are written from the end of the
    destination; the number of characters written must be the [digits] announced,
    otherwise bytes outside are written or inside are left unwritten. *)
Fixpoint uint32_digits (fuel : nat) (value : Z) (acc : list Z) : list Z :=
  match fuel with
  | O => acc
  | S k =>
    if 100 <=? value then
      uint32_digits k (value / 100) (48 + (value mod 100) / 10 :: 48 + (value mod 100) mod 10 :: acc)
    else if value <? 10 then 48 + value :: acc
    else 48 + value / 10 :: 48 + value mod 10 :: acc
  end.
Definition uint32_to_str (value : Z) (digits : nat) : res (list Z) :=
  let s := uint32_digits 6 value [] in
  if Nat.eqb (length s) digits then Ok s else UB.

(** int32_to_str with a buffer of 20 characters: var.cc:316-335, and
    int32_to_stdstr: var.cc:337-357.  -INT_MIN overflows. *)
Definition int32_to_str (val : Z) : res (list Z) :=
  if val <? 0 then
    if val =? int_min then UB
    else
      let dec := - val in
      if Nat.ltb 18 (count_digits dec) then Err EConsistency
      else s <- uint32_to_str dec (count_digits dec) ;; Ok (45 :: s)
  else
    if Nat.ltb 19 (count_digits val) then Err EConsistency
    else uint32_to_str val (count_digits val).

(** Var::enqc: var.cc:359-384: the memory readable at the returned pointer. *)
Definition enqc (c : cell) : res (list Z) :=
  match c_val c with
  | None => Err ENotFound
  | Some v =>
    match vi_type (c_info c), v with
    | TString, VStr s => Ok (s ++ [0])
    | TBinary, VBin b => Ok b
    | TInteger, VInt i | TDecimal, VInt i => s <- int32_to_str i ;; Ok (s ++ [0])
    | _, _ => UB
    end
  end.

(** Var::enqs: var.cc:386-402: std::string built from a C string; a binary value
    without NUL is read past its end. *)
Definition enqs (c : cell) : res (list Z) :=
  buf <- enqc c ;;
  if existsb (Z.eqb 0) buf then Ok (cstr buf) else UB.

(** Var::setval: var.cc:691-708.  [conv] is convert_units on the unit names. *)
Definition setval (conv : string -> string -> f64 -> res f64) (o : options) (c : cell) (src : cell)
  : outcome cell :=
  if negb (isset src) then Done (unset c)
  else
    match vi_type (c_info c) with
    | TString => match enqc src with
                 | Ok buf => assign_c_checked c buf (ilen (c_info c))
                 | Err e => Thrown e c | UB => Undef end
    | TBinary => match enqc src with
                 | Ok buf => assign_b_checked c buf (ilen (c_info c))
                 | Err e => Thrown e c | UB => Undef end
    | TInteger | TDecimal =>
      match (d <- enqd src ;; conv (vi_unit (c_info src)) (vi_unit (c_info c)) d) with
      | Ok d => setd o c d
      | Err e => Thrown e c | UB => Undef end
    end.

(** Var::value_equals: var.cc:250-267. *)
Definition list_eqb (a b : list Z) : bool :=
  Nat.eqb (length a) (length b) && forallb (fun p => fst p =? snd p) (combine a b).

Definition value_equals (a b : cell) : res bool :=
  match c_val a, c_val b with
  | None, None => Ok true
  | None, _ | _, None => Ok false
  | Some x, Some y =>
    match vi_type (c_info a), x, y with
    | TBinary, VBin p, VBin q =>
      let n := ilen (c_info a) in
      if Nat.ltb (length q) n then UB else Ok (list_eqb (firstn n p) (firstn n q))
    | TString, VStr p, VStr q => Ok (list_eqb p q)
    | TInteger, VInt i, VInt j | TDecimal, VInt i, VInt j => Ok (i =? j)
    | _, _, _ => UB
    end
  end.

(** Var::operator==: var.cc:189-198: recursive along the attribute chain. *)
Fixpoint chain_equals (a : cell) (ra : list cell) (b : cell) (rb : list cell) : res bool :=
  if negb (c_code a =? c_code b) then Ok false
  else
    e <- value_equals a b ;;
    if negb e then Ok false
    else match ra, rb with
         | [], [] => Ok true
         | a' :: ra', b' :: rb' => chain_equals a' ra' b' rb'
         | _, _ => Ok false
         end.
Definition var_equals (a b : var) : res bool :=
  chain_equals (v_cell a) (v_attrs a) (v_cell b) (v_attrs b).

(** Var::enqa: var.cc:625-631. *)
Fixpoint enqa (code : Z) (l : list cell) : option cell :=
  match l with
  | [] => None
  | a :: l' => if c_code a <=? code then
                 if c_code a =? code then Some a else enqa code l'
               else None
  end.

(** Var::seta: var.cc:633-666: the attribute's own attributes are dropped and it is
    inserted along the chain. *)
Fixpoint seta (a : cell) (l : list cell) : list cell :=
  match l with
  | [] => [a]
  | b :: l' => if c_code a <? c_code b then a :: l
               else if c_code b =? c_code a then a :: l'
               else b :: seta a l'
  end.

(** Var::unseta: var.cc:668-684. *)
Fixpoint unseta (code : Z) (l : list cell) : list cell :=
  match l with
  | [] => []
  | b :: l' => if code <? c_code b then l
               else if c_code b =? code then l'
               else b :: unseta code l'
  end.

Definition var_seta (v : var) (attr : var) : var := mkvar (v_cell v) (seta (v_cell attr) (v_attrs v)).
Definition var_unseta (v : var) (code : Z) : var := mkvar (v_cell v) (unseta code (v_attrs v)).
Definition var_clear_attrs (v : var) : var := mkvar (v_cell v) [].
Definition var_enqa (v : var) (code : Z) : option cell := enqa code (v_attrs v).

(** Var::diff: var.cc:816-952.  Attributes are compared recursively with their
    remaining chain; the result is the number of differences reported. *)
Definition diff_value (a b : cell) : res bool :=     (* true: the values differ *)
  match vi_type (c_info a), c_val a, c_val b with
  | TBinary, Some (VBin p), Some (VBin q) =>
    if negb (vi_bit_len (c_info a) =? vi_bit_len (c_info b)) then Ok true
    else if Nat.ltb (length q) (ilen (c_info a)) then UB
    else Ok (negb (list_eqb (firstn (ilen (c_info a)) p) (firstn (ilen (c_info a)) q)))
  | TString, Some (VStr p), Some (VStr q) => Ok (negb (list_eqb p q))
  | TInteger, Some (VInt i), Some (VInt j) | TDecimal, Some (VInt i), Some (VInt j) => Ok (negb (i =? j))
  | _, _, _ => UB
  end.

(** The enqc call made to log a one-sided missing value can itself fail (INT_MIN). *)
Definition diff_log (c : cell) : res unit := _ <- enqc c ;; Ok tt.

(** The attribute loop: var.cc:922-948.  extracode is the smaller code if they
    differ; 0 means no difference. *)
Fixpoint diff_loop (rec : cell -> list cell -> cell -> list cell -> res Z) (l1 l2 : list cell) : res Z :=
  match l1, l2 with
  | x :: l1', y :: l2' =>
    if negb ((if c_code x <? c_code y then c_code x
              else if c_code y <? c_code x then c_code y else 0) =? 0) then Ok 1
    else
      n <- rec x l1' y l2' ;;
      if negb (n =? 0) then Ok n else diff_loop rec l1' l2'
  | _, _ => Ok 0
  end.

Fixpoint diff_chain (fuel : nat) (a : cell) (ra : list cell) (b : cell) (rb : list cell) : res Z :=
  match fuel with
  | O => Err EFuel
  | S k =>
    if negb (c_code a =? c_code b) then Ok 1
    else match isset a, isset b with
    | false, false => Ok 0
    | false, true => _ <- diff_log b ;; Ok 1
    | true, false => _ <- diff_log a ;; Ok 1
    | true, true =>
      if negb (vartype_eqb (vi_type (c_info a)) (vi_type (c_info b))) then Ok 1
      else
        d <- diff_value a b ;;
        if d : bool then Ok 1
        else match ra, rb with
        | [], [] => Ok 0
        | [], _ | _, [] => Ok 1
        | _, _ =>
          if negb (Nat.eqb (length ra) (length rb)) then
            Ok (Z.abs (Z.of_nat (length ra) - Z.of_nat (length rb)))
          else
            diff_loop (diff_chain k) ra rb
        end
    end
  end.
Definition var_diff (a b : var) : res Z :=
  diff_chain (S (length (v_attrs a))) (v_cell a) (v_attrs a) (v_cell b) (v_attrs b).

(** Value part of the operations on one variable, for histories. *)
Inductive op : Type :=
| OpSeti (v : Z) | OpSetd (d : f64) | OpSetc (s : list Z) | OpSetcTrunc (s : list Z)
| OpSets (s : list Z) | OpSetf (s : option (list Z)) | OpUnset
| OpSetval (src : cell)            (* setval(src) *)
| OpAssign (src : cell).           (* operator=(const Var&): info and value are copied *)

Definition run_op (strtod : list Z -> f64) (conv : string -> string -> f64 -> res f64)
  (o : options) (c : cell) (x : op) : outcome cell :=
  match x with
  | OpSeti v => seti o c v
  | OpSetd d => setd o c d
  | OpSetc s => setc o c (s ++ [0])
  | OpSetcTrunc s => setc_truncate c (s ++ [0])
  | OpSets s => sets o c s
  | OpSetf s => setf strtod o c s
  | OpUnset => Done (unset c)
  | OpSetval src => setval conv o c src
  | OpAssign src => Done src
  end.

(** Var::operator=(Var&&): var.cc:164-172: the value moves but m_info stays. *)
Definition move_assign (c src : cell) : cell :=
  match c_val src with
  | None => unset c
  | Some v => with_val c v
  end.

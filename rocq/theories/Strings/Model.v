(** The string helpers: wreport/utils/string.h, string.cc.  A character is its code from 0 to 255; char is signed, as with gcc
    on x86, so that the codes from 128 on are negative where the code compares them. *)
From Verif Require Import Base.
Local Open Scope Z_scope.

Fixpoint str_eqb (a b : list Z) : bool :=
  match a, b with
  | [], [] => true
  | x :: a', y :: b' => (x =? y) && str_eqb a' b'
  | _, _ => false
  end.

(** ** Beginnings, ends, spaces *)

(** startswith, endswith: string.h:20-33. *)
Definition startswith (str part : list Z) : bool :=
  if (length str <? length part)%nat then false else str_eqb (firstn (length part) str) part.
Definition endswith (str part : list Z) : bool :=
  if (length str <? length part)%nat then false else str_eqb (skipn (length str - length part) str) part.

(** join: string.h:38-72, of strings. *)
Fixpoint join (sep : list Z) (items : list (list Z)) : list Z :=
  match items with
  | [] => []
  | [i] => i
  | i :: rest => i ++ sep ++ join sep rest
  end.

(** lstrip, rstrip, strip: string.cc:17-85.  The second loop of strip goes down from the end: here along the reversed text. *)
Fixpoint lstrip (s : list Z) : list Z :=
  match s with
  | c :: r => if c_isspace c then lstrip r else s
  | [] => []
  end.
Definition rstrip (s : list Z) : list Z := rev (lstrip (rev s)).
Definition strip (s : list Z) : list Z := rstrip (lstrip s).

(** toupper, tolower in the C locale; upper, lower: string.h:90-109. *)
Definition c_toupper (c : Z) : Z := if (97 <=? c) && (c <=? 122) then c - 32 else c.
Definition c_tolower (c : Z) : Z := if (65 <=? c) && (c <=? 90) then c + 32 else c.
Definition upper (s : list Z) : list Z := map c_toupper s.
Definition lower (s : list Z) : list Z := map c_tolower s.

(** ** Split: string.cc:207-321 *)

(** Whether [sep] is at the beginning of [s]. *)
Fixpoint prefixed (sep s : list Z) : bool :=
  match sep, s with
  | [], _ => true
  | x :: p, y :: r => (x =? y) && prefixed p r
  | _, [] => false
  end.

(** str.find(sep, end): the characters before the first [sep] and what follows it. *)
Fixpoint find_sep (sep s : list Z) : option (list Z * list Z) :=
  if prefixed sep s then Some ([], skipn (length sep) s)
  else match s with
       | [] => None
       | c :: r => match find_sep sep r with
                   | Some (a, b) => Some (c :: a, b)
                   | None => None
                   end
       end.

(** skip_separators: string.cc:231-248; what is left from [end] on.  It never comes back when the separator is empty. *)
Fixpoint skip_separators (fuel : nat) (sep s : list Z) : res (list Z) :=
  match fuel with
  | O => Err EFuel
  | S k => if prefixed sep s then skip_separators k sep (skipn (length sep) s) else Ok s
  end.

(** operator++: string.cc:250-305.  [rest] is what is left from [end] on, None when end is npos: None is the end iterator,
    otherwise the token and the new place. *)
Definition next_token (fuel : nat) (sep : list Z) (skip_empty : bool) (rest : option (list Z)) : res (option (list Z * option (list Z))) :=
  match rest with
  | None => Ok None
  | Some [] => Ok (Some ([], None))
  | Some s =>
    match (match sep with [] => Some (firstn 1 s, skipn 1 s) | _ => find_sep sep s end) with
    | None => Ok (Some (s, None))
    | Some (tok, r) =>
      if skip_empty then
        r' <- skip_separators fuel sep r ;;
        Ok (Some (tok, match r' with [] => None | _ => Some r' end))
      else Ok (Some (tok, Some r))
    end
  end.

Fixpoint tokens_from (fuel : nat) (sep : list Z) (skip_empty : bool) (rest : option (list Z)) : res (list (list Z)) :=
  match fuel with
  | O => Err EFuel
  | S k =>
    n <- next_token fuel sep skip_empty rest ;;
    match n with
    | None => Ok []
    | Some (tok, rest') => l <- tokens_from k sep skip_empty rest' ;; Ok (tok :: l)
    end
  end.

(** for (const auto& i: Split(str, sep, skip_empty)): const_iterator(split): string.cc:207-218. *)
Definition split_with (fuel : nat) (str sep : list Z) (skip_empty : bool) : res (list (list Z)) :=
  match str with
  | [] => Ok []
  | _ =>
    r <- (if skip_empty then skip_separators fuel sep str else Ok str) ;;
    tokens_from fuel sep skip_empty (Some r)
  end.
(** Enough fuel for every non empty separator. *)
Definition split (str sep : list Z) (skip_empty : bool) : res (list (list Z)) := split_with (S (S (S (length str)))) str sep skip_empty.

(** ** Paths: string.cc:87-205 *)

(** What is after the last slash; None if there is none. *)
Fixpoint after_slash (s : list Z) : option (list Z) :=
  match s with
  | [] => None
  | c :: r => match after_slash r with
              | Some t => Some t
              | None => if c =? 47 then Some r else None
              end
  end.
Definition basename (p : list Z) : list Z := match after_slash p with Some t => t | None => p end.

(** Without the slashes at the end. *)
Fixpoint drop_slashes (r : list Z) : list Z :=
  match r with
  | c :: r' => if c =? 47 then drop_slashes r' else r
  | [] => []
  end.
Definition no_trailing_slashes (s : list Z) : list Z := rev (drop_slashes (rev s)).
(** dirname: string.cc:96-121. *)
Definition dirname (p : list Z) : list Z :=
  match p with
  | [] => [46]
  | _ =>
    match no_trailing_slashes p with
    | [] => [47]
    | q =>
      match after_slash q with
      | None => [46]
      | Some t =>
        match no_trailing_slashes (firstn (length q - length t) q) with
        | [] => [47]
        | d => d
        end
      end
    end
  end.

(** appendpath: string.cc:123-173. *)
Definition appendpath (dest path2 : list Z) : list Z :=
  match path2 with
  | [] => dest
  | c :: r =>
    match dest with
    | [] => path2
    | _ =>
      if last dest 0 =? 47 then (if c =? 47 then dest ++ r else dest ++ path2)
      else (if c =? 47 then dest ++ path2 else dest ++ [47] ++ path2)
    end
  end.
(** joinpath: string.h:134-144. *)
Definition joinpath (components : list (list Z)) : list Z := fold_left appendpath components [].

(** The loop of normpath: string.cc:182-195.  [st] is the vector, with its last element first; back() and pop_back() of an empty
    vector have no defined behaviour. *)
Fixpoint norm_stack (st : list (list Z)) (parts : list (list Z)) : res (list (list Z)) :=
  match parts with
  | [] => Ok st
  | i :: rest =>
    if str_eqb i [46] || str_eqb i [] then norm_stack st rest
    else if str_eqb i [46; 46] then
      match st with
      | [] => UB
      | b :: st' =>
        if str_eqb b [46; 46] then norm_stack (i :: st) rest
        else if str_eqb b [47] then norm_stack st rest
        else norm_stack st' rest
      end
    else norm_stack (i :: st) rest
  end.
(** normpath: string.cc:175-205. *)
Definition normpath (p : list Z) : res (list Z) :=
  parts <- split p [47] false ;;
  st <- norm_stack (match p with c :: _ => if c =? 47 then [[47]] else [] | [] => [] end) parts ;;
  match st with
  | [] => Ok [46]
  | _ => Ok (fold_left appendpath (rev st) [])
  end.

(** ** C strings: string.cc:330-406 *)

Definition hex_digit (n : Z) : Z := if n <? 10 then 48 + n else 87 + n.
(** hex_byte_table: string.cc:331-348. *)
Definition hex_byte (c : Z) : list Z := [hex_digit (c / 16); hex_digit (c mod 16)].

(** iscntrl, isxdigit in the C locale. *)
Definition c_iscntrl (c : Z) : bool := ((0 <=? c) && (c <=? 31)) || (c =? 127).
Definition c_isxdigit (c : Z) : bool := c_isdigit c || ((65 <=? c) && (c <=? 70)) || ((97 <=? c) && (c <=? 102)).

(** encode_cstring: string.cc:351-372. *)
Definition encode_cchar (c : Z) : list Z :=
  if c =? 10 then [92; 110]
  else if c =? 9 then [92; 116]
  else if (c =? 0) || c_iscntrl c then [92; 120] ++ hex_byte c
  else if (c =? 34) || (c =? 92) then [92; c]
  else [c].
Definition encode_cstring (s : list Z) : list Z := flat_map encode_cchar s.

(** atoi of a text that starts with a digit. *)
Fixpoint atoi_digits (acc : Z) (s : list Z) : Z :=
  match s with
  | c :: r => if c_isdigit c then atoi_digits (10 * acc + (c - 48)) r else acc
  | [] => acc
  end.
(** buf is "0x" and the digits read: string.cc:387-393. *)
Definition escaped_byte (digits : list Z) : Z := u8 (atoi_digits 0 ([48; 120] ++ digits)).

(** decode_cstring: string.cc:374-406; the text and the number of characters read. *)
Fixpoint decode_cstring (s : list Z) : list Z * nat :=
  match s with
  | [] => ([], O)
  | c :: r =>
    if c =? 34 then ([], 1%nat)
    else if c =? 92 then
      match r with
      | [] => ([92], 1%nat)
      | d :: r1 =>
        let put ch n (q : list Z * nat) := (ch :: fst q, (n + snd q)%nat) in
        if d =? 110 then put 10 2%nat (decode_cstring r1)
        else if d =? 116 then put 9 2%nat (decode_cstring r1)
        else if d =? 120 then
          match r1 with
          | h1 :: r2 =>
            if c_isxdigit h1 then
              match r2 with
              | h2 :: r3 =>
                if c_isxdigit h2 then put (escaped_byte [h1; h2]) 4%nat (decode_cstring r3)
                else put (escaped_byte [h1]) 3%nat (decode_cstring r2)
              | [] => put (escaped_byte [h1]) 3%nat ([], O)
              end
            else put (escaped_byte []) 2%nat (decode_cstring r1)
          | [] => put (escaped_byte []) 2%nat ([], O)
          end
        else put d 2%nat (decode_cstring r1)
      end
    else (c :: fst (decode_cstring r), S (snd (decode_cstring r)))
  end.

(** ** URLs: string.cc:408-443 *)

(** string.cc:413-415. *)
Definition url_plain (c : Z) : bool :=
  c_isdigit c || ((65 <=? c) && (c <=? 90)) || ((97 <=? c) && (c <=? 122)) || (c =? 45) || (c =? 95) || (c =? 33) || (c =? 42) ||
  (c =? 39) || (c =? 40) || (c =? 41).
(** encode_url: string.cc:408-424. *)
Definition encode_url (s : list Z) : list Z := flat_map (fun c => if url_plain c then [c] else 37 :: hex_byte c) s.

Definition hex_value (c : Z) : Z :=
  if c_isdigit c then c - 48 else if (97 <=? c) && (c <=? 102) then c - 87 else c - 55.
Fixpoint strtoul_digits (acc : Z) (s : list Z) : Z :=
  match s with
  | c :: r => if c_isxdigit c then strtoul_digits (16 * acc + hex_value c) r else acc
  | [] => acc
  end.
(** strtoul(s, nullptr, 16), of at most two characters: spaces, a sign, digits; "0x" alone is 0 too. *)
Definition strtoul16 (s : list Z) : Z :=
  match lstrip s with
  | c :: r =>
    if c =? 45 then (- strtoul_digits 0 r) mod 2 ^ 64
    else if c =? 43 then strtoul_digits 0 r
    else strtoul_digits 0 (c :: r)
  | [] => 0
  end.

(** decode_url: string.cc:426-443; [size] is that of the whole text, [i] the place; size_t wraps around. *)
Fixpoint decode_url_from (size i : Z) (s : list Z) : list Z :=
  match s with
  | [] => []
  | c :: r =>
    if c =? 37 then
      if (size - 2) mod 2 ^ 64 <=? i then []
      else match r with
           | h1 :: h2 :: r2 => u8 (strtoul16 [h1; h2]) :: decode_url_from size (i + 3) r2
           | _ => [u8 (strtoul16 r)]
           end
    else c :: decode_url_from size (i + 1) r
  end.
Definition decode_url (s : list Z) : list Z := decode_url_from (Z.of_nat (length s)) 0 s.

(** ** Base64: string.cc:445-538 *)

(** string.cc:445. *)
Definition base64 (n : Z) : Z :=
  if n <? 26 then 65 + n else if n <? 52 then 97 + (n - 26) else if n <? 62 then 48 + (n - 52) else if n =? 62 then 43 else 47.

(** invbase64: string.cc:447-454. *)
Definition inv_data : list Z :=
  [62;0;0;0;63;52;53;54;55;56;57;58;59;60;61;0;0;0;0;0;0;0;0;1;2;3;4;5;6;7;8;9;10;11;12;13;14;15;16;17;18;19;20;21;22;23;24;25;0;0;0;0;0;0;
   26;27;28;29;30;31;32;33;34;35;36;37;38;39;40;41;42;43;44;45;46;47;48;49;50;51].
Definition invbase64 (c : Z) : res Z :=
  let idx := if 128 <=? c then c - 256 else c in
  if idx <? 43 then Ok 0
  else if idx >? 43 + Z.of_nat (length inv_data) then Ok 0
  else match nth_error inv_data (Z.to_nat (idx - 43)) with
       | Some v => Ok v
       | None => UB
       end.

(** The four characters of 24 bits: string.cc:481-484. *)
Definition four (enc : Z) : list Z := map (fun j => base64 (Z.land (Z.shiftr enc j) 63)) [18; 12; 6; 0].
(** The loop: string.cc:466-485. *)
Fixpoint encode_triplets (s : list Z) : list Z :=
  match s with
  | a :: b :: c :: r => four (Z.lor (Z.lor (Z.shiftl a 16) (Z.shiftl b 8)) c) ++ encode_triplets r
  | [a; b] => four (Z.lor (Z.shiftl a 16) (Z.shiftl b 8))
  | [a] => four (Z.shiftl a 16)
  | [] => []
  end.
(** encode_base64: string.cc:461-493; the characters that stand for nothing are replaced. *)
Definition encode_base64 (s : list Z) : list Z :=
  let n := (length s mod 3)%nat in
  let t := encode_triplets s in
  if (n =? 0)%nat then t else firstn (length t - (3 - n)) t ++ repeat 61 (3 - n).

(** The three bytes of 24 bits: string.cc:519-522. *)
Definition three (enc : Z) : list Z := [Z.land (Z.shiftr enc 16) 255; Z.land (Z.shiftr enc 8) 255; Z.land enc 255].
(** The loop: string.cc:499-523. *)
Fixpoint decode_quadruplets (s : list Z) : res (list Z) :=
  match s with
  | a :: b :: c :: d :: r =>
    x <- invbase64 a ;; y <- invbase64 b ;; z <- invbase64 c ;; w <- invbase64 d ;; t <- decode_quadruplets r ;;
    Ok (three (Z.shiftl x 18 + Z.shiftl y 12 + Z.shiftl z 6 + w) ++ t)
  | [a; b; c] => x <- invbase64 a ;; y <- invbase64 b ;; z <- invbase64 c ;; Ok (three (Z.shiftl x 18 + Z.shiftl y 12 + Z.shiftl z 6))
  | [a; b] => x <- invbase64 a ;; y <- invbase64 b ;; Ok (three (Z.shiftl x 18 + Z.shiftl y 12))
  | [a] => x <- invbase64 a ;; Ok (three (Z.shiftl x 18))
  | [] => Ok []
  end.
(** The loop that removes the padding, over the reversed text and the reversed bytes: string.cc:526-534. *)
Fixpoint remove_padding (text bytes : list Z) : list Z :=
  match text with
  | c :: text' => if c =? 61 then match tl bytes with [] => [] | b => remove_padding text' b end else bytes
  | [] => bytes
  end.
(** decode_base64: string.cc:495-538. *)
Definition decode_base64 (s : list Z) : res (list Z) :=
  t <- decode_quadruplets s ;; Ok (rev (remove_padding (rev s) (rev t))).

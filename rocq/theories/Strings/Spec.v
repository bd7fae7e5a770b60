(** What is expected of the string helpers, said without their code. *)
From Verif Require Import Base.
Local Open Scope Z_scope.

Definition contains (part s : list Z) : Prop := exists a b, s = a ++ part ++ b.
Definition nonempty (s : list Z) : bool := match s with [] => false | _ => true end.

(** ** Text without the spaces around it *)
Definition blank (c : Z) : Prop := c = 32 \/ 9 <= c <= 13.
Definition no_blank_first (s : list Z) : Prop := match s with c :: _ => ~ blank c | [] => True end.
Definition no_blank_last (s : list Z) : Prop := no_blank_first (rev s).

(** ** Splitting at a separator

    The text is cut at the first separator, then at the first one after it, and so on. *)
Inductive cut_at (sep : list Z) : list Z -> list (list Z) -> Prop :=
| cut_last : forall s, ~ contains sep s -> cut_at sep s [s]
| cut_cons : forall t r l, (forall a b, t ++ sep = a ++ sep ++ b -> b = []) -> cut_at sep r l -> cut_at sep (t ++ sep ++ r) (t :: l).

(** ** Paths *)

(** What is between the slashes. *)
Fixpoint pieces (s : list Z) : list (list Z) :=
  match s with
  | [] => [[]]
  | c :: r => if c =? 47 then [] :: pieces r else match pieces r with p :: ps => (c :: p) :: ps | [] => [[c]] end
  end.
Definition components (p : list Z) : list (list Z) := filter nonempty (pieces p).
Definition absolute (p : list Z) : bool := match p with c :: _ => c =? 47 | [] => false end.

(** A walk along the components: the names from the start, None when a relative path leads above its start. *)
Fixpoint walk (abs : bool) (here : list (list Z)) (comps : list (list Z)) : option (list (list Z)) :=
  match comps with
  | [] => Some here
  | c :: rest =>
    if list_eq_dec Z.eq_dec c [46] then walk abs here rest
    else if list_eq_dec Z.eq_dec c [46; 46] then
      match here with
      | [] => if abs then walk abs [] rest else None
      | _ => walk abs (removelast here) rest
      end
    else walk abs (here ++ [c]) rest
  end.
Definition place (p : list Z) : option (list (list Z)) := walk (absolute p) [] (components p).

(** The shortest path to a place. *)
Fixpoint slashed (l : list (list Z)) : list Z :=
  match l with
  | [] => []
  | [c] => c
  | c :: rest => c ++ 47 :: slashed rest
  end.
Definition path_to (abs : bool) (l : list (list Z)) : list Z :=
  if abs then 47 :: slashed l else match l with [] => [46] | _ => slashed l end.

(** ** Encodings *)

(** Characters that are not changed by a quoting as a C string. *)
Definition c_plain (c : Z) : Prop := 32 <= c <= 255 /\ c <> 34 /\ c <> 92 /\ c <> 127.
Definition c_quotable (c : Z) : Prop := c = 0 \/ c = 9 \/ c = 10 \/ (32 <= c <= 255 /\ c <> 127).

Definition url_safe (c : Z) : Prop := 48 <= c <= 57 \/ 65 <= c <= 90 \/ 97 <= c <= 122 \/ c = 45 \/ c = 95 \/ c = 33 \/ c = 42 \/ 39 <= c <= 41 \/ c = 37.

(** The alphabet of RFC 4648. *)
Definition base64_char (c : Z) : Prop := 65 <= c <= 90 \/ 97 <= c <= 122 \/ 48 <= c <= 57 \/ c = 43 \/ c = 47.
(** The number that a character stands for. *)
Definition sextet (c v : Z) : Prop :=
  (65 <= c <= 90 /\ v = c - 65) \/ (97 <= c <= 122 /\ v = c - 97 + 26) \/ (48 <= c <= 57 /\ v = c - 48 + 52) \/
  (c = 43 /\ v = 62) \/ (c = 47 /\ v = 63).

(** RFC 4648: three bytes are the digits in base 256 of a number, four characters its digits in base 64; at the end one or two
    bytes are followed by zeros, and "=" is where no digit is needed. *)
Inductive in_base64 : list Z -> list Z -> Prop :=
| b64_nil : in_base64 [] []
| b64_three : forall a b c p q r t x y z w l m, sextet p x -> sextet q y -> sextet r z -> sextet t w ->
    a * 65536 + b * 256 + c = x * 262144 + y * 4096 + z * 64 + w -> in_base64 l m ->
    in_base64 (a :: b :: c :: l) (p :: q :: r :: t :: m)
| b64_two : forall a b p q r x y z, sextet p x -> sextet q y -> sextet r z ->
    a * 65536 + b * 256 = x * 262144 + y * 4096 + z * 64 -> in_base64 [a; b] [p; q; r; 61]
| b64_one : forall a p q x y, sextet p x -> sextet q y ->
    a * 65536 = x * 262144 + y * 4096 -> in_base64 [a] [p; q; 61; 61].

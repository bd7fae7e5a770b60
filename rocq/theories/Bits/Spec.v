(** Bit strings: the specification level of the bit codec. *)
From Verif Require Import Base.
Local Open Scope Z_scope.

(** The [n] low bits of [v], most significant first. *)
Fixpoint bits_of (n : nat) (v : Z) : list bool :=
  match n with
  | O => []
  | S k => Z.testbit v (Z.of_nat k) :: bits_of k v
  end.

(** The number written in base two by a list of bits, most significant first. *)
Definition val_of (l : list bool) : Z :=
  fold_left (fun acc b => 2 * acc + Z.b2z b) l 0.

(** The bits of a byte string. *)
Definition bits_of_bytes (d : list Z) : list bool := flat_map (bits_of 8) d.

(** A sequence of fields (value, width). *)
Definition fields_bits (fs : list (Z * nat)) : list bool :=
  flat_map (fun f => bits_of (snd f) (fst f)) fs.

(** A C string: the content up to the first NUL. *)
Fixpoint cstr (s : list Z) : list Z :=
  match s with
  | [] => []
  | c :: s' => if c =? 0 then [] else c :: cstr s'
  end.

(** Blank-padded field of [k] characters holding [s]. *)
Definition pad_field (k : nat) (s : list Z) : list Z :=
  firstn k (cstr s ++ repeat 32 k).

(** Groups of bits, most significant group first: [n/8] bytes and possibly a
    last shorter group. *)
Fixpoint groups_bits (n : nat) (cs : list Z) : list bool :=
  match cs with
  | [] => []
  | c :: cs' => bits_of (Nat.min 8 n) c ++ groups_bits (n - 8) cs'
  end.

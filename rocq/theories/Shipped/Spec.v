(** What is said of the files of /repo/tables. *)
From Coq Require Import List ZArith String.
From Verif Require Import Base Varcode.Model Tables.Model Shipped.Text Shipped.Check.
Import ListNotations.
Local Open Scope Z_scope.

Definition named (n : string) (l : list string) : bool := existsb (String.eqb n) l.
Definition crex_name (n : string) : bool := Nat.eqb (String.length n) 11.

(** The table B that cannot be loaded: the scale of 040247 is -20. *)
Definition unloadable : list string := ["B0000000000254019001.txt"]%string.

(** Elements whose width is not 1..32 bits: 015028 in versions 27 to 31 (its unit is not ASCII, so that the
    columns that follow are misplaced), 008193. *)
Definition odd_elements : list (string * Z) :=
  [("B0000000000000027000.txt", 3868); ("B0000000000000028000.txt", 3868); ("B0000000000000029000.txt", 3868);
   ("B0000000000000030000.txt", 3868); ("B0000000000000031000.txt", 3868); ("B000000000980201.txt", 2241)]%string.

(** Tables D where a sequence contains itself. *)
Definition cyclic_tables : list string := ["D000000000001100.txt"; "D000000000980201.txt"]%string.

(** Tables D whose codes do not increase. *)
Definition unsorted_tables : list string :=
  ["D0000000000000012000.txt"; "D0000000000000013000.txt"; "D0000000000098013102.txt"; "D000000000981301.txt";
   "D000000002551104.txt"]%string.

(** Files for BUFR that load as tables for CREX too. *)
Definition crex_too : list string :=
  ["B0000000000000018000.txt"; "B0000000000000019000.txt"; "B0000000000000020000.txt"; "B0000000000000021000.txt";
   "B0000000000000022000.txt"; "B0000000000000023000.txt"; "B0000000000000024000.txt"; "B0000000000000025000.txt";
   "B0000000000000026000.txt"; "B0000000000000027000.txt"; "B0000000000000028000.txt"; "B0000000000000029000.txt";
   "B0000000000000030000.txt"; "B0000000000000031000.txt"; "B0000000000000033000.txt"; "B000000002551104.txt";
   "B000101.txt"; "B000103.txt"; "B000203.txt"]%string.

(** Tables where sequences only name things that are defined. *)
Definition whole_tables : list string :=
  ["0000000000000021000.txt"; "0000000000000022000.txt"; "0000000000000023000.txt"; "0000000000000024000.txt";
   "0000000000000025000.txt"; "0000000000000026000.txt"; "0000000000000027000.txt"; "0000000000000028000.txt";
   "0000000000000029000.txt"; "0000000000000030000.txt"; "0000000000000031000.txt"; "0000000000000033000.txt";
   "0000000000098033002.txt"]%string.

(** The checks that are computed. *)
Definition listed_in {A} (n : string) (l : list (string * A)) : option A := option_map snd (List.find (fun p => String.eqb (fst p) n) l).

Definition width_ok (crex : bool) (f : bfact) : bool :=
  if crex then (1 <=? bf_len f) && (bf_len f <=? 63) && negb (bf_text f && (var_x (bf_code f) =? 31))
  else if bf_text f then (8 <=? bf_bits f) && (bf_ref f =? 0) else (1 <=? bf_bits f) && (bf_bits f <=? 32).
Definition is_odd (n : string) (c : Z) : bool := existsb (fun q => String.eqb (fst q) n && (snd q =? c)) odd_elements.

(** All values are ints; texts are made of bytes.  These are the elements where it is not so. *)
Definition wide_elements : list Z := [355; 1514; 1516; 2241; 3868; 6155; 6156; 6157; 6165; 6166].
Definition whole_bytes (f : bfact) : bool :=
  if bf_text f then bf_bits f mod 8 =? 0 else bf_ref f + 2 ^ bf_bits f <=? 2147483648.

(** The numbers of the other elements have less than 19 digits: B24001 and B24002, the activity released and the maximum
    that may be released. *)
Definition long_elements : list Z := [6145; 6146].
Definition short_number (f : bfact) : bool :=
  bf_text f || (-8 <=? bf_scale f) || ((bf_len f <? 10) && (10 ^ (bf_len f - bf_scale f) <=? 10 ^ 18)) || existsb (Z.eqb (bf_code f)) long_elements.

Definition bcheck (p : string * list text) : bool :=
  named (fst p) unloadable ||
  match elements (crex_name (fst p)) (snd p) with
  | Some fs => forallb (fun f => (width_ok (crex_name (fst p)) f || is_odd (fst p) (bf_code f)) &&
                                 (crex_name (fst p) || whole_bytes f || existsb (Z.eqb (bf_code f)) wide_elements) && short_number f) fs
  | None => false
  end.
Definition ccheck (p : string * list text) : bool :=
  negb (named (fst p) crex_too) ||
  match elements true (snd p) with
  | Some fs => forallb (fun f => width_ok true f && short_number f) fs
  | None => false
  end.
Definition dcheck (depths : list (string * list (Z * nat))) (p : string * list text) : bool :=
  match sequences (snd p) with
  | Some bs =>
    (named (fst p) cyclic_tables || match listed_in (fst p) depths with Some l => nested l bs | None => false end) &&
    (named (fst p) unsorted_tables || increasing (-1) (map fst bs))
  | None => false
  end.
Definition wcheck (bs ds : list (string * list text)) (n : string) : bool :=
  match listed_in ("B" ++ n)%string bs, listed_in ("D" ++ n)%string ds with Some b, Some d => whole b d | _, _ => false end.

(** The first line of each of the other files that is too short for a table for CREX. *)
Definition short_lines : list (string * nat) :=
  [("B0000000000000012000.txt", 74); ("B0000000000000013000.txt", 74); ("B0000000000000014000.txt", 41); ("B0000000000000015000.txt", 45);
   ("B0000000000000016000.txt", 271); ("B0000000000000017000.txt", 100); ("B000000000001100.txt", 0); ("B0000000000085014001.txt", 41);
   ("B0000000000098013001.txt", 81); ("B0000000000098013102.txt", 0); ("B0000000000098016001.txt", 100); ("B0000000000098033001.txt", 114);
   ("B0000000000098033002.txt", 383); ("B0000000000254019001.txt", 483); ("B000000000980000.txt", 0); ("B000000000980201.txt", 0);
   ("B000000000980600.txt", 0); ("B000000000980601.txt", 0); ("B000000000981101.txt", 0); ("B000000000981200.txt", 0);
   ("B000000000981201.txt", 0); ("B000000000981301.txt", 79)]%string%nat.
Definition scheck (p : string * list text) : bool :=
  named (fst p) crex_too ||
  match listed_in (fst p) short_lines with
  | Some k => stops true k (snd p) && match nth_error (snd p) k with Some l => match crex_line (line_of l) with Err EParse => true | _ => false end | None => false end
  | None => false
  end.

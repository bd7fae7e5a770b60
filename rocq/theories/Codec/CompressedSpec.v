(** Compressed data sections, as the BUFR standard describes them (WMO Manual on Codes,
    regulation 94.6.3): all the subsets follow the template together, and each element
    is a column with a base value, a six bit width, and one difference per subset.

    wreport only decodes compressed data, so the sender here is not part of it: it is a
    reference compressor, which may choose bases and widths as it likes. *)
From Verif Require Import Base Bits.Model Bits.Spec Num.Float Varcode.Model Varinfo.Model
  Tables.Model Var.Model Interp.Model Codec.Model Codec.Spec.
Local Open Scope Z_scope.

(** What the sender chooses for a column: the base (as a number or as characters) and the
    width of the differences (in bits for numbers, in characters for texts), and the same
    for the column of associated fields, if there is one. *)
Record choice : Type := mkchoice {
  ch_base : Z; ch_text : list Z; ch_width : nat; af_base : Z; af_width : nat }.

Definition value_eq_dec (a b : value) : {a = b} + {a <> b}.
Proof. decide equality; first [apply Z.eq_dec | apply list_eq_dec; apply Z.eq_dec]. Defined.
Definition ovalue_eq_dec (a b : option value) : {a = b} + {a <> b}.
Proof. decide equality. apply value_eq_dec. Defined.

Definition all_same {A} (dec : forall a b : A, {a = b} + {a <> b}) (l : list A) : bool :=
  match l with
  | [] => true
  | a :: rest => forallb (fun b => if dec a b then true else false) rest
  end.

(** ** Columns *)

(** The number that is transmitted for a value: None for a missing one. *)
Definition raw_of (i : varinfo) (v : option value) : option Z :=
  match v with
  | Some (VInt k) => Some (k - vi_bit_ref i)
  | _ => None
  end.

Definition ones_of (n : nat) : Z := 2 ^ Z.of_nat n - 1.

(** No differences: the base is the value of all the subsets, all ones for missing.
    Otherwise, a difference of all ones is a missing value. *)
Definition number_column (i : varinfo) (ch : choice) (vals : list (option value)) : res (list bool) :=
  let raws := map (raw_of i) vals in
  let ones := ones_of (bit_len_nat i) in
  let w := ch_width ch in
  let head := bits_of (bit_len_nat i) (ch_base ch) ++ bits_of 6 (Z.of_nat w) in
  if Nat.eqb w 0 then
    _ <- guard (forallb (fun r => match r with
                                  | None => ch_base ch =? ones
                                  | Some x => (x =? ch_base ch) && (0 <=? x) && (x <? ones)
                                  end) raws) ;;
    Ok head
  else
    _ <- guard (Nat.leb w 32 && (0 <=? ch_base ch) && (ch_base ch <? ones) &&
                forallb (fun r => match r with
                                  | None => true
                                  | Some x => (ch_base ch <=? x) && (x - ch_base ch <? ones_of w) && (x <? ones)
                                  end) raws) ;;
    Ok (head ++ flat_map (fun r => bits_of w (match r with None => ones_of w | Some x => x - ch_base ch end)) raws).

(** The characters of a text, in a field of [k] characters. *)
Definition text_field (k : nat) (v : option value) : list Z :=
  match v with
  | Some (VStr s) => pad_field k s
  | _ => repeat 255 k
  end.

(** A text that a narrower field can carry. *)
Definition text_fits_in (k : nat) (v : option value) : bool :=
  match v with
  | Some (VStr s) => Nat.leb (length s) k && negb (Nat.eqb (length s) k && forallb (Z.eqb 255) s)
  | _ => true
  end.

(** No differences: the base is the text of all the subsets.  Otherwise the texts are
    sent as they are, in fields of the given width, and the base is not used. *)
Definition text_column (i : varinfo) (ch : choice) (vals : list (option value)) : res (list bool) :=
  let k := (bit_len_nat i / 8)%nat in
  let w := ch_width ch in
  if Nat.eqb w 0 then
    _ <- guard (all_same ovalue_eq_dec vals) ;;
    Ok (bits_of_bytes (text_field k (hd None vals)) ++ bits_of 6 0)
  else
    _ <- guard (Nat.leb w 63 && Nat.leb w k && Nat.eqb (length (ch_text ch)) k &&
                forallb (fun b => (0 <=? b) && (b <? 256)) (ch_text ch) && forallb (text_fits_in w) vals) ;;
    Ok (bits_of_bytes (ch_text ch) ++ bits_of 6 (Z.of_nat w) ++ flat_map (fun v => bits_of_bytes (text_field w v)) vals).

Definition column (i : varinfo) (ch : choice) (vals : list (option value)) : res (list bool) :=
  match vi_type i with
  | TString => text_column i ch vals
  | TBinary => Err EUnimpl
  | TInteger | TDecimal => number_column i ch vals
  end.

(** A number that must be the same for all the subsets, such as a replication factor. *)
Definition uniform_column (i : varinfo) (v : option value) : res (list bool) :=
  let ones := ones_of (bit_len_nat i) in
  let raw := match raw_of i v with None => ones | Some x => x end in
  _ <- guard (is_numeric (vi_type i) && match v with None => true | Some _ => (0 <=? raw) && (raw <? ones) end) ;;
  Ok (bits_of (bit_len_nat i) raw ++ bits_of 6 0).

(** The number that is transmitted for the associated field of a variable. *)
Definition af_raw (bits sig : Z) (v : var) : Z :=
  match af_code sig with
  | Ok (Some code) =>
    match var_enqa v code with
    | Some a => match c_val a with Some (VInt k) => k | _ => 2 ^ bits - 1 end
    | None => 2 ^ bits - 1
    end
  | _ => 2 ^ bits - 1
  end.

(** Associated fields have no code for missing: the receiver gets base + difference. *)
Definition field_column (bits : Z) (ch : choice) (raws : list Z) : res (list bool) :=
  let head := bits_of (Z.to_nat bits) (af_base ch) ++ bits_of 6 (Z.of_nat (af_width ch)) in
  if af_base ch =? 2 ^ bits - 1 then _ <- guard (Nat.eqb (af_width ch) 0 && forallb (Z.eqb (2 ^ bits - 1)) raws) ;; Ok head
  else
    _ <- guard (Nat.leb (af_width ch) 32 && (0 <=? af_base ch) && (af_base ch <? 2 ^ bits) &&
                forallb (fun x => (af_base ch <=? x) && (x - af_base ch <? 2 ^ Z.of_nat (af_width ch))) raws) ;;
    Ok (head ++ flat_map (fun x => bits_of (af_width ch) (x - af_base ch)) raws).

(** The decoder drops the attributes of a column of missing associated fields, and does
    not forget an attribute when it goes to the next subset: see
    [C23_associated_field_leak_refuted]. *)
Fixpoint no_loss (attrs : list (list cell)) : bool :=
  match attrs with
  | [] => true
  | [] :: rest => no_loss rest
  | (_ :: _) :: rest => forallb (fun a => match a with [] => false | _ => true end) rest
  end.
Definition none_given (attrs : list (list cell)) : bool :=
  forallb (fun a => match a with [] => true | _ => false end) attrs.

(** ** All the subsets together *)
Record cstate : Type := mkcs { cs_x : list xfer; cs_bits : list bool }.

Section Compressor.
Context (p : shift_policy) (T : tables) (skip_missing : bool) (subs : list (list var)).
(** The choices, by position of the column in the data section. *)
Context (plan : nat -> choice).

(** [f] for each subset. *)
Fixpoint each {A} (f : list var -> xfer -> res A) (vs : list (list var)) (xs : list xfer) : res (list A) :=
  match vs, xs with
  | vars :: vs', x :: xs' => a <- f vars x ;; rest <- each f vs' xs' ;; Ok (a :: rest)
  | _, _ => Ok []
  end.

Definition cs_choice (s : cstate) : choice := plan (length (cs_bits s)).

Definition cs_var (i : varinfo) (s : cstate) : res cstate :=
  xs <- each (fun vars => x_var p vars i) subs (cs_x s) ;;
  vals <- each (fun vars x => v <- x_take p vars i x ;; Ok (c_val (v_cell v))) subs (cs_x s) ;;
  b <- column i (cs_choice s) vals ;;
  Ok (mkcs xs (cs_bits s ++ b)).

Definition cs_var_af (bits sig : Z) (i : varinfo) (s : cstate) : res cstate :=
  _ <- guard (is_numeric (vi_type i)) ;;
  xs <- each (fun vars => x_var_af p T skip_missing vars bits sig i) subs (cs_x s) ;;
  vals <- each (fun vars x => v <- x_take p vars i x ;; Ok (c_val (v_cell v))) subs (cs_x s) ;;
  raws <- each (fun vars x => v <- x_take p vars i x ;; Ok (af_raw bits sig v)) subs (cs_x s) ;;
  attrs <- each (fun vars x => v <- x_take p vars i x ;; x_af T skip_missing bits sig v) subs (cs_x s) ;;
  f <- field_column bits (cs_choice s) raws ;;
  b <- column i (cs_choice s) vals ;;
  _ <- guard (if af_base (cs_choice s) =? 2 ^ bits - 1 then none_given attrs
              else Nat.eqb (ch_width (cs_choice s)) 0 || no_loss attrs) ;;
  Ok (mkcs xs (cs_bits s ++ f ++ b)).

(** The numbers that the template depends on. *)
Definition cs_number (f : list var -> xfer -> res (Z * xfer)) (i : varinfo) (s : cstate) : res (Z * cstate) :=
  nxs <- each f subs (cs_x s) ;;
  vals <- each (fun vars x => v <- x_take p vars i x ;; Ok (c_val (v_cell v))) subs (cs_x s) ;;
  _ <- guard (all_same Z.eq_dec (map fst nxs) && all_same ovalue_eq_dec vals) ;;
  b <- uniform_column i (hd None vals) ;;
  Ok (hd 0 (map fst nxs), mkcs (map snd nxs) (cs_bits s ++ b)).

Definition cs_factor (i : varinfo) : cstate -> res (Z * cstate) := cs_number (fun vars => x_factor p vars i) i.
Definition cs_significance (i : varinfo) : cstate -> res (Z * cstate) := cs_number (fun vars => x_significance p vars i) i.

Definition cs_bitmap_factor (i : varinfo) (s : cstate) : res (Z * cstate) :=
  nxs <- each (fun vars => x_bitmap_factor p vars i) subs (cs_x s) ;;
  _ <- guard (all_same Z.eq_dec (map fst nxs)) ;;
  b <- uniform_column i (Some (VInt (hd 0 (map fst nxs)))) ;;
  Ok (hd 0 (map fst nxs), mkcs (map snd nxs) (cs_bits s ++ b)).

Definition cs_attr (i : varinfo) (pos : nat) (s : cstate) : res cstate :=
  xs <- each (fun vars => x_attr p vars i pos) subs (cs_x s) ;;
  vals <- each (fun vars _ => v <- get_var vars pos ;;
                 Ok (match var_enqa v (vi_code i) with Some a => c_val a | None => None end)) subs (cs_x s) ;;
  b <- column i (cs_choice s) vals ;;
  Ok (mkcs xs (cs_bits s ++ b)).

(** The definition of the variable at [pos], the same for sender and receiver. *)
Definition cs_info (pos : nat) (vars : list var) (x : xfer) : res varinfo :=
  v <- get_var vars pos ;; g <- get_var (x_got x) pos ;;
  if varinfo_eq_dec (c_info (v_cell v)) (c_info (v_cell g)) then Ok (c_info (v_cell v)) else Err EConsistency.

Definition cs_subst (pos : nat) (s : cstate) : res cstate :=
  is <- each (cs_info pos) subs (cs_x s) ;;
  _ <- guard (all_same varinfo_eq_dec is) ;;
  match is with
  | [] => Err EConsistency
  | i :: _ => cs_attr i pos s
  end.

(** wreport does not decode these when they are compressed. *)
Definition cs_raw (code : Z) (s : cstate) : res cstate := Err EUnimpl.
Definition cs_refval (bits code : Z) (s : cstate) : res (Z * cstate) := Err EUnimpl.
Definition cs_unknown (code bits : Z) (s : cstate) : res (varinfo * cstate) := Err EUnimpl.

Definition cs_bitmap (pending size : Z) (s : cstate) : res (list Z * list Z * cstate) :=
  rs <- each (fun vars => x_bitmap vars pending size) subs (cs_x s) ;;
  _ <- guard (all_same (list_eq_dec Z.eq_dec) (map (fun r => fst (fst r)) rs) &&
              all_same (list_eq_dec Z.eq_dec) (map (fun r => snd (fst r)) rs)) ;;
  let chars := hd [] (map (fun r => snd (fst r)) rs) in
  Ok (hd [] (map (fun r => fst (fst r)) rs), chars,
      mkcs (map snd rs) (cs_bits s ++ flat_map (fun ch => bits_of 1 (if ch =? 43 then 0 else 1) ++ bits_of 6 0) chars)).

Definition compressor : visitor cstate :=
  mkvisitor cs_var cs_var_af cs_factor cs_bitmap_factor cs_significance cs_subst cs_attr cs_raw cs_refval
    cs_bitmap cs_unknown.

(** What the receivers of the subsets should get, and the bits of the data section. *)
Definition compress (fuel : nat) (ops : list Z) (lt : localtables) : res (list xfer * list bool) :=
  ' (_, s) <- run compressor T fuel ops (ist_init, mkcs (map (fun _ => xfer_init lt) subs) []) ;;
  _ <- guard (forallb (fun q => Nat.eqb (x_pos (snd q)) (length (fst q))) (combine subs (cs_x s))) ;;
  Ok (cs_x s, cs_bits s).

End Compressor.

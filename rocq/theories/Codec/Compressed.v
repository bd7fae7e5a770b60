(** Decoding of compressed BUFR data sections: wreport/bufr/decoder.cc
    (CompressedDecoderTarget) and wreport/bufr/input.cc.

    One run of the template fills all the subsets: each element is a column with one
    value per subset. *)
From Coq Require Import String.
From Verif Require Import Base Bits.Model Num.Float Varcode.Model Varinfo.Model Tables.Model
  Var.Model Interp.Model Codec.Model.
Local Open Scope Z_scope.

Record cdec : Type := mkcdec { k_in : input; k_subs : list (list var); k_lt : localtables }.

(** One more variable for each subset. *)
Definition push_all (subs : list (list var)) (vs : list var) : list (list var) :=
  map (fun p => fst p ++ [snd p]) (combine subs vs).

Section CDecoder.
Context (o : options) (T : tables) (skip_missing : bool).

(** Var(info, info->decode_binary(raw)). *)
Definition raw_number (i : varinfo) (raw : Z) : res cell :=
  d <- decode_binary i raw ;; of_outcome (setd o (fresh i) d).

(** decode_compressed_base: input.cc:363-385. *)
Definition comp_base (i : varinfo) (inp : input) : res (bool * Z * Z * input) :=
  ' (base, inp1) <- get_bits (bit_len_nat i) inp ;;
  ones <- all_ones (bit_len_nat i) ;;
  ' (width, inp2) <- get_bits 6 inp1 ;;
  if (base =? ones) && negb (width =? 0) then Err EConsistency
  else Ok (base =? ones, base, width, inp2).

(** decode_compressed_number(Var&, base, diffbits): input.cc:387-418.  [base] is known
    not to be missing. *)
Definition comp_diff (i : varinfo) (base width : Z) (inp : input) : res (cell * input) :=
  ' (diff, inp1) <- get_bits (Z.to_nat width) inp ;;
  ones <- all_ones (bit_len_nat i) ;;
  dones <- all_ones (Z.to_nat width) ;;
  if (base =? ones) || (diff =? dones) then Ok (fresh i, inp1)
  else
    let newval := u32 (base + diff) in
    if newval =? ones then Ok (fresh i, inp1)
    else c <- raw_number i newval ;; Ok (c, inp1).

Fixpoint comp_diffs (i : varinfo) (base width : Z) (n : nat) (inp : input) : res (list cell * input) :=
  match n with
  | O => Ok ([], inp)
  | S k =>
    ' (c, inp1) <- comp_diff i base width inp ;;
    ' (cs, inp2) <- comp_diffs i base width k inp1 ;;
    Ok (c :: cs, inp2)
  end.

(** decode_compressed_number(Varinfo, subsets, dest): input.cc:592-620 and 686-708: also
    says whether the values were read one by one. *)
Definition comp_numbers (i : varinfo) (n : nat) (inp : input) : res (list cell * bool * input) :=
  ' (missing, base, width, inp1) <- comp_base i inp ;;
  if missing : bool then Ok (repeat (fresh i) n, false, inp1)
  else if width =? 0 then c <- raw_number i base ;; Ok (repeat c n, false, inp1)
  else ' (cs, inp2) <- comp_diffs i base width n inp1 ;; Ok (cs, true, inp2).

(** The characters of one subset: input.cc:513-527 and 664-681. *)
Definition comp_text (i : varinfo) (bits : nat) (inp : input) : res (cell * input) :=
  ' (r, inp1) <- decode_string_raw bits inp ;;
  match r with
  | None => Ok (fresh i, inp1)
  | Some s => c <- of_outcome (setc o (fresh i) (s ++ [0])) ;; Ok (c, inp1)
  end.

Fixpoint comp_texts (i : varinfo) (bits : nat) (n : nat) (inp : input) : res (list cell * input) :=
  match n with
  | O => Ok ([], inp)
  | S k =>
    ' (c, inp1) <- comp_text i bits inp ;;
    ' (cs, inp2) <- comp_texts i bits k inp1 ;;
    Ok (c :: cs, inp2)
  end.

(** decode_string(Varinfo, subsets, dest): input.cc:484-537 and 642-684. *)
Definition comp_strings (i : varinfo) (n : nat) (inp : input) : res (list cell * input) :=
  ' (r, inp1) <- decode_string_raw (bit_len_nat i) inp ;;
  ' (width, inp2) <- get_bits 6 inp1 ;;
  if width =? 0 then
    match r with
    | None => Ok (repeat (fresh i) n, inp2)
    | Some s => c <- of_outcome (setc o (fresh i) (s ++ [0])) ;; Ok (repeat c n, inp2)
    end
  else if vi_bit_len i <? width * 8 then Err EUnimpl
  else comp_texts i (Z.to_nat (width * 8)) n inp2.

(** decode_b_value: decoder.cc:433-447; decode_and_add_b_value: 480-495. *)
Definition comp_values (i : varinfo) (n : nat) (inp : input) : res (list cell * input) :=
  match vi_type i with
  | TString => comp_strings i n inp
  | TBinary => Err EUnimpl
  | TInteger | TDecimal => ' (cs, _, inp1) <- comp_numbers i n inp ;; Ok (cs, inp1)
  end.

(** decode_compressed_semantic_number: input.cc:465-482; here all ones is always a
    missing value. *)
Definition comp_semantic (i : varinfo) (inp : input) : res (cell * input) :=
  ' (base, inp1) <- get_bits (bit_len_nat i) inp ;;
  ones <- all_ones (bit_len_nat i) ;;
  ' (width, inp2) <- get_bits 6 inp1 ;;
  if negb (width =? 0) then Err EConsistency
  else if base =? ones then Ok (fresh i, inp2)
  else c <- raw_number i base ;; Ok (c, inp2).

(** All the texts must be the same: input.cc:571-589. *)
Fixpoint comp_same_texts (i : varinfo) (bits : nat) (first : cell) (n : nat) (inp : input) : res input :=
  match n with
  | O => Ok inp
  | S k =>
    ' (c, inp1) <- comp_text i bits inp ;;
    e <- var_equals (mkvar first []) (mkvar c []) ;;
    if e : bool then comp_same_texts i bits first k inp1 else Err EConsistency
  end.

(** decode_string(Var&, subsets): input.cc:539-590; one text is read even when there
    are no subsets. *)
Definition comp_same_string (i : varinfo) (n : nat) (inp : input) : res (cell * input) :=
  ' (r, inp1) <- decode_string_raw (bit_len_nat i) inp ;;
  ' (width, inp2) <- get_bits 6 inp1 ;;
  if width =? 0 then
    match r with
    | None => Ok (fresh i, inp2)
    | Some s => c <- of_outcome (setc o (fresh i) (s ++ [0])) ;; Ok (c, inp2)
    end
  else if vi_bit_len i <? width * 8 then Err EUnimpl
  else
    ' (c, inp3) <- comp_text i (Z.to_nat (width * 8)) inp2 ;;
    inp4 <- comp_same_texts i (Z.to_nat (width * 8)) c (n - 1) inp3 ;;
    Ok (c, inp4).

(** decode_uniform_b_value: decoder.cc:416-431. *)
Definition comp_uniform (i : varinfo) (n : nat) (inp : input) : res (cell * input) :=
  match vi_type i with
  | TString => comp_same_string i n inp
  | TBinary => Err EUnimpl
  | TInteger | TDecimal => comp_semantic i inp
  end.

Definition ksize (s : cdec) : nat := length (k_subs s).

Definition k_push (cs : list cell) (inp : input) (s : cdec) : cdec :=
  mkcdec inp (push_all (k_subs s) (map (fun c => mkvar c []) cs)) (k_lt s).

Definition k_var (i : varinfo) (s : cdec) : res cdec :=
  ' (cs, inp) <- comp_values i (ksize s) (k_in s) ;; Ok (k_push cs inp s).

(** The associated fields of a column: input.cc:449-457. *)
Fixpoint comp_fields (bits : nat) (sig base width : Z) (n : nat) (inp : input) : res (list (option cell) * input) :=
  match n with
  | O => Ok ([], inp)
  | S k =>
    ' (diff, inp1) <- get_bits (Z.to_nat width) inp ;;
    a <- make_attribute o (tb_b T) skip_missing bits sig (u32 (base + diff)) ;;
    ' (as_, inp2) <- comp_fields bits sig base width k inp1 ;;
    Ok (a :: as_, inp2)
  end.

(** The attributes that end up on each subset: input.cc:459-463.  When the values are
    read one by one, the same Var is used for all of them and keeps the attributes of
    the previous subsets. *)
Fixpoint give_fields (kept : bool) (attrs : list cell) (afs : list (option cell)) : list (list cell) :=
  match afs with
  | [] => []
  | a :: rest =>
    let attrs' := match a with Some c => seta c attrs | None => attrs end in
    attrs' :: give_fields kept (if kept then attrs' else []) rest
  end.

(** decode_compressed_number_af: input.cc:420-463. *)
Definition comp_numbers_af (bits sig : Z) (i : varinfo) (n : nat) (inp : input) : res (list var * input) :=
  ' (af_base, inp1) <- get_bits (Z.to_nat bits) inp ;;
  ' (af_width, inp2) <- get_bits 6 inp1 ;;
  ones <- all_ones (Z.to_nat bits) ;;
  if af_base =? ones then
    ' (cs, _, inp3) <- comp_numbers i n inp2 ;;
    Ok (map (fun c => mkvar c []) cs, inp3)
  else
    ' (afs, inp3) <- comp_fields (Z.to_nat bits) sig af_base af_width n inp2 ;;
    ' (cs, kept, inp4) <- comp_numbers i n inp3 ;;
    Ok (map (fun p => mkvar (fst p) (snd p)) (combine cs (give_fields kept [] afs)), inp4).

(** decode_and_add_b_value_with_associated_field: decoder.cc:497-515; the associated
    field of a string is not read. *)
Definition k_var_af (bits sig : Z) (i : varinfo) (s : cdec) : res cdec :=
  match vi_type i with
  | TString => k_var i s
  | TBinary => Err EUnimpl
  | TInteger | TDecimal =>
    ' (vs, inp) <- comp_numbers_af bits sig i (ksize s) (k_in s) ;;
    Ok (mkcdec inp (push_all (k_subs s) vs) (k_lt s))
  end.

(** decode_and_add_to_all and the replication factors: decoder.cc:449-455, 563-581. *)
Definition k_factor (i : varinfo) (s : cdec) : res (Z * cdec) :=
  ' (c, inp) <- comp_uniform i (ksize s) (k_in s) ;;
  n <- enqi c ;; Ok (u32 n, k_push (repeat c (ksize s)) inp s).
Definition k_significance (i : varinfo) (s : cdec) : res (Z * cdec) :=
  ' (c, inp) <- comp_uniform i (ksize s) (k_in s) ;;
  n <- (if isset c then enqi c else Ok 63) ;; Ok (u32 n, k_push (repeat c (ksize s)) inp s).
Definition k_bitmap_factor (i : varinfo) (s : cdec) : res (Z * cdec) :=
  ' (c, inp) <- comp_uniform i (ksize s) (k_in s) ;;
  n <- enqi c ;; Ok (u32 n, mkcdec inp (k_subs s) (k_lt s)).

(** An attribute for the variable at [pos] of each subset. *)
Definition attach (pos : nat) (vars : list var) (c : cell) : res (list var) :=
  if negb (isset c) then Ok vars
  else match nth_error vars pos with
       | None => UB
       | Some v => Ok (update vars pos (mkvar (v_cell v) (seta c (v_attrs v))))
       end.
Fixpoint attach_all (pos : nat) (subs : list (list var)) (cs : list cell) : res (list (list var)) :=
  match subs, cs with
  | vars :: subs', c :: cs' =>
    vars' <- attach pos vars c ;; rest <- attach_all pos subs' cs' ;; Ok (vars' :: rest)
  | _, _ => Ok []
  end.

(** decode_and_set_attribute: decoder.cc:470-478. *)
Definition k_attr (i : varinfo) (pos : nat) (s : cdec) : res cdec :=
  ' (cs, inp) <- comp_values i (ksize s) (k_in s) ;;
  subs <- attach_all pos (k_subs s) cs ;;
  Ok (mkcdec inp subs (k_lt s)).

(** define_substituted_value and lookup_info: decoder.cc:411-414, 611-615. *)
Definition k_subst (pos : nat) (s : cdec) : res cdec :=
  match k_subs s with
  | [] => Err ENotFound
  | vars :: _ =>
    match nth_error vars pos with
    | None => UB
    | Some v => k_attr (c_info (v_cell v)) pos s
    end
  end.

(** define_raw_character_data: decoder.cc:517-521, 627-632. *)
Definition k_raw (code : Z) (s : cdec) : res cdec :=
  _ <- get_chardata (k_lt s) code (var_y code) ;; Err EUnimpl.

(** decode_c03_refval_override: decoder.cc:523-528. *)
Definition k_refval (bits code : Z) (s : cdec) : res (Z * cdec) := Err EUnimpl.

(** decode_compressed_bitmap: input.cc:732-751. *)
Fixpoint comp_bitmap (n : nat) (inp : input) : res (list Z * input) :=
  match n with
  | O => Ok ([], inp)
  | S k =>
    ' (b, inp1) <- get_bits 1 inp ;;
    ' (w, inp2) <- get_bits 6 inp1 ;;
    if negb (w =? 0) then Err EParse
    else ' (bs, inp3) <- comp_bitmap k inp2 ;; Ok ((if b =? 0 then 43 else 45) :: bs, inp3)
  end.

(** decode_and_add_bitmap, define_bitmap: decoder.cc:457-468, 590-604. *)
Definition k_bitmap (pending size : Z) (s : cdec) : res (list Z * list Z * cdec) :=
  ' (chars, inp) <- comp_bitmap (Z.to_nat size) (k_in s) ;;
  ' (i, lt) <- get_bitmap (k_lt s) pending chars ;;
  c <- of_outcome (sets o (fresh i) chars) ;;
  let subs := push_all (k_subs s) (repeat (mkvar c []) (ksize s)) in
  bits <- (if vi_len i =? 0 then Ok [] else bitmap_chars c) ;;
  match subs with
  | [] => UB
  | vars :: _ => Ok (codes_of vars, bits, mkcdec inp subs lt)
  end.

Definition k_unknown (code bits : Z) (s : cdec) : res (varinfo * cdec) :=
  ' (i, lt) <- get_unknown (k_lt s) code bits ;; Ok (i, mkcdec (k_in s) (k_subs s) lt).

Definition cdecoder : visitor cdec :=
  mkvisitor k_var k_var_af k_factor k_bitmap_factor k_significance k_subst k_attr k_raw k_refval
    k_bitmap k_unknown.

End CDecoder.

(** Decoder::decode_data when the message is compressed: decoder.cc:200-211. *)
Definition decode_compressed (o : options) (T : tables) (skip : bool) (fuel : nat) (ops : list Z) (n : nat)
  (lt : localtables) (inp : input) : res (list (list var) * localtables * input) :=
  ' (_, s) <- run (cdecoder o T skip) T fuel ops (ist_init, mkcdec inp (repeat [] n) lt) ;;
  Ok (k_subs s, k_lt s, k_in s).

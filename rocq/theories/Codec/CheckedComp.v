(** The decoder of compressed data with three more checks: reads past the end of the data, bitmaps that cannot be used or mark
    nothing, and differences of more than 32 bits throw.  Everything else is as in Codec/Compressed.v, where the definitions have
    comments. *)
From Coq Require Import String.
From Verif Require Import Base Bits.Model Num.Float Varcode.Model Varinfo.Model Tables.Model
  Var.Model Interp.Model Codec.Model Codec.Compressed Codec.Checked.
Local Open Scope Z_scope.

Section CDecoder.
Context (o : options) (T : tables) (skip_missing : bool).

Definition kk_base (i : varinfo) (inp : input) : res (bool * Z * Z * input) :=
  ' (base, inp1) <- take_bits (bit_len_nat i) inp ;;
  ones <- all_ones (bit_len_nat i) ;;
  ' (width, inp2) <- take_bits 6 inp1 ;;
  if (base =? ones) && negb (width =? 0) then Err EConsistency
  else Ok (base =? ones, base, width, inp2).

Definition kk_diff (i : varinfo) (base width : Z) (inp : input) : res (cell * input) :=
  if 32 <? width then Err EAlloc
  else
  ' (diff, inp1) <- take_bits (Z.to_nat width) inp ;;
  ones <- all_ones (bit_len_nat i) ;;
  dones <- all_ones (Z.to_nat width) ;;
  if (base =? ones) || (diff =? dones) then Ok (fresh i, inp1)
  else
    let newval := u32 (base + diff) in
    if newval =? ones then Ok (fresh i, inp1)
    else c <- raw_number o i newval ;; Ok (c, inp1).

Fixpoint kk_diffs (i : varinfo) (base width : Z) (n : nat) (inp : input) : res (list cell * input) :=
  match n with
  | O => Ok ([], inp)
  | S k =>
    ' (c, inp1) <- kk_diff i base width inp ;;
    ' (cs, inp2) <- kk_diffs i base width k inp1 ;;
    Ok (c :: cs, inp2)
  end.

Definition kk_numbers (i : varinfo) (n : nat) (inp : input) : res (list cell * bool * input) :=
  ' (missing, base, width, inp1) <- kk_base i inp ;;
  if missing : bool then Ok (repeat (fresh i) n, false, inp1)
  else if width =? 0 then c <- raw_number o i base ;; Ok (repeat c n, false, inp1)
  else ' (cs, inp2) <- kk_diffs i base width n inp1 ;; Ok (cs, true, inp2).

Definition kk_text (i : varinfo) (bits : nat) (inp : input) : res (cell * input) :=
  ' (r, inp1) <- ck_decode_string_raw bits inp ;;
  match r with
  | None => Ok (fresh i, inp1)
  | Some s => c <- of_outcome (setc o (fresh i) (s ++ [0])) ;; Ok (c, inp1)
  end.

Fixpoint kk_texts (i : varinfo) (bits : nat) (n : nat) (inp : input) : res (list cell * input) :=
  match n with
  | O => Ok ([], inp)
  | S k =>
    ' (c, inp1) <- kk_text i bits inp ;;
    ' (cs, inp2) <- kk_texts i bits k inp1 ;;
    Ok (c :: cs, inp2)
  end.

Definition kk_strings (i : varinfo) (n : nat) (inp : input) : res (list cell * input) :=
  ' (r, inp1) <- ck_decode_string_raw (bit_len_nat i) inp ;;
  ' (width, inp2) <- take_bits 6 inp1 ;;
  if width =? 0 then
    match r with
    | None => Ok (repeat (fresh i) n, inp2)
    | Some s => c <- of_outcome (setc o (fresh i) (s ++ [0])) ;; Ok (repeat c n, inp2)
    end
  else if vi_bit_len i <? width * 8 then Err EUnimpl
  else kk_texts i (Z.to_nat (width * 8)) n inp2.

Definition kk_values (i : varinfo) (n : nat) (inp : input) : res (list cell * input) :=
  match vi_type i with
  | TString => kk_strings i n inp
  | TBinary => Err EUnimpl
  | TInteger | TDecimal => ' (cs, _, inp1) <- kk_numbers i n inp ;; Ok (cs, inp1)
  end.

Definition kk_semantic (i : varinfo) (inp : input) : res (cell * input) :=
  ' (base, inp1) <- take_bits (bit_len_nat i) inp ;;
  ones <- all_ones (bit_len_nat i) ;;
  ' (width, inp2) <- take_bits 6 inp1 ;;
  if negb (width =? 0) then Err EConsistency
  else if base =? ones then Ok (fresh i, inp2)
  else c <- raw_number o i base ;; Ok (c, inp2).

Fixpoint kk_same_texts (i : varinfo) (bits : nat) (first : cell) (n : nat) (inp : input) : res input :=
  match n with
  | O => Ok inp
  | S k =>
    ' (c, inp1) <- kk_text i bits inp ;;
    e <- var_equals (mkvar first []) (mkvar c []) ;;
    if e : bool then kk_same_texts i bits first k inp1 else Err EConsistency
  end.

Definition kk_same_string (i : varinfo) (n : nat) (inp : input) : res (cell * input) :=
  ' (r, inp1) <- ck_decode_string_raw (bit_len_nat i) inp ;;
  ' (width, inp2) <- take_bits 6 inp1 ;;
  if width =? 0 then
    match r with
    | None => Ok (fresh i, inp2)
    | Some s => c <- of_outcome (setc o (fresh i) (s ++ [0])) ;; Ok (c, inp2)
    end
  else if vi_bit_len i <? width * 8 then Err EUnimpl
  else
    ' (c, inp3) <- kk_text i (Z.to_nat (width * 8)) inp2 ;;
    inp4 <- kk_same_texts i (Z.to_nat (width * 8)) c (n - 1) inp3 ;;
    Ok (c, inp4).

Definition kk_uniform (i : varinfo) (n : nat) (inp : input) : res (cell * input) :=
  match vi_type i with
  | TString => kk_same_string i n inp
  | TBinary => Err EUnimpl
  | TInteger | TDecimal => kk_semantic i inp
  end.

Definition kk_var (i : varinfo) (s : cdec) : res cdec :=
  ' (cs, inp) <- kk_values i (ksize s) (k_in s) ;; Ok (k_push cs inp s).

Fixpoint kk_fields (bits : nat) (sig base width : Z) (n : nat) (inp : input) : res (list (option cell) * input) :=
  match n with
  | O => Ok ([], inp)
  | S k =>
    ' (diff, inp1) <- take_bits (Z.to_nat width) inp ;;
    a <- make_attribute o (tb_b T) skip_missing bits sig (u32 (base + diff)) ;;
    ' (as_, inp2) <- kk_fields bits sig base width k inp1 ;;
    Ok (a :: as_, inp2)
  end.

Definition kk_numbers_af (bits sig : Z) (i : varinfo) (n : nat) (inp : input) : res (list var * input) :=
  ' (af_base, inp1) <- take_bits (Z.to_nat bits) inp ;;
  ' (af_width, inp2) <- take_bits 6 inp1 ;;
  ones <- all_ones (Z.to_nat bits) ;;
  if af_base =? ones then
    ' (cs, _, inp3) <- kk_numbers i n inp2 ;;
    Ok (map (fun c => mkvar c []) cs, inp3)
  else
    ' (afs, inp3) <- kk_fields (Z.to_nat bits) sig af_base af_width n inp2 ;;
    ' (cs, kept, inp4) <- kk_numbers i n inp3 ;;
    Ok (map (fun p => mkvar (fst p) (snd p)) (combine cs (give_fields kept [] afs)), inp4).

Definition kk_var_af (bits sig : Z) (i : varinfo) (s : cdec) : res cdec :=
  match vi_type i with
  | TString => kk_var i s
  | TBinary => Err EUnimpl
  | TInteger | TDecimal =>
    ' (vs, inp) <- kk_numbers_af bits sig i (ksize s) (k_in s) ;;
    Ok (mkcdec inp (push_all (k_subs s) vs) (k_lt s))
  end.

Definition kk_factor (i : varinfo) (s : cdec) : res (Z * cdec) :=
  ' (c, inp) <- kk_uniform i (ksize s) (k_in s) ;;
  n <- enqi c ;; Ok (u32 n, k_push (repeat c (ksize s)) inp s).
Definition kk_significance (i : varinfo) (s : cdec) : res (Z * cdec) :=
  ' (c, inp) <- kk_uniform i (ksize s) (k_in s) ;;
  n <- (if isset c then enqi c else Ok 63) ;; Ok (u32 n, k_push (repeat c (ksize s)) inp s).
Definition kk_bitmap_factor (i : varinfo) (s : cdec) : res (Z * cdec) :=
  ' (c, inp) <- kk_uniform i (ksize s) (k_in s) ;;
  n <- enqi c ;; Ok (u32 n, mkcdec inp (k_subs s) (k_lt s)).

Definition kk_attr (i : varinfo) (pos : nat) (s : cdec) : res cdec :=
  ' (cs, inp) <- kk_values i (ksize s) (k_in s) ;;
  subs <- attach_all pos (k_subs s) cs ;;
  Ok (mkcdec inp subs (k_lt s)).

Definition kk_subst (pos : nat) (s : cdec) : res cdec :=
  match k_subs s with
  | [] => Err ENotFound
  | vars :: _ =>
    match nth_error vars pos with
    | None => UB
    | Some v => kk_attr (c_info (v_cell v)) pos s
    end
  end.

Fixpoint kk_read_bitmap (n : nat) (inp : input) : res (list Z * input) :=
  match n with
  | O => Ok ([], inp)
  | S k =>
    ' (b, inp1) <- take_bits 1 inp ;;
    ' (w, inp2) <- take_bits 6 inp1 ;;
    if negb (w =? 0) then Err EParse
    else ' (bs, inp3) <- kk_read_bitmap k inp2 ;; Ok ((if b =? 0 then 43 else 45) :: bs, inp3)
  end.

Definition kk_bitmap (pending size : Z) (s : cdec) : res (list Z * list Z * cdec) :=
  ' (chars, inp) <- kk_read_bitmap (Z.to_nat size) (k_in s) ;;
  ' (i, lt) <- get_bitmap (k_lt s) pending chars ;;
  c <- of_outcome (sets o (fresh i) chars) ;;
  let subs := push_all (k_subs s) (repeat (mkvar c []) (ksize s)) in
  bits <- (if vi_len i =? 0 then Ok [] else bitmap_chars c) ;;
  match subs with
  | [] => UB
  | vars :: _ =>
    if usable_bitmap (codes_of vars) bits then Ok (codes_of vars, bits, mkcdec inp subs lt) else Err EAlloc
  end.

Definition kk_decoder : visitor cdec :=
  mkvisitor kk_var kk_var_af kk_factor kk_bitmap_factor kk_significance kk_subst kk_attr k_raw k_refval
    kk_bitmap k_unknown.

End CDecoder.

Definition kk_subsets (o : options) (T : tables) (skip : bool) (fuel : nat) (ops : list Z) (n : nat)
  (lt : localtables) (inp : input) : res (list (list var) * localtables * input) :=
  ' (_, s) <- run (kk_decoder o T skip) T fuel ops (ist_init, mkcdec inp (repeat [] n) lt) ;;
  Ok (k_subs s, k_lt s, k_in s).

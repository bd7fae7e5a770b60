(** Encoding and decoding of the data section of uncompressed BUFR messages:
    wreport/bulletin/internals.cc, wreport/bulletin/associated_fields.cc,
    wreport/bufr_encoder.cc (DDSEncoder) and wreport/bufr/decoder.cc
    (UncompressedDecoderTarget, DataSectionDecoder). *)
From Coq Require Import String.
From Verif Require Import Base Bits.Model Num.Float Varcode.Model Varinfo.Model Tables.Model
  Var.Model Interp.Model.
Local Open Scope Z_scope.

(** A setter used where the variable is dropped when an exception is thrown. *)
Definition of_outcome {A} (r : outcome A) : res A :=
  match r with Done a => Ok a | Thrown e _ => Err e | Undef => UB end.

Definition bit_len_nat (i : varinfo) : nat := Z.to_nat (vi_bit_len i).

(** ** Associated fields: associated_fields.cc *)

(** The attribute that each significance stands for, if any: the codes in
    make_attribute (24-114) and get_attribute (116-163). *)
Definition af_code (sig : Z) : res (option Z) :=
  if (sig =? 1) || (sig =? 8) then Ok (Some (wr_var 0 33 2))
  else if sig =? 2 then Ok (Some (wr_var 0 33 3))
  else if sig =? 6 then Ok (Some (wr_var 0 33 50))
  else if sig =? 7 then Ok (Some (wr_var 0 33 40))
  else if sig =? 21 then Ok (Some (wr_var 0 33 41))
  else if (3 <=? sig) && (sig <=? 63) then Ok None
  else Err EUnimpl.

(** make_attribute: associated_fields.cc:24-114. *)
Definition make_attribute (o : options) (t : btable) (skip_missing : bool) (bits : nat) (sig value : Z)
  : res (option cell) :=
  ones <- all_ones bits ;;
  let missing := value =? ones in
  oc <- af_code sig ;;
  match oc with
  | None => Ok None
  | Some code =>
    if sig =? 21 then
      if negb skip_missing || negb missing then
        i <- query t code ;; c <- of_outcome (seti o (fresh i) 0) ;; Ok (Some c)
      else Ok None
    else if missing then
      if ((sig =? 6) || (sig =? 8)) && skip_missing then Ok None
      else i <- query t code ;; Ok (Some (fresh i))
    else
      i <- query t code ;; c <- of_outcome (seti o (fresh i) (wrap_int value)) ;; Ok (Some c)
  end.

(** get_attribute: associated_fields.cc:116-163. *)
Definition get_attribute (sig : Z) (v : var) : res (option cell) :=
  oc <- af_code sig ;;
  Ok (match oc with None => None | Some code => var_enqa v code end).

(** ** Encoder *)

(** append_string on the memory returned by enqc (see [append_string]): the
    characters are read up to a NUL. *)
Definition append_chars (p : shift_policy) (buf : list Z) (n : nat) (o : bufout) : res bufout :=
  if negb (existsb (Z.eqb 0) buf) && Nat.ltb (length buf) (n / 8) then UB
  else append_string p buf n o.

(** BufrOutput::append_var: buffers/bufr.cc:119-140. *)
Definition append_var (p : shift_policy) (i : varinfo) (c : cell) (o : bufout) : res bufout :=
  if negb (isset c) then append_missing p (bit_len_nat i) o
  else
    match vi_type i with
    | TString => buf <- enqc c ;; append_chars p buf (bit_len_nat i) o
    | TBinary => buf <- enqc c ;; append_binary p buf (bit_len_nat i) o
    | TInteger | TDecimal =>
      d <- enqd c ;; n <- encode_binary i d ;; add_bits p n (bit_len_nat i) o
    end.

(** UncompressedEncoder: internals.h; current_subset is a parameter. *)
Record enc : Type := mkenc { e_pos : nat; e_out : bufout; e_lt : localtables }.

(** get_var(pos): internals.cc:43-49. *)
Definition get_var (vars : list var) (pos : nat) : res var :=
  match nth_error vars pos with Some v => Ok v | None => Err EConsistency end.

Definition codes_of (vars : list var) : list Z := map (fun v => c_code (v_cell v)) vars.

(** The characters [0, len) of a bitmap variable, read through enqc: what is after the
    terminator is not modelled. *)
Definition bitmap_chars (c : cell) : res (list Z) :=
  buf <- enqc c ;;
  if Nat.ltb (length buf) (ilen (c_info c)) then UB else Ok (firstn (ilen (c_info c)) buf).

(** Number of significant bits: 32 - __builtin_clz(v); clz(0) is undefined. *)
Definition bit_width (v : Z) : res Z := if v =? 0 then UB else Ok (Z.log2 v + 1).

Section Encoder.
Context (p : shift_policy) (o : options) (T : tables) (vars : list var).

(** get_var(): internals.cc:38-41. *)
Definition e_next (s : enc) : res (var * enc) :=
  v <- get_var vars (e_pos s) ;; Ok (v, mkenc (S (e_pos s)) (e_out s) (e_lt s)).

Definition e_put (s : enc) (r : res bufout) : res enc :=
  out <- r ;; Ok (mkenc (e_pos s) out (e_lt s)).

(** define_variable: internals.cc:70-73. *)
Definition e_var (i : varinfo) (s : enc) : res enc :=
  ' (v, s1) <- e_next s ;; e_put s1 (append_var p i (v_cell v) (e_out s1)).

(** encode_associated_field: bufr_encoder.cc:55-62. *)
Definition e_af (bits sig : Z) (v : var) (s : enc) : res enc :=
  a <- get_attribute sig v ;;
  match a with
  | Some c =>
    if isset c then n <- enqi c ;; e_put s (add_bits p n (Z.to_nat bits) (e_out s))
    else e_put s (append_missing p (Z.to_nat bits) (e_out s))
  | None => e_put s (append_missing p (Z.to_nat bits) (e_out s))
  end.

(** define_variable_with_associated_field: internals.cc:75-80. *)
Definition e_var_af (bits sig : Z) (i : varinfo) (s : enc) : res enc :=
  ' (v, s1) <- e_next s ;;
  s2 <- e_af bits sig v s1 ;;
  e_put s2 (append_var p i (v_cell v) (e_out s2)).

(** define_delayed_replication_factor: internals.cc:82-87. *)
Definition e_factor (i : varinfo) (s : enc) : res (Z * enc) :=
  ' (v, s1) <- e_next s ;;
  s2 <- e_put s1 (append_var p i (v_cell v) (e_out s1)) ;;
  n <- enqi (v_cell v) ;; Ok (u32 n, s2).

(** define_associated_field_significance: internals.cc:89-94. *)
Definition e_significance (i : varinfo) (s : enc) : res (Z * enc) :=
  ' (v, s1) <- e_next s ;;
  s2 <- e_put s1 (append_var p i (v_cell v) (e_out s1)) ;;
  n <- (if isset (v_cell v) then enqi (v_cell v) else Ok 63) ;; Ok (u32 n, s2).

(** define_bitmap_delayed_replication_factor: internals.cc:96-102. *)
Definition e_bitmap_factor (i : varinfo) (s : enc) : res (Z * enc) :=
  v <- get_var vars (e_pos s) ;;
  let len := vi_len (c_info (v_cell v)) in
  c <- of_outcome (seti o (fresh i) (wrap_int len)) ;;
  s1 <- e_put s (append_var p i c (e_out s)) ;;
  Ok (len, s1).

(** encode_attr: bufr_encoder.cc:46-53. *)
Definition e_attr_code (i : varinfo) (pos : nat) (code : Z) (s : enc) : res enc :=
  v <- get_var vars pos ;;
  match var_enqa v code with
  | Some a => e_put s (append_var p i a (e_out s))
  | None => e_put s (append_missing p (bit_len_nat i) (e_out s))
  end.

(** define_attribute: bufr_encoder.cc:41-44. *)
Definition e_attr (i : varinfo) (pos : nat) (s : enc) : res enc := e_attr_code i pos (vi_code i) s.

(** define_substituted_value: bufr_encoder.cc:34-39. *)
Definition e_subst (pos : nat) (s : enc) : res enc :=
  match nth_error vars pos with
  | None => UB
  | Some v => let i := c_info (v_cell v) in e_attr_code i pos (vi_code i) s
  end.

(** define_raw_character_data: bufr_encoder.cc:94-99. *)
Definition e_raw (code : Z) (s : enc) : res enc :=
  ' (v, s1) <- e_next s ;;
  buf <- (if isset (v_cell v) then enqc (v_cell v) else Ok [0]) ;;
  e_put s1 (append_chars p buf (Z.to_nat (var_y code * 8)) (e_out s1)).

(** define_c03_refval_override: bufr_encoder.cc:101-143. *)
Definition find_ref (code : Z) : res Z :=
  match List.find (fun v => c_code (v_cell v) =? code) vars with
  | Some v => Ok (vi_bit_ref (c_info (v_cell v)))
  | None => i <- query (tb_b T) code ;; Ok (vi_bit_ref i)
  end.
Definition e_refval (bits code : Z) (s : enc) : res (Z * enc) :=
  ref <- find_ref code ;;
  ' (encoded, nbits) <-
    (if ref <? 0 then
       m <- int_checked (- ref) ;;
       w <- bit_width m ;;
       sign <- shl1 p (bits - 1) ;;
       Ok (Z.lor m sign, w)
     else w <- bit_width ref ;; Ok (ref, w)) ;;
  if bits <? nbits + 1 then Err EConsistency
  else
    s1 <- e_put s (add_bits p encoded (Z.to_nat bits) (e_out s)) ;;
    Ok (ref, s1).

(** The loop that writes the bitmap: bufr_encoder.cc:88-89. *)
Fixpoint put_bitmap (chars : list Z) (out : bufout) : res bufout :=
  match chars with
  | [] => Ok out
  | ch :: rest => out1 <- add_bits p (if ch =? 43 then 0 else 1) 1 out ;; put_bitmap rest out1
  end.

(** define_bitmap: bufr_encoder.cc:69-92. *)
Definition e_bitmap (pending size : Z) (s : enc) : res (list Z * list Z * enc) :=
  ' (v, s1) <- e_next s ;;
  if negb (var_f (c_code (v_cell v)) =? 2) then Err EConsistency
  else if negb (vi_len (c_info (v_cell v)) =? size) then Err EConsistency
  else
    chars <- (if size =? 0 then Ok [] else bitmap_chars (v_cell v)) ;;
    s2 <- e_put s1 (put_bitmap chars (e_out s1)) ;;
    Ok (codes_of (firstn (e_pos s1) vars), chars, s2).

(** Tables::get_unknown on the tables of the bulletin. *)
Definition e_unknown (code bits : Z) (s : enc) : res (varinfo * enc) :=
  ' (i, lt) <- get_unknown (e_lt s) code bits ;; Ok (i, mkenc (e_pos s) (e_out s) lt).

Definition encoder : visitor enc :=
  mkvisitor e_var e_var_af e_factor e_bitmap_factor e_significance e_subst e_attr e_raw e_refval
    e_bitmap e_unknown.

End Encoder.

(** ** Decoder *)

Record dec : Type := mkdec { d_in : input; d_vars : list var; d_lt : localtables }.

(** Delayed replication factors have no missing value: input.cc:335-349. *)
Definition no_missing (code : Z) : bool :=
  (var_f code =? 0) && (var_x code =? 31) &&
  ((var_y code =? 0) || (var_y code =? 1) || (var_y code =? 2) || (var_y code =? 11) || (var_y code =? 12)).

Section Decoder.
Context (o : options) (T : tables) (skip_missing : bool).

(** Input::decode_number(Var&): input.cc:322-366. *)
Definition decode_number (i : varinfo) (inp : input) : res (cell * input) :=
  ' (v, inp1) <- get_bits (bit_len_nat i) inp ;;
  missing <- (if no_missing (vi_code i) then Ok false
              else m <- all_ones (bit_len_nat i) ;; Ok (v =? m)) ;;
  if missing : bool then Ok (fresh i, inp1)
  else d <- decode_binary i v ;; c <- of_outcome (setd o (fresh i) d) ;; Ok (c, inp1).

(** decode_uniform_b_value: decoder.cc:269-285; decode_string(Var&): input.cc:281-293;
    decode_binary: 295-320. *)
Definition decode_value (i : varinfo) (inp : input) : res (cell * input) :=
  match vi_type i with
  | TString =>
    ' (r, inp1) <- decode_string_raw (bit_len_nat i) inp ;;
    match r with
    | None => Ok (fresh i, inp1)
    | Some s => c <- of_outcome (setc o (fresh i) (s ++ [0])) ;; Ok (c, inp1)
    end
  | TBinary =>
    ' (r, inp1) <- decode_binary_raw (bit_len_nat i) inp ;;
    match r with
    | None => Ok (fresh i, inp1)
    | Some b => c <- of_outcome (setc o (fresh i) b) ;; Ok (c, inp1)
    end
  | TInteger | TDecimal => decode_number i inp
  end.

(** Subset::store_variable: subset.cc. *)
Definition d_store (c : cell) (inp : input) (s : dec) : dec :=
  mkdec inp (d_vars s ++ [mkvar c []]) (d_lt s).

(** decode_and_add_b_value: decoder.cc:322-330. *)
Definition d_var (i : varinfo) (s : dec) : res dec :=
  ' (c, inp) <- decode_value i (d_in s) ;; Ok (d_store c inp s).

(** decode_and_add_b_value_with_associated_field: decoder.cc:332-356. *)
Definition d_var_af (bits sig : Z) (i : varinfo) (s : dec) : res dec :=
  ' (v, inp1) <- get_bits (Z.to_nat bits) (d_in s) ;;
  a <- make_attribute o (tb_b T) skip_missing (Z.to_nat bits) sig v ;;
  ' (c, inp2) <- decode_value i inp1 ;;
  Ok (mkdec inp2 (d_vars s ++ [mkvar c (match a with Some x => seta x [] | None => [] end)]) (d_lt s)).

(** decode_and_add_to_all and the replication factors: decoder.cc:287-291, 563-581. *)
Definition d_factor (i : varinfo) (s : dec) : res (Z * dec) :=
  ' (c, inp) <- decode_value i (d_in s) ;;
  n <- enqi c ;; Ok (u32 n, d_store c inp s).
Definition d_significance (i : varinfo) (s : dec) : res (Z * dec) :=
  ' (c, inp) <- decode_value i (d_in s) ;;
  n <- (if isset c then enqi c else Ok 63) ;; Ok (u32 n, d_store c inp s).
Definition d_bitmap_factor (i : varinfo) (s : dec) : res (Z * dec) :=
  ' (c, inp) <- decode_value i (d_in s) ;;
  n <- enqi c ;; Ok (u32 n, mkdec inp (d_vars s) (d_lt s)).

(** decode_and_set_attribute: decoder.cc:311-320. *)
Definition d_attr (i : varinfo) (pos : nat) (s : dec) : res dec :=
  ' (c, inp) <- decode_value i (d_in s) ;;
  if negb (isset c) then Ok (mkdec inp (d_vars s) (d_lt s))
  else match nth_error (d_vars s) pos with
       | None => UB
       | Some v => Ok (mkdec inp (update (d_vars s) pos (mkvar (v_cell v) (seta c (v_attrs v)))) (d_lt s))
       end.

(** define_substituted_value: decoder.cc:611-615. *)
Definition d_subst (pos : nat) (s : dec) : res dec :=
  match nth_error (d_vars s) pos with
  | None => UB
  | Some v => d_attr (c_info (v_cell v)) pos s
  end.

(** Reading of single bytes: decoder.cc:363-368. *)
Fixpoint read_bytes (n : nat) (inp : input) : res (list Z * input) :=
  match n with
  | O => Ok ([], inp)
  | S k => ' (c, inp1) <- get_bits 8 inp ;; ' (cs, inp2) <- read_bytes k inp1 ;; Ok (c :: cs, inp2)
  end.

(** define_raw_character_data: decoder.cc:358-377, 627-632. *)
Definition d_raw (code : Z) (s : dec) : res dec :=
  ' (i, lt) <- get_chardata (d_lt s) code (var_y code) ;;
  ' (buf, inp) <- read_bytes (ilen i) (d_in s) ;;
  c <- of_outcome (sets o (fresh i) buf) ;;
  Ok (mkdec inp (d_vars s ++ [mkvar c []]) lt).

(** decode_c03_refval_override: decoder.cc:379-388.  Shift counts out of range are
    undefined; the negation is modulo 2^32. *)
Definition d_refval (bits code : Z) (s : dec) : res (Z * dec) :=
  ' (v, inp) <- get_bits (Z.to_nat bits) (d_in s) ;;
  sign <- shl1 Strict (bits - 1) ;;
  Ok (wrap_int (if Z.land v sign =? 0 then v else - (Z.land v (2 ^ 32 - 1 - sign))),
      mkdec inp (d_vars s) (d_lt s)).

(** decode_uncompressed_bitmap: input.cc:720-730. *)
Fixpoint read_bitmap (n : nat) (inp : input) : res (list Z * input) :=
  match n with
  | O => Ok ([], inp)
  | S k =>
    ' (b, inp1) <- get_bits 1 inp ;; ' (bs, inp2) <- read_bitmap k inp1 ;;
    Ok ((if b =? 0 then 43 else 45) :: bs, inp2)
  end.

(** decode_and_add_bitmap, define_bitmap: decoder.cc:293-309, 590-604. *)
Definition d_bitmap (pending size : Z) (s : dec) : res (list Z * list Z * dec) :=
  ' (chars, inp) <- read_bitmap (Z.to_nat size) (d_in s) ;;
  ' (i, lt) <- get_bitmap (d_lt s) pending chars ;;
  c <- of_outcome (sets o (fresh i) chars) ;;
  let vars := d_vars s ++ [mkvar c []] in
  bits <- (if vi_len i =? 0 then Ok [] else bitmap_chars c) ;;
  Ok (codes_of vars, bits, mkdec inp vars lt).

Definition d_unknown (code bits : Z) (s : dec) : res (varinfo * dec) :=
  ' (i, lt) <- get_unknown (d_lt s) code bits ;; Ok (i, mkdec (d_in s) (d_vars s) lt).

Definition decoder : visitor dec :=
  mkvisitor d_var d_var_af d_factor d_bitmap_factor d_significance d_subst d_attr d_raw d_refval
    d_bitmap d_unknown.

End Decoder.

(** ** Data section *)

(** The loop over the subsets in Encoder::encode_sec4: bufr_encoder.cc:322-328. *)
Fixpoint encode_subsets (p : shift_policy) (o : options) (T : tables) (fuel : nat) (ops : list Z)
  (subsets : list (list var)) (lt : localtables) (out : bufout) : res (localtables * bufout) :=
  match subsets with
  | [] => Ok (lt, out)
  | vars :: rest =>
    ' (_, s) <- run (encoder p o T vars) T fuel ops (ist_init, mkenc 0 out lt) ;;
    encode_subsets p o T fuel ops rest (e_lt s) (e_out s)
  end.

(** The loop in Decoder::decode_data: decoder.cc:212-224. *)
Fixpoint decode_subsets (o : options) (T : tables) (skip : bool) (fuel : nat) (ops : list Z) (n : nat)
  (lt : localtables) (inp : input) : res (list (list var) * localtables * input) :=
  match n with
  | O => Ok ([], lt, inp)
  | S k =>
    ' (_, s) <- run (decoder o T skip) T fuel ops (ist_init, mkdec inp [] lt) ;;
    ' (rest, lt', inp') <- decode_subsets o T skip fuel ops k (d_lt s) (d_in s) ;;
    Ok (d_vars s :: rest, lt', inp')
  end.

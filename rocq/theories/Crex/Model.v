(** CREX: wreport/buffers/crex.{h,cc}, wreport/crex_encoder.cc, wreport/crex_decoder.cc and
    CrexBulletin::read and write in wreport/bulletin.cc.

    Texts are lists of bytes.  Lengths and sizes are below 2^31. *)
From Coq Require Import String.
From Verif Require Import Base Bits.Spec Num.Float Varcode.Model Varinfo.Model Tables.Model Var.Model Interp.Model
  Codec.Model Message.Model.
Local Open Scope Z_scope.

(** ** printf conversions used by the encoder *)

Fixpoint decimal_acc (fuel : nat) (n : Z) (acc : list Z) : list Z :=
  match fuel with
  | O => acc
  | S k => if n <? 10 then 48 + n :: acc else decimal_acc k (n / 10) (48 + n mod 10 :: acc)
  end.
(** "%u": 20 digits are enough for 64 bits. *)
Definition decimal (n : Z) : list Z := decimal_acc 20 n [].

(** "%0*u" and "%0*d". *)
Definition zeros (w : nat) (s : list Z) : list Z := repeat 48 (w - length s) ++ s.
Definition fmt_0d (w : nat) (v : Z) : list Z :=
  if v <? 0 then 45 :: zeros (w - 1) (decimal (- v)) else zeros w (decimal v).

(** "%-*.*s" with the same width and precision, on the readable memory [buf]. *)
Definition fmt_s (n : nat) (buf : list Z) : res (list Z) :=
  if negb (existsb (Z.eqb 0) buf) && Nat.ltb (length buf) n then UB
  else let s := firstn n (cstr buf) in Ok (s ++ repeat 32 (n - length s)).

(** "%hhd" of a uint8_t: it is printed as a signed char. *)
Definition schar (v : Z) : Z := (v + 128) mod 256 - 128.

(** ** CrexOutput: buffers/crex.h:146-193 *)

Record cout : Type := mkcout { co_text : list Z; co_check : bool; co_expected : Z }.

(** CrexOutput::CrexOutput: crex.cc:168-170. *)
Definition cout_empty : cout := mkcout [] false 0.

(** raw_append: crex.cc:172-175. *)
Definition raw_append (s : list Z) (c : cout) : cout := mkcout (co_text c ++ s) (co_check c) (co_expected c).

(** raw_appendf, after the formatting: crex.cc:177-186.  sbuf has 256 bytes and vsnprintf
    writes at most 254 characters and a terminator, but as many bytes as the full text has
    are appended: with 255 also the terminator, beyond that bytes that were not written or
    outside of sbuf. *)
Definition raw_appendf (s : list Z) (c : cout) : res cout :=
  if Nat.ltb 255 (length s) then UB
  else Ok (raw_append (if Nat.eqb (length s) 255 then firstn 254 s ++ [0] else s) c).

(** encode_check_digit: crex.cc:188-195. *)
Definition encode_check_digit (c : cout) : cout :=
  if co_check c then
    mkcout (co_text c ++ [48 + co_expected c]) true ((co_expected c + 1) mod 10)
  else c.

(** append_missing: crex.cc:197-202. *)
Definition append_missing (i : varinfo) (c : cout) : cout := raw_append (repeat 47 (ilen i)) c.

(** append_var: crex.cc:204-234. *)
Definition append_var (i : varinfo) (v : cell) (c : cout) : res cout :=
  if negb (isset v) then Ok (append_missing i c)
  else
    let c1 := encode_check_digit (raw_append [32] c) in
    match vi_type i with
    | TString => buf <- enqc v ;; s <- fmt_s (ilen i) buf ;; raw_appendf s c1
    | TBinary => Err EUnimpl
    | TInteger | TDecimal =>
      k <- enqi v ;;
      raw_appendf (fmt_0d (if k <? 0 then S (ilen i) else ilen i) k) c1
    end.

(** ** CrexInput: buffers/crex.h:32-143 *)

(** [ci_rest] is what is left of the data; a terminator follows it.  expected_check_digit is
    not initialised until an E is found, and not used before. *)
Record cin : Type := mkcin { ci_rest : list Z; ci_check : bool; ci_expected : Z }.

Definition with_rest (c : cin) (r : list Z) : cin := mkcin r (ci_check c) (ci_expected c).
Definition ci_cur (c : cin) : Z := hd 0 (ci_rest c).

(** check_eof, check_available_data: crex.cc:61-71. *)
Definition check_eof (c : cin) : res unit := match ci_rest c with [] => Err EParse | _ => Ok tt end.
Definition check_available (n : nat) (c : cin) : res unit :=
  if Nat.ltb (length (ci_rest c)) n then Err EParse else Ok tt.

(** skip_spaces, skip_data_and_spaces: crex.cc:73-83. *)
Definition skip_spaces (c : cin) : cin := with_rest c (skip_space (ci_rest c)).
Definition skip_data_and_spaces (n : nat) (c : cin) : cin := skip_spaces (with_rest c (skipn n (ci_rest c))).

(** read_word: crex.cc:93-101; at most n - 1 characters. *)
Fixpoint word (n : nat) (s : list Z) : list Z * list Z :=
  match n, s with
  | S k, c :: s' => if c_isspace c then ([], s) else let (w, r) := word k s' in (c :: w, r)
  | _, _ => ([], s)
  end.
Definition read_word (n : nat) (c : cin) : list Z * cin :=
  let (w, r) := word (n - 1) (ci_rest c) in (w, skip_spaces (with_rest c r)).

(** The loop that removes trailing spaces: crex.cc:134-135. *)
Fixpoint trim (s : list Z) : list Z :=
  match s with
  | [] => []
  | c :: s' => match trim s' with [] => if c_isspace c then [] else [c] | r => c :: r end
  end.

(** parse_value: crex.cc:103-141.  Returns what is readable at d_start, the field from
    d_start to d_end and the new state. *)
Definition parse_value (n : nat) (is_signed : bool) (c : cin) : res (list Z * list Z * cin) :=
  _ <- check_available (n + 2) c ;;
  c1 <- (if ci_check c then
           if negb (ci_cur c - 48 =? ci_expected c) then Err EParse
           else Ok (mkcin (skipn 1 (ci_rest c)) true ((ci_expected c + 1) mod 10))
         else Ok c) ;;
  let n' := if is_signed && (ci_cur c1 =? 45) then S n else n in
  Ok (ci_rest c1, trim (firstn n' (ci_rest c1)), skip_data_and_spaces n' c1).

(** ** Sections of a message *)

(** CrexBulletin: bulletin.h:396-431, with the fields of Bulletin that CREX has.  The
    originating centre and the date are not in the message. *)
Record cheader : Type := mkcheader {
  ch_mtn : Z;                (* master_table_number *)
  ch_edition : Z;            (* edition_number *)
  ch_mtv : Z;                (* master_table_version_number *)
  ch_mtv_bufr : Z;           (* master_table_version_number_bufr *)
  ch_mtv_local : Z;          (* master_table_version_number_local *)
  ch_category : Z;           (* data_category *)
  ch_subcategory : Z;        (* data_subcategory *)
  ch_subcategory_local : Z;  (* data_subcategory_local *)
  ch_check : bool }.         (* has_check_digit *)

Record cbulletin : Type := mkcb {
  cb_header : cheader;
  cb_datadesc : list Z;
  cb_subsets : list (list var) }.

(** *** Encoder: crex_encoder.cc *)

(** One data descriptor: crex_encoder.cc:98-116. *)
Definition is_count (code : Z) : bool := (var_f code =? 0) && (var_x code =? 31) && (var_y code <? 3).
Definition desc_text (code : Z) : list Z :=
  if is_count code then []
  else 32 :: nth (Z.to_nat (var_f code)) [66; 82; 67; 68] 63 :: fmt_0d 2 (var_x code) ++ fmt_0d 3 (var_y code).

(** encode_sec1: crex_encoder.cc:80-125.  The CrexOutput is a copy (its text is shared with
    the original), so the change of the expected check digit at the end is lost. *)
Definition encode_sec1 (h : cheader) (datadesc : list Z) (c : cout) : res cout :=
  let lead := 84 :: fmt_0d 2 (schar (ch_mtn h)) ++ fmt_0d 2 (schar (ch_edition h)) ++ fmt_0d 2 (schar (ch_mtv h)) ++
              [32; 65] ++ fmt_0d 3 (schar (ch_category h)) ++
              (if ch_subcategory h =? 255 then [] else fmt_0d 3 (schar (ch_subcategory h))) in
  let text := lead ++ flat_map desc_text datadesc ++ (if co_check c then [32; 69] else []) ++ [43; 43; 13; 13; 10] in
  Ok (raw_append text c).

(** The encoder of a subset: crex_encoder.cc:22-78 and internals.cc. *)
Record cenc : Type := mkcenc { ce_pos : nat; ce_out : cout; ce_lt : localtables }.

Section Encoder.
Context (o : options) (vars : list var).

(** UncompressedEncoder::get_var(): internals.cc:38-49. *)
Definition ce_next (s : cenc) : res (var * cenc) :=
  v <- get_var vars (ce_pos s) ;; Ok (v, mkcenc (S (ce_pos s)) (ce_out s) (ce_lt s)).
Definition ce_put (s : cenc) (r : res cout) : res cenc :=
  out <- r ;; Ok (mkcenc (ce_pos s) out (ce_lt s)).

(** define_variable: crex_encoder.cc:37-45. *)
Definition ce_var (i : varinfo) (s : cenc) : res cenc :=
  ' (v, s1) <- ce_next s ;; ce_put s1 (append_var i (v_cell v) (ce_out s1)).

(** define_delayed_replication_factor: crex_encoder.cc:47-77. *)
Definition four_digits (code : Z) : bool :=
  (var_f code =? 0) && (var_x code =? 31) &&
  ((var_y code =? 1) || (var_y code =? 2) || (var_y code =? 11) || (var_y code =? 12)).
Definition ce_factor (i : varinfo) (s : cenc) : res (Z * cenc) :=
  ' (v, s1) <- ce_next s ;;
  if four_digits (vi_code i) then
    n <- enqi (v_cell v) ;;
    let count := u32 n in
    s2 <- ce_put s1 (raw_appendf (zeros 4 (decimal count)) (encode_check_digit (raw_append [32] (ce_out s1)))) ;;
    Ok (count, s2)
  else
    s2 <- ce_put s1 (append_var i (v_cell v) (ce_out s1)) ;;
    if isset (v_cell v) then n <- enqi (v_cell v) ;; Ok (u32 n, s2) else Ok (4294967295, s2).

(** encode_var is not redefined and throws: internals.cc:61-64, 70-102.  What is read before
    it throws does not matter. *)
Definition ce_var_af (bits sig : Z) (i : varinfo) (s : cenc) : res cenc :=
  ' (_, _) <- ce_next s ;; Err EUnimpl.
Definition ce_significance (i : varinfo) (s : cenc) : res (Z * cenc) :=
  ' (_, _) <- ce_next s ;; Err EUnimpl.
Definition ce_bitmap_factor (i : varinfo) (s : cenc) : res (Z * cenc) :=
  v <- get_var vars (ce_pos s) ;;
  _ <- of_outcome (seti o (fresh i) (wrap_int (vi_len (c_info (v_cell v))))) ;;
  Err EUnimpl.

(** define_bitmap: internals.cc:51-59. *)
Definition ce_bitmap (pending size : Z) (s : cenc) : res (list Z * list Z * cenc) :=
  ' (v, s1) <- ce_next s ;;
  if negb (var_f (c_code (v_cell v)) =? 2) then Err EConsistency
  else chars <- bitmap_chars (v_cell v) ;; Ok (codes_of (firstn (ce_pos s1) vars), chars, s1).

Definition ce_unknown (code bits : Z) (s : cenc) : res (varinfo * cenc) :=
  ' (i, lt) <- get_unknown (ce_lt s) code bits ;; Ok (i, mkcenc (ce_pos s) (ce_out s) lt).

(** The other methods are those of Interpreter, which throw: interpreter.cc:489-543. *)
Definition c_encoder : visitor cenc :=
  mkvisitor ce_var ce_var_af ce_factor ce_bitmap_factor ce_significance
    (fun _ _ => Err EUnimpl) (fun _ _ _ => Err EUnimpl) (fun _ _ => Err EUnimpl) (fun _ _ _ => Err EUnimpl)
    ce_bitmap ce_unknown.
End Encoder.

(** The loop over the subsets: crex_encoder.cc:147-151 and 31-34. *)
Fixpoint encode_csubsets (o : options) (T : tables) (fuel : nat) (ops : list Z) (first : bool)
  (subsets : list (list var)) (lt : localtables) (c : cout) : res cout :=
  match subsets with
  | [] => Ok c
  | vars :: rest =>
    let c1 := if first then c else raw_append [43; 13; 13; 10] c in
    ' (_, s) <- run (c_encoder o vars) T fuel ops (ist_init, mkcenc 0 c1 lt) ;;
    encode_csubsets o T fuel ops false rest (ce_lt s) (ce_out s)
  end.

Definition crex_start : list Z := [67; 82; 69; 88; 43; 43].      (* CREX++ *)
Definition crex_end : list Z := [43; 43; 13; 13; 10; 55; 55; 55; 55; 13; 13; 10].

(** CrexBulletin::encode: crex_encoder.cc:129-164.  The has_check_digit of the bulletin is not
    looked at. *)
Definition encode_crex (o : options) (T : tables) (fuel : nat) (lt : localtables) (b : cbulletin) : res (list Z) :=
  c <- encode_sec1 (cb_header b) (cb_datadesc b) (raw_append (crex_start ++ [13; 13; 10]) cout_empty) ;;
  c1 <- encode_csubsets o T fuel (cb_datadesc b) true (cb_subsets b) lt c ;;
  Ok (co_text c1 ++ crex_end).

(** *** Decoder: crex_decoder.cc *)

(** sscanf "%02hhu": at most two characters, of which the first can be a sign. *)
Definition scan_hhu2 (s : list Z) : option (Z * list Z) :=
  match s with
  | c :: r =>
    if (c =? 43) || (c =? 45) then
      match r with
      | d :: r' => if c_isdigit d then Some (u8 (if c =? 45 then - (d - 48) else d - 48), r') else None
      | [] => None
      end
    else if c_isdigit c then
      match r with
      | d :: r' => if c_isdigit d then Some ((c - 48) * 10 + (d - 48), r') else Some (c - 48, r)
      | [] => Some (c - 48, r)
      end
    else None
  | [] => None
  end.

(** The T word: crex_decoder.cc:40-50.  The buffer has 11 characters. *)
Definition parse_edition (w : list Z) : res (Z * Z * Z) :=
  match cstr w with
  | 84 :: s =>
    match scan_hhu2 s with
    | Some (a, s1) =>
      match scan_hhu2 s1 with
      | Some (b, s2) => match scan_hhu2 s2 with Some (c, _) => Ok (a, b, c) | None => Err EConsistency end
      | None => Err EConsistency
      end
    | None => Err EConsistency
    end
  | _ => Err EConsistency
  end.

(** The A word: crex_decoder.cc:56-78.  Category, subcategory, local subcategory. *)
Definition parse_atable (w : list Z) : res (Z * Z * Z) :=
  let a := cstr w in
  let val := u32 (fst (c_strtoul (skipn 1 a))) in
  if Nat.eqb (length a) 4 then Ok (u8 val, 255, 0)
  else if Nat.eqb (length a) 7 then Ok (u8 (val / 1000), u8 (val mod 1000), 255)
  else Err EConsistency.

(** The data descriptors: crex_decoder.cc:83-107.  With any other character the loop goes on
    without moving. *)
Fixpoint decode_descs (fuel : nat) (c : cin) (descs : list Z) : res (list Z * cin) :=
  match fuel with
  | O => Err EFuel
  | S k =>
    let ch := ci_cur c in
    if (ch =? 66) || (ch =? 82) || (ch =? 67) || (ch =? 68) then
      _ <- check_available 6 c ;;
      code <- varcode_parse (Some (ci_rest c)) ;;
      decode_descs k (skip_data_and_spaces 6 c) (descs ++ [code])
    else if ch =? 69 then
      decode_descs k (skip_data_and_spaces 1 (mkcin (ci_rest c) true 1)) descs
    else if ch =? 43 then
      _ <- check_available 1 c ;;
      if negb (hd 0 (skipn 1 (ci_rest c)) =? 43) then Err EParse
      else Ok (descs, skip_data_and_spaces 2 c)
    else decode_descs k c descs
  end.

(** decode_header: crex_decoder.cc:23-118, without the tables. *)
Definition decode_cheader (fuel : nat) (data : list Z) : res (cheader * list Z * cin) :=
  let c := mkcin data false 0 in
  _ <- check_available 6 c ;;
  if negb (list_eqb (firstn 6 (ci_rest c)) crex_start) then Err EParse
  else
    let c1 := skip_data_and_spaces 6 c in
    _ <- check_eof c1 ;;
    if negb (ci_cur c1 =? 84) then Err EParse
    else
      let (w, c2) := read_word 11 c1 in
      ' (mtn, ed, mtv) <- parse_edition w ;;
      _ <- check_eof c2 ;;
      if negb (ci_cur c2 =? 65) then Err EParse
      else
        let (w2, c3) := read_word 20 c2 in
        ' (cat, sub, subl) <- parse_atable w2 ;;
        _ <- check_eof c3 ;;
        ' (descs, c4) <- decode_descs fuel c3 [] ;;
        Ok (mkcheader mtn ed mtv 0 0 cat sub subl (ci_check c4), descs, c4).

(** The decoder of a subset: crex_decoder.cc:121-175. *)
Record cdec : Type := mkcdec { cd_in : cin; cd_vars : list var; cd_lt : localtables }.

Section Decoder.
Context (o : options).

(** read_variable: crex_decoder.cc:132-164, without the storing.  strtol reads on after the
    end of the field. *)
Definition read_variable (i : varinfo) (c : cin) : res (Z * cell * cin) :=
  ' (here, field, c1) <- parse_value (ilen i) (match vi_type i with TString => false | _ => true end) c ;;
  if hd 0 here =? 47 then Ok (4294967295, fresh i, c1)
  else
    match vi_type i with
    | TString => v <- of_outcome (setc o (fresh i) (field ++ [0])) ;; Ok (4294967295, v, c1)
    | _ =>
      let val := to_int (c_strtol here) in
      v <- of_outcome (seti o (fresh i) val) ;; Ok (u32 val, v, c1)
    end.

Definition cd_read (i : varinfo) (s : cdec) : res (Z * cdec) :=
  ' (n, v, c) <- read_variable i (cd_in s) ;; Ok (n, mkcdec c (cd_vars s ++ [mkvar v []]) (cd_lt s)).
Definition cd_var (i : varinfo) (s : cdec) : res cdec := ' (_, s') <- cd_read i s ;; Ok s'.
Definition cd_unknown (code bits : Z) (s : cdec) : res (varinfo * cdec) :=
  ' (i, lt) <- get_unknown (cd_lt s) code bits ;; Ok (i, mkcdec (cd_in s) (cd_vars s) lt).

Definition c_decoder : visitor cdec :=
  mkvisitor cd_var (fun _ _ _ _ => Err EUnimpl) cd_read (fun _ _ => Err EUnimpl) (fun _ _ => Err EUnimpl)
    (fun _ _ => Err EUnimpl) (fun _ _ _ => Err EUnimpl) (fun _ _ => Err EUnimpl) (fun _ _ _ => Err EUnimpl)
    (fun _ _ _ => Err EUnimpl) cd_unknown.
End Decoder.

(** The loop over the subsets: crex_decoder.cc:182-202.  [fuel'] bounds the number of
    subsets. *)
Fixpoint decode_csubsets (o : options) (T : tables) (fuel : nat) (ops : list Z) (fuel' : nat)
  (lt : localtables) (c : cin) : res (list (list var) * cin) :=
  match fuel' with
  | O => Err EFuel
  | S k =>
    ' (_, s) <- run (c_decoder o) T fuel ops (ist_init, mkcdec c [] lt) ;;
    let c1 := skip_spaces (cd_in s) in
    _ <- check_eof c1 ;;
    if negb (ci_cur c1 =? 43) then Err EParse
    else
      let c2 := with_rest c1 (skipn 1 (ci_rest c1)) in
      _ <- check_eof c2 ;;
      if ci_cur c2 =? 43 then Ok ([cd_vars s], with_rest c2 (skipn 1 (ci_rest c2)))
      else ' (gots, c3) <- decode_csubsets o T fuel ops k (cd_lt s) c2 ;; Ok (cd_vars s :: gots, c3)
  end.

(** The search of the end of the optional section: crex_decoder.cc:210-211. *)
Fixpoint skip_supp (s : list Z) : res (list Z) :=
  if list_eqb (firstn 2 s) [43; 43] then Ok s
  else match s with
       | _ :: r => if Nat.ltb (length s) 2 then Err EParse else skip_supp r
       | [] => Err EParse
       end.

(** decode_data: crex_decoder.cc:177-220. *)
Definition decode_cdata (o : options) (T : tables) (fuel : nat) (ops : list Z) (lt : localtables) (c : cin)
  : res (list (list var)) :=
  _ <- check_eof c ;;
  ' (gots, c1) <- decode_csubsets o T fuel ops (S (length (ci_rest c))) lt c ;;
  let c2 := skip_spaces c1 in
  _ <- check_eof c2 ;;
  _ <- check_available 4 c2 ;;
  c3 <- (if list_eqb (firstn 4 (ci_rest c2)) [83; 85; 80; 80] then
           r <- skip_supp (skipn 4 (ci_rest c2)) ;; Ok (skip_spaces (with_rest c2 r))
         else Ok c2) ;;
  _ <- check_eof c3 ;;
  _ <- check_available 4 c3 ;;
  if list_eqb (firstn 4 (ci_rest c3)) [55; 55; 55; 55] then Ok gots else Err EParse.

(** CrexBulletin::decode: crex_decoder.cc:235-244.  [load] is load_tables. *)
Definition decode_crex (o : options) (load : cheader -> res tables) (fuel : nat) (data : list Z) : res cbulletin :=
  ' (h, descs, c) <- decode_cheader fuel data ;;
  T <- load h ;;
  gots <- decode_cdata o T fuel descs empty_local c ;;
  Ok (mkcb h descs gots).

(** ** Streams: bulletin.cc:614-685 *)

(** One step of the search of the end: bulletin.cc:639-648; target is ++\r\n7777. *)
Definition is_eol (c : Z) : bool := (c =? 13) || (c =? 10).
Definition end_target : list Z := [43; 43; 13; 10; 55; 55; 55; 55].
Definition end_step (got : nat) (c : Z) : nat :=
  let t := nth got end_target 0 in
  if (t =? 13) && is_eol c then S got
  else if (t =? 10) && is_eol c then got
  else if (t =? 10) && (c =? 55) then S (S got)
  else if c =? t then S got
  else O.

(** The loop: bulletin.cc:637-651.  What is read, and the rest of the file. *)
Fixpoint read_end (got : nat) (file : list Z) : option (list Z * list Z) :=
  if Nat.leb 8 got then Some ([], file)
  else
    match file with
    | [] => None
    | c :: rest => match read_end (end_step got c) rest with
                   | Some (m, r) => Some (c :: m, r)
                   | None => None
                   end
    end.

(** CrexBulletin::read: bulletin.cc:614-667.  Reading errors of the operating system are not
    modelled. *)
Definition read_crex (file : list Z) : res (option (list Z * list Z)) :=
  match seek_signature crex_start 0 file with
  | None => Ok None
  | Some rest =>
    match read_end 0 rest with
    | Some (m, rest') => Ok (Some (crex_start ++ m, rest'))
    | None => Err EParse
    end
  end.

(** CrexBulletin::write: bulletin.cc:669-685. *)
Definition write_crex (m : list Z) : list Z := m ++ [13; 13; 10].

Fixpoint read_all_crex (fuel : nat) (file : list Z) : res (list (list Z)) :=
  match fuel with
  | O => Err EFuel
  | S k =>
    r <- read_crex file ;;
    match r with
    | None => Ok []
    | Some (m, rest) => ms <- read_all_crex k rest ;; Ok (m :: ms)
    end
  end.

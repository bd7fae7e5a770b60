(** Bit-level writer and reader of BUFR data.

    wreport/buffers/bufr.{h,cc} (BufrOutput) and wreport/bufr/input.{h,cc}
    (Input), restricted to the functions that move bits.  Interpretation of the
    bits as variables is in [Var] and [Codec]. *)
From Verif Require Import Base.
Local Open Scope Z_scope.

(** What [1 << k] does when [k] is negative or at least 32: undefined in C++;
    on x86 the count is taken modulo 32. *)
Inductive shift_policy := Strict | X86.

(** [1 << k] stored in a uint32_t (buffers/bufr.cc:42). *)
Definition shl1 (p : shift_policy) (k : Z) : res Z :=
  if (0 <=? k) && (k <? 32) then Ok (2 ^ k)
  else match p with Strict => UB | X86 => Ok (2 ^ (k mod 32)) end.

(** BufrOutput: buffers/bufr.h:18-27.  [obytes] is the output string, newest
    byte last. *)
Record bufout := mkout { obytes : list Z; opbyte : Z; oplen : nat }.

(** BufrOutput constructor: buffers/bufr.cc:34-37, on an empty string. *)
Definition out_empty : bufout := mkout [] 0 0.

(** flush, inner loop: buffers/bufr.cc:151-155. *)
Fixpoint flush_pad (k : nat) (pbyte : Z) : Z :=
  match k with O => pbyte | S k' => flush_pad k' (u8 (2 * pbyte)) end.

(** BufrOutput::flush: buffers/bufr.cc:147-160. *)
Definition flush (o : bufout) : bufout :=
  if Nat.eqb (oplen o) 0 then o
  else mkout (obytes o ++ [flush_pad (8 - oplen o) (opbyte o)]) 0 0.

(** One iteration of the loop of BufrOutput::add_bits: buffers/bufr.cc:47-53
    (without the shift of [val]). *)
Definition push_bit (b : bool) (o : bufout) : bufout :=
  let pbyte := Z.lor (u8 (2 * opbyte o)) (if b then 1 else 0) in
  let plen := S (oplen o) in
  let o' := mkout (obytes o) pbyte plen in
  if Nat.eqb plen 8 then flush o' else o'.

(** Loop of BufrOutput::add_bits: buffers/bufr.cc:45-54. *)
Fixpoint add_bits_loop (n : nat) (mask val : Z) (o : bufout) : bufout :=
  match n with
  | O => o
  | S n' => add_bits_loop n' mask (u32 (2 * val))
                          (push_bit (negb (Z.land val mask =? 0)) o)
  end.

(** BufrOutput::add_bits: buffers/bufr.cc:39-64.  [n] is an int in C++; negative
    counts are not modelled. *)
Definition add_bits (p : shift_policy) (val : Z) (n : nat) (o : bufout) : res bufout :=
  mask <- shl1 p (Z.of_nat n - 1) ;;
  Ok (add_bits_loop n mask (u32 val) o).

(** append_short, append_byte: buffers/bufr.h:58-67. *)
Definition append_short (p : shift_policy) (val : Z) (o : bufout) : res bufout :=
  add_bits p (u16 val) 16 o.
Definition append_byte (p : shift_policy) (val : Z) (o : bufout) : res bufout :=
  add_bits p (u8 val) 8 o.

(** append_missing: buffers/bufr.h:70-73. *)
Definition append_missing (p : shift_policy) (len_bits : nat) (o : bufout) : res bufout :=
  add_bits p (2 ^ 32 - 1) len_bits o.

(** raw_append: buffers/bufr.h:46-49 (does not look at pending bits). *)
Definition raw_append (s : list Z) (o : bufout) : bufout :=
  mkout (obytes o ++ s) (opbyte o) (oplen o).

(** append_string on a C string: buffers/bufr.cc:71-98.  [s] is the content of
    the C string without its terminator; [n] is the number of bits still to
    write ([len_bits - bi]); the loop writes at least one bit per iteration, so
    [n] bounds the number of iterations. *)
Fixpoint append_string_loop (p : shift_policy) (fuel n : nat) (s : list Z) (o : bufout)
  : res bufout :=
  match fuel with
  | O => if Nat.eqb n 0 then Ok o else Err EFuel
  | S fuel' =>
    if Nat.eqb n 0 then Ok o
    else if Nat.leb 8 n then
      match s with
      | [] => o1 <- append_byte p 32 o ;; append_string_loop p fuel' (n - 8) [] o1
      | c :: s' =>
        if c =? 0
        then o1 <- append_byte p 32 o ;; append_string_loop p fuel' (n - 8) [] o1
        else o1 <- append_byte p c o ;; append_string_loop p fuel' (n - 8) s' o1
      end
    else add_bits p 0 n o
  end.
Definition append_string (p : shift_policy) (s : list Z) (len_bits : nat) (o : bufout)
  : res bufout := append_string_loop p len_bits len_bits s o.

(** append_binary: buffers/bufr.cc:100-117.  Reading [val[i]] past the end of the
    value is out of bounds. *)
Fixpoint append_binary_loop (p : shift_policy) (fuel n : nat) (s : list Z) (o : bufout)
  : res bufout :=
  match fuel with
  | O => if Nat.eqb n 0 then Ok o else Err EFuel
  | S fuel' =>
    if Nat.eqb n 0 then Ok o
    else match s with
         | [] => UB
         | c :: s' =>
           if Nat.leb 8 n
           then o1 <- append_byte p c o ;; append_binary_loop p fuel' (n - 8) s' o1
           else add_bits p c n o
         end
  end.
Definition append_binary (p : shift_policy) (s : list Z) (len_bits : nat) (o : bufout)
  : res bufout := append_binary_loop p len_bits len_bits s o.

(** Input: bufr/input.h:54-89, the cursor part.  [idata] is the std::string
    being read. *)
Record input := mkin { idata : list Z; icur : nat; ipbyte : Z; iplen : nat }.

(** [data[i]] where [data] is [std::string::data()]: the byte at the size of the
    string is the terminator (defined, 0); past it is out of bounds. *)
Definition read_at (d : list Z) (i : nat) : res Z :=
  match nth_error d i with
  | Some b => Ok b
  | None => if Nat.eqb i (length d) then Ok 0 else UB
  end.

(** Loop body of Input::get_bits: bufr/input.h:178-187.  Returns the bit. *)
Definition pull_bit (i : input) : res (bool * input) :=
  i1 <- (if Nat.eqb (iplen i) 0
         then b <- read_at (idata i) (icur i) ;; Ok (mkin (idata i) (S (icur i)) b 8)
         else Ok i) ;;
  Ok (negb (Z.land (ipbyte i1) 128 =? 0),
      mkin (idata i1) (icur i1) (u8 (2 * ipbyte i1)) (iplen i1 - 1)).

Fixpoint get_bits_loop (n : nat) (result : Z) (i : input) : res (Z * input) :=
  match n with
  | O => Ok (result, i)
  | S n' =>
    '(b, i1) <- pull_bit i ;;
    get_bits_loop n' (Z.lor (u32 (2 * result)) (if b then 1 else 0)) i1
  end.

(** Input::get_bits: bufr/input.h:165-191.  The cursor is 32 bits in C++ and
    unbounded here: messages are below 2^24 bytes. *)
Definition get_bits (n : nat) (i : input) : res (Z * input) :=
  if Nat.eqb (icur i) (length (idata i)) then Err EParse
  else get_bits_loop n 0 i.

(** Input::skip_bits: bufr/input.h:196-211. *)
Fixpoint skip_bits_loop (n : nat) (i : input) : res input :=
  match n with
  | O => Ok i
  | S n' => '(_, i1) <- pull_bit i ;; skip_bits_loop n' i1
  end.
Definition skip_bits (n : nat) (i : input) : res input :=
  if Nat.eqb (icur i) (length (idata i)) then Err EParse
  else skip_bits_loop n i.

(** bits_left: bufr/input.h:126 (32-bit wrap-around when the cursor is past the
    end). *)
Definition bits_left (i : input) : Z :=
  u32 ((Z.of_nat (length (idata i)) - Z.of_nat (icur i)) * 8 + Z.of_nat (iplen i)).

(** all_ones: bufr/input.cc:21-24.  [bitlen] 0 or above 32 is an out-of-range
    shift; at 32 the C++ expression also overflows int ([INT_MIN - 1]), which is
    modelled as two's complement wrap-around (what compilers produce). *)
Definition all_ones (n : nat) : res Z :=
  if (Nat.leb 1 n && Nat.leb n 32)%bool then Ok (2 ^ Z.of_nat n - 1) else UB.

(** Input::read_byte and read_number at an absolute position:
    bufr/input.h:129-150. *)
Fixpoint read_number_loop (n : nat) (pos : nat) (acc : Z) (d : list Z) : res Z :=
  match n with
  | O => Ok acc
  | S n' => b <- read_at d pos ;; read_number_loop n' (S pos) (Z.lor (u32 (256 * acc)) b) d
  end.
Definition read_number (d : list Z) (pos len : nat) : res Z := read_number_loop len pos 0 d.
Definition read_byte (d : list Z) (pos : nat) : res Z := read_at d pos.

(** Reading loop shared by decode_string and decode_binary
    (bufr/input.cc:257-266 and 304-313): groups of 8 bits, the last one shorter.
    [toread] is an int in C++; it is a nat here. *)
Fixpoint read_chars (fuel toread : nat) (i : input) : res (list Z * input) :=
  match fuel with
  | O => if Nat.eqb toread 0 then Ok ([], i) else Err EFuel
  | S fuel' =>
    if Nat.eqb toread 0 then Ok ([], i)
    else
      let count := if Nat.ltb 8 toread then 8%nat else toread in
      '(c, i1) <- get_bits count i ;;
      '(cs, i2) <- read_chars fuel' (toread - count) i1 ;;
      Ok (c :: cs, i2)
  end.

(** Trailing blank removal: bufr/input.cc:273-275, on the reversed buffer.  The
    first character is never removed.  isspace on bytes above 127 (a negative
    char) is taken to be false, as in glibc. *)
Fixpoint trim_rev (r : list Z) : list Z :=
  match r with
  | c :: ((_ :: _) as r') => if (c =? 0) || c_isspace c then trim_rev r' else r
  | _ => r
  end.
Definition trim_tail (s : list Z) : list Z := rev (trim_rev (rev s)).

(** Input::decode_string(unsigned, char*, size_t&): bufr/input.cc:251-279.
    [None] is a missing value; [Some s] is the content of [str] up to [len]. *)
Definition decode_string_raw (bit_len : nat) (i : input) : res (option (list Z) * input) :=
  '(cs, i1) <- read_chars bit_len bit_len i ;;
  if forallb (fun c => (c =? 255) || (c =? 0)) cs
  then Ok (None, i1)
  else Ok (Some (trim_tail cs), i1).

(** Input::decode_binary, the bytes: bufr/input.cc:295-319. *)
Definition decode_binary_raw (bit_len : nat) (i : input) : res (option (list Z) * input) :=
  '(cs, i1) <- read_chars bit_len bit_len i ;;
  if forallb (fun c => c =? 255) cs then Ok (None, i1) else Ok (Some cs, i1).

(** Client programs: write a sequence of (value, width) fields, read a sequence
    of widths. *)
Fixpoint write_fields (p : shift_policy) (fs : list (Z * nat)) (o : bufout) : res bufout :=
  match fs with
  | [] => Ok o
  | (v, n) :: fs' => o1 <- add_bits p v n o ;; write_fields p fs' o1
  end.

Fixpoint read_fields (ws : list nat) (i : input) : res (list Z * input) :=
  match ws with
  | [] => Ok ([], i)
  | n :: ws' =>
    '(v, i1) <- get_bits n i ;;
    '(vs, i2) <- read_fields ws' i1 ;;
    Ok (v :: vs, i2)
  end.

(** Descriptor lists, table B, table D and per-message tables:
    wreport/opcodes.h, wreport/vartable.cc, wreport/dtable.cc, wreport/tables.cc. *)
From Coq Require Import String Ascii.
From Flocq Require Import Core BinarySingleNaN.
From Verif Require Import Base Bits.Spec Num.Float Varcode.Model Varinfo.Model.
Local Open Scope Z_scope.

(** ** Opcodes: opcodes.h.  A pair of pointers into an array of codes. *)

Record opcodes : Type := mkops { o_mem : list Z; o_beg : nat; o_end : nat }.

(** Opcodes(const std::vector<Varcode>&): opcodes.h:27. *)
Definition ops_of (l : list Z) : opcodes := mkops l 0 (length l).

(** Reading through a pointer into the array. *)
Definition deref (mem : list Z) (i : nat) : res Z :=
  match nth_error mem i with Some c => Ok c | None => UB end.

(** operator[]: opcodes.h:36-42. *)
Definition ops_get (o : opcodes) (i : nat) : res Z :=
  if Nat.ltb (o_end o) (o_beg o + i) then Ok 0 else deref (o_mem o) (o_beg o + i).

(** size, empty: opcodes.h:45-48. *)
Definition ops_size (o : opcodes) : nat := (o_end o - o_beg o)%nat.
Definition ops_empty (o : opcodes) : bool := Nat.eqb (o_beg o) (o_end o).

(** pop_left(): opcodes.h:55-59. *)
Definition ops_pop (o : opcodes) : res (Z * opcodes) :=
  if ops_empty o then Err EConsistency
  else c <- deref (o_mem o) (o_beg o) ;; Ok (c, mkops (o_mem o) (S (o_beg o)) (o_end o)).

(** pop_left(count): opcodes.h:67-74. *)
Definition ops_pop_n (o : opcodes) (count : nat) : res (opcodes * opcodes) :=
  if Nat.ltb (ops_size o) count then Err EConsistency
  else Ok (mkops (o_mem o) (o_beg o) (o_beg o + count), mkops (o_mem o) (o_beg o + count) (o_end o)).

(** head: opcodes.h:77-82. *)
Definition ops_head (o : opcodes) : res Z :=
  if ops_empty o then Ok 0 else deref (o_mem o) (o_beg o).

(** next: opcodes.h:89-95. *)
Definition ops_next (o : opcodes) : opcodes :=
  if ops_empty o then o else mkops (o_mem o) (S (o_beg o)) (o_end o).

(** sub(skip): opcodes.h:98-104; sub(skip, len): opcodes.h:107-115. *)
Definition ops_sub (o : opcodes) (skip : nat) : opcodes :=
  if Nat.ltb (o_end o) (o_beg o + skip) then mkops (o_mem o) (o_end o) (o_end o)
  else mkops (o_mem o) (o_beg o + skip) (o_end o).
Definition ops_sub_len (o : opcodes) (skip len : nat) : opcodes :=
  if Nat.ltb (o_end o) (o_beg o + skip) then mkops (o_mem o) (o_end o) (o_end o)
  else if Nat.leb (o_end o) (o_beg o + skip + len) then mkops (o_mem o) (o_beg o + skip) (o_end o)
  else mkops (o_mem o) (o_beg o + skip) (o_beg o + skip + len).

(** ** C library helpers used by the table loaders *)

(** fgets(line, 200, in), repeated: up to 199 characters, newline included. *)
Fixpoint fgets_line (n : nat) (s : list Z) : list Z * list Z :=
  match n, s with
  | O, _ => ([], s)
  | _, [] => ([], [])
  | S k, c :: s' => if c =? 10 then ([c], s') else
                      let '(l, r) := fgets_line k s' in (c :: l, r)
  end.
Fixpoint fgets_all (fuel : nat) (s : list Z) : list (list Z) :=
  match fuel, s with
  | O, _ | _, [] => []
  | S k, _ => let '(l, r) := fgets_line 199 s in cstr l :: fgets_all k r
  end.
Definition file_lines (s : list Z) : list (list Z) := fgets_all (length s) s.

Fixpoint skip_space (s : list Z) : list Z :=
  match s with c :: s' => if c_isspace c then skip_space s' else s | [] => [] end.

(** Leading digits. *)
Fixpoint scan_digits (acc : Z) (s : list Z) : Z * list Z :=
  match s with
  | c :: s' => if c_isdigit c then scan_digits (acc * 10 + (c - 48)) s' else (acc, s)
  | [] => (acc, [])
  end.

(** strtol(str, 0, 10) and strtoul(str, &next, 10) on 64-bit longs; an overflowing
    number gives the limit. *)
Definition c_strtol (s : list Z) : Z :=
  match skip_space s with
  | [] => 0
  | c :: r =>
    if c =? 45 then Z.max (- 2 ^ 63) (- fst (scan_digits 0 r))
    else Z.min (2 ^ 63 - 1) (fst (scan_digits 0 (if c =? 43 then r else c :: r)))
  end.
Definition c_strtoul (s : list Z) : Z * list Z :=
  let go (neg : bool) (r : list Z) :=
    match r with
    | c :: _ =>
      if c_isdigit c then
        let '(v, rest) := scan_digits 0 r in
        ((if 2 ^ 64 <=? v then 2 ^ 64 - 1 else if neg then (- v) mod 2 ^ 64 else v), rest)
      else (0, s)
    | [] => (0, s)
    end in
  match skip_space s with
  | [] => (0, s)
  | c :: r => if c =? 45 then go true r else if c =? 43 then go false r else go false (c :: r)
  end.

(** getnumber: vartable.cc:78-92. *)
Definition getnumber (s : list Z) : Z :=
  match skip_space s with
  | [] => 0
  | c :: r => if c =? 45 then - c_strtol (skip_space r) else c_strtol (c :: r)
  end.

(** static_cast<int>(long), static_cast<unsigned>(long). *)
Definition to_int (z : Z) : Z := wrap_int z.

Fixpoint to_string (l : list Z) : string :=
  match l with
  | [] => EmptyString
  | c :: l' => String (ascii_of_nat (Z.to_nat c)) (to_string l')
  end.

(** memcpy of [n] characters followed by the loop that turns trailing spaces into
    NULs: vartable.cc:354-363. *)
Fixpoint drop_trailing_space (r : list Z) : list Z :=
  match r with
  | c :: r' => if c_isspace c then drop_trailing_space r' else r
  | [] => []
  end.
Definition text_column (start n : nat) (line : list Z) : list Z :=
  rev (drop_trailing_space (rev (firstn n (skipn start line)))).

Fixpoint is_prefix (p s : list Z) : bool :=
  match p, s with
  | [], _ => true
  | a :: p', b :: s' => (a =? b) && is_prefix p' s'
  | _, [] => false
  end.

Definition s_code_table : list Z := [67; 79; 68; 69; 32; 84; 65; 66; 76; 69].   (* "CODE TABLE" *)
Definition s_codetable : list Z := [67; 79; 68; 69; 84; 65; 66; 76; 69].
Definition s_flag_table : list Z := [70; 76; 65; 71; 32; 84; 65; 66; 76; 69].
Definition s_flagtable : list Z := [70; 76; 65; 71; 84; 65; 66; 76; 69].

(** normalise_unit: vartable.cc:316-324. *)
Definition normalise_unit (u : list Z) : list Z :=
  if is_prefix s_code_table u || is_prefix s_codetable u then s_code_table
  else if is_prefix s_flag_table u || is_prefix s_flagtable u then s_flag_table
  else u.

(** WR_STRING_TO_VAR(line + 2): the five characters must be in the buffer. *)
Definition line_code (line : list Z) : res Z :=
  match line with
  | _ :: _ :: c0 :: c1 :: c2 :: c3 :: c4 :: _ => Ok (string_to_var c0 c1 c2 c3 c4)
  | _ => UB
  end.

(** ** Table B *)

(** log10(2.0), correctly rounded: 0x3FD34413509F79FF. *)
Definition log10_2 : f64 :=
  B754_finite (prec := 53) (emax := 1024) false 5422874305198591 (-54) eq_refl.

(** static_cast<unsigned>(ceil(bit_len * log10(2.0))): vartable.cc:385. *)
Definition bufr_digits (bit_len : Z) : res Z :=
  if bit_len =? 1 then Ok 1
  else f_to_Z_range 0 (2 ^ 32 - 1)
         (fceil (fmul (f_of_Z bit_len) log10_2)).

(** One line of a BUFR B table, before the ordering check: vartable.cc:343-388.
    The description is not modelled. *)
Definition bufr_line (line : list Z) : res varinfo :=
  if Nat.ltb (length line) 119 then Err EParse
  else
    code <- line_code line ;;
    let unit := to_string (cstr (normalise_unit (text_column 73 24 line))) in
    let scale := to_int (getnumber (skipn 98 line)) in
    let bit_ref := to_int (getnumber (skipn 102 line)) in
    let bit_len := u32 (getnumber (skipn 115 line)) in
    if String.eqb unit "CCITTIA5" then compute_range code TString unit scale (bit_len / 8) bit_ref bit_len
    else
      len <- bufr_digits bit_len ;;
      compute_range code (if scale =? 0 then TInteger else TDecimal) unit scale len bit_ref bit_len.

(** One line of a CREX B table: vartable.cc:412-461; [None] is a skipped line. *)
Definition crex_line (line : list Z) : res (option varinfo) :=
  code <- line_code line ;;
  if Nat.ltb (length line) 157 then
    if negb (var_x code =? 31) then Err EParse else Ok None
  else
    let unit := to_string (cstr (normalise_unit (text_column 119 24 line))) in
    let scale := to_int (getnumber (skipn 143 line)) in
    let len := u32 (getnumber (skipn 149 line)) in
    i <- compute_range code (crex_type unit scale) unit scale len 0 0 ;;
    Ok (Some i).

(** A table entry: the definition and its alterations, newest first:
    vartable.cc:94-116. *)
Record bentry : Type := mkbentry { be_info : varinfo; be_alts : list varinfo }.
Definition btable : Type := list bentry.

Definition be_code (e : bentry) : Z := vi_code (be_info e).

(** VartableBase::obtain: vartable.cc:219-230. *)
Definition obtain (t : btable) (i : varinfo) : res btable :=
  match rev t with
  | e :: _ => if vi_code i <=? be_code e then Err EParse else Ok (t ++ [mkbentry i []])
  | [] => Ok (t ++ [mkbentry i []])
  end.

(** The loader loops: vartable.cc:338-396, 408-469.  In the C++ code the ordering
    check comes before the rest of the line is parsed; a file that fails both ways
    reports one of the two errors. *)
Fixpoint load_blines (lines : list (list Z)) (t : btable) : res btable :=
  match lines with
  | [] => Ok t
  | l :: rest => i <- bufr_line l ;; t' <- obtain t i ;; load_blines rest t'
  end.
Definition load_bufr (text : list Z) : res btable := load_blines (file_lines text) [].

Fixpoint load_clines (lines : list (list Z)) (t : btable) : res btable :=
  match lines with
  | [] => Ok t
  | l :: rest =>
    oi <- crex_line l ;;
    match oi with
    | None => load_clines rest t
    | Some i => t' <- obtain t i ;; load_clines rest t'
    end
  end.
Definition load_crex (text : list Z) : res btable := load_clines (file_lines text) [].

(** The binary search of vartable.cc:237-249 and dtable.cc:141-150, on the codes of
    the entries.  Array accesses are checked. *)
Definition at_code (codes : list Z) (i : Z) : res Z :=
  if i <? 0 then UB else match nth_error codes (Z.to_nat i) with Some c => Ok c | None => UB end.
Fixpoint bsearch (fuel : nat) (codes : list Z) (code b e : Z) : res Z :=
  match fuel with
  | O => Err EFuel
  | S k =>
    if 1 <? e - b then
      let cur := Z.quot (e + b) 2 in
      c <- at_code codes cur ;;
      if code <? c then bsearch k codes code b cur else bsearch k codes code cur e
    else Ok b
  end.
Definition find_code (codes : list Z) (code : Z) : res (option nat) :=
  b <- bsearch (S (length codes)) codes code (-1) (Z.of_nat (length codes)) ;;
  if b =? -1 then Ok None
  else
    c <- at_code codes b ;;
    Ok (if c =? code then Some (Z.to_nat b) else None).

(** VartableBase::query_entry: vartable.cc:232-250. *)
Definition query_entry (t : btable) (code : Z) : res (option nat) := find_code (map be_code t) code.

Definition entry_at (t : btable) (i : nat) : res bentry :=
  match nth_error t i with Some e => Ok e | None => UB end.

(** VartableBase::query: vartable.cc:252-261; contains: 263-266. *)
Definition query (t : btable) (code : Z) : res varinfo :=
  oi <- query_entry t code ;;
  match oi with
  | None => Err ENotFound
  | Some i => e <- entry_at t i ;; Ok (be_info e)
  end.
Definition contains (t : btable) (code : Z) : res bool :=
  oi <- query_entry t code ;; Ok (match oi with Some _ => true | None => false end).

(** digits_per_bits: vartable.cc:28-69. *)
Definition digits_per_bits (bits : Z) : res Z :=
  if (bits <=? 0) || (32 <? bits) then Err EConsistency
  else Ok (if bits <=? 3 then 1 else if bits <=? 6 then 2 else if bits <=? 9 then 3
      else if bits <=? 13 then 4 else if bits <=? 16 then 5 else if bits <=? 19 then 6
      else if bits <=? 23 then 7 else if bits <=? 26 then 8 else if bits <=? 29 then 9 else 10).

(** The altered copy: vartable.cc:118-167.  bit_len / 8 is an integer division, so
    ceil has no effect. *)
Definition alter_info (i : varinfo) (scale bit_len bit_ref : Z) : res varinfo :=
  len <- match vi_type i with
         | TInteger | TDecimal => digits_per_bits bit_len
         | TString | TBinary => Ok (bit_len / 8)
         end ;;
  let t := match vi_type i with
           | TInteger => if scale =? 0 then TInteger else TDecimal
           | TDecimal => if scale =? 0 then TInteger else TDecimal
           | t => t
           end in
  compute_range (vi_code i) t (vi_unit i) scale len bit_ref bit_len.

(** get_alteration: vartable.cc:174-181, along the chain that starts with the
    original.  The result is the position in the chain. *)
Definition same_alteration (i : varinfo) (scale bit_len bit_ref : Z) : bool :=
  (vi_scale i =? scale) && (vi_bit_len i =? bit_len) && (vi_bit_ref i =? bit_ref).
Fixpoint find_alt (chain : list varinfo) (scale bit_len bit_ref : Z) : option (nat * varinfo) :=
  match chain with
  | [] => None
  | i :: rest =>
    if same_alteration i scale bit_len bit_ref then Some (O, i)
    else match find_alt rest scale bit_len bit_ref with
         | Some (n, j) => Some (S n, j)
         | None => None
         end
  end.

(** The checks that come before an alteration is made: vartable.cc:281-293. *)
Definition alter_checked (i : varinfo) (scale bit_len bit_ref : Z) : res varinfo :=
  if is_numeric (vi_type i) && ((scale <? -16) || (16 <? scale) || (32 <? bit_len)) then Err EConsistency
  else alter_info i scale bit_len bit_ref.

(** Pointers to definitions: the original of an entry, or its n-th alteration in
    order of creation. *)
Inductive ptr : Type := POrig (entry : nat) | PAlt (entry : nat) (n : nat).

Fixpoint update {A} (l : list A) (n : nat) (a : A) : list A :=
  match l, n with
  | [], _ => []
  | _ :: l', O => a :: l'
  | x :: l', S k => x :: update l' k a
  end.

(** VartableBase::query_altered: vartable.cc:268-304: the returned pointer, the
    definition it points to, and the table afterwards. *)
Definition query_altered (t : btable) (code scale bit_len bit_ref : Z) : res (ptr * varinfo * btable) :=
  oi <- query_entry t code ;;
  match oi with
  | None => Err ENotFound
  | Some i =>
    e <- entry_at t i ;;
    match find_alt (be_info e :: be_alts e) scale bit_len bit_ref with
    | Some (O, j) => Ok (POrig i, j, t)
    | Some (S n, j) => Ok (PAlt i (length (be_alts e) - S n), j, t)
    | None =>
      j <- alter_checked (be_info e) scale bit_len bit_ref ;;
      Ok (PAlt i (length (be_alts e)), j, update t i (mkbentry (be_info e) (j :: be_alts e)))
    end
  end.

(** What a pointer points to. *)
Definition lookup (t : btable) (p : ptr) : option varinfo :=
  match p with
  | POrig i => match nth_error t i with Some e => Some (be_info e) | None => None end
  | PAlt i n => match nth_error t i with Some e => nth_error (rev (be_alts e)) n | None => None end
  end.

(** ** Table D *)

Record dentry : Type := mkdentry { de_code : Z; de_begin : nat; de_end : nat }.
Record dtable : Type := mkdtable { dt_codes : list Z; dt_entries : list dentry }.

(** Loader state: dtable.cc:65-69. *)
Record dload : Type := mkdload {
  dl_codes : list Z; dl_entries : list dentry; dl_code : Z; dl_begin : nat; dl_check : Z }.

Definition dl_count (d : dload) : Z := Z.of_nat (length (dl_codes d)) - Z.of_nat (dl_begin d).

(** One line: dtable.cc:71-113. *)
Definition dtable_line (d : dload) (line : list Z) : res dload :=
  if Nat.ltb (length line) 18 then Err EParse
  else
    let c1 := nth 1 line 0 in
    if (c1 =? 68) || (c1 =? 51) then
      if negb (dl_count d =? dl_check d) then Err EParse
      else
        let '(n, next) := c_strtoul (skipn 7 line) in
        let check := u32 n in
        if check <? 1 then Err EParse
        else
          let entries := match dl_codes d with
                         | [] => dl_entries d
                         | _ => dl_entries d ++ [mkdentry (dl_code d) (dl_begin d) (length (dl_codes d))]
                         end in
          code <- varcode_parse (Some (skipn 1 line)) ;;
          first <- varcode_parse (Some (skip_space next)) ;;
          Ok (mkdload (dl_codes d ++ [first]) entries code (length (dl_codes d)) check)
    else if is_prefix (repeat 32 11) line then
      match dl_codes d with
      | [] => Err EParse
      | _ =>
        if dl_count d =? dl_check d then Err EParse
        else
          c <- varcode_parse (Some (skipn 11 line)) ;;
          Ok (mkdload (dl_codes d ++ [c]) (dl_entries d) (dl_code d) (dl_begin d) (dl_check d))
      end
    else Err EParse.

Fixpoint dtable_lines (d : dload) (lines : list (list Z)) : res dload :=
  match lines with
  | [] => Ok d
  | l :: rest => d' <- dtable_line d l ;; dtable_lines d' rest
  end.

(** DTableBase::DTableBase: dtable.cc:57-126. *)
Definition load_dtable (text : list Z) : res dtable :=
  d <- dtable_lines (mkdload [] [] 0 0 0) (file_lines text) ;;
  match dl_codes d with
  | [] => Err EParse
  | _ =>
    if negb (dl_count d =? dl_check d) then Err EParse
    else Ok (mkdtable (dl_codes d) (dl_entries d ++ [mkdentry (dl_code d) (dl_begin d) (length (dl_codes d))]))
  end.

(** DTableBase::query: dtable.cc:136-156. *)
Definition dquery (t : dtable) (code : Z) : res opcodes :=
  oi <- find_code (map de_code (dt_entries t)) code ;;
  match oi with
  | None => Err ENotFound
  | Some i =>
    match nth_error (dt_entries t) i with
    | Some e => Ok (mkops (dt_codes t) (de_begin e) (de_end e))
    | None => UB
    end
  end.

(** ** Per-message tables: tables.cc:79-128 *)

Record localtables : Type := mklocal {
  lt_bitmaps : list (list Z * varinfo);    (* keyed by the bitmap *)
  lt_chardata : list (Z * varinfo);        (* keyed by code *)
  lt_unknown : list (Z * varinfo) }.       (* keyed by bit length *)
Definition empty_local : localtables := mklocal [] [] [].

Fixpoint assoc {K V} (eqb : K -> K -> bool) (k : K) (l : list (K * V)) : option V :=
  match l with
  | [] => None
  | (k', v) :: l' => if eqb k k' then Some v else assoc eqb k l'
  end.

Fixpoint zlist_eqb (a b : list Z) : bool :=
  match a, b with
  | [], [] => true
  | x :: a', y :: b' => (x =? y) && zlist_eqb a' b'
  | _, _ => false
  end.

(** Tables::get_bitmap: tables.cc:79-94. *)
Definition get_bitmap (l : localtables) (code : Z) (bitmap : list Z) : res (varinfo * localtables) :=
  match assoc zlist_eqb bitmap (lt_bitmaps l) with
  | Some i => if negb (vi_code i =? code) then Err EConsistency else Ok (i, l)
  | None =>
    i <- set_string code (Z.of_nat (length bitmap)) ;;
    Ok (i, mklocal ((bitmap, i) :: lt_bitmaps l) (lt_chardata l) (lt_unknown l))
  end.

(** Tables::get_chardata: tables.cc:96-111. *)
Definition get_chardata (l : localtables) (code len : Z) : res (varinfo * localtables) :=
  match assoc Z.eqb code (lt_chardata l) with
  | Some i => if negb (vi_code i =? code) then Err EConsistency else Ok (i, l)
  | None =>
    i <- set_string code len ;;
    Ok (i, mklocal (lt_bitmaps l) ((code, i) :: lt_chardata l) (lt_unknown l))
  end.

(** Tables::get_unknown: tables.cc:113-128. *)
Definition get_unknown (l : localtables) (code bit_len : Z) : res (varinfo * localtables) :=
  match assoc Z.eqb bit_len (lt_unknown l) with
  | Some i => if negb (vi_code i =? code) then Err EConsistency else Ok (i, l)
  | None =>
    i <- set_binary code bit_len ;;
    Ok (i, mklocal (lt_bitmaps l) (lt_chardata l) ((bit_len, i) :: lt_unknown l))
  end.

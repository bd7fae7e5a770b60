(** Whole BUFR messages: sections, headers, bulletins and streams of messages:
    wreport/bulletin.{h,cc} (Bulletin, BufrBulletin), wreport/bufr_encoder.cc (Encoder),
    wreport/bufr/decoder.cc (Decoder), wreport/bufr/input.{h,cc} (sections). *)
From Verif Require Import Base Bits.Model Num.Float Varcode.Model Varinfo.Model Tables.Model
  Var.Model Interp.Model Codec.Model Codec.Compressed.
Local Open Scope Z_scope.

(** ** Bulletins *)

(** Header fields of Bulletin and BufrBulletin: bulletin.h:50-113, 225-251.  The C++ types
    are uint8_t, and uint16_t for centre, subcentre and year. *)
Record header : Type := mkheader {
  h_edition : Z;
  h_master_table : Z;
  h_centre : Z;
  h_subcentre : Z;
  h_update : Z;
  h_category : Z;
  h_subcategory : Z;
  h_local : Z;
  h_version : Z;
  h_version_local : Z;
  h_year : Z;
  h_month : Z;
  h_day : Z;
  h_hour : Z;
  h_minute : Z;
  h_second : Z }.

(** BufrBulletin without its tables (a parameter of the functions below): bulletin.h:24-380. *)
Record bulletin : Type := mkbulletin {
  b_header : header;
  b_optional : list Z;             (* optional_section *)
  b_compression : bool;
  b_datadesc : list Z;
  b_subsets : list (list var) }.

(** Bulletin::obtain_subset: bulletin.cc:75-80; the parameter is an unsigned. *)
Definition grow_subsets (k : nat) (l : list (list var)) : list (list var) := l ++ repeat [] (S k - length l).
Definition obtain_subset (k : nat) (l : list (list var)) : res (list var * list (list var)) :=
  let l' := grow_subsets k l in
  match nth_error l' k with Some s => Ok (s, l') | None => UB end.

(** Bulletin::subset: bulletin.cc:82-88. *)
Definition get_subset (k : nat) (l : list (list var)) : res (list var) :=
  if Nat.leb (length l) k then Err ENotFound
  else match nth_error l k with Some s => Ok s | None => UB end.

(** ** Encoder *)

Definition three (v : Z) : Z * nat := (v, 24%nat).         (* add_bits(v, 24) *)
Definition byte (v : Z) : Z * nat := (u8 v, 8%nat).        (* append_byte *)
Definition short (v : Z) : Z * nat := (u16 v, 16%nat).     (* append_short *)

(** memcpy of 3 bytes of htonl(val), skipping the first, over the output:
    bufr_encoder.cc:364-365 and 402-403. *)
Definition be3 (v : Z) : list Z := [u8 (v / 65536); u8 (v / 256); u8 v].
Definition patch (l : list Z) (pos : nat) (bs : list Z) : list Z :=
  firstn pos l ++ bs ++ skipn (pos + length bs) l.

(** encode_sec1ed3: bufr_encoder.cc:192-234. *)
Definition sec1_ed3 (b : bulletin) : list (Z * nat) :=
  let h := b_header b in
  [ three 18; byte (h_master_table h); byte (h_subcentre h); byte (h_centre h); byte (h_update h);
    byte (match b_optional b with [] => 0 | _ => 128 end);
    byte (h_category h); byte (h_local h); byte (h_version h); byte (h_version_local h);
    byte (if h_year h =? 2000 then 100 else h_year h mod 100);
    byte (h_month h); byte (h_day h); byte (h_hour h); byte (h_minute h); byte (h_year h / 100) ].

(** encode_sec1ed4: bufr_encoder.cc:236-280. *)
Definition sec1_ed4 (b : bulletin) : list (Z * nat) :=
  let h := b_header b in
  [ three 22; byte 0; short (h_centre h); short (h_subcentre h); byte (h_update h);
    byte (match b_optional b with [] => 0 | _ => 128 end);
    byte (h_category h); byte (h_subcategory h); byte (h_local h); byte (h_version h); byte (h_version_local h);
    short (h_year h); byte (h_month h); byte (h_day h); byte (h_hour h); byte (h_minute h); byte (h_second h) ].

(** encode_sec2: bufr_encoder.cc:282-308. *)
Definition encode_sec2 (p : shift_policy) (b : bulletin) (o : bufout) : res bufout :=
  match b_optional b with
  | [] => Ok o
  | opt =>
    let size := Z.of_nat (length opt) in
    let pad := Nat.odd (length opt) in
    o1 <- write_fields p [three (u32 (if pad then 4 + size + 1 else 4 + size)); byte 0] o ;;
    let o2 := raw_append opt o1 in
    if pad then append_byte p 0 o2 else Ok o2
  end.

(** encode_sec3: bufr_encoder.cc:310-338. *)
Definition encode_sec3 (p : shift_policy) (b : bulletin) (o : bufout) : res bufout :=
  if Nat.eqb (length (b_subsets b)) 0 then Err EConsistency
  else if Nat.eqb (length (b_datadesc b)) 0 then Err EConsistency
  else
    write_fields p ([three (u32 (8 + 2 * Z.of_nat (length (b_datadesc b)))); byte 0;
                     short (Z.of_nat (length (b_subsets b))); byte 128]
                    ++ map short (b_datadesc b) ++ [byte 0]) o.

(** encode_sec4: bufr_encoder.cc:340-372. *)
Definition encode_sec4 (p : shift_policy) (opt : options) (T : tables) (fuel : nat) (lt : localtables)
  (b : bulletin) (o : bufout) : res bufout :=
  let sec4 := length (obytes o) in
  o1 <- write_fields p [three 0; byte 0] o ;;
  ' (_, o2) <- encode_subsets p opt T fuel (b_datadesc b) (b_subsets b) lt o1 ;;
  let o3 := flush o2 in
  o4 <- (if Nat.odd (length (obytes o3)) then append_byte p 0 o3 else Ok o3) ;;
  let o5 := flush o4 in
  Ok (mkout (patch (obytes o5) sec4 (be3 (u32 (Z.of_nat (length (obytes o5) - sec4))))) (opbyte o5) (oplen o5)).

(** BufrBulletin::encode: bufr_encoder.cc:376-417, with encode_sec0 (168-175) and
    encode_sec5 (181-189).  [T] and [lt] are the tables of the bulletin. *)
Definition encode (p : shift_policy) (opt : options) (T : tables) (fuel : nat) (lt : localtables)
  (b : bulletin) : res (list Z) :=
  let ed := h_edition (b_header b) in
  o0 <- append_byte p ed (raw_append [66; 85; 70; 82; 0; 0; 0] out_empty) ;;
  o1 <- (if (ed =? 2) || (ed =? 3) then write_fields p (sec1_ed3 b) o0
         else if ed =? 4 then write_fields p (sec1_ed4 b) o0
         else Err EUnimpl) ;;
  o2 <- encode_sec2 p b o1 ;;
  o3 <- encode_sec3 p b o2 ;;
  o4 <- encode_sec4 p opt T fuel lt b o3 ;;
  let o5 := raw_append [55; 55; 55; 55] o4 in
  Ok (patch (obytes o5) 4 (be3 (u32 (Z.of_nat (length (obytes o5)))))).

(** ** Decoder *)

(** Input::scan_section_length: input.cc:40-52.  Returns the start of the next section.  The
    offsets are below 2^27 (at most four 24-bit lengths are added), so that unsigned never
    wraps. *)
Definition section_end_at (d : list Z) (sec : nat) : res nat :=
  if Nat.ltb (length d) (sec + 3) then Err EParse
  else
    n <- read_number d sec 3 ;;
    let next := (sec + Z.to_nat n)%nat in
    if Nat.ltb (length d) next then Err EParse else Ok next.

(** Input::sec. *)
Record sections : Type := mksections { s1 : nat; s2 : nat; s3 : nat; s4 : nat; s5 : nat }.

(** scan_lead_sections, scan_other_sections: input.cc:54-71. *)
Definition scan_sections (d : list Z) (sec2 : nat) (has_optional : bool) : res sections :=
  sec3 <- (if has_optional then section_end_at d sec2 else Ok sec2) ;;
  sec4 <- section_end_at d sec3 ;;
  sec5 <- section_end_at d sec4 ;;
  Ok (mksections 8 sec2 sec3 sec4 sec5).

(** decode_sec1ed3: decoder.cc:28-72.  Also returns the sections and whether section 2 is to
    be read (optional_section_length after its adjustment is not zero). *)
Definition decode_sec1_ed3 (d : list Z) (ed : Z) (sec2 : nat) : res (header * sections * bool) :=
  let at_ k := read_byte d (8 + k) in
  mt <- at_ 3%nat ;; flag <- at_ 7%nat ;;
  se <- scan_sections d sec2 (negb (Z.land flag 128 =? 0)) ;;
  let olen := Z.of_nat (s3 se - s2 se) in
  let olen' := if olen =? 0 then 0 else u32 (olen - 4) in
  sub <- at_ 4%nat ;; centre <- at_ 5%nat ;; upd <- at_ 6%nat ;; ver <- at_ 10%nat ;; loc <- at_ 11%nat ;;
  cat <- at_ 8%nat ;; subcat <- at_ 9%nat ;; yy <- at_ 12%nat ;; mon <- at_ 13%nat ;; day <- at_ 14%nat ;;
  hour <- at_ 15%nat ;; min <- at_ 16%nat ;;
  Ok (mkheader ed mt centre sub upd cat 255 subcat ver loc
        (if 50 <? yy then yy + 1900 else yy + 2000) mon day hour min 0, se, negb (olen' =? 0)).

(** decode_sec1ed4: decoder.cc:74-118. *)
Definition decode_sec1_ed4 (d : list Z) (ed : Z) (sec2 : nat) : res (header * sections * bool) :=
  let at_ k := read_byte d (8 + k) in
  mt <- at_ 3%nat ;; centre <- read_number d (8 + 4) 2 ;; sub <- read_number d (8 + 6) 2 ;;
  upd <- at_ 8%nat ;; flag <- at_ 9%nat ;;
  se <- scan_sections d sec2 (negb (Z.land flag 128 =? 0)) ;;
  let olen := Z.of_nat (s3 se - s2 se) in
  if (0 <? olen) && (olen <? 4) then Err EConsistency
  else
  let olen' := if olen =? 0 then 0 else u32 (olen - 4) in
  cat <- at_ 10%nat ;; subcat <- at_ 11%nat ;; local <- at_ 12%nat ;; ver <- at_ 13%nat ;; loc <- at_ 14%nat ;;
  year <- read_number d (8 + 15) 2 ;; mon <- at_ 17%nat ;; day <- at_ 18%nat ;; hour <- at_ 19%nat ;;
  min <- at_ 20%nat ;; sec <- at_ 21%nat ;;
  Ok (mkheader ed mt centre sub upd cat subcat local ver loc year mon day hour min sec, se, negb (olen' =? 0)).

Fixpoint zlist_is (d : list Z) (pos : nat) (s : list Z) : res bool :=
  match s with
  | [] => Ok true
  | c :: s' => b <- read_byte d pos ;; if b =? c then zlist_is d (Datatypes.S pos) s' else Ok false
  end.

(** Descriptors: decoder.cc:180-182. *)
Fixpoint read_descriptors (d : list Z) (pos n : nat) : res (list Z) :=
  match n with
  | O => Ok []
  | S k => v <- read_number d pos 2 ;; vs <- read_descriptors d (pos + 2) k ;; Ok (v :: vs)
  end.

(** What decode_header leaves: the header of the bulletin, the sections and the number of
    subsets announced. *)
Record lead : Type := mklead {
  l_header : header;
  l_optional : list Z;
  l_compression : bool;
  l_datadesc : list Z;
  l_sections : sections;
  l_expected : Z }.

(** Decoder::decode_header without load_tables: decoder.cc:120-190. *)
Definition decode_lead (d : list Z) : res lead :=
  if Nat.ltb (length d) 8 then Err EParse
  else
  sig <- zlist_is d 0 [66; 85; 70; 82] ;;
  if negb sig then Err EParse
  else
  ed <- read_byte d 7 ;;
  if negb ((ed =? 2) || (ed =? 3) || (ed =? 4)) then Err EParse
  else
  sec2 <- section_end_at d 8 ;;
  if Nat.ltb (length d) (8 + (if ed =? 4 then 22 else 18)) then Err EParse
  else
  ' (h, se, has2) <- (if ed =? 4 then decode_sec1_ed4 d ed sec2 else decode_sec1_ed3 d ed sec2) ;;
  opt <- (if has2 : bool then
            if Nat.ltb (s3 se) (s2 se + 3) then Err EParse
            else
              n <- read_number d (s2 se) 3 ;;
              if Nat.ltb (s3 se) (s2 se + Z.to_nat n) then Err EParse
              else if n <? 4 then Err EConsistency
              else Ok (firstn (Z.to_nat n - 4) (skipn (s2 se + 4) d))
          else Ok []) ;;
  if Nat.ltb (s4 se - s3 se) 7 then Err EConsistency
  else if Nat.ltb (s4 se) (s3 se + 8) then Err EParse
  else
  n <- read_number d (s3 se + 4) 2 ;;
  flags <- read_byte d (s3 se + 6) ;;
  let count := Nat.div (s4 se - s3 se - 7) 2 in
  if Nat.ltb (s4 se) (s3 se + 7 + count * 2) then Err EParse
  else
  descs <- read_descriptors d (s3 se + 7) count ;;
  Ok (mklead h opt (negb (Z.land flags 64 =? 0)) descs se n).

(** What the tables are chosen by: BufrBulletin::load_tables, bulletin.cc:341-344. *)
Record tableid : Type := mktableid {
  t_centre : Z; t_subcentre : Z; t_master_table : Z; t_version : Z; t_version_local : Z }.
Definition tableid_of (h : header) : tableid :=
  mktableid (h_centre h) (h_subcentre h) (h_master_table h) (h_version h) (h_version_local h).

(** Decoder::decode_data: decoder.cc:192-252.  No subsets at all: obtain_subset(expected - 1)
    asks for 2^32 of them (see DESIGN.md). *)
Definition decode_data (opt : options) (T : tables) (skip : bool) (fuel : nat) (d : list Z) (l : lead)
  : res (list (list var) * localtables) :=
  let se := l_sections l in
  let start := mkin d (s4 se + 4) 0 0 in
  if l_expected l =? 0 then Err EAlloc
  else
  let n := Z.to_nat (l_expected l) in
  ' (subsets, lt, _) <-
    (if l_compression l then decode_compressed opt T skip fuel (l_datadesc l) n empty_local start
     else decode_subsets opt T skip fuel (l_datadesc l) n empty_local start) ;;
  if Nat.ltb (length d) (s5 se + 4) then Err EParse
  else
  ok <- zlist_is d (s5 se) [55; 55; 55; 55] ;;
  if negb ok then Err EParse else Ok (subsets, lt).

(** BufrBulletin::decode_header and decode: bulletin.cc:346-380.  [load] stands for
    Tables::load_bufr. *)
Definition decode_header (load : tableid -> res tables) (d : list Z) : res (bulletin * tables) :=
  l <- decode_lead d ;;
  T <- load (tableid_of (l_header l)) ;;
  Ok (mkbulletin (l_header l) (l_optional l) (l_compression l) (l_datadesc l) [], T).

(** Also returns section_end: decoder.cc:246-248. *)
Definition decode (opt : options) (load : tableid -> res tables) (skip : bool) (fuel : nat) (d : list Z)
  : res (bulletin * tables * list nat) :=
  l <- decode_lead d ;;
  T <- load (tableid_of (l_header l)) ;;
  ' (subsets, _) <- decode_data opt T skip fuel d l ;;
  let se := l_sections l in
  Ok (mkbulletin (l_header l) (l_optional l) (l_compression l) (l_datadesc l) subsets, T,
      [s1 se; s2 se; s3 se; s4 se; s5 se; (s5 se + 4)%nat]).

(** ** Streams of messages: bulletin.cc:19-48, 458-514 *)

(** seek_past_signature: what is left of the file after the signature; None at the end of the
    file.  [got] is how much of the signature was seen. *)
Fixpoint seek_signature (sig : list Z) (got : nat) (file : list Z) : option (list Z) :=
  if Nat.leb (length sig) got then Some file
  else
    match file with
    | [] => None
    | c :: rest => if c =? nth got sig 0 then seek_signature sig (S got) rest else seek_signature sig 0 rest
    end.

(** BufrBulletin::read: the message and the rest of the file, or None.  Reading errors of the
    operating system are not modelled; a read that is cut short is an error ([EEof] stands for the
    error_system thrown when section 0 is incomplete). *)
Definition read_message (file : list Z) : res (option (list Z * list Z)) :=
  match seek_signature [66; 85; 70; 82] 0 file with
  | None => Ok None
  | Some rest =>
    match rest with
    | a :: b :: c :: e :: rest' =>
      let len := a * 65536 + b * 256 + c in
      if len <? 12 then Err EConsistency
      else
        let n := Z.to_nat (len - 8) in
        if Nat.ltb (length rest') n then Err EConsistency
        else Ok (Some ([66; 85; 70; 82; a; b; c; e] ++ firstn n rest', skipn n rest'))
    | _ => Err EEof
    end
  end.

(** A client that reads until the end of the file. *)
Fixpoint read_all (fuel : nat) (file : list Z) : res (list (list Z)) :=
  match fuel with
  | O => Err EFuel
  | S k =>
    r <- read_message file ;;
    match r with
    | None => Ok []
    | Some (m, rest) => ms <- read_all k rest ;; Ok (m :: ms)
    end
  end.

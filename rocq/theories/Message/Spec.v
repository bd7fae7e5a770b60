(** Layout of BUFR messages, independently of the encoder and the decoder. *)
From Verif Require Import Base Message.Model.
Local Open Scope Z_scope.

(** The number [v] on [k] bytes, most significant first. *)
Fixpoint be (k : nat) (v : Z) : list Z :=
  match k with
  | O => []
  | S j => (v / 256 ^ Z.of_nat j) mod 256 :: be j v
  end.

(** A section starts with its own length on three bytes. *)
Definition section_ok (s : list Z) : Prop := exists body, s = be 3 (Z.of_nat (length s)) ++ body.

(** A message: indicator with the total length and the edition, the sections, the end
    section. *)
Definition framed (ed : Z) (secs : list (list Z)) (bytes : list Z) : Prop :=
  bytes = [66; 85; 70; 82] ++ be 3 (Z.of_nat (length bytes)) ++ [ed] ++ concat secs ++ [55; 55; 55; 55] /\
  Forall section_ok secs.

(** Ends of the sections, the first one starting at [start]. *)
Fixpoint ends (start : nat) (secs : list (list Z)) : list nat :=
  match secs with
  | [] => []
  | s :: rest => (start + length s)%nat :: ends (start + length s) rest
  end.

(** Header values that the C++ types can hold. *)
Definition in_u8 (v : Z) : Prop := 0 <= v < 256.
Definition in_u16 (v : Z) : Prop := 0 <= v < 65536.
Record header_ok (h : header) : Prop := {
  ok_master_table : in_u8 (h_master_table h);
  ok_centre : in_u16 (h_centre h);
  ok_subcentre : in_u16 (h_subcentre h);
  ok_update : in_u8 (h_update h);
  ok_category : in_u8 (h_category h);
  ok_subcategory : in_u8 (h_subcategory h);
  ok_local : in_u8 (h_local h);
  ok_version : in_u8 (h_version h);
  ok_version_local : in_u8 (h_version_local h);
  ok_year : in_u16 (h_year h);
  ok_month : in_u8 (h_month h);
  ok_day : in_u8 (h_day h);
  ok_hour : in_u8 (h_hour h);
  ok_minute : in_u8 (h_minute h);
  ok_second : in_u8 (h_second h) }.

(** Optional sections have an even length: an odd one gains a NUL. *)
Definition even_padded (s : list Z) : list Z := if Nat.odd (length s) then s ++ [0] else s.

(** A needle occurs in a byte string. *)
Definition occurs (needle s : list Z) : Prop := exists a b, s = a ++ needle ++ b.
Definition ends_with (s tail : list Z) : Prop := exists a, s = a ++ tail.

(** ** The sections, byte by byte (WMO FM 94 BUFR, sections 0 to 5) *)

Definition optional_flag (b : bulletin) : Z := match b_optional b with [] => 0 | _ => 128 end.

(** Editions 2 and 3: the year of the century is 100 for 2000. *)
Definition section1_ed3 (b : bulletin) : list Z :=
  let h := b_header b in
  be 3 18 ++ be 1 (h_master_table h) ++ be 1 (h_subcentre h) ++ be 1 (h_centre h) ++ be 1 (h_update h) ++
  be 1 (optional_flag b) ++ be 1 (h_category h) ++ be 1 (h_local h) ++ be 1 (h_version h) ++ be 1 (h_version_local h) ++
  be 1 (if h_year h =? 2000 then 100 else h_year h mod 100) ++ be 1 (h_month h) ++ be 1 (h_day h) ++
  be 1 (h_hour h) ++ be 1 (h_minute h) ++ be 1 (h_year h / 100).

(** Edition 4; the master table is always 0. *)
Definition section1_ed4 (b : bulletin) : list Z :=
  let h := b_header b in
  be 3 22 ++ be 1 0 ++ be 2 (h_centre h) ++ be 2 (h_subcentre h) ++ be 1 (h_update h) ++ be 1 (optional_flag b) ++
  be 1 (h_category h) ++ be 1 (h_subcategory h) ++ be 1 (h_local h) ++ be 1 (h_version h) ++ be 1 (h_version_local h) ++
  be 2 (h_year h) ++ be 1 (h_month h) ++ be 1 (h_day h) ++ be 1 (h_hour h) ++ be 1 (h_minute h) ++ be 1 (h_second h).

Definition section1 (b : bulletin) : list Z :=
  if h_edition (b_header b) =? 4 then section1_ed4 b else section1_ed3 b.

Definition section2 (b : bulletin) : list Z :=
  match b_optional b with
  | [] => []
  | opt => be 3 (4 + Z.of_nat (length (even_padded opt))) ++ [0] ++ even_padded opt
  end.

Definition section3 (b : bulletin) : list Z :=
  be 3 (8 + 2 * Z.of_nat (length (b_datadesc b))) ++ [0] ++ be 2 (Z.of_nat (length (b_subsets b))) ++ [128] ++
  flat_map (be 2) (b_datadesc b) ++ [0].

Definition section4 (data : list Z) : list Z := be 3 (4 + Z.of_nat (length data)) ++ [0] ++ data.

(** The sections of the encoding of [b] whose data section holds [data]. *)
Definition sections_of (b : bulletin) (data : list Z) : list (list Z) :=
  section1 b :: match b_optional b with [] => [] | _ => [section2 b] end ++ [section3 b; section4 data].

Definition message (b : bulletin) (data : list Z) : list Z :=
  let body := concat (sections_of b data) in
  [66; 85; 70; 82] ++ be 3 (12 + Z.of_nat (length body)) ++ be 1 (h_edition (b_header b)) ++ body ++ [55; 55; 55; 55].

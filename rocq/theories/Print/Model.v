(** Printing of bulletins, subsets and variables, not along the template: Bulletin::print (bulletin.cc:90-116),
    print_details (bulletin.cc:402-408, 564-570), Subset::print (subset.cc:125-132), Var::print (var.cc:771-814). *)
From Coq Require Import String.
From Verif Require Import Base Num.Float Varcode.Model Varinfo.Model Var.Model Var.FormatSpec Var.Format
  Interp.Model Message.Model Crex.Model Listing.Model Structured.Model.
Local Open Scope Z_scope.

(** "%u", "%hu", "%hhu" (width 0), "%02hu", "%04hu" of a number that is not negative. *)
Definition padded (width : nat) (n : Z) : list Z := repeat 48 (width - length (digits n)) ++ digits n.

Section Text.
(** [fixed] is what the C library prints for "%.*f", [full] the description of a definition. *)
Context (fixed : nat -> f64 -> list Z) (full : varinfo -> list Z).

(** "%-.64s": var.cc:774. *)
Definition shown (i : varinfo) : list Z := firstn 64 (full i).

(** ** Bulletins *)

(** The first line: bulletin.cc:92-98. *)
Definition first_line (encoding : string) (category subcategory local centre subcentre year month day hour minute second update : Z) (subsets : nat) : list Z :=
  chars encoding ++ [32] ++ padded 0 category ++ [58] ++ padded 0 subcategory ++ [58] ++ padded 0 local ++ [32] ++
  padded 0 centre ++ [58] ++ padded 0 subcentre ++ [32] ++
  padded 4 year ++ [45] ++ padded 2 month ++ [45] ++ padded 2 day ++ [32] ++
  padded 2 hour ++ [58] ++ padded 2 minute ++ [58] ++ padded 2 second ++ [32] ++
  padded 0 update ++ [32] ++ padded 0 (Z.of_nat subsets) ++ chars " subsets" ++ [10].

(** bulletin.cc:99-101; None is a table that is not loaded. *)
Definition tables_line (b d : option (list Z)) : list Z :=
  let path p := match p with Some t => t | None => chars "(not loaded)" end in
  chars " Tables: " ++ path b ++ [32] ++ path d ++ [10].

(** bulletin.cc:102-104. *)
Definition descriptors_text (ops : list Z) : list Z :=
  chars " Data descriptors:" ++ [10] ++ flat_map (fun c => [32; 32] ++ fxy c ++ [10]) ops.

(** bulletin.cc:404-407. *)
Definition bufr_details (h : header) (compression : bool) (optional : list Z) : list Z :=
  chars " BUFR details: ed" ++ padded 0 (h_edition h) ++ chars " t" ++ padded 0 (h_master_table h) ++ [58] ++ padded 0 (h_version h) ++ [58] ++
  padded 0 (h_version_local h) ++ [32] ++ [if compression then 99 else 45] ++ chars " osl" ++ padded 0 (Z.of_nat (length optional)) ++ [10].

(** bulletin.cc:566-569. *)
Definition crex_details (h : cheader) : list Z :=
  chars " CREX details: ed" ++ padded 0 (ch_edition h) ++ chars " t" ++ padded 0 (ch_mtn h) ++ [58] ++ padded 0 (ch_mtv h) ++ [58] ++
  padded 0 (ch_mtv_local h) ++ [58] ++ padded 0 (ch_mtv_bufr h) ++ [32] ++ [if ch_check h then 67 else 45] ++ [10].

(** bulletin.cc:110-114: the variables from the one with index j. *)
Fixpoint variables_text (i j : nat) (vars : list var) : res (list Z) :=
  match vars with
  | [] => Ok []
  | v :: r =>
    t <- var_text fixed shown v ;; u <- variables_text i (S j) r ;;
    Ok ([32; 32; 91] ++ padded 0 (Z.of_nat i) ++ [93; 91] ++ padded 0 (Z.of_nat j) ++ [93; 32] ++ t ++ u)
  end.
(** bulletin.cc:107-115. *)
Fixpoint subsets_text (i : nat) (subsets : list (list var)) : res (list Z) :=
  match subsets with
  | [] => Ok []
  | vars :: r => t <- variables_text i 0 vars ;; u <- subsets_text (S i) r ;; Ok (t ++ u)
  end.

(** Bulletin::print of a BufrBulletin, with the paths of its tables: bulletin.cc:90-116. *)
Definition print_bufr (btable dtable : option (list Z)) (b : bulletin) : res (list Z) :=
  let h := b_header b in
  t <- subsets_text 0 (b_subsets b) ;;
  Ok (first_line "BUFR" (h_category h) (h_subcategory h) (h_local h) (h_centre h) (h_subcentre h)
        (h_year h) (h_month h) (h_day h) (h_hour h) (h_minute h) (h_second h) (h_update h) (length (b_subsets b)) ++
      tables_line btable dtable ++ descriptors_text (b_datadesc b) ++ bufr_details h (b_compression b) (b_optional b) ++
      chars " Variables:" ++ [10] ++ t).

(** The same of a CrexBulletin.  The decoder of CREX leaves centre, date and update number as they are in a new bulletin
    (bulletin.h:55-88): they are arguments here. *)
Record others : Type := mkothers {
  ot_centre : Z; ot_subcentre : Z; ot_year : Z; ot_month : Z; ot_day : Z; ot_hour : Z; ot_minute : Z; ot_second : Z; ot_update : Z }.
Definition print_crex (btable dtable : option (list Z)) (x : others) (b : cbulletin) : res (list Z) :=
  let h := cb_header b in
  t <- subsets_text 0 (cb_subsets b) ;;
  Ok (first_line "CREX" (ch_category h) (ch_subcategory h) (ch_subcategory_local h) (ot_centre x) (ot_subcentre x)
        (ot_year x) (ot_month x) (ot_day x) (ot_hour x) (ot_minute x) (ot_second x) (ot_update x) (length (cb_subsets b)) ++
      tables_line btable dtable ++ descriptors_text (cb_datadesc b) ++ crex_details h ++
      chars " Variables:" ++ [10] ++ t).

(** ** Subset::print: subset.cc:125-132 *)
Fixpoint print_subset_from (j : nat) (vars : list var) : res (list Z) :=
  match vars with
  | [] => Ok []
  | v :: r => t <- var_text fixed shown v ;; u <- print_subset_from (S j) r ;; Ok (padded 0 (Z.of_nat j) ++ [32] ++ t ++ u)
  end.
Definition print_subset (vars : list var) : res (list Z) := print_subset_from 0 vars.

(** ** Var::print to a stream *)

(** var.cc:783-790. *)
Definition cell_stream (c : cell) : res (list Z) :=
  v <- format fixed c (chars "(undef)") ;;
  Ok (varcode_format (c_code c) ++ [32] ++ full (c_info c) ++ [40] ++ chars (vi_unit (c_info c)) ++ chars "): " ++ v ++ [10]).
(** var.cc:804-814: the indentation of an attribute ends its line. *)
Fixpoint attrs_stream (l : list cell) : res (list Z) :=
  match l with
  | [] => Ok []
  | a :: r => t <- cell_stream a ;; u <- attrs_stream r ;; Ok (repeat 32 11 ++ [10] ++ t ++ u)
  end.
Definition var_stream (v : var) : res (list Z) :=
  t <- cell_stream (v_cell v) ;; u <- attrs_stream (v_attrs v) ;; Ok (t ++ u).
End Text.

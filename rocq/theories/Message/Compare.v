(** Comparison of bulletins of either encoding: Bulletin::diff, BufrBulletin::diff_details and CrexBulletin::diff_details
    (wreport/bulletin.cc). *)
From Coq Require Import String.
From Verif Require Import Base Num.Float Varcode.Model Varinfo.Model Tables.Model Var.Model Subset.Model Message.Model Message.Diff Crex.Model Print.Model.
Local Open Scope Z_scope.

(** A CREX bulletin has the fields of all bulletins (bulletin.h:43-101), among which are those that CREX has no place for,
    and the paths of its tables, if they are loaded. *)
Record csheet : Type := mkcsheet { cs_bulletin : cbulletin; cs_others : others; cs_btable : option string; cs_dtable : option string }.

Inductive any_sheet : Type :=
| BufrSheet (s : sheet)
| CrexSheet (s : csheet).

(** CrexBulletin::diff_details: bulletin.cc:572-610.  Lines 585 and 597 have the same condition: the version of the master table is
    compared twice, and the version of the BUFR master table is not compared. *)
Definition crex_diff_details (g h : cheader) : Z :=
  nez (ch_edition g) (ch_edition h) + nez (ch_mtv g) (ch_mtv h) + nez (ch_mtv_local g) (ch_mtv_local h) +
  nez (ch_mtv g) (ch_mtv h) + differ (negb (Bool.eqb (ch_check g) (ch_check h))).

(** The fields that all bulletins have, in the order of bulletin.cc:163-231. *)
Definition common_fields (s : any_sheet) : list Z :=
  match s with
  | BufrSheet s => let h := b_header (sh_bulletin s) in
    [h_master_table h; h_category h; h_subcategory h; h_local h; h_centre h; h_subcentre h; h_update h; h_year h; h_month h; h_day h; h_hour h;
     h_minute h; h_second h]
  | CrexSheet s => let h := cb_header (cs_bulletin s) in let x := cs_others s in
    [ch_mtn h; ch_category h; ch_subcategory h; ch_subcategory_local h; ot_centre x; ot_subcentre x; ot_update x; ot_year x; ot_month x; ot_day x;
     ot_hour x; ot_minute x; ot_second x]
  end.
Definition btable_of (s : any_sheet) : option string := match s with BufrSheet s => sh_btable s | CrexSheet s => cs_btable s end.
Definition dtable_of (s : any_sheet) : option string := match s with BufrSheet s => sh_dtable s | CrexSheet s => cs_dtable s end.
Definition datadesc_of (s : any_sheet) : list Z := match s with BufrSheet s => b_datadesc (sh_bulletin s) | CrexSheet s => cb_datadesc (cs_bulletin s) end.
Definition subsets_of (s : any_sheet) : list (list var) := match s with BufrSheet s => b_subsets (sh_bulletin s) | CrexSheet s => cb_subsets (cs_bulletin s) end.

(** Bulletin::diff: bulletin.cc:153-297.  The counter is an unsigned: overflow is not modelled. *)
Definition any_diff (s t : any_sheet) : res Z :=
  let n := (match s, t with
            | BufrSheet a, BufrSheet b => diff_details (sh_bulletin a) (sh_bulletin b)
            | CrexSheet a, CrexSheet b => crex_diff_details (cb_header (cs_bulletin a)) (cb_header (cs_bulletin b))
            | _, _ => 1
            end) +
           diff_codes (common_fields s) (common_fields t) +
           diff_path (btable_of s) (btable_of t) + diff_path (dtable_of s) (dtable_of t) +
           (if negb (Nat.eqb (length (datadesc_of s)) (length (datadesc_of t))) then 1
            else diff_codes (datadesc_of s) (datadesc_of t)) in
  m <- (if negb (Nat.eqb (length (subsets_of s)) (length (subsets_of t))) then Ok 1
        else diff_subsets (btable_of s) (btable_of t) (subsets_of s) (subsets_of t)) ;;
  Ok (n + m).

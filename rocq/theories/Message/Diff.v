(** Comparison of bulletins: Bulletin::diff, BufrBulletin::diff_details
    (wreport/bulletin.cc). *)
From Coq Require Import String.
From Verif Require Import Base Num.Float Varcode.Model Varinfo.Model Tables.Model Var.Model Subset.Model Message.Model.
Local Open Scope Z_scope.

(** A bulletin with the paths of its tables, if they are loaded. *)
Record sheet : Type := mksheet { sh_bulletin : bulletin; sh_btable : option string; sh_dtable : option string }.

Definition differ (b : bool) : Z := if b then 1 else 0.
Definition nez (a b : Z) : Z := differ (negb (a =? b)).

Definition diff_path (a b : option string) : Z :=
  match a, b with
  | None, None => 0
  | Some p, Some q => differ (negb (String.eqb p q))
  | _, _ => 1
  end.

(** BufrBulletin::diff_details: bulletin.cc:410-456 (compression is not compared). *)
Definition diff_details (a b : bulletin) : Z :=
  let g := b_header a in let h := b_header b in
  nez (h_edition g) (h_edition h) + nez (h_version g) (h_version h) + nez (h_version_local g) (h_version_local h) +
  differ (negb (Nat.eqb (length (b_optional a)) (length (b_optional b)))) +
  differ (negb (zlist_eqb (b_optional a) (b_optional b))).

(** The header fields, in the order of bulletin.cc:163-231. *)
Definition diff_header (g h : header) : Z :=
  nez (h_master_table g) (h_master_table h) + nez (h_category g) (h_category h) +
  nez (h_subcategory g) (h_subcategory h) + nez (h_local g) (h_local h) + nez (h_centre g) (h_centre h) +
  nez (h_subcentre g) (h_subcentre h) + nez (h_update g) (h_update h) + nez (h_year g) (h_year h) +
  nez (h_month g) (h_month h) + nez (h_day g) (h_day h) + nez (h_hour g) (h_hour h) +
  nez (h_minute g) (h_minute h) + nez (h_second g) (h_second h).

Fixpoint diff_codes (a b : list Z) : Z :=
  match a, b with x :: a', y :: b' => nez x y + diff_codes a' b' | _, _ => 0 end.

(** Subset::diff dereferences the B tables of both subsets. *)
Fixpoint diff_subsets (p q : option string) (a b : list (list var)) : res Z :=
  match a, b with
  | x :: a', y :: b' =>
    match p, q with
    | Some p', Some q' => d <- subset_diff p' q' x y ;; n <- diff_subsets p q a' b' ;; Ok (d + n)
    | _, _ => UB
    end
  | _, _ => Ok 0
  end.

(** Bulletin::diff on two BUFR bulletins: bulletin.cc:153-297.  The counter is an
    unsigned: overflow is not modelled. *)
Definition bulletin_diff (s t : sheet) : res Z :=
  let a := sh_bulletin s in let b := sh_bulletin t in
  let n := diff_details a b + diff_header (b_header a) (b_header b) +
           diff_path (sh_btable s) (sh_btable t) + diff_path (sh_dtable s) (sh_dtable t) +
           (if negb (Nat.eqb (length (b_datadesc a)) (length (b_datadesc b))) then 1
            else diff_codes (b_datadesc a) (b_datadesc b)) in
  m <- (if negb (Nat.eqb (length (b_subsets a)) (length (b_subsets b))) then Ok 1
        else diff_subsets (sh_btable s) (sh_btable t) (b_subsets a) (b_subsets b)) ;;
  Ok (n + m).

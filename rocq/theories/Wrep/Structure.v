(** The action of the command line program that prints messages along their templates: -s. *)
From Coq Require Import String.
From Verif Require Import Base Num.Float Varcode.Model Varinfo.Model Tables.Model Var.Model Interp.Model Message.Model Crex.Model Listing.Model
  Structured.Model Print.Model Wrep.Model.
Local Open Scope Z_scope.

Section Structure.
Context (fixed : nat -> f64 -> list Z) (full : varinfo -> list Z).

(** What comes before the variables: bulletin.cc:121-137, the same as 92-106. *)
Definition bufr_head (btable dtable : option (list Z)) (b : bulletin) : list Z :=
  let h := b_header b in
  first_line "BUFR" (h_category h) (h_subcategory h) (h_local h) (h_centre h) (h_subcentre h)
    (h_year h) (h_month h) (h_day h) (h_hour h) (h_minute h) (h_second h) (h_update h) (length (b_subsets b)) ++
  tables_line btable dtable ++ descriptors_text (b_datadesc b) ++ bufr_details h (b_compression b) (b_optional b) ++
  chars " Variables:" ++ [10].
Definition crex_head (btable dtable : option (list Z)) (x : others) (b : cbulletin) : list Z :=
  let h := cb_header b in
  first_line "CREX" (ch_category h) (ch_subcategory h) (ch_subcategory_local h) (ot_centre x) (ot_subcentre x)
    (ot_year x) (ot_month x) (ot_day x) (ot_hour x) (ot_minute x) (ot_second x) (ot_update x) (length (cb_subsets b)) ++
  tables_line btable dtable ++ descriptors_text (cb_datadesc b) ++ crex_details h ++ chars " Variables:" ++ [10].

(** The text of the entries of the subsets. *)
Fixpoint entries_text (sub : nat) (es : list entry) : res (list Z) :=
  match es with
  | [] => Ok []
  | e :: r => t <- entry_text fixed (shown full) sub e ;; u <- entries_text sub r ;; Ok (t ++ u)
  end.
Fixpoint all_entries_text (sub : nat) (ess : list (list entry)) : res (list Z) :=
  match ess with
  | [] => Ok []
  | es :: r => t <- entries_text sub es ;; u <- all_entries_text (S sub) r ;; Ok (t ++ u)
  end.

(** The variables: bulletin.cc:138-142. *)
Definition structured_text (o : options) (T : tables) (fuel : nat) (ops : list Z) (subsets : list (list var)) (lt : localtables) : res (list Z) :=
  ' (ess, _) <- Structured.Model.print_subsets fixed (shown full) o T fuel ops 0 subsets lt ;; all_entries_text 0 ess.

(** The decoding, with the tables that it leaves: BufrBulletin::decode, CrexBulletin::decode.  [left_by] has the local tables
    that the decoding of a CREX message leaves, [began] what was written of the variables before a failure. *)
Context (opt : options) (load : tableid -> res tables) (skip : bool) (copt : options) (cload : cheader -> res tables) (fuel : nat)
  (bufr_paths : header -> option (list Z) * option (list Z)) (crex_paths : cheader -> option (list Z) * option (list Z)) (x : others)
  (left_by : list Z -> localtables) (began : bool -> list Z -> list Z).

Definition decoded_bufr (d : list Z) : res (bulletin * tables * localtables) :=
  l <- decode_lead d ;;
  T <- load (tableid_of (l_header l)) ;;
  ' (subsets, lt) <- decode_data opt T skip fuel d l ;;
  Ok (mkbulletin (l_header l) (l_optional l) (l_compression l) (l_datadesc l) subsets, T, lt).

(** What is decoded of a message: the text before the variables, the tables, the descriptors, the subsets. *)
Definition decoded (crex : bool) (m : list Z) : res (list Z * options * tables * list Z * list (list var) * localtables) :=
  if crex then
    b <- decode_crex copt cload fuel m ;; T <- cload (cb_header b) ;;
    let (bt, dt) := crex_paths (cb_header b) in
    Ok (crex_head bt dt x b, copt, T, cb_datadesc b, cb_subsets b, left_by m)
  else
    ' (b, T, lt) <- decoded_bufr m ;;
    let (bt, dt) := bufr_paths (b_header b) in
    Ok (bufr_head bt dt b, opt, T, b_datadesc b, b_subsets b, lt).

(** PrintStructure: output.cc:61-70, Bulletin::print_structured: bulletin.cc:118-143. *)
Definition print_structure (crex : bool) (m : list Z) : res (list Z * option err) :=
  g <- guarded (decoded crex m) ;;
  match g with
  | inr e => Ok ([], Some e)
  | inl (head, o, T, ops, subsets, lt) =>
    g <- guarded (structured_text o T fuel ops subsets lt) ;;
    match g with
    | inl t => Ok (head ++ t, None)
    | inr e => Ok (head ++ began crex m, Some e)
    end
  end.
End Structure.

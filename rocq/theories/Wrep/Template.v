(** The actions of the command line program that look at the template of a message: -D and -F. *)
From Coq Require Import String.
From Verif Require Import Base Num.Float Varcode.Model Varinfo.Model Tables.Model Var.Model Interp.Model Message.Model Crex.Model Listing.Model Wrep.Model.
Local Open Scope Z_scope.

Section Template.
(** The loading of the tables, the number of steps that are allowed, the descriptions and the names of the tables, the
    local tables that the decoding of a CREX message leaves, and what was written before a failure. *)
Context (load : tableid -> res tables) (cload : cheader -> res tables) (fuel : nat)
  (describe : tables -> Z -> list Z) (path : tables -> list Z) (left_by : list Z -> localtables) (began : bool -> list Z -> list Z)
  (W : world).

(** BulletinHeadHandler: options.cc:39-66: the tables and the descriptors of a message.  Only the header of a BUFR message
    is decoded; a CREX message is decoded to its end. *)
Definition template_of (crex : bool) (m : list Z) : res (tables * localtables * list Z) :=
  if crex then b <- full_crex W m ;; T <- cload (cb_header b) ;; Ok (T, left_by m, cb_datadesc b)
  else ' (b, T) <- decode_header load m ;; Ok (T, empty_local, b_datadesc b).

(** PrintFeatures: output.cc:123-146. *)
Definition features_of (crex : bool) (m : list Z) : res (list (list Z)) :=
  ' (T, lt, ops) <- template_of crex m ;; scan_features T fuel lt ops.

(** PrintDDS: output.cc:72-82. *)
Definition print_dds (crex : bool) (m : list Z) : res (list Z * option err) :=
  g <- guarded (template_of crex m) ;;
  match g with
  | inr e => Ok ([], Some e)
  | inl (T, lt, ops) =>
    g <- guarded (print_datadesc T (describe T) (path T) fuel lt ops 0) ;;
    match g with
    | inl t => Ok (t, None)
    | inr e => Ok (began crex m, Some e)
    end
  end.
End Template.

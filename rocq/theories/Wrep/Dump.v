(** The default action of the command line program: -d. *)
From Coq Require Import String.
From Verif Require Import Base Num.Float Varinfo.Model Var.Model Interp.Model Message.Model Crex.Model Listing.Model Structured.Model
  Print.Model Wrep.Model.
Local Open Scope Z_scope.

Section Dump.
(** The paths of the tables of a bulletin, and what a new CREX bulletin has in the fields that its decoder leaves alone. *)
Context (fixed : nat -> f64 -> list Z) (full : varinfo -> list Z)
  (bufr_paths : header -> option (list Z) * option (list Z)) (crex_paths : cheader -> option (list Z) * option (list Z))
  (x : others) (W : world).

Definition bulletin_text (b : bulletin) : res (list Z) :=
  let (bt, dt) := bufr_paths (b_header b) in print_bufr fixed full bt dt b.
Definition crex_text (b : cbulletin) : res (list Z) :=
  let (bt, dt) := crex_paths (cb_header b) in print_crex fixed full bt dt x b.

(** PrintContents: output.cc:28-38, called by BulletinFullHandler: options.cc:68-94.  What was
    written before a failure of the printing is left out: bulletins that are decoded are always
    printed (C61_decoded_bufr_is_printed, C61_decoded_crex_is_printed). *)
Definition print_contents (crex : bool) (m : list Z) : res (list Z * option err) :=
  g <- guarded (if crex then b <- full_crex W m ;; crex_text b else b <- full_bufr W m ;; bulletin_text b) ;;
  match g with
  | inl t => Ok (t, None)
  | inr e => Ok ([], Some e)
  end.
End Dump.

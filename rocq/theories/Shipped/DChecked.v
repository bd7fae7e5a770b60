(** The tables D, checked by computation. *)
From Coq Require Import List ZArith.
From Verif Require Import Shipped.Text Shipped.Check Shipped.Spec Shipped.Depths Shipped.Catalog.

Lemma d_checked : forallb (dcheck depth_lists) shipped_d = true.
Proof. vm_cast_no_check (eq_refl true). Qed.

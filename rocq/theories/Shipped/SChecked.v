(** The tables B that cannot be read for CREX, checked by computation. *)
From Coq Require Import List ZArith.
From Verif Require Import Shipped.Text Shipped.Check Shipped.Spec Shipped.Catalog.

Lemma s_checked : forallb scheck shipped_b = true.
Proof. vm_cast_no_check (eq_refl true). Qed.

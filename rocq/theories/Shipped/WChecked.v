(** Tables B and D together, checked by computation. *)
From Coq Require Import List ZArith.
From Verif Require Import Shipped.Text Shipped.Check Shipped.Spec Shipped.Catalog.

Lemma w_checked : forallb (wcheck shipped_b shipped_d) whole_tables = true.
Proof. vm_cast_no_check (eq_refl true). Qed.

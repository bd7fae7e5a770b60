(** C11: what a move by assignment leaves. *)
From Coq Require Import String ZArith List Lia.
Import ListNotations.
From Verif Require Import Base Varcode.Model Varinfo.Model Var.Model Var.Spec Var.Memory Var.MemorySpec Var.MemoryProofs Var.Properties.
Local Open Scope Z_scope.

(** The destination has the value of the source, or none if it has none; if they have the same definition it is the source. *)
Theorem C11_move_assign : forall c src,
  c_val (move_assign c src) = c_val src /\ c_info (move_assign c src) = c_info c /\ (c_info c = c_info src -> move_assign c src = src).
Proof.
  intros [i v] [j w]. unfold move_assign, unset, with_val. cbn [c_val c_info].
  destruct w as [w|]; cbn [c_val c_info]; (split; [reflexivity|]); (split; [reflexivity|]); intros ->; reflexivity.
Qed.
Print Assumptions C11_move_assign.
Example C11_move_assign_example : exists i, block = Ok i /\ move_assign (mkcell i (Some (VInt 5))) (fresh i) = fresh i.
Proof.
  get_info block (fun i => vi_type i) TInteger. exists i. split; [auto|].
  apply (proj2 (proj2 (C11_move_assign _ _))). reflexivity.
Qed.

(** The same on the objects in memory, attributes included; the source is left unset and without attributes, and nothing else changes. *)
Theorem C11_move_assign_memory : forall h fuel a src dc dcs fp sc scs sfp R,
  chain_at h (Some a) (dc :: dcs) fp -> chain_at h (Some src) (sc :: scs) sfp -> own h (fp ++ sfp) R ->
  same_kind (c_info dc) (c_info sc) = true -> (length dcs <= fuel)%nat ->
  exists h' fa fs, m_move_assign fuel a src h = Ok h' /\
    chain_at h' (Some a) (move_assign dc sc :: scs) fa /\ chain_at h' (Some src) [unset sc] fs /\ own h' (fa ++ fs) R /\ frame h h' R.
Proof.
  intros h fuel a src dc dcs fp sc scs sfp R C Cs O K F.
  assert (E : move_assign dc sc = mkcell (c_info dc) (c_val sc)) by (unfold move_assign, unset, with_val; destruct (c_val sc); reflexivity).
  rewrite E. eapply m_move_assign_spec; eauto.
Qed.
Print Assumptions C11_move_assign_memory.

(** Properties that the steps of a template keep. *)
From Coq Require Import ZArith Lia ZifyBool ZifyNat.
From Verif Require Import Base Varcode.Model Varinfo.Model Varinfo.RangeProofs Tables.Model Tables.Spec Tables.AlterProofs Tables.LoadProofs Interp.Model Interp.ExpandProofs.
Local Open Scope Z_scope.

Lemma same_ok {A} (a b : A) : Ok a = Ok b -> a = b.
Proof. congruence. Qed.

(** A property of the states that every step with allowed descriptors keeps. *)
Section Holds.
Context {S : Type} (V : visitor S) (T : tables) (P : istate -> S -> Prop) (allowed : Z -> Prop).
Definition holds {A} (m : res A) (Q : A -> Prop) : Prop := forall a, m = Ok a -> Q a.
Context (HB : forall code st s, allowed code -> P st s -> holds (b_variable V T code (st, s)) (fun y => P (fst y) (snd y))).
Context (HC : forall code next st s, allowed code -> var_f code = 2 -> P st s -> holds (c_modifier V T code next (st, s))
  (fun y => P (snd (fst y)) (snd y) /\ (Forall allowed next -> Forall allowed (fst (fst y))))).
Context (HF : forall i code st s, query (tb_b T) code = Ok i -> P st s -> holds (on_factor V i s) (fun y => P st (snd y))).
Context (HM : forall code delayed ops st s, P st s -> holds (r_bitmap V T code delayed ops (st, s)) (fun y => P (fst y) (snd y))).
Context (HD : forall code body, allowed code -> var_f code = 3 -> dexpand (tb_d T) code = Ok body -> Forall allowed body).

Lemma holds_repeat n f : (forall x, P (fst x) (snd x) -> holds (f x) (fun y : istate * S => P (fst y) (snd y))) ->
  forall x, P (fst x) (snd x) -> holds (repeat_m n f x) (fun y => P (fst y) (snd y)).
Proof.
  intros H. induction n as [|n IH]; intros x Px y E; cbn [repeat_m] in E; [apply same_ok in E; subst; exact Px|].
  inv_bind E. exact (IH _ (H _ Px _ Hb) _ Hk).
Qed.

Lemma run_holds : forall fuel ops x, Forall allowed ops -> P (fst x) (snd x) -> holds (run V T fuel ops x) (fun y => P (fst y) (snd y)).
Proof.
  induction fuel as [|k IH]; intros ops [st s] A Px y E; cbn [run] in E; [discriminate|].
  destruct ops as [|cur rest]; [apply same_ok in E; subst; exact Px|]. cbv zeta in E. cbn [fst snd] in *.
  inversion A as [|? ? A1 A2]; subst.
  destruct (Z.eqb_spec (var_f cur) 0) as [F0|F0]; [inv_bind E; exact (IH _ _ A2 (HB _ _ _ A1 Px _ Hb) _ Hk)|].
  destruct (Z.eqb_spec (var_f cur) 1) as [F1|F1].
  { destruct (delayed_code cur rest) as [delayed rest1] eqn:Ed.
    assert (A3 : Forall allowed rest1).
    { unfold delayed_code in Ed. destruct (var_y cur =? 0); [|congruence]. destruct rest as [|n rest']; [congruence|]. inversion A2; subst.
      destruct ((var_f n =? 0) && (var_x n =? 31)); congruence. }
    destruct (Nat.ltb (length rest1) (Z.to_nat (var_x cur))); [discriminate|].
    rewrite <- (firstn_skipn (Z.to_nat (var_x cur)) rest1) in A3. apply Forall_app in A3 as [A4 A5].
    inv_bind E. refine (IH _ _ A5 _ _ Hk). destruct (is_pending st =? 0); [|exact (HM _ _ _ _ _ Px _ Hb)].
    unfold r_replication in Hb. inv_bind Hb. destruct a0 as [n s1].
    assert (P1 : P st s1).
    { destruct (var_y cur =? 0); [|apply same_ok, (f_equal snd) in Hb0; cbn [snd] in Hb0; subst; exact Px].
      inv_bind Hb0. exact (HF _ _ _ _ Hb Px _ Hk1). }
    exact (holds_repeat _ _ (fun x Hx => IH _ x A4 Hx) (st, s1) P1 _ Hk0). }
  destruct (Z.eqb_spec (var_f cur) 2) as [F2|F2].
  { inv_bind E. destruct a as [[rest' st'] s']. destruct (HC _ _ _ _ A1 F2 Px _ Hb) as [P1 A3]. exact (IH _ (st', s') (A3 A2) P1 _ Hk). }
  inv_bind E. inv_bind Hk. refine (IH _ _ A2 (IH _ (st, s) _ Px _ Hb0) _ Hk0). eapply HD; eauto. pose proof (var_f_range cur). lia.
Qed.
End Holds.


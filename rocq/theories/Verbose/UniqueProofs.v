(** A template and its values have one text. *)
From Coq Require Import ZArith Lia ZifyBool ZifyNat String.
From Verif Require Import Base Bits.Model Num.Float Varcode.Model Varinfo.Model Tables.Model Var.Model Var.FormatSpec Var.Format
  Interp.Model Interp.Spec Interp.Holds Codec.Compressed Listing.Model Listing.Spec Verbose.Model Verbose.Spec.
Local Open Scope Z_scope.

Section Unique.
Context {C : Type} (T : tables) (full : varinfo -> list Z) (shows : C -> list Z -> Prop) (counts : C -> Z -> Prop).
Context (HS : forall v u u', shows v u -> shows v u' -> u = u') (P : C -> Prop) (HC : forall v n n', P v -> counts v n -> counts v n' -> n = n').
Let tolds := told T full shows counts.

Definition fixes (i : nat) (ops : list Z) (vs : list C) (t : list Z) : Prop :=
  Forall P vs -> forall vs' t' r r', tolds i ops vs' t' -> vs ++ r = vs' ++ r' -> vs = vs' /\ t = t'.

Lemma app_split {A} (a b c d : list A) n : Z.of_nat (length a) = n -> Z.of_nat (length c) = n -> a ++ b = c ++ d -> a = c /\ b = d.
Proof.
  intros <-. revert c. induction a as [|x a IH]; intros [|y c] L E; cbn [length app] in *; try discriminate; auto.
  apply (f_equal (@tl A)) in E as E2. cbn [tl] in E2. assert (x = y) by congruence. destruct (IH c) as [-> ->]; [lia|exact E2|]. subst. auto.
Qed.

Lemma parts_fixed i body : forall parts parts' r r', Forall (fun p => fixes i body (fst p) (snd p)) parts ->
  Forall (fun p => tolds i body (fst p) (snd p)) parts' -> length parts = length parts' ->
  Forall P (concat (map fst parts)) -> concat (map fst parts) ++ r = concat (map fst parts') ++ r' -> parts = parts' /\ r = r'.
Proof.
  induction parts as [|[a t] parts IH]; intros [|[a' t'] parts'] r r' F F' L HP E; try discriminate; [auto|].
  inversion_clear F as [|? ? F1 F2]. inversion_clear F' as [|? ? G1 G2]. cbn [map concat fst snd] in *. rewrite <- !app_assoc in E. apply Forall_app in HP as [HP1 HP2].
  destruct (F1 HP1 _ _ _ _ G1 E) as [<- <-]. apply app_inv_head in E. destruct (IH parts' r r' F2 G2) as [<- <-]; [cbn [length] in L; lia|exact HP2|exact E|]. auto.
Qed.

Ltac follow D E := match goal with X : told _ _ _ _ _ _ _ _ |- _ => destruct (D ltac:(assumption) _ _ _ _ X E) as [<- <-] end.
Ltac alike := match goal with A : shows ?v ?a, B : shows ?v ?b |- _ => tryif constr_eq a b then fail else (rewrite (HS _ _ _ A B)) end.

Ltac split_all HP := repeat match type of HP with
  | Forall _ (_ ++ _) => let H := fresh "HP" in apply Forall_app in HP as [H HP]
  | Forall _ (_ :: _) => let H := fresh "HP" in apply Forall_cons_iff in HP as [H HP] end.

Lemma told_fixed : forall i ops vs t, tolds i ops vs t -> fixes i ops vs t.
Proof.
  fix IH 5. intros i ops vs t D.
  assert (IHs : forall j body parts, Forall (fun p => tolds j body (fst p) (snd p)) parts -> Forall (fun p => fixes j body (fst p) (snd p)) parts).
  { intros j body. fix IF 2. intros parts F. destruct F as [|p parts PP F]; constructor; [apply IH; exact PP|apply IF; exact F]. }
  destruct D; intros HP vs' t' r0 r0' D' E; split_all HP.
  - inversion D'; subst. auto.
  - apply IH in D. inversion D'; subst; try congruence.
    cbn [app] in E. assert (v = v0 /\ vs ++ r0 = vs0 ++ r0') as [<- E'] by (split; congruence).
    follow D E'. alike. assert (d = d0) by congruence. subst. auto.
  - apply IH in D. inversion D'; subst; try congruence; try (exfalso; cbn [In] in H0; lia).
    follow D E. auto.
  - apply IH in D. inversion D'; subst; try congruence; try (exfalso; cbn [In] in *; lia).
    cbn [app] in E. assert (v = v0 /\ vs ++ r0 = vs0 ++ r0') as [<- E'] by (split; congruence).
    follow D E'. auto.
  - apply IH in D. inversion D'; subst; try congruence; try (exfalso; cbn [In] in *; lia).
    follow D E. auto.
  - apply IH in D. inversion D'; subst; try congruence; try (exfalso; cbn [In] in *; lia).
    cbn [app] in E. assert (v = v0 /\ vs ++ r0 = vs0 ++ r0') as [<- E'] by (split; congruence).
    follow D E'. alike. auto.
  - apply IH in D1. apply IH in D2. inversion D'; subst; try congruence.
    assert (body0 = body) by congruence. subst body0. rewrite <- !app_assoc in E.
    follow D1 E. apply app_inv_head in E. follow D2 E. auto.
  - apply IH in D. apply IHs in H3. inversion D'; subst; try congruence.
    match goal with X : body0 ++ ops0 = body ++ ops |- _ => symmetry in X; apply (app_split _ _ _ _ (var_x r)) in X as [-> ->]; [|assumption..] end.
    rewrite <- !app_assoc in E. apply (parts_fixed (i + 2) body0) in E as [<- E]; [|assumption|assumption|lia|assumption].
    follow D E. auto.
  - apply IH in D. apply IHs in H5. inversion D'; subst; try congruence.
    + match goal with X : body0 ++ ops0 = body ++ ops |- _ => symmetry in X; apply (app_split _ _ _ _ (var_x r)) in X as [-> ->]; [|assumption..] end.
      cbn [app] in E. assert (v = v0) as <- by congruence. apply (f_equal (@tl C)) in E. cbn [tl] in E. rewrite <- !app_assoc in E.
      assert (Pv : P v) by assumption. match goal with X : counts v (Z.of_nat (length parts0)), Y : counts v (Z.of_nat (length parts)) |- _ => pose proof (HC v _ _ Pv X Y) as HN end.
      apply (parts_fixed (i + 2) body0) in E as [<- E]; [|assumption|assumption|lia|assumption].
      follow D E. auto.
    + exfalso. match goal with X : forall c l, _ -> ~ class31 c |- _ => eapply X; [|eassumption] end. eassumption.
  - apply IH in D. apply IHs in H5. inversion D'; subst; try congruence.
    + exfalso. match goal with X : forall c l, body ++ ops = _ -> ~ class31 c |- _ => eapply X; [|eassumption] end. symmetry. eassumption.
    + match goal with X : body0 ++ ops0 = body ++ ops |- _ => symmetry in X; apply (app_split _ _ _ _ (var_x r)) in X as [-> ->]; [|assumption..] end.
      cbn [app] in E. assert (v = v0) as <- by congruence. apply (f_equal (@tl C)) in E. cbn [tl] in E. rewrite <- !app_assoc in E.
      assert (Pv : P v) by assumption. match goal with X : counts v (Z.of_nat (length parts0)), Y : counts v (Z.of_nat (length parts)) |- _ => pose proof (HC v _ _ Pv X Y) as HN end.
      apply (parts_fixed (i + 2) body0) in E as [<- E]; [|assumption|assumption|lia|assumption].
      follow D E. auto.
Qed.

Theorem told_unique i ops vs t t' : Forall P vs -> tolds i ops vs t -> tolds i ops vs t' -> t = t'.
Proof. intros HP D D'. exact (proj2 (told_fixed _ _ _ _ D HP vs t' [] [] D' eq_refl)). Qed.
End Unique.

Lemma var_shows_one fixed v u u' : var_shows fixed v u -> var_shows fixed v u' -> u = u'.
Proof. unfold var_shows. congruence. Qed.
Lemma var_counts_one v n n' : var_counts v n -> var_counts v n' -> n = n'.
Proof. intros (a & A & ->) (b & B & ->). congruence. Qed.
Lemma column_shows_one fixed col u u' : column_shows fixed col u -> column_shows fixed col u' -> u = u'.
Proof.
  intros D. revert u'. induction D as [|v t col u Hv D IH]; intros u' D'; inversion D'; subst; [reflexivity|].
  rewrite (var_shows_one _ _ _ _ Hv H1). f_equal. f_equal. apply IH. assumption.
Qed.
Lemma column_counts_one col n n' : col <> [] -> column_counts col n -> column_counts col n' -> n = n'.
Proof.
  intros N (c & m & F & E & ->) (c' & m' & F' & E' & ->). destruct col as [|v col]; [contradiction|].
  apply Forall_inv in F. apply Forall_inv in F'. congruence.
Qed.

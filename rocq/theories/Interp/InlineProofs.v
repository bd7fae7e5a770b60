(** Sequences and replications as their inlined content. *)
From Verif Require Import Base Varcode.Model Varinfo.Model Tables.Model Tables.Spec Interp.Model Interp.Spec Interp.ExpandProofs.
Local Open Scope Z_scope.

(** A list that does not start with a replication factor. *)
Definition no_factor_first (l : list Z) : Prop := forall c r, l = c :: r -> ~ class31 c.

Section Inline.
Context (T : tables).

Lemma no_factor_app a b : no_factor_first a -> no_factor_first b -> no_factor_first (a ++ b).
Proof. intros Ha Hb c r E. destruct a as [|x a]; cbn [app] in E; [eapply Hb; eauto|]. injection E as -> _. eapply Ha; eauto. Qed.

Lemma expands_app_both :
  (forall m ops items m1, expands T m ops items m1 ->
     forall rest i2 m2, no_factor_first rest -> expands T m1 rest i2 m2 -> expands T m (ops ++ rest) (items ++ i2) m2) /\
  (forall m n body items m1, repeats T m n body items m1 -> True).
Proof.
  apply expands_mutind with
    (P := fun m ops items m1 _ => forall rest i2 m2, no_factor_first rest -> expands T m1 rest i2 m2 ->
            expands T m (ops ++ rest) (items ++ i2) m2) (P0 := fun _ _ _ _ _ _ => True); auto; intros; cbn [app].
  - apply ex_elem; auto.
  - apply ex_ref; auto.
  - apply ex_op; auto.
  - apply ex_assoc; auto.
  - apply ex_skip; auto.
  - rewrite <- app_assoc. eapply ex_sequence; eauto.
  - rewrite <- !app_assoc. eapply ex_repeat; eauto.
  - rewrite <- !app_assoc. eapply ex_delayed; eauto.
  - rewrite <- !app_assoc. eapply ex_delayed_implicit; eauto. intros c l E. rewrite app_assoc in E.
    destruct (body ++ rest) as [|x y] eqn:B; cbn [app] in E.
    + match goal with N : no_factor_first _ |- _ => eapply N; eauto end.
    + injection E as -> _. match goal with N : forall c l, _ :: _ = c :: l -> _ |- _ => eapply N; eauto end.
  - apply ex_bitmap; auto.
  - apply ex_bitmap_delayed; auto.
Qed.

Lemma expands_app m ops items m1 : expands T m ops items m1 ->
  forall rest i2 m2, no_factor_first rest -> expands T m1 rest i2 m2 -> expands T m (ops ++ rest) (items ++ i2) m2.
Proof. apply (proj1 expands_app_both). Qed.

Lemma repeats_inline n body : no_factor_first body -> forall m items m1 rest i2 m2, repeats T m n body items m1 ->
  no_factor_first rest -> expands T m1 rest i2 m2 -> expands T m (concat (repeat body n) ++ rest) (items ++ i2) m2.
Proof.
  intros Nb. induction n as [|n IH]; intros m items m1 rest i2 m2 R Nr X; inversion R; subst; clear R; cbn [repeat concat app]; auto.
  rewrite <- !app_assoc. eapply expands_app; eauto. apply no_factor_app; auto. clear -Nb. induction n as [|n IH]; cbn [repeat concat].
  - intros c r E. discriminate.
  - apply no_factor_app; auto.
Qed.
End Inline.

Section Run.
Context {S : Type} (V : visitor S) (T : tables).

Theorem sequence_inlined k d body rest x y : var_f d = 3 -> dexpand (tb_d T) d = Ok body -> no_factor_first rest ->
  run V T k (d :: rest) x = Ok y -> exists j, run V T j (body ++ rest) x = Ok y.
Proof.
  intros F D N H. destruct x as [st s], y as [st' s'].
  destruct k as [|k]; [discriminate|]. cbn [run] in H. rewrite F, D in H. cbn [Z.eqb Pos.eqb bind] in H. inv_bind H. destruct a as [st1 s1].
  destruct (run_expands _ _ _ _ _ _ _ _ Hb) as (i1 & X1 & E1). destruct (run_expands _ _ _ _ _ _ _ _ Hk) as (i2 & X2 & E2).
  pose proof (expands_app T _ _ _ _ X1 _ _ _ N X2) as X.
  apply (proj1 (expands_run_both V T) _ _ _ _ X st s st' s' eq_refl). rewrite exec_app, E1. exact E2.
Qed.

Theorem replication_inlined k r body rest st s y : var_f r = 1 -> var_y r <> 0 -> Z.of_nat (length body) = var_x r ->
  is_pending st = 0 -> no_factor_first body -> no_factor_first rest ->
  run V T k (r :: body ++ rest) (st, s) = Ok y ->
  exists j, run V T j (concat (repeat body (Z.to_nat (var_y r))) ++ rest) (st, s) = Ok y.
Proof.
  intros F Y L P Nb Nr H. destruct y as [st' s']. destruct k as [|k]; [discriminate|]. cbn [run] in H. cbv zeta in H.
  rewrite F in H. cbn [Z.eqb Pos.eqb] in H. unfold delayed_code in H. destruct (Z.eqb_spec (var_y r) 0); [contradiction|].
  replace (Z.to_nat (var_x r)) with (length body) in H by lia. rewrite app_length in H.
  destruct (Nat.ltb (length body + length rest) (length body)); [discriminate|]. rewrite firstn_app_exact, skipn_app_exact in H.
  cbn [fst] in H. rewrite P in H. cbn [Z.eqb] in H. inv_bind H. destruct a as [st1 s1]. unfold r_replication in Hb.
  destruct (Z.eqb_spec (var_y r) 0); [contradiction|]. cbn [bind] in Hb.
  destruct (run_expands _ _ _ _ _ _ _ _ Hk) as (i2 & X2 & E2).
  assert (Rep : forall n st s st' s', repeat_m n (run V T k body) (st, s) = Ok (st', s') ->
    exists items, repeats T (mode_of st) n body items (mode_of st') /\ exec V T items (st, s) = Ok (st', s')).
  { clear. induction n as [|n IHn]; intros a b a' b' H; cbn [repeat_m] in H.
    - injection H as <- <-. exists []. split; [constructor|reflexivity].
    - inv_bind H. destruct a0 as [a1 b1]. destruct (run_expands _ _ _ _ _ _ _ _ Hb) as (i1 & X1 & R1).
      destruct (IHn _ _ _ _ Hk) as (i2 & Y2 & Q2). exists (i1 ++ i2). split; [econstructor; eauto|].
      rewrite exec_app, R1. cbn [bind]. exact Q2. }
  destruct (Rep _ _ _ _ _ Hb) as (i1 & X1 & E1).
  pose proof (repeats_inline T _ _ Nb _ _ _ _ _ _ X1 Nr X2) as X.
  apply (proj1 (expands_run_both V T) _ _ _ _ X st s st' s' eq_refl). rewrite exec_app, E1. exact E2.
Qed.
End Run.

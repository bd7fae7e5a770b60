(** Templates without operators: the interpreter only asks for elements and replication factors, with the
    definitions of table B. *)
From Coq Require Import ZArith Lia ZifyBool ZifyNat.
From Verif Require Import Base Varcode.Model Varinfo.Model Tables.Model Interp.Model Interp.Appears Interp.SureProofs Interp.ExpandProofs.
Local Open Scope Z_scope.

Lemma plain_run_inv {S : Type} (V : visitor S) (T : tables) (top : list Z) (Inv : S -> Prop) :
  (forall code, appears T top code -> var_f code <> 2) ->
  (forall code i s s', query (tb_b T) code = Ok i -> Inv s -> on_var V i s = Ok s' -> Inv s') ->
  (forall code i s n s', query (tb_b T) code = Ok i -> Inv s -> on_factor V i s = Ok (n, s') -> Inv s') ->
  forall fuel ops x st' x', Forall (appears T top) ops -> Inv x -> run V T fuel ops (ist_init, x) = Ok (st', x') -> st' = ist_init /\ Inv x'.
Proof.
  intros H2 Hv Hf.
  assert (OI : forall {A} (a b : A), Ok a = Ok b -> a = b) by (intros A a b X; injection X as X; exact X).
  induction fuel as [|k IH]; intros ops x st' x' A Q E; [discriminate|]. destruct ops as [|cur rest]; [apply OI in E; injection E as <- <-; auto|].
  inversion A as [|? ? A1 A2]; subst. cbn [run] in E.
  destruct (Z.eqb_spec (var_f cur) 0) as [F0|F0].
  { inv_bind E. destruct a as [st1 x1]. unfold b_variable in Hb. cbn [is_refbits ist_init Z.eqb negb] in Hb. inv_bind Hb. rename a into i.
    cbn [is_cur ist_init is_afbits Z.eqb negb] in Hk0. rewrite andb_false_r in Hk0. inv_bind Hk0. apply OI in Hk1. injection Hk1 as <- <-.
    assert (Qi : query (tb_b T) cur = Ok i).
    { unfold get_varinfo in Hb0. destruct (query (tb_b T) cur) as [j| |]; cbn [bind] in Hb0; try discriminate. exact Hb0. }
    eapply IH; [exact A2| |exact Hk]. eapply Hv; eauto. }
  destruct (Z.eqb_spec (var_f cur) 1) as [F1|F1].
  { destruct (delayed_code cur rest) as [delayed rest1] eqn:Ed.
    assert (A3 : Forall (appears T top) rest1).
    { unfold delayed_code in Ed. destruct (Z.eqb_spec (var_y cur) 0); [|injection Ed as _ <-; exact A2].
      destruct rest as [|n rest']; [injection Ed as <- <-; auto|]. inversion A2; subst.
      destruct (Z.eqb_spec (var_f n) 0); cbn [andb] in Ed; [|injection Ed as <- <-; auto].
      destruct (var_x n =? 31); injection Ed as <- <-; auto. }
    destruct (Nat.ltb (length rest1) (Z.to_nat (var_x cur))); [discriminate|].
    rewrite <- (firstn_skipn (Z.to_nat (var_x cur)) rest1) in A3. apply Forall_app in A3 as [A4 A5].
    cbn [fst is_pending ist_init Z.eqb] in E. inv_bind E. destruct a as [st1 x1]. unfold r_replication in Hb. inv_bind Hb. destruct a as [count x2].
    assert (Q2 : Inv x2).
    { destruct (Z.eqb_spec (var_y cur) 0) as [Y|Y]; [|apply OI in Hb0; injection Hb0 as <- <-; exact Q].
      inv_bind Hb0. eapply Hf; eauto. }
    assert (R : forall n y st2 y2, Inv y -> repeat_m n (run V T k (firstn (Z.to_nat (var_x cur)) rest1)) (ist_init, y) = Ok (st2, y2) -> st2 = ist_init /\ Inv y2).
    { induction n as [|n IHn]; intros y st2 y2 Qy Ey; cbn [repeat_m] in Ey; [apply OI in Ey; injection Ey as <- <-; auto|].
      inv_bind Ey. destruct a as [st3 y3]. match goal with H : run _ _ _ _ (ist_init, y) = Ok _ |- _ => destruct (IH _ _ _ _ A4 Qy H) as [-> Q3] end. eapply IHn; eauto. }
    destruct (R _ _ _ _ Q2 Hk0) as [-> Q1]. eapply IH; [exact A5|exact Q1|exact Hk]. }
  destruct (Z.eqb_spec (var_f cur) 2) as [F2|F2]; [destruct (H2 cur A1 F2)|].
  inv_bind E. inv_bind Hk. destruct a0 as [st1 x1]. destruct (IH _ _ _ _ (appears_inside T top cur a A1 ltac:(pose proof (Interp.ExpandProofs.var_f_range cur); lia) Hb) Q Hb0) as [-> Q1].
  eapply IH; [exact A2|exact Q1|exact Hk0].
Qed.

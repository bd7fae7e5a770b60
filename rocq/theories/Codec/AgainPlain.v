(** C48 for templates without operators: only texts matter. *)
From Coq Require Import ZArith Lia ZifyBool ZifyNat.
From Verif Require Import Base Bits.Model Bits.StringProofs Num.Float Varcode.Model Varinfo.Model Tables.Model Var.Model Interp.Model Interp.Appears Interp.SureProofs
  Codec.Model Codec.ColumnProofs Codec.Again Codec.AgainProofs Codec.AgainSteps.
From Verif Require Interp.ExpandProofs.
Local Open Scope Z_scope.

(** Texts that are not altered when they are written again: not empty, no blanks at the end (one blank
    stands for a field of blanks). *)
Definition tidy (v : var) : Prop :=
  match c_val (v_cell v) with
  | Some (VStr s) => s <> [] /\ (last_is_blank s = false \/ s = [32])
  | _ => True
  end.

(** No operators; the elements have definitions of which all values have a representation.  The
    library takes B31012 for a replication factor that is not there. *)
Definition plain_template (T : tables) (ops : list Z) : Prop :=
  (forall code, appears T ops code -> var_f code <> 2) /\
  (forall code i, code = var_B31012 \/ (appears T ops code /\ var_f code = 0) -> query (tb_b T) code = Ok i -> roomy i /\ vi_type i <> TBinary).

Section Plain.
Context (o : options) (T : tables) (skip : bool) (top : list Z).
Context (HT : plain_template T top).

Definition simple (x : recording) : Prop :=
  Forall (fun r => exists pos i v, r = RField pos i /\ roomy i /\ vi_type i <> TBinary /\ nth_error (d_vars (fst x)) pos = Some v) (snd x).

Lemma simple_push i s l c inp : roomy i /\ vi_type i <> TBinary -> simple (s, l) -> simple (d_store c inp s, l ++ [RField (length (d_vars s)) i]).
Proof.
  intros [K1 K2] Q. unfold simple, d_store in *. cbn [fst snd d_vars] in *. apply Forall_app. split.
  - eapply Forall_impl; [|exact Q]. cbv beta. intros r (pos & j & v & E & J1 & J2 & N). exists pos, j, v. repeat (split; [assumption|]). apply nth_snoc_before. exact N.
  - constructor; [|constructor]. exists (length (d_vars s)), i, (mkvar c []). split; [reflexivity|]. split; [exact K1|]. split; [exact K2|]. apply nth_snoc_last.
Qed.

Lemma plain_run : forall fuel ops x st' x', Forall (appears T top) ops -> simple x ->
  run (recorder o T skip) T fuel ops (ist_init, x) = Ok (st', x') -> st' = ist_init /\ simple x'.
Proof.
  destruct HT as [H2 H0].
  induction fuel as [|k IH]; intros ops x st' x' A Q E; [discriminate|]. destruct ops as [|cur rest]; [apply ok_inj in E; injection E as <- <-; auto|].
  inversion A as [|? ? A1 A2]; subst. cbn [run] in E.
  destruct (Z.eqb_spec (var_f cur) 0) as [F0|F0].
  { inv_bind E. destruct a as [st1 x1]. unfold b_variable in Hb. cbn [is_refbits ist_init Z.eqb negb] in Hb. inv_bind Hb. rename a into i.
    cbn [is_cur ist_init is_afbits Z.eqb negb] in Hk0. rewrite andb_false_r in Hk0. inv_bind Hk0. apply ok_inj in Hk1. injection Hk1 as <- <-.
    assert (Qi : query (tb_b T) cur = Ok i).
    { unfold get_varinfo in Hb0. destruct (query (tb_b T) cur) as [j| |]; cbn [bind] in Hb0; try discriminate. exact Hb0. }
    destruct x as [s l]. cbn [on_var recorder] in Hb. apply note_inv in Hb as (s' & Hb & ->). unfold d_var in Hb. inv_bind Hb. destruct a as [c inp]. apply ok_inj in Hk0. subst s'.
    eapply IH; [exact A2| |exact Hk]. apply simple_push; [|exact Q]. apply (H0 cur); auto. }
  destruct (Z.eqb_spec (var_f cur) 1) as [F1|F1].
  { destruct (delayed_code cur rest) as [delayed rest1] eqn:Ed.
    assert (A3 : Forall (appears T top) rest1 /\ (var_y cur = 0 -> delayed = var_B31012 \/ (appears T top delayed /\ var_f delayed = 0))).
    { unfold delayed_code in Ed. destruct (Z.eqb_spec (var_y cur) 0); [|injection Ed as _ <-; split; [exact A2|intros; contradiction]].
      destruct rest as [|n rest']; [injection Ed as <- <-; auto|]. inversion A2; subst.
      destruct (Z.eqb_spec (var_f n) 0); cbn [andb] in Ed; [|injection Ed as <- <-; auto].
      destruct (var_x n =? 31); injection Ed as <- <-; auto. }
    destruct A3 as [A3 Ad].
    destruct (Nat.ltb (length rest1) (Z.to_nat (var_x cur))); [discriminate|].
    rewrite <- (firstn_skipn (Z.to_nat (var_x cur)) rest1) in A3. apply Forall_app in A3 as [A4 A5].
    cbn [fst is_pending ist_init Z.eqb] in E. inv_bind E. destruct a as [st1 x1]. unfold r_replication in Hb. inv_bind Hb. destruct a as [count x2].
    assert (Q2 : simple x2).
    { destruct (Z.eqb_spec (var_y cur) 0) as [Y|Y]; [|apply ok_inj in Hb0; injection Hb0 as <- <-; exact Q].
      inv_bind Hb0. rename a into i. destruct x as [s l]. cbn [on_factor recorder] in Hk1. apply note_with_inv in Hk1 as (s' & Hk1 & ->). unfold d_factor in Hk1. inv_bind Hk1. destruct a as [c inp]. inv_bind Hk2.
      apply ok_inj in Hk1. injection Hk1 as <- <-. apply simple_push; [|exact Q]. apply (H0 delayed); auto. }
    assert (R : forall n y st2 y2, simple y -> repeat_m n (run (recorder o T skip) T k (firstn (Z.to_nat (var_x cur)) rest1)) (ist_init, y) = Ok (st2, y2) -> st2 = ist_init /\ simple y2).
    { induction n as [|n IHn]; intros y st2 y2 Qy Ey; cbn [repeat_m] in Ey; [apply ok_inj in Ey; injection Ey as <- <-; auto|].
      inv_bind Ey. destruct a as [st3 y3]. match goal with H : run _ _ _ _ (ist_init, y) = Ok _ |- _ => destruct (IH _ _ _ _ A4 Qy H) as [-> Q3] end. eapply IHn; eauto. }
    destruct (R _ _ _ _ Q2 Hk0) as [-> Q1]. eapply IH; [exact A5|exact Q1|exact Hk]. }
  destruct (Z.eqb_spec (var_f cur) 2) as [F2|F2]; [destruct (H2 cur A1 F2)|].
  inv_bind E. inv_bind Hk. destruct a0 as [st1 x1]. destruct (IH _ _ _ _ (appears_inside T top cur a A1 ltac:(pose proof (Interp.ExpandProofs.var_f_range cur); lia) Hb) Q Hb0) as [-> Q1].
  eapply IH; [exact A2|exact Q1|exact Hk0].
Qed.

Lemma simple_faithful s l : simple (s, l) -> Forall tidy (d_vars s) -> faithful X86 T (d_vars s) l.
Proof.
  intros Q F. unfold simple in Q. cbn [fst snd] in Q. split.
  - assert (K : keys l = []); [|rewrite K; constructor]. induction Q as [|r l (pos & i & v & -> & _) Q IH]; [reflexivity|]. exact IH.
  - eapply Forall_impl; [|exact Q]. cbv beta. intros r (pos & i & v & -> & R & B & N). split; [exact R|]. intros w Nw. rewrite Forall_forall in F. pose proof (F w (nth_error_In _ _ Nw)) as Tw.
    unfold tidy in Tw. unfold neat. destruct (c_val (v_cell w)) as [[n|t|b]|]; auto. destruct (vi_type i); auto. contradiction.
Qed.

Lemma plain_subsets fuel : forall n lt inp subs lt' inp', record_subsets o T skip fuel top n lt inp = Ok (subs, lt', inp') ->
  Forall (Forall tidy) (map fst subs) -> Forall (fun q => faithful X86 T (fst q) (snd q)) subs.
Proof.
  induction n as [|n IH]; intros lt inp subs lt' inp' E F; cbn [record_subsets] in E.
  - apply ok_inj in E. injection E as <- <- <-. constructor.
  - inv_bind E. destruct a as [st [s l]]. inv_bind Hk. destruct a as [[rest lt2] inp2]. apply ok_inj in Hk0. injection Hk0 as <- <- <-. cbn [fst snd map] in *.
    inversion F as [|? ? F1 F2]; subst. constructor; [|eapply IH; eauto]. cbn [fst snd].
    apply simple_faithful; [|exact F1]. eapply plain_run; [apply appears_here| |exact Hb]. constructor.
Qed.
End Plain.

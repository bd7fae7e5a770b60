(** C48 for compressed data and templates without operators: only texts and the elements of class 31 matter. *)
From Coq Require Import ZArith Lia ZifyBool ZifyNat.
From Verif Require Import Base Bits.Model Bits.StringProofs Num.Float Varcode.Model Varinfo.Model Varinfo.RangeProofs Tables.Model Tables.LoadProofs Var.Model Var.Spec Interp.Model Interp.Appears Interp.SureProofs
  Codec.Model Codec.Compressed Codec.Spec Codec.ColumnProofs Codec.Again Codec.AgainProofs Codec.AgainSteps Codec.AgainPlain Codec.AgainComp Codec.AgainCompValue Codec.AgainCompSteps
  Codec.AgainCompProperties.
From Verif Require Interp.ExpandProofs.
Local Open Scope Z_scope.

(** Variables of class 31, and those of ten digits or more, hold a number of their field. *)
Definition settled (v : var) : Prop :=
  var_x (vi_code (c_info (v_cell v))) = 31 \/ 10 <= vi_len (c_info (v_cell v)) -> inside (c_info (v_cell v)) (c_val (v_cell v)).

Section Plain.
Context (o : options) (HO : strict_options o) (T : tables) (skip : bool) (top : list Z).
Context (HB : table_ok (tb_b T)) (HT : plain_template T top).

Definition csimple (x : comp_recording) : Prop :=
  (exists n, forall vars, In vars (k_subs (fst x)) -> length vars = n) /\
  Forall (fun r => exists pos i, r = RField pos i /\ roomy i /\ vi_type i <> TBinary /\
    forall vars, In vars (k_subs (fst x)) -> exists v, nth_error vars pos = Some v /\ c_info (v_cell v) = i) (snd x).

Lemma csimple_push i s l cs inp : roomy i /\ vi_type i <> TBinary -> Forall (fun c => c_info c = i) cs -> csimple (s, l) ->
  csimple (k_push cs inp s, l ++ [RField (comp_pos (s, l)) i]).
Proof.
  intros [K1 K2] Ci [(n & U) Q]. unfold csimple, k_push. cbn [fst snd k_subs] in *.
  assert (P : forall vars, In vars (push_all (k_subs s) (map (fun c => mkvar c []) cs)) -> exists a c, In a (k_subs s) /\ vars = a ++ [mkvar c []] /\ c_info c = i).
  { intros vars A. apply push_in in A as (a & v & A1 & A2 & ->). apply in_map_iff in A2 as (c & <- & A2). exists a, c. rewrite Forall_forall in Ci. auto. }
  split.
  { exists (S n). intros vars A. apply P in A as (a & c & A1 & -> & _). rewrite app_length, (U _ A1). cbn [length]. lia. }
  apply Forall_app. split.
  - eapply Forall_impl; [|exact Q]. cbv beta. intros r (pos & j & E & J1 & J2 & N). exists pos, j. repeat (split; [assumption|]).
    intros vars A. apply P in A as (a & c & A1 & -> & _). destruct (N _ A1) as (v & Nv & Iv). exists v. split; [|exact Iv]. apply nth_snoc_before. exact Nv.
  - constructor; [|constructor]. exists (comp_pos (s, l)), i. split; [reflexivity|]. split; [exact K1|]. split; [exact K2|].
    intros vars A. apply P in A as (a & c & A1 & -> & Ic). exists (mkvar c []). split; [|exact Ic].
    replace (comp_pos (s, l)) with (length a); [apply nth_snoc_last|]. rewrite (U _ A1). unfold comp_pos. cbn [fst].
    destruct (k_subs s) as [|h t]; [destruct A1|]. symmetry. apply U. left. reflexivity.
Qed.

Lemma read_info p i cs : Forall (reads p i) cs -> Forall (fun c => c_info c = i) cs.
Proof. intros F. eapply Forall_impl; [|exact F]. intros c R. apply R. Qed.

Lemma comp_plain_run : forall fuel ops x st' x', Forall (appears T top) ops -> csimple x ->
  run (comp_recorder o T skip) T fuel ops (ist_init, x) = Ok (st', x') -> st' = ist_init /\ csimple x'.
Proof.
  destruct HT as [H2 H0].
  induction fuel as [|k IH]; intros ops x st' x' A Q E; [discriminate|]. destruct ops as [|cur rest]; [apply ok_inj in E; injection E as <- <-; auto|].
  inversion A as [|? ? A1 A2]; subst. cbn [run] in E.
  destruct (Z.eqb_spec (var_f cur) 0) as [F0|F0].
  { inv_bind E. destruct a as [st1 x1]. unfold b_variable in Hb. cbn [is_refbits ist_init Z.eqb negb] in Hb. inv_bind Hb. rename a into i.
    cbn [is_cur ist_init is_afbits Z.eqb negb] in Hk0. rewrite andb_false_r in Hk0. inv_bind Hk0. apply ok_inj in Hk1. injection Hk1 as <- <-.
    assert (Qi : query (tb_b T) cur = Ok i).
    { unfold get_varinfo in Hb0. destruct (query (tb_b T) cur) as [j| |]; cbn [bind] in Hb0; try discriminate. exact Hb0. }
    destruct x as [s l]. cbn [on_var comp_recorder] in Hb. apply comp_note_inv in Hb as (s' & Hb & ->). cbn [fst snd] in *. unfold k_var in Hb. inv_bind Hb. destruct a as [cs inp]. apply ok_inj in Hk0. subst s'.
    eapply IH; [exact A2| |exact Hk]. apply csimple_push; [|eapply (read_info X86), (proj1 (values_reads o HO X86 i _ _ _ _ (HB _ _ Qi) Hb1))|exact Q]. apply (H0 cur); auto. }
  destruct (Z.eqb_spec (var_f cur) 1) as [F1|F1].
  { destruct (delayed_code cur rest) as [delayed rest1] eqn:Ed.
    assert (A3 : Forall (appears T top) rest1 /\ (var_y cur = 0 -> delayed = var_B31012 \/ (appears T top delayed /\ var_f delayed = 0))).
    { unfold delayed_code in Ed. destruct (Z.eqb_spec (var_y cur) 0); [|injection Ed as _ <-; split; [exact A2|intros; contradiction]].
      destruct rest as [|n rest']; [injection Ed as <- <-; auto|]. inversion A2; subst.
      destruct (Z.eqb_spec (var_f n) 0); cbn [andb] in Ed; [|injection Ed as <- <-; auto].
      destruct (var_x n =? 31); injection Ed as <- <-; auto. }
    destruct A3 as [A3 Ad].
    destruct (Nat.ltb (length rest1) (Z.to_nat (var_x cur))); [discriminate|].
    rewrite <- (firstn_skipn (Z.to_nat (var_x cur)) rest1) in A3. apply Forall_app in A3 as [A4 A5].
    cbn [fst is_pending ist_init Z.eqb] in E. inv_bind E. destruct a as [st1 x1]. unfold r_replication in Hb. inv_bind Hb. destruct a as [count x2].
    assert (Q2 : csimple x2).
    { destruct (Z.eqb_spec (var_y cur) 0) as [Y|Y]; [|apply ok_inj in Hb0; injection Hb0 as <- <-; exact Q].
      inv_bind Hb0. rename a into i. destruct x as [s l]. cbn [on_factor comp_recorder] in Hk1. apply comp_note_with_inv in Hk1 as (s' & Hk1 & ->). cbn [fst snd] in *. unfold k_factor in Hk1. inv_bind Hk1. destruct a as [c inp]. inv_bind Hk2.
      apply ok_inj in Hk1. injection Hk1 as <- <-. apply csimple_push; [apply (H0 delayed); auto| |exact Q].
      match goal with Hq : query _ _ = Ok i, Hu : comp_uniform _ i _ _ = Ok _ |- _ => exact (read_info X86 i _ (proj1 (repeat_reads X86 i c (ksize s) (uniform_reads o HO X86 i _ _ _ _ (HB _ _ Hq) Hu)))) end. }
    assert (R : forall n y st2 y2, csimple y -> repeat_m n (run (comp_recorder o T skip) T k (firstn (Z.to_nat (var_x cur)) rest1)) (ist_init, y) = Ok (st2, y2) -> st2 = ist_init /\ csimple y2).
    { induction n as [|n IHn]; intros y st2 y2 Qy Ey; cbn [repeat_m] in Ey; [apply ok_inj in Ey; injection Ey as <- <-; auto|].
      inv_bind Ey. destruct a as [st3 y3]. match goal with H : run _ _ _ _ (ist_init, y) = Ok _ |- _ => destruct (IH _ _ _ _ A4 Qy H) as [-> Q3] end. eapply IHn; eauto. }
    destruct (R _ _ _ _ Q2 Hk0) as [-> Q1]. eapply IH; [exact A5|exact Q1|exact Hk]. }
  destruct (Z.eqb_spec (var_f cur) 2) as [F2|F2]; [destruct (H2 cur A1 F2)|].
  inv_bind E. inv_bind Hk. destruct a0 as [st1 x1]. destruct (IH _ _ _ _ (appears_inside T top cur a A1 ltac:(pose proof (Interp.ExpandProofs.var_f_range cur); lia) Hb) Q Hb0) as [-> Q1].
  eapply IH; [exact A2|exact Q1|exact Hk0].
Qed.

Lemma csimple_faithful s l vars : csimple (s, l) -> In vars (k_subs s) -> Forall (fun v => cell_ok (v_cell v) /\ tidy v /\ settled v) vars -> comp_faithful X86 vars l.
Proof.
  intros [_ Q] A F. cbn [fst snd] in Q. split.
  - assert (K : keys l = []); [|rewrite K; constructor]. induction Q as [|r l (pos & i & -> & _) Q IH]; [reflexivity|]. exact IH.
  - eapply Forall_impl; [|exact Q]. cbv beta. intros r (pos & i & -> & R & B & N). split; [exact R|]. intros w Nw. rewrite Forall_forall in F. destruct (F w (nth_error_In _ _ Nw)) as (Cw & Tw & Sw).
    destruct (N _ A) as (v & Nv & Iv). assert (v = w) by congruence. subst v. split.
    + unfold tidy in Tw. unfold neat. destruct (c_val (v_cell w)) as [[n|t|b]|]; auto. destruct (vi_type i); auto. contradiction.
    + unfold settled in Sw. rewrite Iv in Sw. destruct (Z.eqb_spec (var_x (vi_code i)) 31) as [X|X]; [apply Sw; auto|]. destruct (Z.leb_spec 10 (vi_len i)) as [Y|Y]; [apply Sw; auto|].
      apply C48_inside_outside_class_31; auto. unfold roomy in R. destruct (vi_type i); [lia|lia|lia|contradiction].
Qed.

Lemma comp_plain fuel n lt inp gots reqs lt' inp' : record_compressed o T skip fuel top n lt inp = Ok (gots, reqs, lt', inp') ->
  Forall (Forall (fun v => cell_ok (v_cell v) /\ tidy v /\ settled v)) gots -> Forall (fun vars => comp_faithful X86 vars reqs) gots.
Proof.
  intros E F. unfold record_compressed in E. inv_bind E. destruct a as [st [s l]]. apply ok_inj in Hk. injection Hk as <- <- <- <-. cbn [fst snd] in *.
  assert (Q : csimple (s, l)).
  { eapply comp_plain_run; [apply appears_here| |exact Hb]. split; [|constructor]. exists 0%nat. intros vars A. cbn [fst k_subs] in A. apply repeat_spec in A. subst. reflexivity. }
  apply Forall_forall. intros vars A. rewrite Forall_forall in F. eapply csimple_faithful; eauto.
Qed.
End Plain.

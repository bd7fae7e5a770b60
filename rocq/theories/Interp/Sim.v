(** Three runs of the interpreter over the same template, in lock step: a reference
    run [A], a run [E] that emits elements and a run [D] that consumes what [E]
    emitted.  If the callbacks agree, so do whole runs. *)
From Verif Require Import Base Varcode.Model Varinfo.Model Tables.Model Tables.Spec Interp.Model.
Local Open Scope Z_scope.

(** The widths that operators leave in the state. *)
Definition ist_ok (st : istate) : Prop := 0 <= is_afbits st <= 32 /\ 0 <= is_refbits st < 255.

Lemma ist_ok_init : ist_ok ist_init.
Proof. unfold ist_ok; cbn; lia. Qed.

Section Keep.
Context {S : Type} (V : visitor S) (T : tables).

Lemma bitmaps_next_ok st p st' : bitmaps_next st = Ok (p, st') -> ist_ok st -> ist_ok st'.
Proof.
  unfold bitmaps_next. destruct (is_cur st) as [b|]; [|discriminate]. destruct (bm_rest b) as [|q r]; [discriminate|].
  intros E H. injection E as _ <-. destruct r; exact H.
Qed.

Lemma b_variable_keeps code st s st' s' : b_variable V T code (st, s) = Ok (st', s') -> ist_ok st -> ist_ok st'.
Proof.
  unfold b_variable. destruct (negb (is_refbits st =? 0)).
  - intros E H. inv_bind E. destruct a. injection Hk as <- _. exact H.
  - intros E H. inv_bind E. revert Hk.
    destruct ((var_f code =? 0) && (var_x code =? 33) && match is_cur st with Some _ => true | None => false end).
    + intros Hk. inv_bind Hk. destruct a0 as [pos st1]. inv_bind Hk0. injection Hk as <- _.
      eapply bitmaps_next_ok; eauto.
    + destruct (negb (is_afbits st =? 0)); intros Hk; inv_bind Hk; injection Hk0 as <- _; auto.
Qed.

Lemma c_modifier_keeps code next st s next' st' s' :
  c_modifier V T code next (st, s) = Ok (next', st', s') -> ist_ok st -> ist_ok st'.
Proof.
  assert (Y : 0 <= var_y code < 256) by (unfold var_y; change 255 with (Z.ones 8); rewrite Z.land_ones by lia; apply (Z.mod_pos_bound code (2 ^ 8)); lia).
  unfold c_modifier. cbv zeta.
  Local Ltac done := let E := fresh in let H := fresh in
    intros E H; injection E; intros; subst; first [exact H | unfold ist_ok in *; cbn; lia].
  destruct (var_x code =? 1); [done|]. destruct (var_x code =? 2); [done|].
  destruct (var_x code =? 3). { destruct (Z.eqb_spec (var_y code) 255); done. }
  destruct (var_x code =? 4).
  { destruct (negb (var_y code =? 0) && negb (is_afbits st =? 0)); [discriminate|].
    destruct (Z.ltb_spec 32 (var_y code)); [discriminate|].
    destruct (var_y code =? 0); [done|].
    destruct (pop_left next) as [[c nx]|e|]; cbn [bind]; try discriminate.
    destruct (negb (c =? var_B31021)); [discriminate|].
    intros E I. inv_bind E. inv_bind Hk. destruct a0. revert Hk0 I. done. }
  destruct (var_x code =? 5). { intros E I. inv_bind E. revert Hk I. done. }
  destruct (var_x code =? 6).
  { destruct (pop_left next) as [[c nx]|e|]; cbn [bind]; try discriminate.
    destruct (var_y code =? 0); [done|]. intros E I. inv_bind E. inv_bind Hk. inv_bind Hk0. destruct a1.
    inv_bind Hk. revert Hk0 I. done. }
  destruct (var_x code =? 7); [done|]. destruct (var_x code =? 8); [done|].
  destruct (var_x code =? 22). { destruct (negb (var_y code =? 0)); [discriminate|done]. }
  destruct (var_x code =? 23).
  { destruct (var_y code =? 0); [done|]. destruct (var_y code =? 255); [|discriminate].
    intros E I. inv_bind E. destruct a as [pos st1]. inv_bind Hk. apply bitmaps_next_ok in Hb; auto.
    injection Hk0; intros; subst; auto. }
  destruct (var_x code =? 37).
  { destruct (var_y code =? 0); [done|]. destruct (var_y code =? 255); [done|discriminate]. }
  done.
Qed.

Lemma r_bitmap_keeps code delayed ops st s st' s' :
  r_bitmap V T code delayed ops (st, s) = Ok (st', s') -> ist_ok st -> ist_ok st'.
Proof.
  unfold r_bitmap. destruct (negb (var_x code =? 1)); [discriminate|].
  destruct (negb (hd 0 ops =? var_B31031)); [discriminate|].
  intros E I. inv_bind E. destruct a. inv_bind Hk. destruct a as [[codes bits] s2]. inv_bind Hk0. injection Hk as <- _.
  unfold bitmaps_define in Hb1. destruct (make_bitmap codes bits); [|destruct (is_cur st); discriminate|discriminate].
  injection Hb1 as <-. exact I.
Qed.

Lemma repeat_keeps (f : istate * S -> res (istate * S)) :
  (forall st s st' s', f (st, s) = Ok (st', s') -> ist_ok st -> ist_ok st') ->
  forall n st s st' s', repeat_m n f (st, s) = Ok (st', s') -> ist_ok st -> ist_ok st'.
Proof.
  intros H. induction n as [|n IH]; intros st s st' s' E I; cbn [repeat_m] in E.
  - injection E as <- _. exact I.
  - inv_bind E. destruct a as [st1 s1]. eapply IH; eauto.
Qed.

Lemma run_keeps : forall fuel ops st s st' s', run V T fuel ops (st, s) = Ok (st', s') -> ist_ok st -> ist_ok st'.
Proof.
  induction fuel as [|k IH]; intros ops st s st' s' E I; cbn [run] in E; [discriminate|].
  destruct ops as [|cur rest]; [injection E as <- _; exact I|]. cbv zeta in E.
  destruct (var_f cur =? 0).
  { inv_bind E. destruct a as [st1 s1]. eapply IH; eauto. eapply b_variable_keeps; eauto. }
  destruct (var_f cur =? 1).
  { destruct (delayed_code cur rest) as [delayed rest1].
    destruct (Nat.ltb (length rest1) (Z.to_nat (var_x cur))); [discriminate|].
    inv_bind E. destruct a as [st1 s1]. eapply IH; [eauto|]. revert Hb. cbn [fst].
    destruct (is_pending st =? 0).
    - unfold r_replication. intros Hb. inv_bind Hb. destruct a as [cnt s2]. eapply repeat_keeps; eauto.
    - intros Hb. eapply r_bitmap_keeps; eauto. }
  destruct (var_f cur =? 2).
  { inv_bind E. destruct a as [[rest' st1] s1]. eapply IH; [eauto|]. eapply c_modifier_keeps; eauto. }
  inv_bind E. inv_bind Hk. destruct a0 as [st1 s1]. eapply IH; [eauto|]. eapply IH; eauto.
Qed.
End Keep.

Section Sim.
Context {SA SE SD B : Type}.
Context (IE : SA -> SE -> Prop) (emitted : SE -> list B) (ID : SA -> SD -> list B -> Prop)
  (good : list B -> Prop).
Hypothesis good_app : forall bs rest, good rest -> good (bs ++ rest).

(** A step that returns a value and a new state. *)
Definition sim {X} (fA : SA -> res (X * SA)) (fE : SE -> res (X * SE)) (fD : SD -> res (X * SD)) : Prop :=
  forall sa se x sa', IE sa se -> fA sa = Ok (x, sa') ->
  exists bs se', fE se = Ok (x, se') /\ IE sa' se' /\ emitted se' = emitted se ++ bs /\
    forall sd rest, good rest -> ID sa sd (bs ++ rest) ->
    exists sd', fD sd = Ok (x, sd') /\ ID sa' sd' rest.

(** A step that only returns a new state. *)
Definition sim_u (fA : SA -> res SA) (fE : SE -> res SE) (fD : SD -> res SD) : Prop :=
  forall sa se sa', IE sa se -> fA sa = Ok sa' ->
  exists bs se', fE se = Ok se' /\ IE sa' se' /\ emitted se' = emitted se ++ bs /\
    forall sd rest, good rest -> ID sa sd (bs ++ rest) ->
    exists sd', fD sd = Ok sd' /\ ID sa' sd' rest.

Lemma sim_ret {X} (x : X) : sim (fun s => Ok (x, s)) (fun s => Ok (x, s)) (fun s => Ok (x, s)).
Proof.
  intros sa se x' sa' I E. injection E as <- <-. exists [], se. rewrite app_nil_r. repeat split; auto.
  intros sd rest _ H. eauto.
Qed.

Lemma sim_bind {X Y} fA fE fD (gA : X -> SA -> res (Y * SA)) gE gD :
  sim fA fE fD -> (forall x, sim (gA x) (gE x) (gD x)) ->
  sim (fun s => bind (fA s) (fun p => gA (fst p) (snd p))) (fun s => bind (fE s) (fun p => gE (fst p) (snd p)))
      (fun s => bind (fD s) (fun p => gD (fst p) (snd p))).
Proof.
  intros Hf Hg sa se y sa2 I E. inv_bind E. destruct a as [x sa1]. cbn [fst snd] in Hk.
  destruct (Hf _ _ _ _ I Hb) as (bs & se1 & E1 & I1 & M1 & D1).
  destruct (Hg x _ _ _ _ I1 Hk) as (bs2 & se2 & E2 & I2 & M2 & D2).
  exists (bs ++ bs2), se2. rewrite E1. cbn [bind fst snd]. split; auto. split; auto. split.
  - rewrite M2, M1, app_assoc. reflexivity.
  - intros sd rest Hr Hd. rewrite <- app_assoc in Hd.
    destruct (D1 sd (bs2 ++ rest)) as (sd1 & F1 & J1); auto.
    destruct (D2 sd1 rest) as (sd2 & F2 & J2); auto.
    exists sd2. rewrite F1. cbn [bind fst snd]. auto.
Qed.

Lemma sim_bind_u {Y} fA fE fD (gA : SA -> res (Y * SA)) gE gD :
  sim_u fA fE fD -> sim gA gE gD ->
  sim (fun s => bind (fA s) gA) (fun s => bind (fE s) gE) (fun s => bind (fD s) gD).
Proof.
  intros Hf Hg sa se y sa2 I E. inv_bind E.
  destruct (Hf _ _ _ I Hb) as (bs & se1 & E1 & I1 & M1 & D1).
  destruct (Hg _ _ _ _ I1 Hk) as (bs2 & se2 & E2 & I2 & M2 & D2).
  exists (bs ++ bs2), se2. rewrite E1. cbn [bind fst snd]. split; auto. split; auto. split.
  - rewrite M2, M1, app_assoc. reflexivity.
  - intros sd rest Hr Hd. rewrite <- app_assoc in Hd.
    destruct (D1 sd (bs2 ++ rest)) as (sd1 & F1 & J1); auto.
    destruct (D2 sd1 rest) as (sd2 & F2 & J2); auto.
    exists sd2. rewrite F1. cbn [bind fst snd]. auto.
Qed.

Lemma sim_bind_P {X Y} (P : X -> Prop) fA fE fD (gA : X -> SA -> res (Y * SA)) gE gD :
  sim fA fE fD -> (forall s x s', fA s = Ok (x, s') -> P x) -> (forall x, P x -> sim (gA x) (gE x) (gD x)) ->
  sim (fun s => bind (fA s) (fun p => gA (fst p) (snd p))) (fun s => bind (fE s) (fun p => gE (fst p) (snd p)))
      (fun s => bind (fD s) (fun p => gD (fst p) (snd p))).
Proof.
  intros Hf HP Hg sa se y sa2 I E. inv_bind E. destruct a as [x sa1]. cbn [fst snd] in Hk.
  destruct (Hf _ _ _ _ I Hb) as (bs & se1 & E1 & I1 & M1 & D1).
  destruct (Hg x (HP _ _ _ Hb) _ _ _ _ I1 Hk) as (bs2 & se2 & E2 & I2 & M2 & D2).
  exists (bs ++ bs2), se2. rewrite E1. cbn [bind fst snd]. split; auto. split; auto. split.
  - rewrite M2, M1, app_assoc. reflexivity.
  - intros sd rest Hr Hd. rewrite <- app_assoc in Hd.
    destruct (D1 sd (bs2 ++ rest)) as (sd1 & F1 & J1); auto.
    destruct (D2 sd1 rest) as (sd2 & F2 & J2); auto.
    exists sd2. rewrite F1. cbn [bind fst snd]. auto.
Qed.

(** Parts that do not look at the state. *)
Lemma sim_pure {X Y} (m : res X) (gA : X -> SA -> res (Y * SA)) gE gD :
  (forall x, m = Ok x -> sim (gA x) (gE x) (gD x)) ->
  sim (fun s => bind m (fun x => gA x s)) (fun s => bind m (fun x => gE x s)) (fun s => bind m (fun x => gD x s)).
Proof.
  intros H. destruct m as [x|e|]; cbn [bind].
  - exact (H x eq_refl).
  - intros sa se y sa' _ E. discriminate.
  - intros sa se y sa' _ E. discriminate.
Qed.

Lemma sim_err {X} e fE fD : @sim X (fun _ => Err e) fE fD.
Proof. intros sa se y sa' _ E. discriminate. Qed.
Lemma sim_ub {X} fE fD : @sim X (fun _ => UB) fE fD.
Proof. intros sa se y sa' _ E. discriminate. Qed.

Lemma sim_ext {X} (fA fA' : SA -> res (X * SA)) (fE fE' : SE -> res (X * SE)) (fD fD' : SD -> res (X * SD)) :
  (forall s, fA' s = fA s) -> (forall s, fE' s = fE s) -> (forall s, fD' s = fD s) ->
  sim fA fE fD -> sim fA' fE' fD'.
Proof.
  intros HA HE HD H sa se x sa' I E. rewrite HA in E. destruct (H _ _ _ _ I E) as (bs & se' & A & B' & C & D).
  exists bs, se'. rewrite HE. repeat split; auto. intros sd rest G J. rewrite HD. auto.
Qed.

(** ** Whole runs *)
Context (VA : visitor SA) (VE : visitor SE) (VD : visitor SD) (T : tables).

Record callbacks : Prop := {
  cb_var : forall i, sim_u (on_var VA i) (on_var VE i) (on_var VD i);
  cb_var_af : forall b g i, 0 < b <= 32 -> sim_u (on_var_af VA b g i) (on_var_af VE b g i) (on_var_af VD b g i);
  cb_factor : forall i, (exists c, query (tb_b T) c = Ok i) ->
    sim (on_factor VA i) (on_factor VE i) (on_factor VD i);
  cb_bitmap_factor : forall i, (exists c, query (tb_b T) c = Ok i) ->
    sim (on_bitmap_factor VA i) (on_bitmap_factor VE i) (on_bitmap_factor VD i);
  cb_significance : forall i, (exists c, query (tb_b T) c = Ok i) ->
    sim (on_significance VA i) (on_significance VE i) (on_significance VD i);
  cb_subst : forall pos, sim_u (on_subst VA pos) (on_subst VE pos) (on_subst VD pos);
  cb_attr : forall i pos, sim_u (on_attr VA i pos) (on_attr VE i pos) (on_attr VD i pos);
  cb_raw : forall c, var_f c = 2 -> var_x c = 5 -> sim_u (on_raw VA c) (on_raw VE c) (on_raw VD c);
  cb_refval : forall b c, 0 < b < 255 -> sim (on_refval VA b c) (on_refval VE b c) (on_refval VD b c);
  cb_bitmap : forall c n, sim (on_bitmap VA c n) (on_bitmap VE c n) (on_bitmap VD c n);
  cb_unknown : forall c b, sim (on_unknown VA c b) (on_unknown VE c b) (on_unknown VD c b) }.

Hypothesis CB : callbacks.

(** A step on (istate * S), seen as a step on S that returns an istate. *)
Notation simst gA gE gD := (sim (X := istate) gA gE gD).

Ltac split_sim L := eapply sim_ext; [| | |eapply L];
  [intros s; cbv beta; match goal with |- bind ?m _ = _ => destruct m as [[? ?]| |]; reflexivity end
  |intros s; cbv beta; match goal with |- bind ?m _ = _ => destruct m as [[? ?]| |]; reflexivity end
  |intros s; cbv beta; match goal with |- bind ?m _ = _ => destruct m as [[? ?]| |]; reflexivity end
  |..].

Lemma b_variable_sim code st : ist_ok st ->
  sim (fun s => b_variable VA T code (st, s)) (fun s => b_variable VE T code (st, s))
      (fun s => b_variable VD T code (st, s)).
Proof.
  intros [HA HR]. unfold b_variable. destruct (negb (is_refbits st =? 0)) eqn:N.
  - split_sim (sim_bind _ _ _ (fun r s => Ok (with_refs st ((code, r) :: is_refs st), s))
        (fun r s => Ok (with_refs st ((code, r) :: is_refs st), s))
        (fun r s => Ok (with_refs st ((code, r) :: is_refs st), s)) (cb_refval CB (is_refbits st) code ltac:(lia))).
    intros x. apply sim_ret.
  - apply sim_pure. intros info _.
    destruct ((var_f code =? 0) && (var_x code =? 33) && match is_cur st with Some _ => true | None => false end).
    + destruct (bitmaps_next st) as [[pos st']|e|]; cbn [bind]; [|apply sim_err|apply sim_ub].
      apply sim_bind_u; [apply (cb_attr CB)|apply sim_ret].
    + destruct (negb (is_afbits st =? 0)) eqn:N2; apply sim_bind_u.
      * apply (cb_var_af CB). lia.
      * apply sim_ret.
      * apply (cb_var CB).
      * apply sim_ret.
Qed.

Lemma c_modifier_sim code next st : var_f code = 2 -> ist_ok st ->
  sim (fun s => c_modifier VA T code next (st, s)) (fun s => c_modifier VE T code next (st, s))
      (fun s => c_modifier VD T code next (st, s)).
Proof.
  intros HF [HA HR]. unfold c_modifier. cbv zeta.
  destruct (var_x code =? 1); [apply sim_ret|].
  destruct (var_x code =? 2); [apply sim_ret|].
  destruct (var_x code =? 3); [apply sim_ret|].
  destruct (var_x code =? 4).
  { destruct (negb (var_y code =? 0) && negb (is_afbits st =? 0)); [apply sim_err|].
    destruct (32 <? var_y code); [apply sim_err|].
    destruct (var_y code =? 0); [apply sim_ret|].
    destruct (pop_left next) as [[c next']|e|]; cbn [bind]; [|apply sim_err|apply sim_ub].
    destruct (negb (c =? var_B31021)); [apply sim_err|].
    apply sim_pure. intros info Hq.
    split_sim (sim_bind _ _ _ (fun sig s => Ok (next', with_af st (var_y code) sig, s))
       (fun sig s => Ok (next', with_af st (var_y code) sig, s))
       (fun sig s => Ok (next', with_af st (var_y code) sig, s)) (cb_significance CB info (ex_intro _ _ Hq))).
    intros x. apply sim_ret. }
  destruct (Z.eqb_spec (var_x code) 5); [apply sim_bind_u; [apply (cb_raw CB); auto|apply sim_ret]|].
  destruct (var_x code =? 6).
  { destruct (pop_left next) as [[c next']|e|]; cbn [bind]; [|apply sim_err|apply sim_ub].
    destruct (var_y code =? 0); [apply sim_ret|].
    apply sim_pure. intros known _.
    apply sim_pure. intros oi _.
    destruct oi as [i|]; cbn [bind].
    - apply sim_bind_u; [apply (cb_var CB)|apply sim_ret].
    - split_sim (sim_bind _ _ _ (fun i s => s2 <- on_var VA i s ;; Ok (next', st, s2))
        (fun i s => s2 <- on_var VE i s ;; Ok (next', st, s2))
        (fun i s => s2 <- on_var VD i s ;; Ok (next', st, s2)) (cb_unknown CB c (var_y code))).
      intros i. apply sim_bind_u; [apply (cb_var CB)|apply sim_ret]. }
  destruct (var_x code =? 7); [apply sim_ret|].
  destruct (var_x code =? 8); [apply sim_ret|].
  destruct (var_x code =? 22); [destruct (negb (var_y code =? 0)); [apply sim_err|apply sim_ret]|].
  destruct (var_x code =? 23).
  { destruct (var_y code =? 0); [apply sim_ret|]. destruct (var_y code =? 255); [|apply sim_err].
    destruct (bitmaps_next st) as [[pos st']|e|]; cbn [bind]; [|apply sim_err|apply sim_ub].
    apply sim_bind_u; [apply (cb_subst CB)|apply sim_ret]. }
  destruct (var_x code =? 37).
  { destruct (var_y code =? 0); [apply sim_ret|]. destruct (var_y code =? 255); [apply sim_ret|apply sim_err]. }
  apply sim_ret.
Qed.

Lemma r_bitmap_sim code delayed ops st :
  sim (fun s => r_bitmap VA T code delayed ops (st, s)) (fun s => r_bitmap VE T code delayed ops (st, s))
      (fun s => r_bitmap VD T code delayed ops (st, s)).
Proof.
  unfold r_bitmap. destruct (negb (var_x code =? 1)); [apply sim_err|].
  destruct (negb (hd 0 ops =? var_B31031)); [apply sim_err|].
  assert (H : forall count : Z,
    sim (fun s => ' (codes, bits, s2) <- on_bitmap VA (is_pending st) count s ;;
          st' <- bitmaps_define st codes bits ;; Ok (with_pending st' 0, s2))
        (fun s => ' (codes, bits, s2) <- on_bitmap VE (is_pending st) count s ;;
          st' <- bitmaps_define st codes bits ;; Ok (with_pending st' 0, s2))
        (fun s => ' (codes, bits, s2) <- on_bitmap VD (is_pending st) count s ;;
          st' <- bitmaps_define st codes bits ;; Ok (with_pending st' 0, s2))).
  { intros count.
    eapply sim_ext; [| | |apply (sim_bind _ _ _
      (fun x s => st' <- bitmaps_define st (fst x) (snd x) ;; Ok (with_pending st' 0, s))
      (fun x s => st' <- bitmaps_define st (fst x) (snd x) ;; Ok (with_pending st' 0, s))
      (fun x s => st' <- bitmaps_define st (fst x) (snd x) ;; Ok (with_pending st' 0, s)) (cb_bitmap CB (is_pending st) count))].
    - intros s. cbv beta. destruct (on_bitmap VA (is_pending st) count s) as [[[? ?] ?]| |]; reflexivity.
    - intros s. cbv beta. destruct (on_bitmap VE (is_pending st) count s) as [[[? ?] ?]| |]; reflexivity.
    - intros s. cbv beta. destruct (on_bitmap VD (is_pending st) count s) as [[[? ?] ?]| |]; reflexivity.
    - intros [codes bits]. cbn [fst snd].
      destruct (bitmaps_define st codes bits) as [st'|e|]; cbn [bind]; [apply sim_ret|apply sim_err|apply sim_ub]. }
  destruct (var_y code =? 0).
  - destruct (query (tb_b T) delayed) as [info|e|] eqn:Q; cbn [bind]; [|apply sim_err|apply sim_ub].
    split_sim (sim_bind _ _ _ _ _ _ (cb_bitmap_factor CB info (ex_intro _ _ Q)) H).
  - cbn [bind]. apply H.
Qed.

Lemma repeat_sim fA fE fD :
  (forall st, ist_ok st -> sim (fun s => fA (st, s)) (fun s => fE (st, s)) (fun s => fD (st, s))) ->
  (forall st s st' s', fA (st, s) = Ok (st', s') -> ist_ok st -> ist_ok st') ->
  forall n st, ist_ok st ->
  sim (fun s => repeat_m n fA (st, s)) (fun s => repeat_m n fE (st, s)) (fun s => repeat_m n fD (st, s)).
Proof.
  intros H K. induction n as [|n IH]; intros st I; cbn [repeat_m]; [apply sim_ret|].
  split_sim (sim_bind_P ist_ok _ _ _ (fun st s => repeat_m n fA (st, s)) (fun st s => repeat_m n fE (st, s))
    (fun st s => repeat_m n fD (st, s)) (H st I)); eauto.
Qed.

Theorem run_sim : forall fuel ops st, ist_ok st ->
  sim (fun s => run VA T fuel ops (st, s)) (fun s => run VE T fuel ops (st, s)) (fun s => run VD T fuel ops (st, s)).
Proof.
  induction fuel as [|k IH]; intros ops st I; cbn [run]; [apply sim_err|].
  destruct ops as [|cur rest]; [apply sim_ret|]. cbv zeta.
  assert (Next : forall rest fA fE fD, sim fA fE fD -> (forall s st' s', fA s = Ok (st', s') -> ist_ok st') ->
    sim (fun s => x <- fA s ;; run VA T k rest x) (fun s => x <- fE s ;; run VE T k rest x)
        (fun s => x <- fD s ;; run VD T k rest x)).
  { intros r fA fE fD Hf HP. split_sim (sim_bind_P ist_ok _ _ _ (fun st s => run VA T k r (st, s))
      (fun st s => run VE T k r (st, s)) (fun st s => run VD T k r (st, s)) Hf); eauto. }
  destruct (var_f cur =? 0).
  { apply Next; [apply b_variable_sim; auto|]. intros s st' s' E. eapply b_variable_keeps; eauto. }
  destruct (var_f cur =? 1).
  { destruct (delayed_code cur rest) as [delayed rest1].
    destruct (Nat.ltb (length rest1) (Z.to_nat (var_x cur))); [apply sim_err|]. cbn [fst].
    destruct (is_pending st =? 0).
    - apply Next.
      + unfold r_replication.
        assert (H : forall count : Z,
          sim (fun s => repeat_m (Z.to_nat count) (run VA T k (firstn (Z.to_nat (var_x cur)) rest1)) (st, s))
              (fun s => repeat_m (Z.to_nat count) (run VE T k (firstn (Z.to_nat (var_x cur)) rest1)) (st, s))
              (fun s => repeat_m (Z.to_nat count) (run VD T k (firstn (Z.to_nat (var_x cur)) rest1)) (st, s))).
        { intros count. apply repeat_sim; auto. intros. eapply run_keeps; eauto. }
        destruct (var_y cur =? 0).
        * destruct (query (tb_b T) delayed) as [info|e|] eqn:Q; cbn [bind]; [|apply sim_err|apply sim_ub].
          split_sim (sim_bind _ _ _ _ _ _ (cb_factor CB info (ex_intro _ _ Q)) H).
        * cbn [bind]. apply H.
      + unfold r_replication. intros s st' s' E. inv_bind E. destruct a as [cnt s2].
        eapply repeat_keeps; [|eauto|eauto]. intros. eapply run_keeps; eauto.
    - apply Next; [apply r_bitmap_sim|]. intros s st' s' E. eapply r_bitmap_keeps; eauto. }
  destruct (Z.eqb_spec (var_f cur) 2) as [HF|].
  { eapply sim_ext; [| | |apply (sim_bind_P (fun x => ist_ok (snd x)) _ _ _
      (fun x s => run VA T k (fst x) (snd x, s)) (fun x s => run VE T k (fst x) (snd x, s))
      (fun x s => run VD T k (fst x) (snd x, s)) (c_modifier_sim cur rest st HF I))].
    - intros s. cbv beta. destruct (c_modifier VA T cur rest (st, s)) as [[[? ?] ?]| |]; reflexivity.
    - intros s. cbv beta. destruct (c_modifier VE T cur rest (st, s)) as [[[? ?] ?]| |]; reflexivity.
    - intros s. cbv beta. destruct (c_modifier VD T cur rest (st, s)) as [[[? ?] ?]| |]; reflexivity.
    - intros s [r st'] s' E. cbn. eapply c_modifier_keeps; eauto.
    - intros [r st'] Hst. cbn [fst snd] in *. auto. }
  apply sim_pure. intros body _. apply Next; [auto|]. intros s st' s' E. eapply run_keeps; eauto.
Qed.

End Sim.

(** ** Invariants of a single run *)
Section Inv.
Context {S : Type} (V : visitor S) (T : tables) (P : S -> Prop).

Record preserved : Prop := {
  pv_var : forall i s s', P s -> on_var V i s = Ok s' -> P s';
  pv_var_af : forall b g i s s', 0 < b <= 32 -> P s -> on_var_af V b g i s = Ok s' -> P s';
  pv_factor : forall i s n s', P s -> on_factor V i s = Ok (n, s') -> P s';
  pv_bitmap_factor : forall i s n s', P s -> on_bitmap_factor V i s = Ok (n, s') -> P s';
  pv_significance : forall i s n s', P s -> on_significance V i s = Ok (n, s') -> P s';
  pv_subst : forall pos s s', P s -> on_subst V pos s = Ok s' -> P s';
  pv_attr : forall i pos s s', P s -> on_attr V i pos s = Ok s' -> P s';
  pv_raw : forall c s s', var_f c = 2 -> var_x c = 5 -> P s -> on_raw V c s = Ok s' -> P s';
  pv_refval : forall b c s n s', 0 < b < 255 -> P s -> on_refval V b c s = Ok (n, s') -> P s';
  pv_bitmap : forall c n s r s', P s -> on_bitmap V c n s = Ok (r, s') -> P s';
  pv_unknown : forall c b s i s', P s -> on_unknown V c b s = Ok (i, s') -> P s' }.

Lemma run_inv fuel ops st s st' s' : preserved -> ist_ok st -> P s -> run V T fuel ops (st, s) = Ok (st', s') -> P s'.
Proof.
  intros PV I HP R.
  set (IE := fun a b : S => a = b /\ P a).
  set (em := fun _ : S => @nil unit). set (ID := fun (_ _ : S) (_ : list unit) => False). set (good := fun _ : list unit => True).
  assert (CB : callbacks IE em ID good V V V T).
  { assert (U : forall f : S -> res S, (forall s s', P s -> f s = Ok s' -> P s') -> sim_u IE em ID good f f f).
    { intros f H sa se sa' [<- Hp] E. exists [], sa'. repeat split; eauto. intros sd rest _ []. }
    assert (W : forall X (f : S -> res (X * S)), (forall s x s', P s -> f s = Ok (x, s') -> P s') -> sim IE em ID good f f f).
    { intros X f H sa se x sa' [<- Hp] E. exists [], sa'. repeat split; eauto. intros sd rest _ []. }
    constructor; intros; first [apply U | apply W]; intros.
    - eapply pv_var; eauto.
    - eapply pv_var_af; eauto.
    - eapply pv_factor; eauto.
    - eapply pv_bitmap_factor; eauto.
    - eapply pv_significance; eauto.
    - eapply pv_subst; eauto.
    - eapply pv_attr; eauto.
    - eapply pv_raw; eauto.
    - eapply pv_refval; eauto.
    - eapply pv_bitmap; eauto.
    - eapply pv_unknown; eauto. }
  destruct (run_sim IE em ID good (fun _ _ _ => Logic.I) V V V T CB fuel ops st I s s st' s' (conj eq_refl HP) R)
    as (bs & se & E & [_ HP'] & _). exact HP'.
Qed.
End Inv.

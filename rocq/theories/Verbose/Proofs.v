(** Telling what is decoded does not change what is decoded. *)
From Coq Require Import ZArith Lia ZifyBool ZifyNat String.
From Verif Require Import Base Bits.Model Num.Float Varcode.Model Varinfo.Model Varinfo.RangeProofs Tables.Model Tables.Spec Tables.Proofs Tables.LoadProofs
  Var.Model Var.Spec Var.AttrProofs Var.FormatSpec Var.Format Interp.Model Interp.Hom Interp.SureProofs Interp.ExpandProofs Interp.Holds
  Codec.Model Codec.Compressed Codec.ColumnProofs Codec.StepProofs Codec.AgainSteps Codec.Sound Codec.SoundProofs Codec.SoundRuns Message.Model Listing.Model Verbose.Model.
Local Open Scope Z_scope.

(** The second computation is the first without something; its results have a property. *)
Definition agree {X Y} (q : X -> Y) (Q : Y -> Prop) (m : res X) (n : res Y) : Prop := rmap q m = n /\ forall y, n = Ok y -> Q y.

Lemma agree_bind {X Y A B} (q : X -> Y) (Q : Y -> Prop) (r : A -> B) (R : B -> Prop) (m : res X) (n : res Y) f g :
  agree q Q m n -> (forall x, Q (q x) -> agree r R (f x) (g (q x))) -> agree r R (bind m f) (bind n g).
Proof.
  intros [<- H] F. destruct m as [x| |]; cbn [rmap bind] in *; [|split; [reflexivity|discriminate]|split; [reflexivity|discriminate]].
  apply F, H. reflexivity.
Qed.
Lemma agree_ok {X Y} (q : X -> Y) (Q : Y -> Prop) x y : q x = y -> Q y -> agree q Q (Ok x) (Ok y).
Proof. intros <- H. split; [reflexivity|]. intros y E. apply same_ok in E. subst. exact H. Qed.
Lemma agree_err {X Y} (q : X -> Y) (Q : Y -> Prop) e : agree q Q (Err e) (Err e).
Proof. split; [reflexivity|discriminate]. Qed.
Lemma agree_ub {X Y} (q : X -> Y) (Q : Y -> Prop) : agree q Q UB UB.
Proof. split; [reflexivity|discriminate]. Qed.
Lemma agree_same {X Y A} (q : X -> Y) (Q : Y -> Prop) (m : res A) f g :
  (forall a, m = Ok a -> agree q Q (f a) (g a)) -> agree q Q (bind m f) (bind m g).
Proof. intros H. destruct m as [a| |]; cbn [bind]; [apply H; reflexivity|apply agree_err|apply agree_ub]. Qed.

(** Every position that a bitmap mentions comes before [n]. *)
Definition marks (st : istate) (n : nat) : Prop :=
  (forall b, is_cur st = Some b -> Forall (fun p => p < n)%nat (bm_refs b) /\ Forall (fun p => p < n)%nat (bm_rest b)) /\
  (forall l, is_last st = Some l -> Forall (fun p => p < n)%nat l).

Lemma marks_le st n m : (n <= m)%nat -> marks st n -> marks st m.
Proof.
  intros L [A B]. assert (P : forall l, Forall (fun p => p < n)%nat l -> Forall (fun p => p < m)%nat l) by (intros l F; eapply Forall_impl; [|exact F]; cbv beta; lia).
  split; [intros b E; destruct (A b E); auto|intros l E; auto].
Qed.
Lemma marks_next st n pos st' : marks st n -> bitmaps_next st = Ok (pos, st') -> marks st' n /\ (pos < n)%nat.
Proof.
  intros [A B]. unfold bitmaps_next. destruct (is_cur st) as [b|] eqn:Eb; [|discriminate].
  destruct (A b eq_refl) as [B1 B2]. destruct (bm_rest b) as [|q r] eqn:Er; [discriminate|]. intros E. injection E as <- <-.
  inversion B2 as [|? ? Bq Br]; subst. split; [|exact Bq]. destruct r as [|q2 r]; split; cbn.
  - discriminate.
  - intros l [= <-]. exact B1.
  - intros b' [= <-]. cbn. auto.
  - exact B.
Qed.
Lemma marks_define st n codes bits st' : marks st n -> (length codes <= n)%nat -> bitmaps_define st codes bits = Ok st' -> marks st' n.
Proof.
  intros [A B] L E. unfold bitmaps_define in E. destruct (make_bitmap codes bits) as [refs|e|] eqn:Em; [|destruct (is_cur st); discriminate|discriminate].
  injection E as <-. unfold make_bitmap in Em. destruct bits as [|b bits]; [discriminate|]. apply walk_lt in Em.
  assert (F : Forall (fun p => p < n)%nat refs) by (eapply Forall_impl; [|exact Em]; cbv beta; lia).
  split; cbn; [intros b0 [= <-]; cbn; auto|exact B].
Qed.

Section Agree.
Context (fixed : nat -> f64 -> list Z) (full : varinfo -> list Z) (path : list Z).
Context {S : Type} (G : target S) (T : tables) (HT : table_ok (tb_b T)) (HD : defs_ok (tb_b T)) (J : S -> Prop) (size : S -> nat).
Let V := tg_visitor S G.
Let W := teller full G.
Definition keeps (s s' : S) : Prop := J s' /\ (size s <= size s')%nat.
Context (Kvar : forall i s s', info_ok i -> J s -> on_var V i s = Ok s' -> keeps s s' /\ exists t, tg_last S G s' = Ok t).
Context (Kaf : forall bits sig i s s', info_ok i -> J s -> on_var_af V bits sig i s = Ok s' -> keeps s s').
Context (Kfactor : forall i s n s', info_ok i -> J s -> on_factor V i s = Ok (n, s') -> keeps s s').
Context (Kbfactor : forall i s n s', info_ok i -> J s -> on_bitmap_factor V i s = Ok (n, s') -> keeps s s' /\ 0 <= n < 2 ^ 32).
Context (Ksig : forall i s n s', info_ok i -> J s -> on_significance V i s = Ok (n, s') -> keeps s s').
Context (Ksubst : forall pos s s', J s -> on_subst V pos s = Ok s' -> keeps s s').
Context (Kattr : forall i pos s s', info_ok i -> J s -> (pos < size s)%nat -> on_attr V i pos s = Ok s' ->
  keeps s s' /\ (exists j, tg_info S G pos s' = Ok j) /\ exists t, tg_attr S G (vi_code i) pos s' = Ok t).
Context (Kraw : forall code s s', J s -> on_raw V code s = Ok s' -> keeps s s').
Context (Kref : forall bits code s r s', J s -> on_refval V bits code s = Ok (r, s') -> keeps s s' /\ int_min <= r <= int_max).
Context (Kbitmap : forall pending n s codes bits s', 0 <= n < 2 ^ 32 -> J s -> on_bitmap V pending n s = Ok (codes, bits, s') -> keeps s s' /\ (length codes <= size s')%nat).
Context (Kunknown : forall code bits s i s', 0 <= bits < 256 -> J s -> on_unknown V code bits s = Ok (i, s') -> keeps s s' /\ info_ok i).

Definition inv (x : istate * S) : Prop := calm (fst x) /\ marks (fst x) (size (snd x)) /\ J (snd x).
Definition p2 {X} (x : X * telling S) : X * S := (fst x, te_s (snd x)).

Lemma inv_later st s s' : inv (st, s) -> keeps s s' -> inv (st, s').
Proof. intros (C & M & H) [H' L]. split; [exact C|]. split; [eapply marks_le; [exact L|exact M]|exact H']. Qed.

Lemma a_var i w : info_ok i -> J (te_s w) -> agree te_s (keeps (te_s w)) (on_var W i w) (on_var V i (te_s w)).
Proof.
  intros Hi H. cbn [W teller on_var]. unfold v_var. fold V. destruct (on_var V i (te_s w)) as [s| |] eqn:E; cbn [bind]; [|apply agree_err|apply agree_ub].
  destruct (Kvar _ _ _ Hi H E) as [K (t & ->)]. cbn [bind]. apply agree_ok; [reflexivity|exact K].
Qed.
Lemma a_factor i w : info_ok i -> J (te_s w) -> agree p2 (fun y => keeps (te_s w) (snd y)) (on_factor W i w) (on_factor V i (te_s w)).
Proof.
  intros Hi H. cbn [W teller on_factor]. unfold v_factor. fold V. destruct (on_factor V i (te_s w)) as [[n s]| |] eqn:E; cbn [bind]; [|apply agree_err|apply agree_ub].
  apply agree_ok; [reflexivity|]. eapply Kfactor; eauto.
Qed.
Lemma a_refval bits code w : J (te_s w) -> agree p2 (fun y => keeps (te_s w) (snd y) /\ int_min <= fst y <= int_max) (on_refval W bits code w) (on_refval V bits code (te_s w)).
Proof.
  intros H. cbn [W teller on_refval]. unfold v_refval. fold V. destruct (on_refval V bits code (te_s w)) as [[n s]| |] eqn:E; cbn [bind]; [|apply agree_err|apply agree_ub].
  apply agree_ok; [reflexivity|]. eapply Kref; eauto.
Qed.
Lemma a_attr i pos w : info_ok i -> J (te_s w) -> (pos < size (te_s w))%nat -> agree te_s (keeps (te_s w)) (on_attr W i pos w) (on_attr V i pos (te_s w)).
Proof.
  intros Hi H L. cbn [W teller on_attr]. unfold v_attr. fold V. destruct (on_attr V i pos (te_s w)) as [s| |] eqn:E; cbn [bind]; [|apply agree_err|apply agree_ub].
  destruct (Kattr _ _ _ _ Hi H L E) as (K & (j & ->) & (t & ->)). cbn [bind]. apply agree_ok; [reflexivity|exact K].
Qed.
Lemma a_quiet (f : S -> res S) w (Q : S -> Prop) : (forall s, f (te_s w) = Ok s -> Q s) -> agree te_s Q (quietly f w) (f (te_s w)).
Proof. intros H. unfold quietly. destruct (f (te_s w)) as [s| |] eqn:E; cbn [bind]; [|apply agree_err|apply agree_ub]. apply agree_ok; auto. Qed.
Lemma a_quiet2 {X} (f : S -> res (X * S)) w (Q : X * S -> Prop) : (forall y, f (te_s w) = Ok y -> Q y) -> agree p2 Q (quietly2 f w) (f (te_s w)).
Proof. intros H. unfold quietly2. destruct (f (te_s w)) as [[x s]| |] eqn:E; cbn [bind]; [|apply agree_err|apply agree_ub]. apply agree_ok; auto. Qed.

Lemma b_variable_agree code st w : inv (st, te_s w) -> agree p2 inv (b_variable W T code (st, w)) (b_variable V T code (st, te_s w)).
Proof.
  intros I. pose proof I as (C & M & H). cbn [fst snd] in C, M, H. unfold b_variable. destruct (negb (is_refbits st =? 0)).
  - eapply agree_bind; [apply a_refval; exact H|]. intros [r w'] [K R]. cbn [p2 fst snd] in *. apply agree_ok; [reflexivity|].
    destruct (inv_later _ _ _ I K) as ((C1 & C2 & C3) & M' & H'). split; [split; [constructor; [exact R|exact C1]|split; assumption]|]. split; [exact M'|exact H'].
  - apply agree_same. intros i Ei. pose proof (calm_info T HT HD _ _ _ C Ei) as Ki.
    destruct ((var_f code =? 0) && (var_x code =? 33) && match is_cur st with Some _ => true | None => false end).
    + apply agree_same. intros [pos st'] En. destruct (marks_next _ _ _ _ M En) as [M' Lp]. pose proof (calm_next _ _ _ C En) as C'.
      eapply agree_bind; [apply a_attr; auto|]. intros w' K. apply agree_ok; [reflexivity|]. eapply inv_later; [|exact K]. split; [exact C'|]. split; [exact M'|exact H].
    + destruct (negb (is_afbits st =? 0)).
      * eapply agree_bind; [apply (a_quiet (on_var_af V _ _ _) w (keeps (te_s w))); intros s Es; eapply Kaf; eauto|]. intros w' K. apply agree_ok; [reflexivity|]. eapply inv_later; eauto.
      * eapply agree_bind; [apply a_var; auto|]. intros w' K. apply agree_ok; [reflexivity|]. eapply inv_later; eauto.
Qed.

Definition p3 (x : list Z * istate * telling S) : list Z * istate * S := (fst x, te_s (snd x)).
Lemma c_modifier_agree code next st w : inv (st, te_s w) ->
  agree p3 (fun y => inv (snd (fst y), snd y)) (c_modifier W T code next (st, w)) (c_modifier V T code next (st, te_s w)).
Proof.
  intros I. pose proof I as (C & M & H). cbn [fst snd] in C, M, H. pose proof C as (C1 & C2 & C3). unfold c_modifier. cbv zeta. pose proof (y_range code) as Y.
  assert (P : forall st', calm st' -> marks st' (size (te_s w)) -> agree p3 (fun y => inv (snd (fst y), snd y)) (Ok (next, st', w)) (Ok (next, st', te_s w))).
  { intros st' C' M'. apply agree_ok; [reflexivity|]. split; [exact C'|]. split; [exact M'|exact H]. }
  assert (Q : forall st', calm st' -> is_cur st' = is_cur st -> is_last st' = is_last st -> agree p3 (fun y => inv (snd (fst y), snd y)) (Ok (next, st', w)) (Ok (next, st', te_s w))).
  { intros st' C' E1 E2. apply P; [exact C'|]. unfold marks. rewrite E1, E2. exact M. }
  destruct (var_x code =? 1); [apply Q; auto|].
  destruct (var_x code =? 2); [apply Q; auto; split; [exact C1|]; split; [exact C2|]; cbn; destruct (Z.eqb_spec (var_y code) 0); lia|].
  destruct (var_x code =? 3); [apply Q; auto|].
  destruct (var_x code =? 4).
  { destruct (negb (var_y code =? 0) && negb (is_afbits st =? 0)); [apply agree_err|]. destruct (32 <? var_y code); [apply agree_err|].
    destruct (var_y code =? 0); [apply Q; auto|]. apply agree_same. intros [c nx] _. destruct (negb (c =? var_B31021)); [apply agree_err|].
    apply agree_same. intros i Ei. eapply agree_bind; [apply (a_quiet2 (on_significance V i) w (fun y => keeps (te_s w) (snd y))); intros [n s] Es; eapply Ksig; eauto|].
    intros [sig w'] K. cbn [p2 fst snd] in *. apply agree_ok; [reflexivity|]. destruct (inv_later _ _ _ I K) as (C' & M' & H'). split; [exact C'|]. split; [exact M'|exact H']. }
  destruct (var_x code =? 5).
  { eapply agree_bind; [apply (a_quiet (on_raw V code) w (keeps (te_s w))); intros s Es; eapply Kraw; eauto|]. intros w' K. apply agree_ok; [reflexivity|]. eapply inv_later; eauto. }
  destruct (var_x code =? 6).
  { apply agree_same. intros [c nx] _. destruct (var_y code =? 0).
    - apply agree_ok; [reflexivity|]. exact I.
    - apply agree_same. intros known _. apply agree_same. intros oi Eo.
      eapply agree_bind with (q := p2) (Q := fun y => info_ok (fst y) /\ keeps (te_s w) (snd y)).
      + destruct oi as [i|].
        * apply agree_ok; [reflexivity|]. split; [|split; [exact H|apply Nat.le_refl]]. destruct known; [|discriminate]. inv_bind Eo. destruct (vi_bit_len a =? var_y code); [|discriminate].
          apply same_ok in Hk. injection Hk as <-. eapply calm_info; eauto.
        * apply a_quiet2. intros [i s] Es. destruct (Kunknown _ _ _ _ _ Y H Es). auto.
      + intros [i w'] [Ki K]. cbn [p2 fst snd] in *. pose proof K as [H' _]. eapply agree_bind; [apply a_var; auto|]. intros w2 K2. apply agree_ok; [reflexivity|].
        exact (inv_later _ _ _ (inv_later _ _ _ I K) K2). }
  destruct (var_x code =? 7); [apply Q; auto; split; [exact C1|]; cbn; split; [lia|exact C3]|]. destruct (var_x code =? 8); [apply Q; auto|].
  destruct (var_x code =? 22); [destruct (negb (var_y code =? 0)); [apply agree_err|apply Q; auto]|].
  destruct (var_x code =? 23).
  { destruct (var_y code =? 0); [apply Q; auto|]. destruct (var_y code =? 255); [|apply agree_err]. apply agree_same. intros [pos st'] En.
    destruct (marks_next _ _ _ _ M En) as [M' Lp]. pose proof (calm_next _ _ _ C En) as C'.
    eapply agree_bind; [apply (a_quiet (on_subst V pos) w (keeps (te_s w))); intros s Es; eapply Ksubst; eauto|]. intros w' K. apply agree_ok; [reflexivity|].
    eapply inv_later; [|exact K]. split; [exact C'|]. split; [exact M'|exact H]. }
  destruct (var_x code =? 37).
  { destruct (var_y code =? 0).
    - apply P; [exact C|]. unfold marks, bitmaps_reuse. cbn. destruct M as [M1 M2]. split; [|first [discriminate|exact M2]]. destruct (is_last st) as [l|] eqn:El; [|discriminate]. intros b [= <-]. cbn. split; apply M2; reflexivity.
    - destruct (var_y code =? 255); [|apply agree_err]. apply P; [exact C|]. destruct M as [M1 M2]. split; [exact M1|]. cbn. discriminate. }
  apply Q; auto.
Qed.

Lemma r_bitmap_agree code delayed ops st w : inv (st, te_s w) ->
  agree p2 inv (r_bitmap W T code delayed ops (st, w)) (r_bitmap V T code delayed ops (st, te_s w)).
Proof.
  intros I. pose proof I as (C & M & H). cbn [fst snd] in C, M, H. unfold r_bitmap. destruct (negb (var_x code =? 1)); [apply agree_err|]. destruct (negb (hd 0 ops =? var_B31031)); [apply agree_err|].
  eapply agree_bind with (q := p2) (Q := fun y => keeps (te_s w) (snd y) /\ 0 <= fst y < 2 ^ 32).
  - destruct (var_y code =? 0).
    + apply agree_same. intros i Ei. apply a_quiet2. intros [n s] Es. eapply Kbfactor; eauto.
    + pose proof (y_range code). apply agree_ok; [reflexivity|]. cbn [fst snd]. split; [split; [exact H|apply Nat.le_refl]|lia].
  - intros [n w1] [K N]. cbn [p2 fst snd] in *. pose proof (inv_later _ _ _ I K) as I1. pose proof K as [H1 _].
    eapply agree_bind with (q := p2) (Q := fun y => keeps (te_s w1) (snd y) /\ (length (fst (fst y)) <= size (snd y))%nat).
    + apply a_quiet2. intros [[codes bits] s] Es. eapply Kbitmap; eauto.
    + intros [[codes bits] w2] [K2 L]. cbn [p2 fst snd] in *. apply agree_same. intros st' Ed. apply agree_ok; [reflexivity|].
      destruct (inv_later _ _ _ I1 K2) as (C' & M' & H'). cbn [fst snd] in *. pose proof (calm_define _ _ _ _ C' Ed) as C2. pose proof (marks_define _ _ _ _ _ M' L Ed) as M2.
      split; [exact C2|]. split; [exact M2|exact H'].
Qed.

Lemma repeat_agree f g : (forall x, inv (p2 x) -> agree p2 inv (f x) (g (p2 x))) -> forall n x, inv (p2 x) -> agree p2 inv (repeat_m n f x) (repeat_m n g (p2 x)).
Proof.
  intros F. induction n as [|n IH]; intros x I; cbn [repeat_m]; [apply agree_ok; [reflexivity|exact I]|].
  eapply agree_bind; [apply F; exact I|]. intros y Iy. apply IH. exact Iy.
Qed.

Theorem walk_agree : forall k ops x, inv (p2 x) -> agree p2 inv (walk (narrator full path G T) T k ops x) (run V T k ops (p2 x)).
Proof.
  induction k as [|k IH]; intros ops [st w] I; cbn [walk run]; [apply agree_err|].
  destruct ops as [|cur rest]; [apply agree_ok; [reflexivity|exact I]|]. cbv zeta. cbn [p2 fst snd] in *.
  destruct (var_f cur =? 0).
  { eapply agree_bind; [|intros y Iy; apply IH; exact Iy]. cbn [narrator w_element]. unfold v_element. fold W.
    pose proof (contains_sure (tb_b T) cur) as Cs. destruct (contains (tb_b T) cur) as [known|e|] eqn:Ec; [|unfold contains in Ec; destruct (find_code_spec (map be_code (tb_b T)) cur) as (r & R & _); unfold query_entry in Ec; rewrite R in Ec; discriminate|destruct Cs].
    cbn [bind]. destruct known; cbn [bind].
    - assert (Q : exists i, query (tb_b T) cur = Ok i).
      { pose proof (query_sure (tb_b T) cur) as Qs. destruct (query (tb_b T) cur) as [i|e|] eqn:Eq; [eauto| |destruct Qs]. exfalso. clear - Ec Eq. unfold contains in Ec. unfold query in Eq.
        destruct (query_entry (tb_b T) cur) as [[n|]| |]; cbn [bind] in *; try discriminate. unfold entry_at in Eq. destruct (nth_error (tb_b T) n); discriminate. }
      destruct Q as (i & ->). cbn [bind]. apply b_variable_agree. exact I.
    - apply b_variable_agree. exact I. }
  destruct (var_f cur =? 1).
  { destruct (delayed_code cur rest) as [d rest1]. destruct (Nat.ltb (length rest1) (Z.to_nat (var_x cur))); [apply agree_err|].
    eapply agree_bind; [|intros y Iy; apply IH; exact Iy]. cbn [narrator w_repeat w_bitmap]. fold W. destruct (is_pending st =? 0); [|apply r_bitmap_agree; exact I].
    unfold v_repeat. fold W. change (p2 (st, w)) with (st, te_s w).
    match goal with |- agree _ _ (bind (r_replication _ _ ?b _ _ _) _) ?n =>
      assert (A : agree p2 inv (r_replication W T b cur d (st, inner (say (times_text cur d) (say_lead cur w)))) n) end.
    2:{ destruct A as [A1 A2]. split; [|exact A2]. rewrite <- A1. unfold on_snd. cbn [fst snd]. match goal with |- rmap _ (bind ?m _) = _ => destruct m as [[st' w']| |] end; reflexivity. }
    unfold r_replication. eapply agree_bind with (q := p2) (Q := fun y => inv (st, snd y)).
    - destruct (var_y cur =? 0); [|apply agree_ok; [reflexivity|exact I]]. apply agree_same. intros i Ei. destruct I as (C & M & H). cbn [fst snd] in *.
      destruct (a_factor i (inner (say (times_text cur d) (say_lead cur w))) (HT _ _ Ei) H) as [A1 A2]. split; [exact A1|]. intros y Ey. eapply inv_later; [|exact (A2 y Ey)]. split; [exact C|]. split; [exact M|exact H].
    - intros [n w1] I1. cbn [p2 fst snd] in *. apply (repeat_agree _ _ (fun x Ix => IH _ x Ix) (Z.to_nat n) (st, w1)). exact I1. }
  destruct (var_f cur =? 2).
  { eapply agree_bind with (q := p3); [apply (c_modifier_agree cur rest st (v_operator cur rest w)); exact I|]. intros [[r st'] w'] Iy. cbn [p3 fst snd] in *. apply (IH r (st', w')). exact Iy. }
  apply agree_same. intros body _. eapply agree_bind; [apply (IH body (st, v_enter cur w)); exact I|]. intros [st' w'] Iy. apply (IH rest (st', outer w')). exact Iy.
Qed.
End Agree.

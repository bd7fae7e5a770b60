(** Two runs of the interpreter over the same template, where the second one knows how the first
    one ends: what the first run goes through is part of its end. *)
From Coq Require Import ZArith Lia ZifyBool ZifyNat.
From Verif Require Import Base Num.Float Varcode.Model Varinfo.Model Tables.Model Tables.Spec Tables.LoadProofs Interp.Model Interp.Sim.
Local Open Scope Z_scope.

Section Follow.
Context {S X : Type} (V : visitor S) (W : visitor X) (T : tables).
(** [good] holds of all the states of the first run; [le] orders them in time; [seen s] means that
    [s] is on the way to the end; [R] relates the states of the two runs; [fine] is about the state
    of the interpreter, [known] about the definitions that it makes and [pointed] about the positions
    that come from bitmaps. *)
Context (good : S -> Prop) (le : S -> S -> Prop) (seen : S -> Prop) (R : S -> X -> Prop)
  (fine : istate -> S -> Prop) (known : varinfo -> Prop) (pointed : nat -> S -> Prop).
Context (le_refl : forall s, le s s) (le_trans : forall a b c, le a b -> le b c -> le a c).
Context (fine_later : forall st s s', fine st s -> le s s' -> fine st s').
Context (seen_back : forall s s', good s -> le s s' -> seen s' -> seen s).

Definition follows (Q : S -> Prop) (f : S -> res S) (g : X -> res X) : Prop := forall s s', Q s -> good s -> f s = Ok s' ->
  good s' /\ le s s' /\ (seen s' -> forall x, R s x -> exists x', g x = Ok x' /\ R s' x').
Definition follows_with {A} (P : A -> Prop) (f : S -> res (A * S)) (g : X -> res (A * X)) : Prop :=
  forall s a s', good s -> f s = Ok (a, s') ->
  P a /\ good s' /\ le s s' /\ (seen s' -> forall x, R s x -> exists x', g x = Ok (a, x') /\ R s' x').

(** Steps of the interpreter. *)
Definition steps (f : istate * S -> res (istate * S)) (g : istate * X -> res (istate * X)) : Prop :=
  forall st s st' s', fine st s -> good s -> f (st, s) = Ok (st', s') ->
  fine st' s' /\ good s' /\ le s s' /\ (seen s' -> forall x, R s x -> exists x', g (st, x) = Ok (st', x') /\ R s' x').

Lemma steps_bind f g f' g' : steps f g -> steps f' g' -> steps (fun y => bind (f y) f') (fun y => bind (g y) g').
Proof.
  intros H H' st s st' s' F G E. inv_bind E. destruct a as [st1 s1].
  destruct (H _ _ _ _ F G Hb) as (F1 & G1 & L1 & K1). destruct (H' _ _ _ _ F1 G1 Hk) as (F2 & G2 & L2 & K2).
  split; [exact F2|]. split; [exact G2|]. split; [eapply le_trans; eauto|]. intros Sn x Rx.
  destruct (K1 (seen_back _ _ G1 L2 Sn) x Rx) as (x1 & E1 & R1). destruct (K2 Sn x1 R1) as (x2 & E2 & R2).
  exists x2. rewrite E1. cbn [bind]. auto.
Qed.

Lemma steps_repeat f g : steps f g -> forall n, steps (repeat_m n f) (repeat_m n g).
Proof.
  intros H. induction n as [|n IH].
  - intros st s st' s' F G E. cbn in E. injection E as <- <-. split; [exact F|]. split; [exact G|]. split; [apply le_refl|].
    intros _ x Rx. exists x. auto.
  - cbn [repeat_m]. apply (steps_bind _ _ _ _ H IH).
Qed.

Context (Hinfo : forall st s code i, fine st s -> get_varinfo (tb_b T) st code = Ok i -> known i).
Context (Hquery : forall code i, query (tb_b T) code = Ok i -> known i).
Context (fine_refs : forall st s code r, fine st s -> is_refbits st <> 0 -> int_min <= r <= int_max -> fine (with_refs st ((code, r) :: is_refs st)) s).
Context (fine_next : forall st s p st', fine st s -> bitmaps_next st = Ok (p, st') -> fine st' s /\ pointed p s).
Context (fine_op : forall st s code, fine st s -> var_f code = 2 ->
  let y := var_y code in
  fine (with_width st (if y =? 0 then 0 else y - 128)) s /\ fine (with_scale st (if y =? 0 then 0 else y - 128)) s /\
  fine (with_refbits st (if y =? 255 then 0 else y)) s /\ (forall sig, y <= 32 -> fine (with_af st y sig) s) /\
  fine (with_srw st y) s /\ fine (with_strlen st y) s /\ fine (with_pending st code) s /\ fine (with_pending (bitmaps_reuse st) 0) s /\
  fine (bitmaps_discard st) s).
Context (Hvar : forall i, known i -> follows (fun _ => True) (on_var V i) (on_var W i)).
Context (Haf : forall st i, is_afbits st <> 0 -> known i ->
  follows (fine st) (on_var_af V (is_afbits st) (is_afsig st) i) (on_var_af W (is_afbits st) (is_afsig st) i)).
Context (Hfactor : forall i, known i -> var_x (vi_code i) = 31 -> follows_with (fun _ => True) (on_factor V i) (on_factor W i)).
Context (Hsig : forall i, known i -> follows_with (fun _ => True) (on_significance V i) (on_significance W i)).
Context (Hsubst : forall p, follows (pointed p) (on_subst V p) (on_subst W p)).
Context (Hattr : forall i p, known i -> follows (pointed p) (on_attr V i p) (on_attr W i p)).
Context (Hraw : forall code, follows (fun _ => True) (on_raw V code) (on_raw W code)).
Context (Href : forall st s0 code, fine st s0 -> is_refbits st <> 0 ->
  follows_with (fun r => int_min <= r <= int_max) (on_refval V (is_refbits st) code) (on_refval W (is_refbits st) code)).
Context (Hunknown : forall code op, var_y op <> 0 -> follows_with known (on_unknown V code (var_y op)) (on_unknown W code (var_y op))).
Context (Hbitmap : forall code delayed ops st s st' s', fine st s -> is_pending st <> 0 -> good s ->
  r_bitmap V T code delayed ops (st, s) = Ok (st', s') ->
  fine st' s' /\ good s' /\ le s s' /\
  (seen s' -> forall x, R s x -> exists x', r_bitmap W T code delayed ops (st, x) = Ok (st', x') /\ R s' x')).

Lemma b_variable_follows code : steps (b_variable V T code) (b_variable W T code).
Proof.
  intros st s st' s' F G. unfold b_variable. destruct (Z.eqb_spec (is_refbits st) 0) as [E0|E0]; cbn [negb].
  - destruct (get_varinfo (tb_b T) st code) as [i|e|] eqn:Ei; cbn [bind]; try discriminate. pose proof (Hinfo _ _ _ _ F Ei) as Ki.
    destruct ((var_f code =? 0) && (var_x code =? 33) && match is_cur st with Some _ => true | None => false end).
    + destruct (bitmaps_next st) as [[p st1]|e|] eqn:En; cbn [bind]; try discriminate. intros E. inv_bind E. injection Hk as <- <-.
      destruct (fine_next _ _ _ _ F En) as [Fn Pn]. destruct (Hattr i p Ki _ _ Pn G Hb) as (G1 & L1 & K1). split; [exact (fine_later _ _ _ Fn L1)|]. split; [exact G1|]. split; [exact L1|].
      intros Sn x Rx. destruct (K1 Sn x Rx) as (x' & E' & R'). exists x'. rewrite E'. auto.
    + destruct (Z.eqb_spec (is_afbits st) 0) as [E1|E1]; cbn [negb]; intros E; inv_bind E; injection Hk as <- <-.
      * destruct (Hvar i Ki _ _ Logic.I G Hb) as (G1 & L1 & K1). split; [exact (fine_later _ _ _ F L1)|]. split; [exact G1|]. split; [exact L1|].
        intros Sn x Rx. destruct (K1 Sn x Rx) as (x' & E' & R'). exists x'. rewrite E'. auto.
      * destruct (Haf st i E1 Ki _ _ F G Hb) as (G1 & L1 & K1). split; [exact (fine_later _ _ _ F L1)|]. split; [exact G1|]. split; [exact L1|].
        intros Sn x Rx. destruct (K1 Sn x Rx) as (x' & E' & R'). exists x'. rewrite E'. auto.
  - intros E. inv_bind E. destruct a as [r s1]. injection Hk as <- <-. destruct (Href st _ code F E0 _ _ _ G Hb) as (Hr & G1 & L1 & K1).
    split; [apply fine_refs; auto; exact (fine_later _ _ _ F L1)|]. split; [exact G1|]. split; [exact L1|].
    intros Sn x Rx. destruct (K1 Sn x Rx) as (x' & E' & R'). exists x'. rewrite E'. auto.
Qed.

Lemma c_modifier_follows code next st s next' st' s' : var_f code = 2 -> fine st s -> good s ->
  c_modifier V T code next (st, s) = Ok (next', st', s') ->
  fine st' s' /\ good s' /\ le s s' /\
  (seen s' -> forall x, R s x -> exists x', c_modifier W T code next (st, x) = Ok (next', st', x') /\ R s' x').
Proof.
  intros Fc F G. destruct (fine_op st s code F Fc) as (O1 & O2 & O3 & O4 & O5 & O6 & O7 & O8 & O9). unfold c_modifier. cbv zeta.
  assert (P : forall (st2 : istate), fine st2 s -> Ok (next, st2, s) = Ok (next', st', s') ->
    fine st' s' /\ good s' /\ le s s' /\ (seen s' -> forall x, R s x -> exists x', Ok (next, st2, x) = Ok (next', st', x') /\ R s' x')).
  { intros st2 F2 E. injection E as <- <- <-. split; [exact F2|]. split; [exact G|]. split; [apply le_refl|]. intros _ x Rx. exists x. auto. }
  destruct (var_x code =? 1); [apply P; exact O1|]. destruct (var_x code =? 2); [apply P; exact O2|]. destruct (var_x code =? 3); [apply P; exact O3|].
  destruct (var_x code =? 4).
  { destruct (negb (var_y code =? 0) && negb (is_afbits st =? 0)); [discriminate|]. destruct (Z.ltb_spec 32 (var_y code)) as [Ly|Ly]; [discriminate|].
    destruct (Z.eqb_spec (var_y code) 0) as [Ey|Ey]; [apply P; rewrite <- Ey; apply O4; lia|].
    destruct (pop_left next) as [[c nx]|e|]; cbn [bind]; try discriminate. destruct (negb (c =? var_B31021)); [discriminate|].
    destruct (query (tb_b T) var_B31021) as [i|e|] eqn:Eq; cbn [bind]; try discriminate. intros E. inv_bind E. destruct a as [sig s1]. injection Hk as <- <- <-.
    destruct (Hsig i (Hquery _ _ Eq) _ _ _ G Hb) as (_ & G1 & L1 & K1). split; [apply (fine_later _ _ _ (O4 sig ltac:(lia)) L1)|]. split; [exact G1|]. split; [exact L1|].
    intros Sn x Rx. destruct (K1 Sn x Rx) as (x' & E' & R'). exists x'. rewrite E'. auto. }
  destruct (var_x code =? 5).
  { intros E. inv_bind E. injection Hk as <- <- <-. destruct (Hraw code _ _ Logic.I G Hb) as (G1 & L1 & K1).
    split; [exact (fine_later _ _ _ F L1)|]. split; [exact G1|]. split; [exact L1|]. intros Sn x Rx. destruct (K1 Sn x Rx) as (x' & E' & R'). exists x'. rewrite E'. auto. }
  destruct (var_x code =? 6).
  { destruct (pop_left next) as [[c nx]|e|]; cbn [bind]; try discriminate.
    destruct (Z.eqb_spec (var_y code) 0) as [Ey|Ey].
    { intros E. injection E as <- <- <-. split; [exact F|]. split; [exact G|]. split; [apply le_refl|]. intros _ x Rx. exists x. auto. }
    destruct (contains (tb_b T) c) as [kn|e|]; cbn [bind]; try discriminate.
    match goal with |- context [bind ?m _] => destruct m as [oi|e|] eqn:Eo end; cbn [bind]; try discriminate.
    assert (Ko : forall i, oi = Some i -> known i).
    { intros i ->. destruct kn; [|discriminate Eo]. destruct (get_varinfo (tb_b T) st c) as [j|e|] eqn:Ej; cbn [bind] in Eo; try discriminate Eo.
      destruct (vi_bit_len j =? var_y code); [|discriminate Eo]. injection Eo as <-. eapply Hinfo; eauto. }
    intros E. inv_bind E. destruct a as [i s1]. inv_bind Hk. injection Hk0 as <- <- <-.
    assert (K1 : known i /\ good s1 /\ le s s1 /\ (seen s1 -> forall x, R s x -> exists x', match oi with
                                                       | Some i0 => Ok (i0, x) | None => on_unknown W c (var_y code) x end = Ok (i, x') /\ R s1 x')).
    { destruct oi as [j|].
      - injection Hb as -> <-. split; [apply Ko; reflexivity|]. split; [exact G|]. split; [apply le_refl|]. intros _ x Rx. exists x. auto.
      - apply (Hunknown c code Ey _ _ _ G Hb). }
    destruct K1 as (Ki & G1 & L1 & K1). destruct (Hvar i Ki _ _ Logic.I G1 Hb0) as (G2 & L2 & K2).
    split; [exact (fine_later _ _ _ F (le_trans _ _ _ L1 L2))|]. split; [exact G2|]. split; [eapply le_trans; eauto|]. intros Sn x Rx.
    destruct (K1 (seen_back _ _ G1 L2 Sn) x Rx) as (x1 & E1 & R1). destruct (K2 Sn x1 R1) as (x2 & E2 & R2). exists x2. rewrite E1. cbn [bind]. rewrite E2. auto. }
  destruct (var_x code =? 7); [apply P; exact O5|]. destruct (var_x code =? 8); [apply P; exact O6|].
  destruct (var_x code =? 22). { destruct (negb (var_y code =? 0)); [discriminate|]. apply P; exact O7. }
  destruct (var_x code =? 23).
  { destruct (var_y code =? 0); [apply P; exact O7|]. destruct (var_y code =? 255); [|discriminate].
    destruct (bitmaps_next st) as [[p st1]|e|] eqn:En; cbn [bind]; try discriminate. intros E. inv_bind E. injection Hk as <- <- <-.
    destruct (fine_next _ _ _ _ F En) as [Fn Pn]. destruct (Hsubst p _ _ Pn G Hb) as (G1 & L1 & K1). split; [exact (fine_later _ _ _ Fn L1)|]. split; [exact G1|]. split; [exact L1|].
    intros Sn x Rx. destruct (K1 Sn x Rx) as (x' & E' & R'). exists x'. rewrite E'. auto. }
  destruct (var_x code =? 37).
  { destruct (var_y code =? 0); [apply P; exact O8|]. destruct (var_y code =? 255); [apply P; exact O9|discriminate]. }
  apply P. exact F.
Qed.

Lemma replication_follows code delayed f g : (var_y code = 0 -> var_x delayed = 31) -> steps f g -> steps (r_replication V T f code delayed) (r_replication W T g code delayed).
Proof.
  intros Hd H st s st' s' F G. unfold r_replication. destruct (Z.eqb_spec (var_y code) 0) as [Ey|Ey].
  - destruct (query (tb_b T) delayed) as [i|e|] eqn:Eq; cbn [bind]; try discriminate. intros E. inv_bind E. destruct a as [n s1].
    assert (X31 : var_x (vi_code i) = 31) by (rewrite (query_code _ _ _ Eq); auto).
    destruct (Hfactor i (Hquery _ _ Eq) X31 _ _ _ G Hb) as (_ & G1 & L1 & K1). destruct (steps_repeat _ _ H _ _ _ _ _ (fine_later _ _ _ F L1) G1 Hk) as (F2 & G2 & L2 & K2).
    split; [exact F2|]. split; [exact G2|]. split; [eapply le_trans; eauto|]. intros Sn x Rx.
    destruct (K1 (seen_back _ _ G1 L2 Sn) x Rx) as (x1 & E1 & R1). destruct (K2 Sn x1 R1) as (x2 & E2 & R2). exists x2. rewrite E1. cbn [bind]. auto.
  - cbn [bind]. intros E. exact (steps_repeat _ _ H _ _ _ _ _ F G E).
Qed.

Lemma run_follows : forall fuel ops, steps (run V T fuel ops) (run W T fuel ops).
Proof.
  induction fuel as [|k IH]; intros ops st s st' s' F G E; cbn [run] in E; [discriminate|].
  destruct ops as [|cur rest].
  { injection E as <- <-. split; [exact F|]. split; [exact G|]. split; [apply le_refl|]. intros _ x Rx. exists x. auto. }
  cbn [run]. cbv zeta in *. cbn [fst] in *.
  destruct (var_f cur =? 0); [exact (steps_bind _ _ _ _ (b_variable_follows cur) (IH rest) _ _ _ _ F G E)|].
  destruct (var_f cur =? 1).
  { assert (Hd : var_y cur = 0 -> var_x (fst (delayed_code cur rest)) = 31).
    { unfold delayed_code. intros ->. cbn [Z.eqb]. destruct rest as [|n rest']; [reflexivity|]. destruct ((var_f n =? 0) && (var_x n =? 31)) eqn:En; [cbn [fst]; lia|reflexivity]. }
    destruct (delayed_code cur rest) as [delayed rest1]. cbn [fst] in Hd. destruct (Nat.ltb (length rest1) (Z.to_nat (var_x cur))); [discriminate|].
    destruct (Z.eqb_spec (is_pending st) 0) as [Ep|Ep].
    - exact (steps_bind _ _ _ _ (replication_follows cur delayed _ _ Hd (IH _)) (IH _) _ _ _ _ F G E).
    - inv_bind E. destruct a as [st1 s1]. destruct (Hbitmap _ _ _ _ _ _ _ F Ep G Hb) as (F1 & G1 & L1 & K1).
      destruct (IH _ _ _ _ _ F1 G1 Hk) as (F2 & G2 & L2 & K2).
      split; [exact F2|]. split; [exact G2|]. split; [eapply le_trans; eauto|]. intros Sn x Rx.
      destruct (K1 (seen_back _ _ G1 L2 Sn) x Rx) as (x1 & E1 & R1). destruct (K2 Sn x1 R1) as (x2 & E2 & R2). exists x2. rewrite E1. cbn [bind]. auto. }
  destruct (Z.eqb_spec (var_f cur) 2) as [F2|F2].
  { inv_bind E. destruct a as [[rest' st1] s1]. destruct (c_modifier_follows _ _ _ _ _ _ _ F2 F G Hb) as (F1 & G1 & L1 & K1).
    destruct (IH _ _ _ _ _ F1 G1 Hk) as (F3 & G2 & L2 & K2).
    split; [exact F3|]. split; [exact G2|]. split; [eapply le_trans; eauto|]. intros Sn x Rx.
    destruct (K1 (seen_back _ _ G1 L2 Sn) x Rx) as (x1 & E1 & R1). destruct (K2 Sn x1 R1) as (x2 & E2 & R2). exists x2. rewrite E1. cbn [bind]. auto. }
  destruct (dexpand (tb_d T) cur) as [body|e|]; cbn [bind] in *; try discriminate.
  exact (steps_bind _ _ _ _ (IH body) (IH rest) _ _ _ _ F G E).
Qed.
End Follow.

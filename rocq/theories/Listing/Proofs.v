(** Walks over a template and its tree. *)
From Coq Require Import String Sorting.Sorted ZArith Lia ZifyBool ZifyNat.
From Verif Require Import Base Varcode.Model Varinfo.Model Tables.Model Interp.Model Interp.Spec Interp.ExpandProofs Interp.Holds
  Listing.Model Listing.Spec.
Local Open Scope Z_scope.

(** The interpreter of the encoders and decoders is the one of the walkers. *)
Definition ordinary {S} (V : visitor S) (T : tables) : walker S :=
  mkwalker V (b_variable V T) (fun _ _ s => s) (r_replication V T) (r_bitmap V T) (fun _ s => s) (fun s => s).

Lemma on_snd_id {A B} (x : A * B) : on_snd (fun s => s) x = x.
Proof. destruct x; reflexivity. Qed.

(** ** From a successful walk to the tree *)
Section Effect.
Context {S V : Type} (W : walker S) (T : tables) (view : S -> V) (leaf : node -> V -> V)
  (opens : Z -> V -> V) (repeats : Z -> Z -> V -> V) (closes : V -> V).

Fixpoint effect (n : node) (v : V) : V :=
  let inside := fix inside (l : list node) (v : V) : V :=
    match l with [] => v | m :: r => inside r (effect m v) end in
  match n with
  | NSequence d b => closes (inside b (opens d v))
  | NRepeat r b => closes (inside b (repeats r 0 v))
  | NDelayed r c b => closes (inside b (repeats r c v))
  | NImplied r b => closes (inside b (repeats r var_B31012 v))
  | _ => leaf n v
  end.
Fixpoint effects (l : list node) (v : V) : V :=
  match l with [] => v | n :: r => effects r (effect n v) end.

Context (HE : forall c st s st' s', var_f c = 0 -> w_element W c (st, s) = Ok (st', s') ->
  is_pending st' = is_pending st /\ view s' = leaf (NElement c) (view s)).
Context (HO : forall c next st s next' st' s', var_f c = 2 -> takes_arg c = false ->
  c_modifier (w_visitor W) T c next (st, w_operator W c next s) = Ok (next', st', s') ->
  view s' = leaf (NOperator c) (view s)).
Context (HA : forall c a next st s next' st' s', var_f c = 2 -> takes_arg c = true ->
  c_modifier (w_visitor W) T c (a :: next) (st, w_operator W c (a :: next) s) = Ok (next', st', s') ->
  view s' = leaf (NOperand c a) (view s)).
Context (HR : forall body r d st s st' s', w_repeat W body r d (st, s) = Ok (st', s') ->
  exists s1 s2, body (st, s1) = Ok (st', s2) /\ view s1 = repeats r d (view s) /\ view s' = closes (view s2)).
Context (HB : forall r d ops st s st' s', w_bitmap W r d ops (st, s) = Ok (st', s') ->
  var_x r = 1 /\ hd 0 ops = var_B31031 /\ is_pending st' = 0 /\ forall f, view s' = leaf (NBitmap r f) (view s)).
Context (HN : forall d s, view (w_enter W d s) = opens d (view s)).
Context (HL : forall s, view (w_leave W s) = closes (view s)).

Definition waits (st : istate) : bool := negb (is_pending st =? 0).

Lemma c_modifier_plain c next st s next' st' s' : var_f c = 2 -> takes_arg c = false ->
  c_modifier (w_visitor W) T c next (st, s) = Ok (next', st', s') ->
  next' = next /\ waits st' = next_bitmap c (waits st).
Proof.
  clear. intros F A E. unfold takes_arg in A. unfold next_bitmap, next_mode, waits. cbn [m_bitmap m_refs]. unfold c_modifier in E. cbv zeta in E.
  pose proof (var_f_range c) as _.
  assert (Cn : c <> 0) by (intros ->; discriminate F).
  repeat match type of E with
  | (if ?b then _ else _) = _ => destruct b eqn:?
  | bind ?m _ = Ok _ => let Q := fresh "Q" in destruct m as [?|?|] eqn:Q; cbn [bind] in E; [|discriminate E|discriminate E]
  | (let (_, _) := ?p in _) = _ => destruct p
  | Err _ = Ok _ => discriminate E
  end; try (apply same_ok in E; apply pair_equal_spec in E as [E ->]; apply pair_equal_spec in E as [<- <-]; split; [reflexivity|]);
  cbn [with_width with_scale with_refbits with_af with_srw with_strlen with_pending bitmaps_reuse bitmaps_discard with_bitmaps is_pending];
  repeat match goal with
  | |- context [if ?b then _ else _] => destruct b eqn:?
  end; cbn [m_bitmap] in *; try reflexivity; try lia; try congruence.
  all: unfold bitmaps_next in *; repeat match goal with
  | Q : match ?x with _ => _ end = _ |- _ => destruct x; try discriminate Q
  end; try (injection Q as <- <-); cbn [with_bitmaps is_pending] in *; try reflexivity; try lia.
  all: match goal with |- context [match ?l with [] => _ | _ :: _ => _ end] => destruct l end; reflexivity.
Qed.

Lemma c_modifier_arg c next st s next' st' s' : var_f c = 2 -> takes_arg c = true ->
  c_modifier (w_visitor W) T c next (st, s) = Ok (next', st', s') ->
  exists a, next = a :: next' /\ waits st' = waits st.
Proof.
  clear. intros F A E. unfold takes_arg in A. unfold waits. unfold c_modifier in E. cbv zeta in E.
  repeat match type of E with
  | (if ?b then _ else _) = _ => destruct b eqn:?
  | bind ?m _ = Ok _ => let Q := fresh "Q" in destruct m as [?|?|] eqn:Q; cbn [bind] in E; [|discriminate E|discriminate E]
  | (let (_, _) := ?p in _) = _ => destruct p
  | Err _ = Ok _ => discriminate E
  end; try lia;
  (apply same_ok in E; apply pair_equal_spec in E as [E ->]; apply pair_equal_spec in E as [<- <-]);
  cbn [with_af is_pending];
  repeat match goal with Q : pop_left next = Ok _ |- _ => unfold pop_left in Q; destruct next; [discriminate Q|]; apply same_ok in Q; apply pair_equal_spec in Q as [<- <-] end; eauto.
Qed.

Lemma walk_reads : forall fuel ops st s st' s', walk W T fuel ops (st, s) = Ok (st', s') ->
  exists ns, reads T (waits st) ops ns (waits st') /\ view s' = effects ns (view s).
Proof.
  induction fuel as [|k IH]; intros ops st s st' s' E; cbn [walk] in E; [discriminate|].
  destruct ops as [|cur rest].
  { apply same_ok, pair_equal_spec in E as [<- <-]. exists []. split; [constructor|reflexivity]. }
  cbv zeta in E. cbn [fst snd] in *.
  destruct (Z.eqb_spec (var_f cur) 0) as [F0|F0].
  { inv_bind E. destruct a as [st1 s1]. destruct (HE _ _ _ _ _ F0 Hb) as [P1 V1].
    destruct (IH _ _ _ _ _ Hk) as [ns [R V2]]. exists (NElement cur :: ns). split.
    - constructor; [exact F0|]. unfold waits in R at 1. rewrite P1 in R. exact R.
    - cbn [effects]. rewrite V2, V1. reflexivity. }
  destruct (Z.eqb_spec (var_f cur) 1) as [F1|F1].
  { destruct (delayed_code cur rest) as [delayed rest1] eqn:Ed.
    destruct (Nat.ltb_spec (length rest1) (Z.to_nat (var_x cur))) as [|Ln]; [discriminate|].
    inv_bind E. destruct a as [st1 s1]. destruct (IH _ _ _ _ _ Hk) as [ns2 [R2 V2]]. clear Hk.
    assert (Xr : 0 <= var_x cur) by (unfold var_x; apply Z.land_nonneg; lia).
    assert (Lb : Z.of_nat (length (firstn (Z.to_nat (var_x cur)) rest1)) = var_x cur) by (rewrite firstn_length; lia).
    rewrite <- (firstn_skipn (Z.to_nat (var_x cur)) rest1) in Ed.
    set (body := firstn (Z.to_nat (var_x cur)) rest1) in *. set (tail := skipn (Z.to_nat (var_x cur)) rest1) in *.
    destruct (Z.eqb_spec (is_pending st) 0) as [P0|P0].
    - destruct (HR _ _ _ _ _ _ _ Hb) as [sa [sb [Eb [Va Vb]]]]. destruct (IH _ _ _ _ _ Eb) as [ns1 [R1 V1]].
      unfold waits in R1 at 1. rewrite P0 in R1. cbn [negb Z.eqb] in R1.
      unfold waits at 1. rewrite P0. cbn [negb Z.eqb].
      assert (Ve : forall n, (forall v, effect n v = closes (effects ns1 (repeats cur delayed v))) -> view s' = effects (n :: ns2) (view s)).
      { intros n Hn. cbn [effects]. rewrite V2, Hn, Vb, V1, Va. reflexivity. }
      unfold delayed_code in Ed. destruct (Z.eqb_spec (var_y cur) 0) as [Y0|Y0].
      + destruct rest as [|n rest'].
        * apply pair_equal_spec in Ed as [<- Et]. exists (NImplied cur ns1 :: ns2). split; [|apply Ve; reflexivity].
          rewrite Et. apply rd_implied with (b1 := waits st1); auto. intros c l Q. rewrite <- Et in Q. discriminate Q.
        * destruct ((var_f n =? 0) && (var_x n =? 31)) eqn:C31; apply pair_equal_spec in Ed as [<- Et].
          -- exists (NDelayed cur n ns1 :: ns2). split; [|apply Ve; reflexivity].
             rewrite Et. apply rd_delayed with (b1 := waits st1); auto. unfold class31. lia.
          -- exists (NImplied cur ns1 :: ns2). split; [|apply Ve; reflexivity].
             rewrite Et. apply rd_implied with (b1 := waits st1); auto. intros c l Q [Q1 Q2]. rewrite <- Et in Q. injection Q as -> ->. lia.
      + apply pair_equal_spec in Ed as [<- Et]. exists (NRepeat cur ns1 :: ns2). split; [|apply Ve; reflexivity].
        rewrite Et. apply rd_repeat with (b1 := waits st1); auto.
    - destruct (HB _ _ _ _ _ _ _ Hb) as [X1 [H1 [P1 Vb]]]. rewrite X1 in Lb.
      destruct body as [|o [|? ?]]; [cbn in Lb; lia| |cbn [length] in Lb; lia]. cbn [hd] in H1. subst o.
      unfold waits in R2 at 1. rewrite P1 in R2. cbn [negb Z.eqb] in R2.
      unfold waits at 1. replace (is_pending st =? 0) with false by lia. cbn [negb].
      assert (Ve : forall f, view s' = effects (NBitmap cur f :: ns2) (view s)).
      { intros f. cbn [effects effect]. rewrite V2, (Vb f). reflexivity. }
      unfold delayed_code in Ed. destruct (Z.eqb_spec (var_y cur) 0) as [Y0|Y0].
      + destruct rest as [|n rest']; [discriminate (f_equal snd Ed)|].
        destruct ((var_f n =? 0) && (var_x n =? 31)) eqn:C31; apply pair_equal_spec in Ed as [<- Et].
        * exists (NBitmap cur [n] :: ns2). split; [|apply Ve]. rewrite Et. apply rd_bitmap_delayed; auto. unfold class31. lia.
        * injection Et as -> ->. discriminate C31.
      + apply pair_equal_spec in Ed as [<- Et]. exists (NBitmap cur [] :: ns2). split; [|apply Ve]. rewrite Et. apply rd_bitmap; auto. }
  destruct (Z.eqb_spec (var_f cur) 2) as [F2|F2].
  { inv_bind E. destruct a as [[rest' st1] s1]. unfold on_snd in Hb. cbn [fst snd] in Hb.
    destruct (IH _ _ _ _ _ Hk) as [ns [R V2]]. destruct (takes_arg cur) eqn:A.
    - destruct (c_modifier_arg _ _ _ _ _ _ _ F2 A Hb) as [a [-> P1]]. pose proof (HA _ _ _ _ _ _ _ _ F2 A Hb) as V1.
      exists (NOperand cur a :: ns). split; [constructor; auto; rewrite <- P1; exact R|cbn [effects effect]; rewrite V2, V1; reflexivity].
    - destruct (c_modifier_plain _ _ _ _ _ _ _ F2 A Hb) as [-> P1]. pose proof (HO _ _ _ _ _ _ _ F2 A Hb) as V1.
      exists (NOperator cur :: ns). split; [constructor; auto; rewrite <- P1; exact R|cbn [effects effect]; rewrite V2, V1; reflexivity]. }
  inv_bind E. inv_bind Hk. destruct a0 as [st1 s1]. unfold on_snd in *. cbn [fst snd] in *.
  destruct (IH _ _ _ _ _ Hb0) as [ns1 [R1 V1]]. destruct (IH _ _ _ _ _ Hk0) as [ns2 [R2 V2]].
  exists (NSequence cur ns1 :: ns2). split.
  - apply rd_sequence with (body := a) (b1 := waits st1); auto. pose proof (var_f_range cur). lia.
  - cbn [effects]. rewrite V2, HL, V1, HN. reflexivity.
Qed.
End Effect.

Theorem ordinary_walk {S} (V : visitor S) (T : tables) : forall fuel ops x, walk (ordinary V T) T fuel ops x = run V T fuel ops x.
Proof.
  induction fuel as [|k IH]; intros ops x; [reflexivity|]. cbn [walk run].
  destruct ops as [|cur rest]; [reflexivity|]. cbv zeta. cbn [w_element w_repeat w_bitmap w_visitor w_operator w_enter w_leave ordinary].
  destruct (var_f cur =? 0); [destruct (b_variable V T cur x); cbn [bind]; auto|].
  destruct (var_f cur =? 1).
  { destruct (delayed_code cur rest) as [delayed rest1]. destruct (Nat.ltb (length rest1) (Z.to_nat (var_x cur))); [reflexivity|].
    assert (Q : r_replication V T (walk (ordinary V T) T k (firstn (Z.to_nat (var_x cur)) rest1)) cur delayed x =
      r_replication V T (run V T k (firstn (Z.to_nat (var_x cur)) rest1)) cur delayed x).
    { unfold r_replication. destruct x as [st s].
      match goal with |- bind ?m _ = bind ?m _ => destruct m as [[n s1]|e|]; cbn [bind]; [|reflexivity|reflexivity] end.
      generalize (st, s1). induction (Z.to_nat n) as [|j Jh]; intros y; cbn [repeat_m]; [reflexivity|]. rewrite IH.
      destruct (run V T k _ y); cbn [bind]; auto. }
    rewrite Q. match goal with |- bind ?m _ = bind ?m _ => destruct m; cbn [bind]; auto end. }
  destruct (var_f cur =? 2).
  { rewrite on_snd_id. destruct (c_modifier V T cur rest x) as [[[r st] s]|e|]; cbn [bind]; auto. }
  destruct (dexpand (tb_d T) cur); cbn [bind]; auto. rewrite on_snd_id, IH.
  destruct (run V T k a x); cbn [bind]; auto. rewrite on_snd_id. auto.
Qed.

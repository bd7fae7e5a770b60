(** What is told. *)
From Coq Require Import ZArith Lia ZifyBool ZifyNat String.
From Verif Require Import Base Bits.Model Num.Float Varcode.Model Varinfo.Model Tables.Model Tables.Spec
  Var.Model Var.FormatSpec Var.Format Interp.Model Interp.Spec Interp.ExpandProofs Interp.Appears Interp.Holds
  Codec.Model Codec.Compressed Listing.Model Listing.Spec Listing.Proofs Listing.ListProofs Verbose.Model Verbose.Spec.
Local Open Scope Z_scope.

(** No reference values are read, there are no associated fields and no bitmaps. *)
Definition quiet (st : istate) : Prop := is_refbits st = 0 /\ is_afbits st = 0 /\ is_cur st = None /\ is_pending st = 0.
Lemma quiet_init : quiet ist_init.
Proof. repeat split. Qed.

Section Text.
Context {S C : Type} (T : tables) (full : varinfo -> list Z) (path : list Z) (G : target S)
  (shows : C -> list Z -> Prop) (counts : C -> Z -> Prop) (has : S -> list C -> Prop).
Let V := tg_visitor S G.
Context (Hvar : forall i s s' l t, has s l -> on_var V i s = Ok s' -> tg_last S G s' = Ok t -> exists c, has s' (l ++ [c]) /\ shows c t)
  (Hfactor : forall i s s' l n, has s l -> on_factor V i s = Ok (n, s') -> exists c, has s' (l ++ [c]) /\ counts c n /\ 0 <= n)
  (Hraw : forall code s s' l, has s l -> on_raw V code s = Ok s' -> exists c, has s' (l ++ [c]))
  (Hunknown : forall code bits s s' i l, has s l -> on_unknown V code bits s = Ok (i, s') -> has s' l).

Let tolds := told T full shows counts.
Let go := walk (narrator full path G T) T.

(** From [w], the descriptors [ops] lead to [st'] and [w']. *)
Definition leads (l : list C) (w : telling S) (ops : list Z) (x : istate * telling S) : Prop :=
  quiet (fst x) /\ te_indent (snd x) = te_indent w /\
  exists vs t, tolds (te_indent w) ops vs t /\ has (te_s (snd x)) (l ++ vs) /\ te_out (snd x) = te_out w ++ t.

Lemma known_query t code k : contains t code = Ok k -> k = false -> forall i, query t code <> Ok i.
Proof. unfold contains, query. destruct (query_entry t code) as [[e|]| |]; cbn [bind]; try discriminate; intros E; apply same_ok in E; subst; discriminate. Qed.

Lemma element_told code st w x' l : quiet st -> has (te_s w) l -> v_element full path G T code (st, w) = Ok x' ->
  quiet (fst x') /\ te_indent (snd x') = te_indent w /\ exists d v u, query (tb_b T) code = Ok d /\ shows v u /\ has (te_s (snd x')) (l ++ [v]) /\
    te_out (snd x') = te_out w ++ line (te_indent w) code (full d ++ chars "[" ++ chars (vi_unit d) ++ chars "]") ++ under_line (te_indent w) u.
Proof.
  intros Q H E. unfold v_element in E. inv_bind E. inv_bind Hk. rename a into known, a0 into t.
  unfold b_variable in Hk0. cbn [on_snd fst snd] in Hk0. pose proof Q as (Q1 & Q2 & Q3 & Q4). rewrite Q1, Q2, Q3 in Hk0. cbn [negb Z.eqb] in Hk0.
  inv_bind Hk0. rewrite andb_false_r in Hk. rename a into info. inv_bind Hk. apply same_ok in Hk0. subst x'. rename a into w1.
  unfold get_varinfo in Hb1. inv_bind Hb1. rename a into d. clear Hk.
  assert (Et : t = full d ++ chars "[" ++ chars (vi_unit d) ++ chars "]").
  { destruct known; [|exfalso; exact (known_query _ _ _ Hb eq_refl _ Hb3)]. rewrite Hb3 in Hb0. cbn [bind] in Hb0. apply same_ok in Hb0. symmetry. exact Hb0. }
  clear Hb0. subst t. cbn [teller on_var] in Hb2. unfold v_var in Hb2. inv_bind Hb2. inv_bind Hk. apply same_ok in Hk0. subst w1. rename a into s1, a0 into u.
  cbn [te_s say say_lead with_s] in Hb0. destruct (Hvar _ _ _ _ _ H Hb0 Hb1) as (v & V1 & V2).
  cbn [fst snd]. split; [exact Q|]. split; [reflexivity|]. exists d, v, u. split; [exact Hb3|]. split; [exact V2|]. split; [exact V1|].
  cbn [te_out te_indent say say_lead say_continued with_s]. unfold line, under_line. rewrite repeat_app. change (chars " ") with [32]. rewrite <- !app_assoc. reflexivity.
Qed.

Lemma small_text_says c next : ~ In (var_x c) [3; 4; 22; 23; 37] -> operator_text c next = operator_says c (match next with [] => None | a :: _ => Some a end) ++ [10].
Proof.
  intros H. cbn [In] in H. apply (operator_text_says (fun _ => [])); intros E; exfalso; lia.
Qed.

Lemma says_none c a : var_x c <> 6 -> operator_says c a = operator_says c None.
Proof.
  intros N. unfold operator_says. pose proof (var_x_nonneg c). assert (N' : Z.to_nat (var_x c) <> 6%nat) by lia.
  destruct (Z.to_nat (var_x c)) as [|[|[|[|[|[|[|n]]]]]]]; try reflexivity. congruence.
Qed.

Lemma operator_told c next st w next' st' w' l : var_f c = 2 -> ~ In (var_x c) [3; 4; 22; 23; 37] -> quiet st -> has (te_s w) l ->
  c_modifier (w_visitor (narrator full path G T)) T c next (st, v_operator c next w) = Ok (next', st', w') ->
  quiet st' /\ te_indent w' = te_indent w /\ exists v1 t1, has (te_s w') (l ++ v1) /\ te_out w' = te_out w ++ t1 /\
    (exists skipped, next = skipped ++ next') /\
    forall vs t, tolds (te_indent w) next' vs t -> tolds (te_indent w) (c :: next) (v1 ++ vs) (t1 ++ t).
Proof.
  intros F N Q H E. pose proof Q as (Q1 & Q2 & Q3 & Q4).
  assert (L : forall a, line (te_indent w) c (operator_says c a) = repeat 32 (te_indent w) ++ fxy c ++ [32] ++ operator_says c a ++ [10]) by reflexivity.
  assert (OT : te_out (v_operator c next w) = te_out w ++ line (te_indent w) c (operator_says c (match next with [] => None | a :: _ => Some a end))).
  { unfold v_operator. rewrite small_text_says by exact N. rewrite L. cbn [say say_lead te_out te_indent]. rewrite <- !app_assoc. reflexivity. }
  assert (OP : forall st1, quiet st1 -> var_x c <> 5 -> var_x c <> 6 -> (next, st1, v_operator c next w) = (next', st', w') ->
    quiet st' /\ te_indent w' = te_indent w /\ exists v1 t1, has (te_s w') (l ++ v1) /\ te_out w' = te_out w ++ t1 /\
    (exists skipped, next = skipped ++ next') /\
    forall vs t, tolds (te_indent w) next' vs t -> tolds (te_indent w) (c :: next) (v1 ++ vs) (t1 ++ t)).
  { intros st1 Q' N5 N6 E'. apply pair_equal_spec in E' as [E' <-]. apply pair_equal_spec in E' as [<- <-]. split; [exact Q'|]. split; [reflexivity|].
    exists [], (line (te_indent w) c (operator_says c None)). rewrite app_nil_r. split; [exact H|]. split; [rewrite OT, says_none by exact N6; reflexivity|].
    split; [exists []; reflexivity|]. intros vs t D. apply to_operator; [exact F| |exact D]. cbn in N |- *. lia. }
  unfold c_modifier in E. cbv zeta in E. cbn [In] in N.
  destruct (Z.eqb_spec (var_x c) 1) as [X1|X1]; [apply same_ok in E; refine (OP _ _ _ _ E); [exact Q|lia|lia]|].
  destruct (Z.eqb_spec (var_x c) 2) as [X2|X2]; [apply same_ok in E; refine (OP _ _ _ _ E); [exact Q|lia|lia]|].
  destruct (Z.eqb_spec (var_x c) 3) as [X3|X3]; [exfalso; lia|].
  destruct (Z.eqb_spec (var_x c) 4) as [X4|X4]; [exfalso; lia|].
  destruct (Z.eqb_spec (var_x c) 5) as [X5|X5].
  { clear OP. inv_bind E. apply same_ok in Hk. rename a into w1. apply pair_equal_spec in Hk as [Hk <-]. apply pair_equal_spec in Hk as [<- <-].
    cbn [narrator w_visitor teller on_raw] in Hb. unfold quietly in Hb. inv_bind Hb. apply same_ok in Hk. subst w1. rename a into s1.
    destruct (Hraw _ _ _ _ H Hb0) as (v & V1). split; [exact Q|]. split; [reflexivity|]. exists [v], (line (te_indent w) c (chars "character data")).
    split; [exact V1|]. split; [cbn [with_s te_out]; rewrite OT; unfold operator_says; rewrite X5; reflexivity|]. split; [exists []; reflexivity|].
    intros vs t D. apply to_chars; auto. }
  destruct (Z.eqb_spec (var_x c) 6) as [X6|X6].
  { clear OP. inv_bind E. destruct a as [a rest]. destruct next as [|a' next2]; [discriminate|]. cbn [pop_left] in Hb. apply same_ok, pair_equal_spec in Hb as [-> ->].
    assert (OT' : te_out (v_operator c (a :: rest) w) = te_out w ++ line (te_indent w) c (chars "local descriptor " ++ fxy a ++ chars " " ++ small (var_y c) ++ chars " bits long")).
    { rewrite OT. unfold operator_says. rewrite X6. reflexivity. }
    destruct (Z.eqb_spec (var_y c) 0) as [Y|Y].
    - apply same_ok in Hk. apply pair_equal_spec in Hk as [Hk <-]. apply pair_equal_spec in Hk as [<- <-]. split; [exact Q|]. split; [reflexivity|].
      exists [], (line (te_indent w) c (chars "local descriptor " ++ fxy a ++ chars " 0 bits long")). rewrite app_nil_r. split; [exact H|].
      split; [rewrite OT', Y; reflexivity|]. split; [exists [a]; reflexivity|]. intros vs t D. apply to_skip; auto.
    - inv_bind Hk. inv_bind Hk0. inv_bind Hk. destruct a2 as [i w1]. inv_bind Hk0. apply same_ok in Hk. rename a2 into w2.
      apply pair_equal_spec in Hk as [Hk <-]. apply pair_equal_spec in Hk as [<- <-].
      assert (W1 : te_indent w1 = te_indent w /\ te_out w1 = te_out (v_operator c (a :: rest) w) /\ has (te_s w1) l).
      { destruct a1 as [j|]; [apply same_ok, pair_equal_spec in Hb1 as [_ <-]; repeat split; exact H|].
        cbn [narrator w_visitor teller on_unknown] in Hb1. unfold quietly2 in Hb1. inv_bind Hb1. destruct a1 as [j s1]. apply same_ok, pair_equal_spec in Hk as [_ <-].
        split; [reflexivity|]. split; [reflexivity|]. exact (Hunknown _ _ _ _ _ _ H Hb3). }
      destruct W1 as (W1 & W2 & W3). clear Hb1 Hb0 Hb. cbn [narrator w_visitor teller on_var] in Hb2. unfold v_var in Hb2. inv_bind Hb2. inv_bind Hk. apply same_ok in Hk0. subst w2.
      rename a2 into s1, a3 into u. destruct (Hvar _ _ _ _ _ W3 Hb Hb0) as (v & V1 & V2).
      split; [exact Q|]. split; [exact W1|]. exists [v], (line (te_indent w) c (chars "local descriptor " ++ fxy a ++ chars " " ++ small (var_y c) ++ chars " bits long") ++ under_line (te_indent w) u).
      split; [exact V1|]. split.
      { cbn [te_out te_indent say say_continued with_s]. rewrite W1, W2, OT'. unfold under_line. rewrite repeat_app. rewrite <- !app_assoc. reflexivity. }
      split; [exists [a]; reflexivity|]. intros vs t D. rewrite <- app_assoc. cbn [app]. apply to_local; auto. }
  destruct (Z.eqb_spec (var_x c) 7) as [X7|X7]; [apply same_ok in E; refine (OP _ _ _ _ E); [exact Q|lia|lia]|].
  destruct (Z.eqb_spec (var_x c) 8) as [X8|X8]; [apply same_ok in E; refine (OP _ _ _ _ E); [exact Q|lia|lia]|].
  destruct (Z.eqb_spec (var_x c) 22) as [X9|X9]; [exfalso; lia|].
  destruct (Z.eqb_spec (var_x c) 23) as [X10|X10]; [exfalso; lia|].
  destruct (Z.eqb_spec (var_x c) 37) as [X11|X11]; [exfalso; lia|].
  apply same_ok in E; refine (OP _ _ _ _ E); [exact Q|lia|lia].
Qed.

(** The parts of a replication. *)
Lemma parts_told body (f : istate * telling S -> res (istate * telling S)) :
  (forall st w x' l, quiet st -> has (te_s w) l -> f (st, w) = Ok x' -> leads l w body x') ->
  forall n st w x' l, quiet st -> has (te_s w) l -> repeat_m n f (st, w) = Ok x' ->
  quiet (fst x') /\ te_indent (snd x') = te_indent w /\ exists parts, length parts = n /\
    Forall (fun p => tolds (te_indent w) body (fst p) (snd p)) parts /\ has (te_s (snd x')) (l ++ concat (map fst parts)) /\
    te_out (snd x') = te_out w ++ concat (map snd parts).
Proof.
  intros F. induction n as [|n IH]; intros st w x' l Q H E; cbn [repeat_m] in E.
  - apply same_ok in E. subst x'. split; [exact Q|]. split; [reflexivity|]. exists []. cbn. rewrite !app_nil_r. auto.
  - inv_bind E. destruct a as [st1 w1]. destruct (F _ _ _ _ Q H Hb) as (Q1 & I1 & vs & t & D & H1 & O1). cbn [fst snd] in *.
    destruct (IH _ _ _ _ Q1 H1 Hk) as (Q2 & I2 & parts & L & P & H2 & O2). split; [exact Q2|]. split; [congruence|].
    exists ((vs, t) :: parts). cbn [length map concat fst snd]. split; [lia|]. split; [constructor; [exact D|rewrite <- I1; exact P]|].
    rewrite <- app_assoc in H2. split; [exact H2|]. rewrite O2, O1, <- app_assoc. reflexivity.
Qed.

Context (top : list Z) (HX : forall c, appears T top c -> var_f c = 2 -> ~ In (var_x c) [3; 4; 22; 23; 37]).

Lemma firstn_app_skipn {A} n (l : list A) : l = firstn n l ++ skipn n l.
Proof. symmetry. apply firstn_skipn. Qed.

Theorem walk_told : forall k ops st w x' l, Forall (appears T top) ops -> quiet st -> has (te_s w) l -> go k ops (st, w) = Ok x' -> leads l w ops x'.
Proof.
  unfold go. induction k as [|k IH]; intros ops st w x' l A Q H E; [discriminate|]. cbn [walk] in E. destruct ops as [|cur rest].
  { apply same_ok in E. subst x'. split; [exact Q|]. split; [reflexivity|]. exists [], []. split; [constructor|]. rewrite !app_nil_r. auto. }
  inversion_clear A as [|? ? Ac Ar]. cbn [fst] in E. pose proof (var_f_range cur) as Fr.
  destruct (Z.eqb_spec (var_f cur) 0) as [F0|F0].
  { cbn [narrator w_element] in E. inv_bind E. destruct a as [st1 w1]. destruct (element_told _ _ _ _ _ Q H Hb) as (Q1 & I1 & d & v & u & D1 & D2 & H1 & O1).
    cbn [fst snd] in *. destruct (IH _ _ _ _ _ Ar Q1 H1 Hk) as (Q2 & I2 & vs & t & D & H2 & O2). split; [exact Q2|]. split; [congruence|].
    exists (v :: vs), (line (te_indent w) cur (full d ++ chars "[" ++ chars (vi_unit d) ++ chars "]") ++ under_line (te_indent w) u ++ t).
    rewrite I1 in D. split; [apply to_element; assumption|]. rewrite <- app_assoc in H2. split; [exact H2|]. rewrite O2, O1, <- !app_assoc. reflexivity. }
  destruct (Z.eqb_spec (var_f cur) 1) as [F1|F1].
  { destruct (delayed_code cur rest) as [dl rest1] eqn:ED. apply delayed_code_cases in ED. set (n := Z.to_nat (var_x cur)) in *.
    destruct (Nat.ltb (length rest1) n) eqn:Eln; [discriminate|]. pose proof Q as (_ & _ & _ & Q4). rewrite Q4 in E. cbn [Z.eqb] in E.
    inv_bind E. destruct a as [st2 w2]. cbn [narrator w_repeat] in Hb. unfold v_repeat in Hb. inv_bind Hb. destruct a as [st1 w1].
    apply same_ok in Hk0. unfold on_snd in Hk0. cbn [fst snd] in Hk0. apply pair_equal_spec in Hk0 as [<- <-].
    unfold r_replication, on_snd in Hb0. cbn [fst snd] in Hb0. inv_bind Hb0. destruct a as [count w0].
    set (body := firstn n rest1) in *. set (after := skipn n rest1) in *.
    assert (Eb : rest1 = body ++ after) by apply firstn_app_skipn.
    assert (Lb : Z.of_nat (length body) = var_x cur). { unfold body. rewrite firstn_length_le by lia. pose proof (var_x_nonneg cur). lia. }
    assert (Ab : Forall (appears T top) body /\ Forall (appears T top) after).
    { assert (X : Forall (appears T top) rest1) by (destruct ED as [(_ & _ & ->)|[(_ & _ & ->)|(_ & _ & -> & _)]]; auto; inversion Ar; assumption).
      rewrite Eb in X. apply Forall_app in X. exact X. }
    destruct Ab as [Ab Aa]. clearbody body after.
    assert (P : forall st w x' l, quiet st -> has (te_s w) l -> walk (narrator full path G T) T k body (st, w) = Ok x' -> leads l w body x') by (intros; eapply IH; eauto).
    destruct (Z.eqb_spec (var_y cur) 0) as [Y|Y].
    - inv_bind Hb. cbn [narrator w_visitor teller on_factor] in Hk1. unfold v_factor in Hk1. inv_bind Hk1. destruct a0 as [m s1].
      apply same_ok, pair_equal_spec in Hk2 as [<- <-]. cbn [inner say say_lead te_s] in Hb. destruct (Hfactor _ _ _ _ _ H Hb) as (v & V1 & V2 & V3).
      match type of Hk0 with repeat_m _ _ (_, ?w) = _ => set (w3 := w) in * end.
      assert (S3 : has (te_s w3) (l ++ [v])) by exact V1. assert (I3 : te_indent w3 = (te_indent w + 2)%nat) by reflexivity.
      assert (O3 : te_out w3 = te_out w ++ line (te_indent w) cur (chars "replicate " ++ small (var_x cur) ++ chars " descriptors (delayed " ++ fxy dl ++ chars ") times") ++
        under_line (te_indent w + 2) (chars "delayed replication factor: " ++ digits m)).
      { unfold w3. cbn [te_out te_indent say say_continued say_lead inner with_s]. unfold times_text. rewrite Y. cbn [Z.eqb]. unfold line, under_line. rewrite (repeat_app 32 (te_indent w + 2) 7).
        change (chars " descriptors (delayed ") with (chars " descriptors" ++ chars " (delayed "). change (chars " ") with [32]. rewrite <- !app_assoc. reflexivity. }
      clearbody w3. destruct (parts_told body _ P _ _ _ _ _ Q S3 Hk0) as (Q1 & I1 & parts & Lp & Fp & H1 & O1). cbn [fst snd] in *.
      assert (Lp' : Z.of_nat (length parts) = m) by lia.
      assert (Hw : has (te_s (outer w1)) (l ++ v :: concat (map fst parts))) by (rewrite <- app_assoc in H1; exact H1).
      destruct (IH _ _ _ _ _ Aa Q1 Hw Hk) as (Q2 & I2 & vs & t & D & H2 & O2). cbn [outer te_indent te_out] in I2, O2, D.
      replace (te_indent w1 - 2)%nat with (te_indent w) in * by lia. split; [exact Q2|]. split; [exact I2|].
      exists (v :: concat (map fst parts) ++ vs), (line (te_indent w) cur (chars "replicate " ++ small (var_x cur) ++ chars " descriptors (delayed " ++ fxy dl ++ chars ") times") ++
        under_line (te_indent w + 2) (chars "delayed replication factor: " ++ digits m) ++ concat (map snd parts) ++ t).
      rewrite I3 in Fp. split; [|split].
      + destruct ED as [(Y' & _)|[(_ & C31 & ->)|(_ & -> & -> & N31)]]; [contradiction| |].
        * rewrite Eb. apply to_delayed; auto.
        * rewrite Eb in N31 |- *. change (fxy (wr_var 0 31 12)) with (chars "031012") in *. apply to_implied; auto.
      + rewrite <- app_assoc in H2. exact H2.
      + rewrite O2, O1, O3, <- !app_assoc. reflexivity.
    - destruct ED as [(_ & -> & ->)|[(Y' & _)|(Y' & _)]]; try contradiction. apply same_ok, pair_equal_spec in Hb as [<- <-].
      match type of Hk0 with repeat_m _ _ (_, ?w) = _ => set (w3 := w) in * end.
      assert (S3 : has (te_s w3) l) by exact H. assert (I3 : te_indent w3 = (te_indent w + 2)%nat) by reflexivity.
      assert (O3 : te_out w3 = te_out w ++ line (te_indent w) cur (chars "replicate " ++ small (var_x cur) ++ chars " descriptors " ++ small (var_y cur) ++ chars " times")).
      { unfold w3. cbn [te_out te_indent say say_lead inner]. unfold times_text. rewrite (proj2 (Z.eqb_neq _ _) Y). unfold line.
        change (chars " descriptors ") with (chars " descriptors" ++ chars " "). change (chars " ") with [32]. rewrite <- !app_assoc. reflexivity. }
      clearbody w3. destruct (parts_told body _ P _ _ _ _ _ Q S3 Hk0) as (Q1 & I1 & parts & Lp & Fp & H1 & O1). cbn [fst snd] in *.
      assert (Lp' : Z.of_nat (length parts) = var_y cur). { assert (0 <= var_y cur) by (unfold var_y; apply Z.land_nonneg; lia). lia. }
      destruct (IH _ _ _ _ _ Aa Q1 (H1 : has (te_s (outer w1)) _) Hk) as (Q2 & I2 & vs & t & D & H2 & O2). cbn [outer te_indent te_out] in I2, O2, D.
      replace (te_indent w1 - 2)%nat with (te_indent w) in * by lia. split; [exact Q2|]. split; [exact I2|].
      exists (concat (map fst parts) ++ vs), (line (te_indent w) cur (chars "replicate " ++ small (var_x cur) ++ chars " descriptors " ++ small (var_y cur) ++ chars " times") ++ concat (map snd parts) ++ t).
      rewrite I3 in Fp. rewrite Eb. split; [apply to_repeat; auto|]. rewrite <- app_assoc in H2. split; [exact H2|]. rewrite O2, O1, O3, <- !app_assoc. reflexivity. }
  destruct (Z.eqb_spec (var_f cur) 2) as [F2|F2].
  { inv_bind E. destruct a as [[next st1] w1]. unfold on_snd in Hb. cbn [fst snd narrator w_operator] in Hb.
    destruct (operator_told _ _ _ _ _ _ _ _ F2 (HX _ Ac F2) Q H Hb) as (Q1 & I1 & v1 & t1 & H1 & O1 & (sk & Esk) & D1).
    assert (An : Forall (appears T top) next) by (rewrite Esk in Ar; apply Forall_app in Ar; apply Ar).
    destruct (IH _ _ _ _ _ An Q1 H1 Hk) as (Q2 & I2 & vs & t & D & H2 & O2). split; [exact Q2|]. split; [congruence|].
    exists (v1 ++ vs), (t1 ++ t). rewrite I1 in D. split; [apply D1; exact D|]. rewrite <- app_assoc in H2. split; [exact H2|]. rewrite O2, O1, <- app_assoc. reflexivity. }
  assert (F3 : var_f cur = 3) by lia. inv_bind E. rename a into body. inv_bind Hk. destruct a as [st1 w1]. unfold on_snd in Hb0, Hk0. cbn [fst snd narrator w_enter w_leave] in Hb0, Hk0.
  assert (Ab : Forall (appears T top) body). { apply Forall_forall. intros c Ic. eapply ap_inside; eauto. }
  destruct (IH _ _ _ _ _ Ab Q (H : has (te_s (v_enter cur w)) l) Hb0) as (Q1 & I1 & vs1 & t1 & D1 & H1 & O1). cbn [fst snd] in *.
  destruct (IH _ _ _ _ _ Ar Q1 (H1 : has (te_s (outer w1)) _) Hk0) as (Q2 & I2 & vs & t & D & H2 & O2). cbn [outer te_indent te_out] in I2, O2, D.
  cbn [v_enter inner say say_lead te_indent] in I1, D1. replace (te_indent w1 - 2)%nat with (te_indent w) in * by lia. split; [exact Q2|]. split; [exact I2|].
  exists (vs1 ++ vs), (line (te_indent w) cur (chars " (group)") ++ t1 ++ t). split; [eapply to_group; eauto|]. rewrite <- app_assoc in H2. split; [exact H2|].
  rewrite O2, O1. cbn [v_enter inner say say_lead te_out te_indent]. unfold line. change (chars " ") with [32]. rewrite <- !app_assoc. reflexivity.
Qed.
End Text.

(** C52: settings made for a scope last as long as the scope. *)
From Coq Require Import ZArith List Lia String.
From Verif Require Import Base Num.Float Varinfo.Model Var.Model Threads.Options.
Import ListNotations.
Local Open Scope Z_scope.

(** ** Specification *)
(** Code that changes settings only with the objects for scopes. *)
Fixpoint scoped (b : block) : Prop :=
  match b with
  | End => True
  | Do a rest => match a with AAssign _ | ATarget _ => False | _ => scoped rest end
  | Override _ rest | Collect _ rest => scoped rest
  | Inner b rest => scoped b /\ scoped rest
  | Try b h rest => scoped b /\ scoped h /\ scoped rest
  end.

(** All that a block says to do, each with the objects that are alive there, from the oldest. *)
Inductive frame : Type := FOpt (a : setting) | FOut (out : nat).
Fixpoint places (alive : list frame) (b : block) : list (act * list frame) :=
  match b with
  | End => []
  | Do a rest => (a, alive) :: places alive rest
  | Override a rest => places (alive ++ [FOpt a]) rest
  | Collect out rest => places (alive ++ [FOut out]) rest
  | Inner b rest => places alive b ++ places alive rest
  | Try b h rest => places alive b ++ places alive h ++ places alive rest
  end.
(** The newest object for a setting decides it. *)
Definition options_with (alive : list frame) (o : options) : options :=
  fold_left (fun o f => match f with FOpt a => assign_opt a o | FOut _ => o end) alive o.
Definition target_with (alive : list frame) (t : option nat) : option nat :=
  fold_left (fun t f => match f with FOpt _ => t | FOut out => Some out end) alive t.

(** What one act does to the variables and the streams, with the options and the target that are in force. *)
Definition effect (st : (nat -> cell) * list (nat * list Z)) (x : act * options * option nat) : (nat -> cell) * list (nat * list Z) :=
  let '(vars, out) := st in
  let '(a, o, t) := x in
  let put x r := match r with
                 | Done c | Thrown _ c => (fun y => if Nat.eqb y x then c else vars y, out)
                 | Undef => (vars, out)
                 end in
  match a, t with
  | ASetI x v, _ => put x (seti o (vars x) v)
  | ASetD x v, _ => put x (setd o (vars x) v)
  | ANote text, Some stream => (vars, out ++ [(stream, text)])
  | _, _ => (vars, out)
  end.

(** ** Proofs *)
Lemma assign_old a o : assign_opt (old_value a o) (assign_opt a o) = o.
Proof. destruct o, a; reflexivity. Qed.

Lemma do_act_keeps a s r s' : match a with AAssign _ | ATarget _ => False | _ => True end -> do_act a s = (r, s') ->
  ts_opts s' = ts_opts s /\ ts_target s' = ts_target s /\ ts_seen s' = ts_seen s.
Proof.
  destruct a; cbn [do_act]; intros H E; try contradiction.
  - unfold do_set in E. destruct (seti _ _ _); injection E as <- <-; auto.
  - unfold do_set in E. destruct (setd _ _ _); injection E as <- <-; auto.
  - injection E as <- <-. destruct (ts_target s) eqn:T; auto.
  - injection E as <- <-. auto.
Qed.

Definition known (alive : list frame) (b : block) (o : options) (t : option nat) (x : act * options * option nat) : Prop :=
  exists ctx, In (fst (fst x), ctx) (places alive b) /\ snd (fst x) = options_with ctx o /\ snd x = target_with ctx t.

Lemma known_more alive b b' o t l : (forall x, In x (places alive b) -> In x (places alive b')) ->
  Forall (known alive b o t) l -> Forall (known alive b' o t) l.
Proof. intros H. apply Forall_impl. intros x (ctx & J & K). exists ctx. auto. Qed.

Lemma run_spec o t b : forall alive s r s', scoped b -> ts_opts s = options_with alive o -> ts_target s = target_with alive t ->
  run b s = (r, s') ->
  (r <> Undefined -> ts_opts s' = ts_opts s /\ ts_target s' = ts_target s) /\
  exists l, ts_seen s' = ts_seen s ++ l /\ Forall (known alive b o t) l.
Proof.
  induction b as [|a rest IH|a rest IH|out rest IH|b IHb rest IH|b IHb h IHh rest IH]; intros alive s r s' C Ho Ht H; cbn [run] in H.
  - injection H as <- <-. split; auto. exists []. rewrite app_nil_r. auto.
  - destruct (do_act a (note_act a s)) as [r1 s1] eqn:A. cbn [scoped] in C.
    assert (Ca : match a with AAssign _ | ATarget _ => False | _ => True end) by (destruct a; auto).
    assert (Cr : scoped rest) by (destruct a; auto; contradiction).
    destruct (do_act_keeps _ _ _ _ Ca A) as (O1 & T1 & S1). cbn in O1, T1, S1.
    assert (K : known alive (Do a rest) o t (a, ts_opts s, ts_target s)) by (exists alive; cbn; auto).
    destruct r1.
    + destruct (IH alive s1 r s') as [P (l & L & F)]; auto; try congruence.
      split; [rewrite <- O1, <- T1; auto|]. exists ((a, ts_opts s, ts_target s) :: l). split; [rewrite L, S1, <- app_assoc; reflexivity|].
      constructor; auto. eapply known_more; [|exact F]. cbn. auto.
    + injection H as <- <-. split; auto. exists [(a, ts_opts s, ts_target s)]. auto.
    + injection H as <- <-. split; auto. exists [(a, ts_opts s, ts_target s)]. auto.
  - destruct (run rest _) as [r1 s1] eqn:R.
    assert (Ho' : ts_opts (with_opts s (assign_opt a (ts_opts s))) = options_with (alive ++ [FOpt a]) o).
    { unfold options_with. rewrite fold_left_app. cbn. fold (options_with alive o). congruence. }
    assert (Ht' : ts_target (with_opts s (assign_opt a (ts_opts s))) = target_with (alive ++ [FOpt a]) t).
    { unfold target_with. rewrite fold_left_app. cbn. exact Ht. }
    destruct (IH _ _ _ _ C Ho' Ht' R) as [P (l & L & F)].
    cbn [ts_opts ts_target ts_seen with_opts] in P, L.
    assert (F' : Forall (known alive (Override a rest) o t) l) by exact F.
    destruct r1; injection H as <- <-; cbn [ts_opts ts_target ts_seen with_opts]; (split; [|eauto]); intros N; try congruence.
    + destruct P as [P1 P2]; [congruence|]. rewrite P1, assign_old. auto.
    + destruct P as [P1 P2]; [congruence|]. rewrite P1, assign_old. auto.
  - destruct (run rest _) as [r1 s1] eqn:R.
    assert (Ho' : ts_opts (with_target s (Some out)) = options_with (alive ++ [FOut out]) o).
    { unfold options_with. rewrite fold_left_app. cbn. exact Ho. }
    assert (Ht' : ts_target (with_target s (Some out)) = target_with (alive ++ [FOut out]) t).
    { unfold target_with. rewrite fold_left_app. reflexivity. }
    destruct (IH _ _ _ _ C Ho' Ht' R) as [P (l & L & F)].
    cbn [ts_opts ts_target ts_seen with_target] in P, L.
    assert (F' : Forall (known alive (Collect out rest) o t) l) by exact F.
    destruct (ts_target s) as [t0|] eqn:T0.
    + destruct r1; injection H as <- <-; cbn [ts_opts ts_target ts_seen with_target]; (split; [|eauto]); intros N; try congruence;
        (destruct P as [P1 P2]; [congruence|]); auto.
    + destruct r1; injection H as <- <-; (split; [congruence|eauto]).
  - destruct C as [Cb Cr]. destruct (run b s) as [r1 s1] eqn:R.
    destruct (IHb alive _ _ _ Cb Ho Ht R) as [P (l & L & F)].
    assert (F1 : Forall (known alive (Inner b rest) o t) l) by (eapply known_more; [|exact F]; intros; cbn; apply in_app_iff; auto).
    destruct r1.
    + destruct P as [P1 P2]; [congruence|]. destruct (IH alive s1 r s' Cr) as [P' (l' & L' & F')]; auto; try congruence.
      split; [rewrite <- P1, <- P2; auto|]. exists (l ++ l'). split; [rewrite L', L, app_assoc; reflexivity|].
      apply Forall_app. split; auto. eapply known_more; [|exact F']; intros; cbn; apply in_app_iff; auto.
    + injection H as <- <-. split; eauto.
    + injection H as <- <-. split; eauto.
  - destruct C as (Cb & Ch & Cr). destruct (run b s) as [r1 s1] eqn:R.
    destruct (IHb alive _ _ _ Cb Ho Ht R) as [P (l & L & F)].
    assert (F1 : Forall (known alive (Try b h rest) o t) l) by (eapply known_more; [|exact F]; intros; cbn; apply in_app_iff; auto).
    destruct r1.
    + destruct P as [P1 P2]; [congruence|]. destruct (IH alive s1 r s' Cr) as [P' (l' & L' & F')]; auto; try congruence.
      split; [rewrite <- P1, <- P2; auto|]. exists (l ++ l'). split; [rewrite L', L, app_assoc; reflexivity|].
      apply Forall_app. split; auto. eapply known_more; [|exact F']; intros; cbn; rewrite !in_app_iff; auto.
    + destruct P as [P1 P2]; [congruence|]. destruct (run h s1) as [r2 s2] eqn:Rh.
      destruct (IHh alive s1 r2 s2 Ch) as [Q (k & K & G)]; auto; try congruence.
      assert (G1 : Forall (known alive (Try b h rest) o t) (l ++ k)).
      { apply Forall_app. split; auto. eapply known_more; [|exact G]; intros; cbn; rewrite !in_app_iff; auto. }
      assert (K1 : ts_seen s2 = ts_seen s ++ l ++ k) by (rewrite K, L, app_assoc; reflexivity).
      destruct r2.
      * destruct Q as [Q1 Q2]; [congruence|]. destruct (IH alive s2 r s' Cr) as [P' (l' & L' & F')]; auto; try congruence.
        split; [rewrite <- P1, <- P2, <- Q1, <- Q2; auto|]. exists ((l ++ k) ++ l'). split; [rewrite L', K1, !app_assoc; reflexivity|].
        apply Forall_app. split; auto. eapply known_more; [|exact F']; intros; cbn; rewrite !in_app_iff; auto.
      * injection H as <- <-. split; [intros N; rewrite <- P1, <- P2; auto|eauto].
      * injection H as <- <-. split; [congruence|eauto].
    + injection H as <- <-. split; eauto.
Qed.

Lemma act_effect a s r s' : do_act a (note_act a s) = (r, s') ->
  ts_seen s' = ts_seen s ++ [(a, ts_opts s, ts_target s)] /\
  (ts_vars s', ts_out s') = effect (ts_vars s, ts_out s) (a, ts_opts s, ts_target s).
Proof.
  destruct a; cbn [do_act effect note_act ts_opts ts_vars ts_target ts_seen ts_out]; intros H.
  - unfold do_set in H. destruct (seti _ _ _); injection H as <- <-; auto.
  - unfold do_set in H. destruct (setd _ _ _); injection H as <- <-; auto.
  - injection H as <- <-. auto.
  - injection H as <- <-. auto.
  - injection H as <- <-. destruct (ts_target s) eqn:T; auto. cbn. rewrite T. auto.
  - injection H as <- <-. auto.
Qed.
Lemma run_effect b : forall s r s', run b s = (r, s') ->
  exists l, ts_seen s' = ts_seen s ++ l /\ (ts_vars s', ts_out s') = fold_left effect l (ts_vars s, ts_out s).
Proof.
  assert (App : forall s s1 s2, (exists l, ts_seen s1 = ts_seen s ++ l /\ (ts_vars s1, ts_out s1) = fold_left effect l (ts_vars s, ts_out s)) ->
    (exists l, ts_seen s2 = ts_seen s1 ++ l /\ (ts_vars s2, ts_out s2) = fold_left effect l (ts_vars s1, ts_out s1)) ->
    exists l, ts_seen s2 = ts_seen s ++ l /\ (ts_vars s2, ts_out s2) = fold_left effect l (ts_vars s, ts_out s)).
  { intros s s1 s2 (l & L & F) (k & K & G). exists (l ++ k). rewrite fold_left_app, <- F, <- G, K, L, app_assoc. auto. }
  induction b as [|a rest IH|a rest IH|out rest IH|b IHb rest IH|b IHb h IHh rest IH]; intros s r s' H; cbn [run] in H.
  - injection H as <- <-. exists []. rewrite app_nil_r. auto.
  - destruct (do_act a (note_act a s)) as [r1 s1] eqn:A. apply act_effect in A as [L F].
    assert (S1 : exists l, ts_seen s1 = ts_seen s ++ l /\ (ts_vars s1, ts_out s1) = fold_left effect l (ts_vars s, ts_out s)) by (eexists [_]; eauto).
    destruct r1; [exact (App _ _ _ S1 (IH _ _ _ H))| |]; injection H as <- <-; exact S1.
  - destruct (run rest _) as [r1 s1] eqn:R. apply IH in R. destruct r1; injection H as <- <-; exact R.
  - destruct (run rest _) as [r1 s1] eqn:R. apply IH in R. destruct (ts_target s); destruct r1; injection H as <- <-; exact R.
  - destruct (run b s) as [r1 s1] eqn:R. apply IHb in R. destruct r1; [exact (App _ _ _ R (IH _ _ _ H))| |]; injection H as <- <-; exact R.
  - destruct (run b s) as [r1 s1] eqn:R. apply IHb in R. destruct r1; [exact (App _ _ _ R (IH _ _ _ H))| |injection H as <- <-; exact R].
    destruct (run h s1) as [r2 s2] eqn:Rh. apply IHh in Rh. destruct r2; [exact (App _ _ _ R (App _ _ _ Rh (IH _ _ _ H)))| |]; injection H as <- <-; exact (App _ _ _ R Rh).
Qed.

(** ** Theorems *)
(** Code that changes settings only for scopes leaves them as they were, whether it ends normally or with an exception. *)
Theorem C52_restored : forall b s r s', scoped b -> run b s = (r, s') -> r <> Undefined ->
  ts_opts s' = ts_opts s /\ ts_target s' = ts_target s.
Proof. intros b s r s' C H N. destruct (run_spec (ts_opts s) (ts_target s) b [] s r s' C eq_refl eq_refl H) as [P _]. auto. Qed.

(** Whatever is done in between is done with the settings of the objects alive at that place, the newest first, and with what was
    there before for the rest; variables and streams are as that leaves them. *)
Theorem C52_in_force : forall b s r s', scoped b -> run b s = (r, s') ->
  exists l, ts_seen s' = ts_seen s ++ l /\ (ts_vars s', ts_out s') = fold_left effect l (ts_vars s, ts_out s) /\
  forall a o t, In (a, o, t) l -> exists alive, In (a, alive) (places [] b) /\ o = options_with alive (ts_opts s) /\ t = target_with alive (ts_target s).
Proof.
  intros b s r s' C H. destruct (run_spec (ts_opts s) (ts_target s) b [] s r s' C eq_refl eq_refl H) as [_ (l & L & F)].
  destruct (run_effect b s r s' H) as (k & K & G). assert (k = l) by (apply (app_inv_head (ts_seen s)); congruence). subst k.
  exists l. split; auto. split; auto. intros a o t J. rewrite Forall_forall in F. destruct (F _ J) as (ctx & X). exists ctx. auto.
Qed.

(** An assignment in the scope of an override of the same option does not outlive it. *)
Theorem C52_assignment_undone : forall a rest s r s', run (Override a rest) s = (r, s') -> r <> Undefined ->
  old_value a (ts_opts s') = old_value a (ts_opts s).
Proof.
  intros a rest s r s' H N. cbn [run] in H. destruct (run rest _) as [r1 s1]. destruct r1; injection H as <- <-; try congruence; destruct a; reflexivity.
Qed.

(** While domain errors are silent, setting variables throws no domain error: code that sets integers or doubles and
    overrides only the other options ends without error_domain, if it throws none itself. *)
Fixpoint only_sets (b : block) : Prop :=
  match b with
  | End => True
  | Do a rest => match a with AAssign (SSilent _) => False | AThrow e => e <> EDomain | _ => True end /\ only_sets rest
  | Override a rest => match a with SSilent b => b = true | _ => True end /\ only_sets rest
  | Collect _ rest => only_sets rest
  | Inner b rest => only_sets b /\ only_sets rest
  | Try b h rest => only_sets b /\ only_sets h /\ only_sets rest
  end.
Lemma seti_silent o c v e c' : o_silent o = true -> seti o c v = Thrown e c' -> e = EType.
Proof.
  unfold seti, assign_i_checked. intros ->. destruct (is_numeric _); [|congruence]. destruct (_ || _); discriminate.
Qed.
Lemma setd_silent o c v e c' : o_silent o = true -> setd o c v = Thrown e c' -> e = EType.
Proof.
  unfold setd, assign_i_checked, assign_d_checked, store_d. intros ->. destruct (vi_type _); try congruence.
  - destruct (f_lround v); try discriminate. destruct (_ || _); discriminate.
  - destruct (fisnan v); try discriminate. destruct (_ || _); try discriminate. destruct (encode_decimal _ _); discriminate.
Qed.
Lemma silent_spec b : forall s r s', only_sets b -> o_silent (ts_opts s) = true -> run b s = (r, s') ->
  r <> Exception EDomain /\ (r <> Undefined -> o_silent (ts_opts s') = true).
Proof.
  induction b as [|a rest IH|a rest IH|out rest IH|b IHb rest IH|b IHb h IHh rest IH]; intros s r s' C Si H; cbn [run] in H.
  - injection H as <- <-. split; [discriminate|auto].
  - destruct C as [Ca Cr]. destruct (do_act a (note_act a s)) as [r1 s1] eqn:A.
    assert (S1 : r1 <> Exception EDomain /\ o_silent (ts_opts s1) = true).
    { destruct a; cbn [do_act] in A.
      - unfold do_set in A. destruct (seti _ _ _) eqn:Q; injection A as <- <-; (split; [|exact Si]); try discriminate.
        apply seti_silent in Q; auto. subst. discriminate.
      - unfold do_set in A. destruct (setd _ _ _) eqn:Q; injection A as <- <-; (split; [|exact Si]); try discriminate.
        apply setd_silent in Q; auto. subst. discriminate.
      - injection A as <- <-. split; [discriminate|]. destruct a; [contradiction|exact Si|exact Si].
      - injection A as <- <-. split; [discriminate|exact Si].
      - injection A as <- <-. split; [discriminate|]. cbn. destruct (ts_target s); exact Si.
      - injection A as <- <-. split; [congruence|exact Si]. }
    destruct S1 as [N1 S1]. destruct r1; [eapply IH; eauto| |]; injection H as <- <-; auto.
  - destruct C as [Ca Cr]. destruct (run rest _) as [r1 s1] eqn:R.
    assert (Si' : o_silent (ts_opts (with_opts s (assign_opt a (ts_opts s)))) = true) by (destruct a; cbn; auto).
    destruct (IH _ _ _ Cr Si' R) as [N P].
    destruct r1; injection H as <- <-; split; auto; try congruence; intros _;
      (destruct a; cbn; [exact Si|apply P; congruence|apply P; congruence]).
  - destruct (run rest _) as [r1 s1] eqn:R. destruct (IH (with_target s (Some out)) _ _ C Si R) as [N P].
    destruct (ts_target s); destruct r1; injection H as <- <-; split; auto; try congruence; intros _; apply P; congruence.
  - destruct C as [Cb Cr]. destruct (run b s) as [r1 s1] eqn:R. destruct (IHb _ _ _ Cb Si R) as [N P].
    destruct r1; [eapply IH; [exact Cr| |exact H]; apply P; congruence| |]; injection H as <- <-; auto.
  - destruct C as (Cb & Ch & Cr). destruct (run b s) as [r1 s1] eqn:R. destruct (IHb _ _ _ Cb Si R) as [N P].
    destruct r1; [eapply IH; [exact Cr| |exact H]; apply P; congruence| |injection H as <- <-; auto].
    destruct (run h s1) as [r2 s2] eqn:Rh. destruct (IHh _ _ _ Ch ltac:(apply P; congruence) Rh) as [N2 P2].
    destruct r2; [eapply IH; [exact Cr| |exact H]; apply P2; congruence| |]; injection H as <- <-; auto.
Qed.
Theorem C52_silent : forall b s r s', only_sets b -> run (Override (SSilent true) b) s = (r, s') -> r <> Exception EDomain.
Proof.
  intros b s r s' C H. apply (silent_spec (Inner (Override (SSilent true) b) End) (with_opts s (assign_opt (SSilent true) (ts_opts s))) r
    (snd (run (Inner (Override (SSilent true) b) End) (with_opts s (assign_opt (SSilent true) (ts_opts s)))))); cbn [only_sets]; auto.
  cbn [run] in *. destruct s as [[si cl hk] tg vs ou se]. cbn in *. destruct (run b _) as [[| |] s1]; cbn; injection H as <- <-; reflexivity.
Qed.

(** notes::Collect in a thread that has no target for notes: its destructor is undefined behaviour. *)
Theorem C52_collect_refuted : forall out s, ts_target s = None -> fst (run (Collect out End) s) = Undefined.
Proof. intros out s H. cbn. rewrite H. reflexivity. Qed.
(** It is the only one: without it, or with a target, undefined behaviour comes from setting variables alone (C07). *)
Fixpoint no_sets (b : block) : Prop :=
  match b with
  | End => True
  | Do a rest => match a with ASetI _ _ | ASetD _ _ => False | _ => True end /\ no_sets rest
  | Override _ rest | Collect _ rest => no_sets rest
  | Inner b rest => no_sets b /\ no_sets rest
  | Try b h rest => no_sets b /\ no_sets h /\ no_sets rest
  end.
Theorem C52_collect : forall b s, no_sets b -> ts_target s <> None ->
  fst (run b s) <> Undefined /\ ts_target (snd (run b s)) <> None.
Proof.
  induction b as [|a rest IH|a rest IH|out rest IH|b IHb rest IH|b IHb h IHh rest IH]; intros s C T; cbn [run].
  - split; [discriminate|exact T].
  - destruct C as [Ca Cr]. destruct (do_act a (note_act a s)) as [r1 s1] eqn:A.
    assert (S1 : r1 <> Undefined /\ ts_target s1 <> None).
    { destruct a; cbn [do_act] in A; try contradiction; injection A as <- <-; (split; [discriminate|]); auto; cbn; try congruence.
      destruct (ts_target s) eqn:Q; cbn; congruence. }
    destruct S1, r1; auto; congruence.
  - specialize (IH (with_opts s (assign_opt a (ts_opts s))) C T). destruct (run rest _) as [r1 s1]. destruct r1; exact IH.
  - specialize (IH (with_target s (Some out)) C ltac:(discriminate)). destruct (run rest _) as [r1 s1]. cbn [fst snd] in IH.
    destruct IH. destruct (ts_target s); [|congruence]. destruct r1; cbn; split; congruence.
  - destruct C as [Cb Cr]. specialize (IHb s Cb T). destruct (run b s) as [r1 s1]. cbn [fst snd] in IHb. destruct IHb. destruct r1; auto.
  - destruct C as (Cb & Ch & Cr). specialize (IHb s Cb T). destruct (run b s) as [r1 s1]. cbn [fst snd] in IHb. destruct IHb. destruct r1; [auto| |congruence].
    specialize (IHh s1 Ch ltac:(assumption)). destruct (run h s1) as [r2 s2]. cbn [fst snd] in IHh. destruct IHh. destruct r2; auto.
Qed.

(** ** Example: a variable of 0 to 126, set to 500 three times *)
Definition ex_info : varinfo := mkinfo 257 TInteger "NUMERIC" 0 3 0 7 0 126 (f_of_Z 0) (f_of_Z 126).
Definition ex_block : block :=
  Try (Override (SSilent true)
        (Do (ASetI 0 500)
        (Override (SClamp true) (Override (SSilent false) (Do (ASetI 1 500) (Collect 8 (Do (ANote [104; 105]) (Do (AThrow EParse) End))))))))
      (Do (ANote [98; 121; 101]) End)
      (Do (ASetI 2 500) End).
Example C52_example : scoped ex_block /\
  let s := mkts default_options (Some 7%nat) (fun _ => mkcell ex_info (Some (VInt 1))) [] [] in
  let '(r, s') := run ex_block s in
  r = Exception EDomain /\ ts_opts s' = default_options /\ ts_target s' = Some 7%nat /\
  map (fun x => c_val (ts_vars s' x)) [0; 1; 2; 3]%nat = [None; Some (VInt 126); None; Some (VInt 1)] /\
  ts_out s' = [(8%nat, [104; 105]); (7%nat, [98; 121; 101])].
Proof. split; [cbn; auto|]. vm_compute. auto 6. Qed.
Example C52_silent_example : only_sets (Do (ASetI 0 500) (Override (SClamp true) (Do (ASetD 1 (f_of_Z 500)) End))).
Proof. cbn. auto. Qed.

Print Assumptions C52_restored.
Print Assumptions C52_in_force.
Print Assumptions C52_assignment_undone.
Print Assumptions C52_silent.
Print Assumptions C52_collect_refuted.
Print Assumptions C52_collect.

(** A listing determines the template. *)
From Coq Require Import String Sorting.Sorted ZArith Lia ZifyBool ZifyNat.
From Verif Require Import Base Varcode.Model Varcode.Proofs Varinfo.Model Tables.Model
  Interp.Model Interp.Spec Interp.ExpandProofs Interp.Holds Listing.Model Listing.Spec Listing.Proofs Listing.ListProofs Listing.GoesProofs.
Local Open Scope Z_scope.

(** ** The tree of a template is unique *)
Lemma app_same_length {A} (a1 a2 b1 b2 : list A) : length a1 = length a2 -> a1 ++ b1 = a2 ++ b2 -> a1 = a2 /\ b1 = b2.
Proof.
  revert a2. induction a1 as [|x a1 IH]; intros [|y a2] L E; cbn in *; try discriminate; [auto|].
  injection E as -> E. destruct (IH a2 ltac:(lia) E) as [-> ->]. auto.
Qed.

Lemma reads_unique T b ops ns1 b1 : reads T b ops ns1 b1 -> forall ns2 b2, reads T b ops ns2 b2 -> ns1 = ns2 /\ b1 = b2.
Proof.
  induction 1 as [b|b c ops ns b' F R IH|b c ops ns b' F A R IH|b c a ops ns b' F A R IH
    |b d body ns1 b1 ops ns2 b2 F D R1 IH1 R2 IH2
    |r body ns1 b1 ops ns2 b2 F Y L R1 IH1 R2 IH2
    |r c body ns1 b1 ops ns2 b2 F Y C L R1 IH1 R2 IH2
    |r body ns1 b1 ops ns2 b2 F Y C L R1 IH1 R2 IH2
    |r ops ns b' F X Y R IH|r c ops ns b' F X Y C R IH]; intros ms b3 Q; inversion Q; clear Q; subst; try congruence; try lia; auto.
  - match goal with H0 : reads _ _ ops ?m _ |- _ = _ :: ?m /\ _ => destruct (IH _ _ H0) as [-> ->] end; auto.
  - match goal with H0 : reads _ _ ops ?m _ |- _ = _ :: ?m /\ _ => destruct (IH _ _ H0) as [-> ->] end; auto.
  - match goal with H0 : reads _ _ ops ?m _ |- _ = _ :: ?m /\ _ => destruct (IH _ _ H0) as [-> ->] end; auto.
  - match goal with H1 : dexpand _ d = Ok ?x |- _ => assert (x = body) by congruence; subst x end.
    match goal with H0 : reads _ _ body ?m ?x |- _ => destruct (IH1 _ _ H0) as [Q1 Q2]; subst m x end. match goal with H0 : reads _ _ ops ?m _ |- _ = _ :: ?m /\ _ => destruct (IH2 _ _ H0) as [-> ->] end; auto.
  - match goal with H1 : _ ++ _ = body ++ ops |- _ => apply app_same_length in H1 as [-> ->]; [|lia] end.
    match goal with H0 : reads _ _ body ?m ?x |- _ => destruct (IH1 _ _ H0) as [Q1 Q2]; subst m x end. match goal with H0 : reads _ _ ops ?m _ |- _ = _ :: ?m /\ _ => destruct (IH2 _ _ H0) as [-> ->] end; auto.
  - match goal with H1 : _ ++ _ = body ++ ops |- _ => apply app_same_length in H1 as [-> ->]; [|lia] end.
    match goal with H0 : reads _ _ body ?m ?x |- _ => destruct (IH1 _ _ H0) as [Q1 Q2]; subst m x end. match goal with H0 : reads _ _ ops ?m _ |- _ = _ :: ?m /\ _ => destruct (IH2 _ _ H0) as [-> ->] end; auto.
  - exfalso. match goal with H1 : forall c l, _ = c :: l -> ~ class31 c |- _ => eapply H1; [|exact C]; eauto end.
  - exfalso. eapply C; [|eassumption]. eauto.
  - match goal with H1 : _ ++ _ = body ++ ops |- _ => apply app_same_length in H1 as [-> ->]; [|lia] end.
    match goal with H0 : reads _ _ body ?m ?x |- _ => destruct (IH1 _ _ H0) as [Q1 Q2]; subst m x end. match goal with H0 : reads _ _ ops ?m _ |- _ = _ :: ?m /\ _ => destruct (IH2 _ _ H0) as [-> ->] end; auto.
  - match goal with H0 : reads _ _ ops ?m _ |- _ = _ :: ?m /\ _ => destruct (IH _ _ H0) as [-> ->] end; auto.
  - match goal with H0 : reads _ _ ops ?m _ |- _ = _ :: ?m /\ _ => destruct (IH _ _ H0) as [-> ->] end; auto.
Qed.

Lemma written_inside b :
  (fix inside (l : list node) : list Z := match l with [] => [] | m :: r => written_node m ++ inside r end) b = written b.
Proof. induction b as [|n b IH]; [reflexivity|]. unfold written in *. cbn [map concat]. rewrite IH. reflexivity. Qed.

Lemma reads_written T b ops ns b' : reads T b ops ns b' -> written ns = ops.
Proof.
  assert (Wc : forall n ns, written (n :: ns) = written_node n ++ written ns) by reflexivity.
  induction 1; try rewrite Wc; cbn [written_node]; rewrite ?written_inside; try reflexivity; cbn [app]; try congruence.
Qed.

(** ** Lines *)
Section Lines.
Context (text : Z -> list Z).

Definition entry : Type := (nat * Z * list Z)%type.
Definition entry_line (e : entry) : list Z := line (fst (fst e)) (snd (fst e)) (snd e).

Definition times_text (r : Z) : list Z := chars "replicate " ++ small (var_x r) ++ chars " descriptors " ++ small (var_y r) ++ chars " times".
Definition delayed_text (r c : Z) : list Z := chars "replicate " ++ small (var_x r) ++ chars " descriptors (delayed " ++ fxy c ++ chars ") times".

Fixpoint entries (i : nat) (n : node) : list entry :=
  let inside := fix inside (l : list node) : list entry :=
    match l with [] => [] | m :: r => entries (i + 2) m ++ inside r end in
  match n with
  | NElement c => [(i, c, text c)]
  | NOperator c => [(i, c, operator_says c None)]
  | NOperand c a => (i, c, operator_says c (Some a)) :: (if var_x c =? 4 then [(i, a, text a)] else [])
  | NSequence d b => (i, d, chars "(group)") :: inside b
  | NRepeat r b => (i, r, times_text r) :: inside b
  | NDelayed r c b => (i, r, delayed_text r c) :: inside b
  | NImplied r b => (i, r, chars "replicate " ++ small (var_x r) ++ chars " descriptors (delayed 031012) times") :: inside b
  | NBitmap _ _ => []
  end.
Definition all_entries (i : nat) (ns : list node) : list entry := concat (map (entries i) ns).

Lemma entries_inside i b :
  (fix inside (l : list node) : list entry := match l with [] => [] | m :: r => entries (i + 2) m ++ inside r end) b = all_entries (i + 2) b.
Proof. induction b as [|n b IH]; [reflexivity|]. unfold all_entries in *. cbn [map concat]. rewrite IH. reflexivity. Qed.

Lemma text_inside i b :
  (fix inside (l : list node) : list Z := match l with [] => [] | m :: r => node_text text (i + 2) m ++ inside r end) b = listing text (i + 2) b.
Proof. induction b as [|n b IH]; [reflexivity|]. unfold listing in *. cbn [map concat]. rewrite IH. reflexivity. Qed.

Definition joined (l : list entry) : list Z := concat (map entry_line l).
Lemma joined_app a b : joined (a ++ b) = joined a ++ joined b.
Proof. unfold joined. rewrite map_app, concat_app. reflexivity. Qed.

Lemma node_entries n : forall i, node_text text i n = joined (entries i n).
Proof.
  assert (In : forall b, Forall (fun n => forall i, node_text text i n = joined (entries i n)) b -> forall i, listing text i b = joined (all_entries i b)).
  { induction 1 as [|m b Hm Hb IH]; intros i; [reflexivity|]. unfold listing, all_entries in *. cbn [map concat]. rewrite joined_app, IH, Hm. reflexivity. }
  induction n as [c|c|c a|d b IH|r b IH|r c b IH|r b IH|r f] using tree_ind; intros i; cbn [node_text entries];
    rewrite ?text_inside, ?entries_inside, ?(In b IH); unfold joined; cbn [map concat]; unfold entry_line; cbn [fst snd]; rewrite ?app_nil_r; try reflexivity.
  destruct (var_x c =? 4); cbn [map concat]; rewrite ?app_nil_r; reflexivity.
Qed.

Lemma listing_entries i ns : listing text i ns = joined (all_entries i ns).
Proof.
  unfold listing, all_entries. induction ns as [|n ns IH]; [reflexivity|]. cbn [map concat]. rewrite joined_app, <- IH, node_entries. reflexivity.
Qed.

(** ** Reading the lines back *)
Definition entry_ok (e : entry) : Prop := code16 (snd (fst e)) /\ one_line (snd e).

Lemma split_line t1 t2 r1 r2 : one_line t1 -> one_line t2 -> t1 ++ 10 :: r1 = t2 ++ 10 :: r2 -> t1 = t2 /\ r1 = r2.
Proof.
  revert t2. induction t1 as [|x t1 IH]; intros [|y t2] H1 H2 E; cbn [app] in E.
  - injection E as ->. auto.
  - injection E as <- _. inversion H2; congruence.
  - injection E as -> _. inversion H1; congruence.
  - injection E as -> E. inversion H1; inversion H2; subst. destruct (IH t2) as [-> ->]; auto.
Qed.

Lemma split_spaces i j a b r s : a <> 32 -> b <> 32 -> repeat 32 i ++ a :: r = repeat 32 j ++ b :: s -> i = j /\ a :: r = b :: s.
Proof.
  intros A B. revert j. induction i as [|i IH]; intros [|j] E; cbn [repeat app] in E; [auto|injection E as -> _; congruence|injection E as <- _; congruence|].
  injection E as E. destruct (IH j E) as [-> E2]. auto.
Qed.

Lemma fxy_six c : exists a b d e g h, fxy c = [a; b; d; e; g; h] /\ a <> 32.
Proof. unfold fxy, varcode_format. cbn [tl]. do 6 eexists. split; [reflexivity|]. pose proof (var_f_range c). lia. Qed.

Lemma fxy_inj c d : code16 c -> code16 d -> fxy c = fxy d -> c = d.
Proof.
  unfold code16. intros Hc Hd E. unfold fxy, varcode_format in E. cbn [tl] in E.
  destruct (pack_unpack c Hc) as (_ & Xc & Yc & Pc). destruct (pack_unpack d Hd) as (_ & Xd & Yd & Pd). rewrite <- Pc, <- Pd. clear Pc Pd Hc Hd.
  remember (var_x c) as xc. remember (var_x d) as xd. remember (var_y c) as yc. remember (var_y d) as yd. remember (var_f c) as fc. remember (var_f d) as fd.
  pose proof (f_equal (fun l => nth 0 l 0) E) as E0. pose proof (f_equal (fun l => nth 1 l 0) E) as E1. pose proof (f_equal (fun l => nth 2 l 0) E) as E2.
  pose proof (f_equal (fun l => nth 3 l 0) E) as E3. pose proof (f_equal (fun l => nth 4 l 0) E) as E4. pose proof (f_equal (fun l => nth 5 l 0) E) as E5.
  cbn [nth] in E0, E1, E2, E3, E4, E5. clear E.
  assert (fc = fd) by lia.
  assert (xc = xd) by (pose proof (Z.div_mod xc 10); pose proof (Z.div_mod xd 10); lia).
  assert (yc = yd).
  { pose proof (Z.div_mod yc 10 ltac:(lia)). pose proof (Z.div_mod yd 10 ltac:(lia)).
    pose proof (Z.div_mod (yc / 10) 10 ltac:(lia)) as Q1. pose proof (Z.div_mod (yd / 10) 10 ltac:(lia)) as Q2.
    rewrite Z.div_div in Q1, Q2 by lia. change (10 * 10) with 100 in *. lia. }
  congruence.
Qed.

Lemma entry_line_inj e1 e2 r1 r2 : entry_ok e1 -> entry_ok e2 -> entry_line e1 ++ r1 = entry_line e2 ++ r2 -> e1 = e2 /\ r1 = r2.
Proof.
  destruct e1 as [[i c] t], e2 as [[j d] u]. unfold entry_ok, entry_line. cbn [fst snd]. intros [C1 L1] [C2 L2] E. unfold line in E.
  rewrite <- !app_assoc in E.
  destruct (fxy_six c) as (a1 & a2 & a3 & a4 & a5 & a6 & Ec & N1). destruct (fxy_six d) as (b1 & b2 & b3 & b4 & b5 & b6 & Ed & N2).
  rewrite Ec, Ed in E. cbn [app] in E. apply split_spaces in E as [-> E]; [|exact N1|exact N2]. injection E as -> -> -> -> -> -> E.
  apply split_line in E as [-> ->]; [|exact L1|exact L2].
  assert (c = d) by (apply fxy_inj; auto; congruence). subst. auto.
Qed.

Lemma joined_inj l1 : forall l2, Forall entry_ok l1 -> Forall entry_ok l2 -> joined l1 = joined l2 -> l1 = l2.
Proof.
  assert (Ne : forall e r, entry_line e ++ r <> []).
  { intros [[i c] t] r E. unfold entry_line, line in E. cbn [fst snd] in E. destruct (fxy_six c) as (a1 & a2 & a3 & a4 & a5 & a6 & Ec & _). rewrite Ec in E. destruct i; discriminate E. }
  induction l1 as [|e l1 IH]; intros [|e2 l2] H1 H2 E; [reflexivity| | |].
  - exfalso. exact (Ne _ _ (eq_sym E)).
  - exfalso. exact (Ne _ _ E).
  - unfold joined in E. cbn [map concat] in E. inversion H1; inversion H2; subst. apply entry_line_inj in E as [-> E]; auto. f_equal. auto.
Qed.

(** Kinds of nodes agree with their descriptors. *)
Definition kind_ok (n : node) : Prop :=
  node16 n /\
  match n with
  | NElement c => var_f c = 0
  | NOperator c => var_f c = 2 /\ takes_arg c = false
  | NOperand c a => var_f c = 2 /\ takes_arg c = true
  | NSequence d _ => var_f d = 3
  | NRepeat r _ => var_f r = 1 /\ var_y r <> 0
  | NDelayed r c _ => var_f r = 1 /\ var_y r = 0
  | NImplied _ _ | NBitmap _ _ => False
  end.

Lemma operand_text c a1 a2 : takes_arg c = true -> var_x c <> 4 -> code16 a1 -> code16 a2 ->
  operator_says c (Some a1) = operator_says c (Some a2) -> a1 = a2.
Proof.
  unfold takes_arg. intros A X H1 H2 E. assert (X6 : var_x c = 6) by lia. unfold operator_says in E. rewrite X6 in E.
  change (Z.to_nat 6) with 6%nat in E. cbv iota zeta in E. apply app_inv_head in E.
  apply app_same_length in E as [E _]; [|reflexivity]. apply fxy_inj; auto.
Qed.

Lemma delayed_text_inj r c1 c2 : code16 c1 -> code16 c2 -> delayed_text r c1 = delayed_text r c2 -> c1 = c2.
Proof.
  intros H1 H2 E. unfold delayed_text in E. do 3 apply app_inv_head in E. apply app_same_length in E as [E _]; [|reflexivity]. apply fxy_inj; auto.
Qed.

(** What follows a group is not deeper than the group. *)
Definition low (i : nat) (l : list entry) : Prop := forall e r, l = e :: r -> (fst (fst e) <= i)%nat.

Lemma entries_head i n : kind_ok n -> exists c t r, entries i n = (i, c, t) :: r.
Proof. destruct n; cbn [entries kind_ok]; intros [_ H]; try contradiction; eauto. Qed.

Lemma tree_inj n1 : forall i n2 r1 r2, Forall kind_ok (flat_node n1) -> Forall kind_ok (flat_node n2) -> low i r1 -> low i r2 ->
  entries i n1 ++ r1 = entries i n2 ++ r2 -> n1 = n2 /\ r1 = r2.
Proof.
  set (P := fun n1 => forall i n2 r1 r2, Forall kind_ok (flat_node n1) -> Forall kind_ok (flat_node n2) -> low i r1 -> low i r2 ->
    entries i n1 ++ r1 = entries i n2 ++ r2 -> n1 = n2 /\ r1 = r2). change (P n1).
  assert (Lst : forall b1, Forall P b1 -> forall i b2 r1 r2, Forall kind_ok (flat b1) -> Forall kind_ok (flat b2) -> low i r1 -> low i r2 ->
    all_entries (i + 2) b1 ++ r1 = all_entries (i + 2) b2 ++ r2 -> b1 = b2 /\ r1 = r2).
  { assert (Hd : forall n, Forall kind_ok (flat_node n) -> kind_ok n) by (intros n H; destruct n; inversion H; assumption).
    assert (Fs : forall n b, Forall kind_ok (flat (n :: b)) -> Forall kind_ok (flat_node n) /\ Forall kind_ok (flat b)) by (intros n b H; apply Forall_app in H; exact H).
    assert (Ae : forall i n b, all_entries i (n :: b) = entries i n ++ all_entries i b) by reflexivity.
    induction 1 as [|n b1 Pn Pb IH]; intros i [|m b2] r1 r2 K1 K2 L1 L2 E.
    - auto.
    - exfalso. destruct (Fs _ _ K2) as [Km _]. rewrite Ae in E. destruct (entries_head (i + 2) m (Hd _ Km)) as (c & t & r & Em). rewrite Em in E.
      cbn [app all_entries concat map] in E. specialize (L1 _ _ E). cbn [fst] in L1. lia.
    - exfalso. destruct (Fs _ _ K1) as [Km _]. rewrite Ae in E. destruct (entries_head (i + 2) n (Hd _ Km)) as (c & t & r & Em). rewrite Em in E.
      cbn [app all_entries concat map] in E. symmetry in E. specialize (L2 _ _ E). cbn [fst] in L2. lia.
    - destruct (Fs _ _ K1) as [Kn Kb1]. destruct (Fs _ _ K2) as [Km Kb2]. rewrite !Ae, <- !app_assoc in E.
      assert (Lw : forall b r, Forall kind_ok (flat b) -> low i r -> low (i + 2) (all_entries (i + 2) b ++ r)).
      { intros b r Kb Lr e q Q. destruct b as [|h b]; [specialize (Lr _ _ Q); lia|]. destruct (Fs _ _ Kb) as [Kh _].
        rewrite Ae in Q. destruct (entries_head (i + 2) h (Hd _ Kh)) as (c & t & w & Em). rewrite Em in Q. injection Q as <- _. cbn [fst]. lia. }
      apply Pn in E as [-> E]; auto. apply IH in E as [-> ->]; auto. }
  assert (Fi : forall n b, flat_node n = n :: flat b -> Forall kind_ok (flat_node n) -> kind_ok n /\ Forall kind_ok (flat b)) by (intros n b -> H; inversion H; auto).
  assert (Hd : forall n, Forall kind_ok (flat_node n) -> kind_ok n) by (intros n H; destruct n; inversion H; assumption).
  induction n1 as [c|c|c a|d b IH|r b IH|r c b IH|r b IH|r f] using tree_ind; intros i n2 r1 r2 K1 K2 L1 L2 E;
    pose proof (Hd _ K1) as [W1 Q1]; pose proof (Hd _ K2) as [W2 Q2]; cbn [kind_ok] in *; try contradiction;
    destruct n2 as [c2|c2|c2 a2|d2 b2|r' b2|r' c2 b2|r' b2|r' f2]; try contradiction; cbn [entries app] in E;
    rewrite ?entries_inside in E;
    pose proof (f_equal (@tl _) E) as E3; pose proof (f_equal (hd (0%nat, 0, [])) E) as E1; cbn [hd tl app] in E1, E3; clear E;
    apply pair_equal_spec in E1 as [E1 E2]; apply pair_equal_spec in E1 as [_ E1]; match type of E1 with ?x = _ => subst x end; cbn [node16] in *; try lia; try congruence; try (exfalso; destruct Q1, Q2; congruence); auto.
  - revert E3. destruct (Z.eqb_spec (var_x c2) 4) as [X|X]; cbn [app]; intros E3.
    + injection E3 as E3 _ E4. subst. auto.
    + assert (a = a2) by (eapply operand_text; eauto; tauto). subst. auto.
  - destruct (Fi (NSequence d2 b) b) as [_ Kb]; [cbn [flat_node]; rewrite flat_inside; reflexivity|exact K1|].
    destruct (Fi (NSequence d2 b2) b2) as [_ Kb2]; [cbn [flat_node]; rewrite flat_inside; reflexivity|exact K2|].
    destruct (Lst b IH i b2 r1 r2 Kb Kb2 L1 L2 E3) as [-> ->]. auto.
  - destruct (Fi (NRepeat r' b) b) as [_ Kb]; [cbn [flat_node]; rewrite flat_inside; reflexivity|exact K1|].
    destruct (Fi (NRepeat r' b2) b2) as [_ Kb2]; [cbn [flat_node]; rewrite flat_inside; reflexivity|exact K2|].
    destruct (Lst b IH i b2 r1 r2 Kb Kb2 L1 L2 E3) as [-> ->]. auto.
  - assert (c = c2) by (eapply delayed_text_inj; eauto; tauto). subst c2.
    destruct (Fi (NDelayed r' c b) b) as [_ Kb]; [cbn [flat_node]; rewrite flat_inside; reflexivity|exact K1|].
    destruct (Fi (NDelayed r' c b2) b2) as [_ Kb2]; [cbn [flat_node]; rewrite flat_inside; reflexivity|exact K2|].
    destruct (Lst b IH i b2 r1 r2 Kb Kb2 L1 L2 E3) as [-> ->]. auto.
Qed.

Lemma chars_one_line s : forallb (fun z => negb (z =? 10)) (chars s) = true -> one_line (chars s).
Proof. intros H. apply Forall_forall. intros z Hz. rewrite forallb_forall in H. specialize (H z Hz). lia. Qed.

Lemma small_one_line n : one_line (small n).
Proof.
  assert (0 <= Z.abs n) by lia. assert (0 <= Z.abs n / 100) by (apply Z.div_pos; lia). assert (0 <= Z.abs n / 10) by (apply Z.div_pos; lia).
  pose proof (Z.mod_pos_bound (Z.abs n) 10 ltac:(lia)). pose proof (Z.mod_pos_bound (Z.abs n / 10) 10 ltac:(lia)).
  unfold small. cbv zeta. apply Forall_app. split; [destruct (n <? 0); repeat constructor; lia|].
  destruct (Z.abs n <? 10); [repeat constructor; lia|]. destruct (Z.abs n <? 100); repeat constructor; lia.
Qed.

Lemma fxy_one_line c : one_line (fxy c).
Proof.
  unfold fxy, varcode_format. cbn [tl]. pose proof (var_f_range c).
  assert (0 <= var_x c) by (unfold var_x; apply Z.land_nonneg; lia). assert (0 <= var_y c) by (unfold var_y; apply Z.land_nonneg; lia).
  assert (0 <= var_x c / 10) by (apply Z.div_pos; lia). assert (0 <= var_y c / 100) by (apply Z.div_pos; lia). assert (0 <= var_y c / 10) by (apply Z.div_pos; lia).
  pose proof (Z.mod_pos_bound (var_x c) 10 ltac:(lia)). pose proof (Z.mod_pos_bound (var_y c) 10 ltac:(lia)). pose proof (Z.mod_pos_bound (var_y c / 10) 10 ltac:(lia)).
  repeat constructor; lia.
Qed.

Ltac one := repeat first [apply small_one_line | apply fxy_one_line | apply chars_one_line; reflexivity | apply Forall_app; split].

Lemma operator_one_line c a : one_line (operator_says c a).
Proof.
  unfold operator_says. cbv zeta. destruct (Z.to_nat (var_x c)) as [|m]; [one|].
  repeat match goal with |- context [match ?m with O => _ | S _ => _ end] => destruct m as [|?]; [repeat match goal with |- context [if ?b then _ else _] => destruct b end; try destruct a; one|] end. one.
Qed.

Context (Tx : forall c, one_line (text c)).

Lemma entries_ok n : forall i, Forall node16 (flat_node n) -> Forall entry_ok (entries i n).
Proof.
  set (P := fun n => forall i, Forall node16 (flat_node n) -> Forall entry_ok (entries i n)). change (P n).
  assert (Lst : forall b, Forall P b -> forall i, Forall node16 (flat b) -> Forall entry_ok (all_entries i b)).
  { induction 1 as [|m b Pm Pb IH]; intros i H; [constructor|]. apply Forall_app in H as [H1 H2]. apply Forall_app. split; [exact (Pm i H1)|exact (IH i H2)]. }
  induction n as [c|c|c a|d b IH|r b IH|r c b IH|r b IH|r f] using tree_ind; intros i H; cbn [entries flat_node] in *;
    rewrite ?flat_inside in H; rewrite ?entries_inside; inversion H as [|? ? H1 H2]; subst; cbn [node16] in H1.
  - constructor; [split; cbn [fst snd]; auto|constructor].
  - constructor; [split; cbn [fst snd]; [auto|apply operator_one_line]|constructor].
  - constructor; [split; cbn [fst snd]; [tauto|apply operator_one_line]|]. destruct (var_x c =? 4); [|constructor]. constructor; [split; cbn [fst snd]; [tauto|apply Tx]|constructor].
  - constructor; [split; cbn [fst snd]; [auto|one]|]. apply Lst; auto.
  - constructor; [split; cbn [fst snd]; [auto|unfold times_text; one]|]. apply Lst; auto.
  - constructor; [split; cbn [fst snd]; [tauto|unfold delayed_text; one]|]. apply Lst; auto.
  - constructor; [split; cbn [fst snd]; [auto|one]|]. apply Lst; auto.
  - constructor.
Qed.

Lemma all_entries_ok i ns : Forall node16 (flat ns) -> Forall entry_ok (all_entries i ns).
Proof.
  induction ns as [|n ns IH]; intros H; [constructor|]. apply Forall_app in H as [H1 H2]. apply Forall_app. split; [apply entries_ok; exact H1|auto].
Qed.

Lemma trees_inj i ns1 : forall ns2, Forall kind_ok (flat ns1) -> Forall kind_ok (flat ns2) -> all_entries i ns1 = all_entries i ns2 -> ns1 = ns2.
Proof using.
  clear Tx.
  assert (Hd : forall n, Forall kind_ok (flat_node n) -> kind_ok n) by (intros n H; destruct n; inversion H; assumption).
  assert (Ae : forall n b, all_entries i (n :: b) = entries i n ++ all_entries i b) by reflexivity.
  assert (Lw : forall b, Forall kind_ok (flat b) -> low i (all_entries i b)).
  { intros b Kb e q Q. destruct b as [|h b]; [discriminate Q|]. apply Forall_app in Kb as [Kh _]. rewrite Ae in Q.
    destruct (entries_head i h (Hd _ Kh)) as (c & t & w & Em). rewrite Em in Q. injection Q as <- _. cbn [fst]. lia. }
  induction ns1 as [|n ns1 IH]; intros [|m ns2] K1 K2 E.
  - reflexivity.
  - apply Forall_app in K2 as [Km _]. destruct (entries_head i m (Hd _ Km)) as (c & t & r & Em). rewrite Ae, Em in E. discriminate E.
  - apply Forall_app in K1 as [Km _]. destruct (entries_head i n (Hd _ Km)) as (c & t & r & Em). rewrite Ae, Em in E. discriminate E.
  - apply Forall_app in K1 as [Kn K1], K2 as [Km K2]. rewrite !Ae in E. apply tree_inj in E as [-> E]; auto. f_equal. auto.
Qed.
End Lines.

Section Codes.
Context (T : tables) (TD : forall d body, dexpand (tb_d T) d = Ok body -> Forall code16 body).

Lemma reads_codes b ops ns b' : reads T b ops ns b' -> Forall code16 ops -> Forall node16 (flat ns).
Proof.
  assert (Fc : forall n ns, flat (n :: ns) = flat_node n ++ flat ns) by reflexivity.
  induction 1; intros H16; try rewrite Fc; [constructor|..];
    repeat match goal with H : Forall code16 (_ :: _) |- _ => inversion H; clear H; subst end;
    repeat match goal with H : Forall code16 (_ ++ _) |- _ => apply Forall_app in H; destruct H end;
    apply Forall_app; (split; [|auto]); cbn [flat_node]; rewrite ?flat_inside; constructor; cbn [node16]; eauto.
Qed.

Lemma reads_kinds b ops ns b' : reads T b ops ns b' -> Forall node16 (flat ns) -> all_shown ns -> Forall kind_ok (flat ns).
Proof.
  assert (Fc : forall n ns, flat (n :: ns) = flat_node n ++ flat ns) by reflexivity. unfold all_shown.
  induction 1; try rewrite Fc; intros H16 Sh; [constructor|..];
    apply Forall_app in H16 as [H16a H16b]; apply Forall_app in Sh as [Sa Sb]; apply Forall_app; (split; [|auto]);
    cbn [flat_node] in *; rewrite ?flat_inside in *; inversion H16a; inversion Sa; subst; try contradiction; constructor; auto; split; auto.
Qed.

Theorem listing_inj text i ops1 ns1 b1 ops2 ns2 b2 : (forall c, one_line (text c)) -> Forall code16 ops1 -> Forall code16 ops2 ->
  reads T false ops1 ns1 b1 -> reads T false ops2 ns2 b2 -> all_shown ns1 -> all_shown ns2 ->
  listing text i ns1 = listing text i ns2 -> ops1 = ops2.
Proof.
  intros Tx C1 C2 R1 R2 S1 S2 E. pose proof (reads_codes _ _ _ _ R1 C1) as N1. pose proof (reads_codes _ _ _ _ R2 C2) as N2.
  rewrite !listing_entries in E. apply (joined_inj text) in E; [|exact (all_entries_ok text Tx i ns1 N1)|exact (all_entries_ok text Tx i ns2 N2)].
  apply trees_inj in E; [|eapply reads_kinds; eauto|eapply reads_kinds; eauto].
  rewrite <- (reads_written _ _ _ _ _ R1), <- (reads_written _ _ _ _ _ R2). congruence.
Qed.
End Codes.

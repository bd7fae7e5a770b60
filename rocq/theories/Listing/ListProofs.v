(** What the listing and the scan of a template show. *)
From Coq Require Import String Sorting.Sorted ZArith Lia ZifyBool ZifyNat.
From Verif Require Import Base Varcode.Model Varinfo.Model Tables.Model Tables.Spec Tables.Proofs Tables.AlterProofs Tables.LoadProofs
  Interp.Model Interp.Spec Interp.ExpandProofs Interp.Holds Listing.Model Listing.Spec Listing.Proofs.
Local Open Scope Z_scope.

Lemma contains_query t c : (contains t c = Ok true /\ exists i, query t c = Ok i) \/ (contains t c = Ok false /\ query t c = Err ENotFound).
Proof.
  unfold contains, query. destruct (query_entry t c) as [[i|]| |] eqn:E; cbn [bind].
  - left. split; [reflexivity|]. apply query_entry_some in E as (e & E & _). unfold entry_at. rewrite E. cbn [bind]. eauto.
  - right. split; reflexivity.
  - unfold query_entry in E. destruct (find_code_spec (map be_code t) c) as (r & Q & _). congruence.
  - unfold query_entry in E. destruct (find_code_spec (map be_code t) c) as (r & Q & _). congruence.
Qed.

(** ** Listing *)
Section Listing.
Context (T : tables) (describe : Z -> list Z) (path : list Z).

(** What is written of an element. *)
Definition element_text (c : Z) : list Z :=
  match contains (tb_b T) c with
  | Ok true => describe c
  | _ => chars "(missing in B table " ++ path ++ chars ")"
  end.

Definition pview (s : pr) : nat * list Z := (pr_indent s, pr_out s).
Definition pleaf (n : node) (v : nat * list Z) : nat * list Z := (fst v, snd v ++ node_text element_text (fst v) n).
Definition popens (d : Z) (v : nat * list Z) : nat * list Z := ((fst v + 2)%nat, snd v ++ line (fst v) d (chars "(group)")).
Definition prepeats (r d : Z) (v : nat * list Z) : nat * list Z :=
  ((fst v + 2)%nat, snd v ++ repeat 32 (fst v) ++ fxy r ++ repeat_text r d).
Definition pcloses (v : nat * list Z) : nat * list Z := ((fst v - 2)%nat, snd v).

Lemma p_element_ok c st s : exists s', p_element T describe path c (st, s) = Ok (st, s') /\
  pview s' = pleaf (NElement c) (pview s) /\ pr_lt s' = pr_lt s.
Proof.
  unfold p_element. unfold pleaf. cbn [node_text fst snd pview]. unfold element_text.
  destruct (contains_query (tb_b T) c) as [[-> [i ->]]|[-> _]]; cbn [bind]; eexists; (split; [reflexivity|]); (split; [|reflexivity]);
  unfold on_snd, pview, put, lead, line; cbn [pr_indent pr_out put snd]; rewrite <- ?app_assoc; reflexivity.
Qed.

Lemma operator_text_says c next : (var_x c = 23 -> var_y c = 0 \/ var_y c = 255) -> (var_x c = 37 -> var_y c = 0 \/ var_y c = 255) ->
  operator_text c next = operator_says c (match next with [] => None | a :: _ => Some a end) ++ [10].
Proof.
  intros H23 H37. unfold operator_text, operator_says, change_of. cbv zeta.
  assert (Xr : 0 <= var_x c < 64) by (unfold var_x; change 63 with (Z.ones 6); rewrite Z.land_ones by lia; apply (Z.mod_pos_bound _ (2 ^ 6)); lia).
  remember (var_x c) as x. remember (var_y c) as y. clear Heqx Heqy.
  assert (C : x = 1 \/ x = 2 \/ x = 4 \/ x = 5 \/ x = 6 \/ x = 7 \/ x = 8 \/ x = 22 \/ x = 23 \/ x = 36 \/ x = 37 \/
    (x <> 1 /\ x <> 2 /\ x <> 4 /\ x <> 5 /\ x <> 6 /\ x <> 7 /\ x <> 8 /\ x <> 22 /\ x <> 23 /\ x <> 36 /\ x <> 37)) by lia.
  repeat match type of C with _ \/ _ => destruct C as [->|C] end;
    try (cbn [Z.eqb Pos.eqb Z.to_nat Pos.to_nat]; cbv [Pos.to_nat Pos.iter_op Init.Nat.add]; cbv iota; rewrite <- ?app_assoc; reflexivity).
  - cbn [Z.eqb Pos.eqb Z.to_nat Pos.to_nat]; cbv [Pos.to_nat Pos.iter_op Init.Nat.add]; cbv iota.
    destruct next; rewrite <- ?app_assoc; reflexivity.
  - cbn [Z.eqb Pos.eqb Z.to_nat Pos.to_nat]; cbv [Pos.to_nat Pos.iter_op Init.Nat.add]; cbv iota.
    destruct (H23 eq_refl) as [-> | ->]; reflexivity.
  - cbn [Z.eqb Pos.eqb Z.to_nat Pos.to_nat]; cbv [Pos.to_nat Pos.iter_op Init.Nat.add]; cbv iota.
    destruct (H37 eq_refl) as [-> | ->]; reflexivity.
  - repeat match goal with |- context [x =? ?k] => replace (x =? k) with false by lia end.
    destruct (Z.to_nat x) as [|m] eqn:E; [reflexivity|].
    do 37 (destruct m as [|m]; [first [reflexivity|exfalso; lia]|]). reflexivity.
Qed.

Definition pgo := walk (lister T describe path) T.

Lemma p_put_view t s : pview (put t s) = (pr_indent s, pr_out s ++ t).
Proof. reflexivity. Qed.

Lemma p_operator_view c next s : (var_x c = 23 -> var_y c = 0 \/ var_y c = 255) -> (var_x c = 37 -> var_y c = 0 \/ var_y c = 255) ->
  pview (p_operator c next s) =
    (pr_indent s, pr_out s ++ line (pr_indent s) c (operator_says c (match next with [] => None | a :: _ => Some a end))).
Proof.
  intros A B. unfold p_operator, lead, put, pview, line. cbn [pr_indent pr_out]. rewrite (operator_text_says _ _ A B).
  f_equal. rewrite <- ?app_assoc. reflexivity.
Qed.

(** The operands of operators that go through. *)
Lemma c_modifier_operands {S} (V : visitor S) c next st s y : c_modifier V T c next (st, s) = Ok y ->
  (var_x c = 23 -> var_y c = 0 \/ var_y c = 255) /\ (var_x c = 37 -> var_y c = 0 \/ var_y c = 255).
Proof.
  intros E. unfold c_modifier in E. cbv zeta in E.
  split; intros X; rewrite X in E; cbn [Z.eqb Pos.eqb] in E;
    destruct (Z.eqb_spec (var_y c) 0); auto; destruct (Z.eqb_spec (var_y c) 255); auto; discriminate E.
Qed.

Lemma plain_next c next : takes_arg c = false -> operator_says c (match next with [] => None | a :: _ => Some a end) = operator_says c None.
Proof.
  unfold takes_arg, operator_says. cbv zeta. intros A.
  destruct (Z.to_nat (var_x c)) as [|m] eqn:E; [reflexivity|].
  do 5 (destruct m as [|m]; [reflexivity|]). destruct m as [|m]; [exfalso; lia|]. reflexivity.
Qed.

Lemma p_leaves c next st s next' st' s' :
  c_modifier (printer describe) T c next (st, s) = Ok (next', st', s') ->
  pview s' = (pr_indent s, pr_out s ++ (if takes_arg c && (var_x c =? 4) then line (pr_indent s) var_B31021 (describe var_B31021) else [])) /\
  (takes_arg c && (var_x c =? 4) = true -> hd 0 next = var_B31021 /\ contains (tb_b T) var_B31021 = Ok true).
Proof.
  intros E. unfold takes_arg. unfold c_modifier in E. cbv zeta in E.
  repeat match type of E with
  | (if ?b then _ else _) = _ => destruct b eqn:?
  | bind ?m _ = Ok _ => let Q := fresh "Q" in destruct m as [?|?|] eqn:Q; cbn [bind] in E; [|discriminate E|discriminate E]
  | (let (_, _) := ?p in _) = _ => destruct p
  | Err _ = Ok _ => discriminate E
  end; try discriminate;
  (apply same_ok in E; apply pair_equal_spec in E as [E ->]; apply pair_equal_spec in E as [<- <-]);
  try (match goal with |- context [if ?b then _ else []] => replace b with false by lia end; rewrite app_nil_r; split; [reflexivity|discriminate]).
  - match goal with |- context [if ?b then _ else []] => replace b with true by lia end.
    cbn [printer on_significance] in *. unfold p_significance in *.
    match goal with Q : query _ _ = Ok ?i |- _ => pose proof (query_code _ _ _ Q) as Vc; pose proof Q as Qc end.
    match goal with Q : Ok _ = Ok _ |- _ => apply same_ok, pair_equal_spec in Q as [<- <-] end. rewrite Vc. split.
    + unfold pview, put, lead, line. cbn [pr_indent pr_out]. f_equal. unfold put. cbn [pr_indent pr_out]. rewrite <- ?app_assoc. reflexivity.
    + intros _. split.
      * match goal with Q : pop_left next = Ok _ |- _ => unfold pop_left in Q; destruct next; [discriminate Q|]; apply same_ok, pair_equal_spec in Q as [<- <-] end. cbn [hd]. lia.
      * destruct (contains_query (tb_b T) var_B31021) as [[-> _]|[_ N]]; [reflexivity|congruence].
  - match goal with |- context [if ?b then _ else []] => replace b with false by lia end; rewrite app_nil_r; split; [|discriminate].
    cbn [printer on_var on_unknown] in *. match goal with Q : Ok _ = Ok s' |- _ => apply same_ok in Q; subst end.
    match goal with Q : match ?o with _ => _ end = Ok _ |- _ => destruct o; [apply same_ok, pair_equal_spec in Q as [_ <-]; reflexivity|] end.
    match goal with Q : bind (get_unknown ?l ?c ?b) _ = Ok _ |- _ => destruct (get_unknown l c b) as [[? ?]| |]; cbn [bind] in Q; try discriminate Q; apply same_ok, pair_equal_spec in Q as [_ <-]; reflexivity end.
Qed.

Lemma pgo_reads fuel ops st s st' s' : pgo fuel ops (st, s) = Ok (st', s') ->
  exists ns, reads T (waits st) ops ns (waits st') /\ pview s' = effects pleaf popens prepeats pcloses ns (pview s).
Proof.
  apply (walk_reads (lister T describe path) T pview pleaf popens prepeats pcloses).
  - intros c t u t' u' _ E. cbn [w_element lister] in E. destruct (p_element_ok c t u) as [u2 [E2 [V2 _]]].
    rewrite E2 in E. apply same_ok, pair_equal_spec in E as [<- <-]. auto.
  - intros c next t u next' t' u' F A E. cbn [w_visitor w_operator lister] in E.
    destruct (c_modifier_operands _ _ _ _ _ _ E) as [O1 O2]. apply p_leaves in E as [E _]. rewrite A in E. cbn [andb] in E.
    rewrite app_nil_r in E. rewrite E. pose proof (p_operator_view c next u O1 O2) as W. unfold pview in W. apply pair_equal_spec in W as [-> ->].
    unfold pleaf, pview. cbn [fst snd node_text]. rewrite plain_next by exact A. reflexivity.
  - intros c a next t u next' t' u' F A E. cbn [w_visitor w_operator lister] in E.
    destruct (c_modifier_operands _ _ _ _ _ _ E) as [O1 O2]. apply p_leaves in E as [E C]. rewrite A in E, C. cbn [andb] in E, C.
    rewrite E. pose proof (p_operator_view c (a :: next) u O1 O2) as W. unfold pview in W. apply pair_equal_spec in W as [-> ->].
    unfold pleaf, pview. cbn [fst snd node_text]. rewrite <- app_assoc. destruct (var_x c =? 4); [|reflexivity].
    destruct (C eq_refl) as [Ha Hc]. cbn [hd] in Ha. subst a. unfold element_text. rewrite Hc. reflexivity.
  - intros body r d t u t' u' E. cbn [w_repeat lister] in E. unfold p_repeat in E. inv_bind E. destruct a as [t1 u1].
    apply same_ok, pair_equal_spec in Hk as [<- <-]. eexists _, u1. split; [exact Hb|]. split.
    + cbn [on_snd snd]. unfold deeper, put, lead, pview, prepeats. cbn [pr_indent pr_out put fst snd]. rewrite <- ?app_assoc. reflexivity.
    + reflexivity.
  - intros r d ops' t u t' u' E. cbn [w_bitmap lister] in E. unfold r_bitmap_ignored in E.
    destruct (Z.eqb_spec (var_x r) 1) as [X|]; [|discriminate]. cbn [negb] in E.
    destruct (Z.eqb_spec (hd 0 ops') var_B31031) as [H|]; [|discriminate]. cbn [negb] in E. inv_bind E. destruct a as [n u1].
    apply same_ok, pair_equal_spec in Hk as [<- <-]. repeat split; auto. intros f. unfold pleaf. cbn [node_text]. rewrite app_nil_r.
    destruct (var_y r =? 0); [inv_bind Hb; cbn [printer on_bitmap_factor] in Hk; apply same_ok, pair_equal_spec in Hk as [_ <-]|apply same_ok, pair_equal_spec in Hb as [_ <-]]; reflexivity.
  - intros d u. cbn [w_enter lister]. unfold p_enter, deeper, put, lead, pview, popens, line. cbn [pr_indent pr_out put fst snd]. rewrite <- ?app_assoc. reflexivity.
  - reflexivity.
Qed.

(** A tree is nested lists: induction. *)
Lemma tree_ind (P : node -> Prop) :
  (forall c, P (NElement c)) -> (forall c, P (NOperator c)) -> (forall c a, P (NOperand c a)) ->
  (forall d b, Forall P b -> P (NSequence d b)) -> (forall r b, Forall P b -> P (NRepeat r b)) ->
  (forall r c b, Forall P b -> P (NDelayed r c b)) -> (forall r b, Forall P b -> P (NImplied r b)) ->
  (forall r f, P (NBitmap r f)) -> forall n, P n.
Proof.
  intros H1 H2 H3 H4 H5 H6 H7 H8.
  fix self 1. intros [c|c|c a|d b|r b|r c b|r b|r f]; [apply H1|apply H2|apply H3|apply H4|apply H5|apply H6|apply H7|apply H8];
  induction b as [|n b IH]; constructor; auto.
Qed.

Lemma node_text_inside i b :
  (fix inside (l : list node) : list Z := match l with [] => [] | m :: r => node_text element_text (i + 2) m ++ inside r end) b =
  listing element_text (i + 2) b.
Proof. induction b as [|n b IH]; [reflexivity|]. unfold listing in *. cbn [map concat]. rewrite IH. reflexivity. Qed.

Lemma effect_inside b v :
  (fix inside (l : list node) (v : nat * list Z) : nat * list Z :=
    match l with [] => v | m :: r => inside r (effect pleaf popens prepeats pcloses m v) end) b v = effects pleaf popens prepeats pcloses b v.
Proof. revert v. induction b as [|n b IH]; intros v; [reflexivity|]. cbn [effects]. apply IH. Qed.

Lemma effects_listing b ops ns b' : reads T b ops ns b' ->
  forall v, effects pleaf popens prepeats pcloses ns v = (fst v, snd v ++ listing element_text (fst v) ns).
Proof.
  assert (Le : forall n ns v, effects pleaf popens prepeats pcloses (n :: ns) v = effects pleaf popens prepeats pcloses ns (effect pleaf popens prepeats pcloses n v)) by reflexivity.
  assert (Ll : forall n ns i, listing element_text i (n :: ns) = node_text element_text i n ++ listing element_text i ns) by reflexivity.
  induction 1; intros v; try rewrite Le; try rewrite Ll.
  - cbn. rewrite app_nil_r. destruct v; reflexivity.
  - rewrite IHreads. unfold pleaf at 1. cbn [effect fst snd]. unfold pleaf. cbn [fst snd]. rewrite <- app_assoc. reflexivity.
  - rewrite IHreads. cbn [effect]. unfold pleaf. cbn [fst snd]. rewrite <- app_assoc. reflexivity.
  - rewrite IHreads. cbn [effect]. unfold pleaf. cbn [fst snd]. rewrite <- app_assoc. reflexivity.
  - rewrite IHreads2. cbn [effect]. rewrite effect_inside, IHreads1. cbn [node_text]. rewrite node_text_inside.
    unfold popens, pcloses. cbn [fst snd]. replace (fst v + 2 - 2)%nat with (fst v) by lia. rewrite <- ?app_assoc. reflexivity.
  - rewrite IHreads2. cbn [effect]. rewrite effect_inside, IHreads1. cbn [node_text]. rewrite node_text_inside.
    unfold prepeats, pcloses, line, repeat_text. replace (var_y r =? 0) with false by lia. cbn [fst snd]. replace (fst v + 2 - 2)%nat with (fst v) by lia.
    rewrite <- ?app_assoc. reflexivity.
  - rewrite IHreads2. cbn [effect]. rewrite effect_inside, IHreads1. cbn [node_text]. rewrite node_text_inside.
    unfold prepeats, pcloses, line, repeat_text. replace (var_y r =? 0) with true by lia. cbn [fst snd]. replace (fst v + 2 - 2)%nat with (fst v) by lia.
    rewrite <- ?app_assoc. reflexivity.
  - rewrite IHreads2. cbn [effect]. rewrite effect_inside, IHreads1. cbn [node_text]. rewrite node_text_inside.
    unfold prepeats, pcloses, line, repeat_text. replace (var_y r =? 0) with true by lia. cbn [fst snd]. replace (fst v + 2 - 2)%nat with (fst v) by lia.
    rewrite <- ?app_assoc. reflexivity.
  - rewrite IHreads. cbn [effect]. unfold pleaf. cbn [fst snd]. rewrite <- app_assoc. reflexivity.
  - rewrite IHreads. cbn [effect]. unfold pleaf. cbn [fst snd]. rewrite <- app_assoc. reflexivity.
Qed.

Theorem listing_shows fuel lt ops i out : print_datadesc T describe path fuel lt ops i = Ok out ->
  exists ns b, reads T false ops ns b /\ out = listing element_text i ns.
Proof.
  unfold print_datadesc. intros E. inv_bind E. destruct a as [st s]. apply same_ok in Hk. subst out.
  destruct (pgo_reads _ _ _ _ _ _ Hb) as [ns [R V]]. exists ns, (waits st). split; [exact R|].
  rewrite (effects_listing _ _ _ _ R) in V. apply pair_equal_spec in V as [_ V]. cbn [pview fst snd pr_indent pr_out app] in V. exact V.
Qed.
End Listing.

(** ** Features *)
Section Scan.
Context (T : tables).

Lemma set_insert_in t l u : In u (set_insert t l) <-> u = t \/ In u l.
Proof.
  induction l as [|w l IH]; cbn [set_insert In]; [intuition|].
  destruct (text_ltb t w) eqn:A; [cbn [In]; intuition|]. destruct (text_ltb w t) eqn:B; [cbn [In]; rewrite IH; intuition|].
  assert (E : t = w).
  { clear - A B. revert w A B. induction t as [|x t IH]; intros [|y w] A B; cbn [text_ltb] in *; try discriminate; [reflexivity|].
    assert (x = y) by lia. subst y. rewrite Z.ltb_irrefl, Z.eqb_refl in *. cbn [orb andb] in *. f_equal. auto. }
  subst w. cbn [In]. intuition.
Qed.

Lemma text_ltb_trans a b c : text_ltb a b = true -> text_ltb b c = true -> text_ltb a c = true.
Proof.
  revert b c. induction a as [|x a IH]; intros [|y b] [|z c] H1 H2; cbn [text_ltb] in *; try discriminate; try reflexivity.
  apply orb_true_iff in H1, H2. apply orb_true_iff. destruct H1 as [H1|H1], H2 as [H2|H2]; try (left; lia).
  right. apply andb_true_iff in H1 as [E1 H1], H2 as [E2 H2]. rewrite (IH _ _ H1 H2). lia.
Qed.

Lemma set_insert_ascending t l : ascending l -> ascending (set_insert t l).
Proof.
  induction 1 as [|w l A IH F]; cbn [set_insert]; [constructor; constructor|].
  destruct (text_ltb t w) eqn:Q1.
  - constructor; [constructor; assumption|]. constructor; [exact Q1|]. apply Forall_forall. intros x Hx. rewrite Forall_forall in F.
    eapply text_ltb_trans; eauto.
  - destruct (text_ltb w t) eqn:Q2; [|constructor; assumption]. constructor; [exact IH|]. apply Forall_forall. intros x Hx.
    apply set_insert_in in Hx as [-> | Hx]; [exact Q2|]. rewrite Forall_forall in F. auto.
Qed.

Definition insert_all (l : list (list Z)) (v : list (list Z)) : list (list Z) := fold_left (fun v t => set_insert t v) l v.
Definition sleaf (n : node) (v : list (list Z)) : list (list Z) := insert_all (node_features n) v.
Definition srepeats (r d : Z) (v : list (list Z)) : list (list Z) :=
  set_insert (if d =? 0 then chars "Rxxyyy" else chars "Rxx000:" ++ varcode_format d) v.
Definition sgo := walk (scanner T) T.

Lemma s_leaves c next st s next' st' s' :
  c_modifier scanning T c next (st, s) = Ok (next', st', s') -> sc_features s' = sc_features s.
Proof.
  intros E. unfold c_modifier in E. cbv zeta in E.
  repeat match type of E with
  | (if ?b then _ else _) = _ => destruct b eqn:?
  | bind ?m _ = Ok _ => let Q := fresh "Q" in destruct m as [?|?|] eqn:Q; cbn [bind] in E; [|discriminate E|discriminate E]
  | (let (_, _) := ?p in _) = _ => destruct p
  | Err _ = Ok _ => discriminate E
  end; try discriminate;
  (apply same_ok in E; apply pair_equal_spec in E as [E ->]; apply pair_equal_spec in E as [<- <-]); try reflexivity.
  - match goal with Q : on_significance _ _ _ = Ok _ |- _ => cbn [scanning on_significance] in Q; apply same_ok, pair_equal_spec in Q as [_ <-] end. reflexivity.
  - cbn [scanning on_var on_unknown] in *. match goal with Q : Ok _ = Ok s' |- _ => apply same_ok in Q; subst end.
    match goal with Q : match ?o with _ => _ end = Ok _ |- _ => destruct o; [apply same_ok, pair_equal_spec in Q as [_ <-]; reflexivity|] end.
    match goal with Q : bind (get_unknown ?l ?c ?b) _ = Ok _ |- _ => destruct (get_unknown l c b) as [[? ?]| |]; cbn [bind] in Q; try discriminate Q; apply same_ok, pair_equal_spec in Q as [_ <-]; reflexivity end.
Qed.

Lemma sgo_reads fuel ops st s st' s' : sgo fuel ops (st, s) = Ok (st', s') ->
  exists ns, reads T (waits st) ops ns (waits st') /\ sc_features s' = effects sleaf (fun _ v => v) srepeats (fun v => v) ns (sc_features s).
Proof.
  apply (walk_reads (scanner T) T sc_features sleaf (fun _ v => v) srepeats (fun v => v)).
  - intros c t u t' u' _ E. cbn [w_element scanner] in E. unfold b_variable in E.
    destruct (negb (is_refbits t =? 0)); [discriminate E|]. inv_bind E. revert Hk.
    match goal with |- (if ?b then _ else _) = _ -> _ => destruct b end.
    + intros Hk. inv_bind Hk. destruct a0. discriminate Hk0.
    + destruct (negb (is_afbits t =? 0)); [discriminate|]. cbn [bind scanning on_var]. intros Hk.
      apply same_ok, pair_equal_spec in Hk as [<- <-]. auto.
  - intros c next t u next' t' u' F A E. cbn [w_visitor w_operator scanner] in E. apply s_leaves in E. rewrite E.
    unfold s_operator, found, sleaf. cbn [sc_features node_features insert_all fold_left].
    unfold takes_arg in A. replace (var_x c =? 6) with false by lia. rewrite app_nil_r. reflexivity.
  - intros c a next t u next' t' u' F A E. cbn [w_visitor w_operator scanner] in E. apply s_leaves in E. rewrite E. reflexivity.
  - intros body r d t u t' u' E. cbn [w_repeat scanner] in E. unfold s_repeat in E. eexists _, u'. split; [exact E|]. split; reflexivity.
  - intros r d ops' t u t' u' E. cbn [w_bitmap scanner] in E. unfold r_bitmap_ignored in E.
    destruct (Z.eqb_spec (var_x r) 1) as [X|]; [|discriminate]. cbn [negb] in E.
    destruct (Z.eqb_spec (hd 0 ops') var_B31031) as [H|]; [|discriminate]. cbn [negb] in E. inv_bind E. destruct a as [n u1].
    apply same_ok, pair_equal_spec in Hk as [<- <-]. repeat split; auto. intros f.
    destruct (var_y r =? 0); [inv_bind Hb; cbn [scanning on_bitmap_factor] in Hk; apply same_ok, pair_equal_spec in Hk as [_ <-]|apply same_ok, pair_equal_spec in Hb as [_ <-]]; reflexivity.
  - reflexivity.
  - reflexivity.
Qed.

Definition sall := effects sleaf (fun _ v => v) srepeats (fun v => v).
Definition sone := effect sleaf (fun _ v => v) srepeats (fun v => v).

Lemma s_inside b v :
  (fix inside (l : list node) (v : list (list Z)) : list (list Z) :=
    match l with [] => v | m :: r => inside r (sone m v) end) b v = sall b v.
Proof. revert v. induction b as [|n b IH]; intros v; [reflexivity|]. unfold sall. cbn [effects]. apply IH. Qed.

Lemma features_inside b :
  (fix inside (l : list node) : list (list Z) := match l with [] => [] | m :: r => node_features m ++ inside r end) b = features b.
Proof. induction b as [|n b IH]; [reflexivity|]. unfold features in *. cbn [map concat]. rewrite IH. reflexivity. Qed.

Lemma insert_all_app a b v : insert_all (a ++ b) v = insert_all b (insert_all a v).
Proof. apply fold_left_app. Qed.

(** A factor is a descriptor of class 31, so it is not 0. *)
Lemma sall_features b ops ns b' : reads T b ops ns b' -> forall v, sall ns v = insert_all (features ns) v.
Proof.
  assert (Le : forall n ns v, sall (n :: ns) v = sall ns (sone n v)) by reflexivity.
  assert (Ll : forall n ns, features (n :: ns) = node_features n ++ features ns) by reflexivity.
  induction 1; intros v; try rewrite Le; try rewrite Ll; try rewrite insert_all_app; try reflexivity;
    try (rewrite IHreads; reflexivity); try (rewrite IHreads2); f_equal;
    cbn [sone effect]; fold sone; change (effect sleaf (fun _ v => v) srepeats (fun v => v)) with sone; rewrite s_inside, IHreads1; cbn [node_features];
    rewrite features_inside; try reflexivity.
  unfold srepeats. destruct (Z.eqb_spec c 0) as [->|]; [|reflexivity]. destruct H1 as [_ X]. discriminate X.
Qed.

Theorem scan_shows fuel lt ops fs : scan_features T fuel lt ops = Ok fs ->
  exists ns b, reads T false ops ns b /\ ascending fs /\ forall f, In f fs <-> In f (features ns).
Proof.
  unfold scan_features. intros E. inv_bind E. destruct a as [st s]. apply same_ok in Hk. subst fs.
  destruct (sgo_reads _ _ _ _ _ _ Hb) as [ns [R V]]. exists ns, (waits st). split; [exact R|].
  change (effects sleaf (fun _ v => v) srepeats (fun v => v)) with sall in V.
  rewrite (sall_features _ _ _ _ R) in V. rewrite V. cbn [sc_features].
  assert (G : forall l v, ascending v -> ascending (insert_all l v) /\ forall f, In f (insert_all l v) <-> In f v \/ In f l).
  { induction l as [|t l IH]; intros v A; cbn [insert_all fold_left]; [split; [exact A|intros f; cbn [In]; tauto]|].
    destruct (IH (set_insert t v) (set_insert_ascending _ _ A)) as [A1 I1]. split; [exact A1|]. intros f.
    specialize (I1 f). unfold insert_all in I1. rewrite I1, set_insert_in. cbn [In]. intuition. }
  destruct (G (features ns) [] ltac:(constructor)) as [A1 I1]. split; [exact A1|]. intros f. rewrite I1. cbn [In]. tauto.
Qed.
End Scan.

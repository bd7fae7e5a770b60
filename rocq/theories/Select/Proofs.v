(** Choice of the tables. *)
From Coq Require Import ZifyBool ZifyNat Permutation.
From Verif Require Import Base Tables.Model Codec.ValueProofs Select.Model Select.Spec.
Local Open Scope Z_scope.

(** ** The order of the ranks *)
Lemma lex_trans a : forall b c, lex_lt a b -> lex_lt b c -> lex_lt a c.
Proof.
  induction a as [|x a IH]; intros [|y b] [|z c] H1 H2; cbn [lex_lt] in *; try tauto.
  destruct H1 as [H1|[-> H1]], H2 as [H2|[-> H2]]; [left; lia| left; lia | left; lia | right; split; [reflexivity|eauto]].
Qed.
Lemma lex_irrefl a : ~ lex_lt a a.
Proof. induction a as [|x a IH]; cbn [lex_lt]; [tauto|]. intros [H|[_ H]]; [lia|auto]. Qed.
Lemma lex_total a : forall b, length a = length b -> lex_lt a b \/ a = b \/ lex_lt b a.
Proof.
  induction a as [|x a IH]; intros [|y b] L; cbn [length lex_lt] in *; try discriminate; [auto|].
  destruct (Z.lt_trichotomy x y) as [H|[-> |H]]; [auto| |auto].
  destruct (IH b ltac:(lia)) as [H|[-> |H]]; auto.
Qed.
Lemma lex_asym a b : lex_lt a b -> ~ lex_lt b a.
Proof. intros H1 H2. exact (lex_irrefl a (lex_trans _ _ _ H1 H2)). Qed.
Lemma lex_lt_le a b c : length b = length c -> lex_lt a b -> ~ lex_lt c b -> lex_lt a c.
Proof. intros L H1 H2. destruct (lex_total b c L) as [H|[H|H]]; [eapply lex_trans; eauto|subst; auto|tauto]. Qed.

(** ** closest_match is a comparison of ranks *)
Lemma lex_cons x y a b : lex_lt (x :: a) (y :: b) <-> x < y \/ (x = y /\ lex_lt a b).
Proof. reflexivity. Qed.

Lemma decide_cons x a rest y b :
  (forall r, x = Some r -> (r < 0 <-> lex_lt a b) /\ (0 < r <-> lex_lt b a)) ->
  (x = None -> (decide rest < 0 <-> lex_lt a b) /\ (0 < decide rest <-> lex_lt b a)) ->
  y = decide (x :: rest) -> (y < 0 <-> lex_lt a b) /\ (0 < y <-> lex_lt b a).
Proof. intros H1 H2 ->. destruct x as [r|]; cbn [decide]; auto. Qed.

Lemma origin_decides wc ws wl c1 s1 l1 c2 s2 l2 : 0 <= l1 < 256 -> 0 <= l2 < 256 -> 0 <= wl < 256 ->
  let r := decide [compare_centre wc c1 c2; compare_local wl l1 l2; compare_subcentre ws s1 s2] in
  (r < 0 <-> lex_lt (origin_rank wc ws wl c1 s1 l1) (origin_rank wc ws wl c2 s2 l2)) /\
  (0 < r <-> lex_lt (origin_rank wc ws wl c2 s2 l2) (origin_rank wc ws wl c1 s1 l1)).
Proof.
  intros B1 B2 Bw. cbn [decide]. unfold compare_centre, centre_match, origin_rank.
  destruct (wc =? c1) eqn:E1, (wc =? c2) eqn:E2; rewrite (Z.eqb_sym c1 wc), (Z.eqb_sym c2 wc), ?E1, ?E2.
  - cbn [Z.gtb Z.compare Pos.compare Pos.compare_cont Z.eqb Pos.eqb negb]. unfold compare_local, compare_subcentre, local_rank, subcentre_rank.
    cbn [lex_lt].
    destruct (wl =? 0) eqn:E0; cbn [negb]; [destruct (s1 =? ws), (s2 =? ws); lia|].
    destruct (l1 <? wl) eqn:L1, (l2 <? wl) eqn:L2;
      replace (wl <=? l1) with (negb (l1 <? wl)) by lia; replace (wl <=? l2) with (negb (l2 <? wl)) by lia; rewrite L1, L2; cbn [negb];
      [| destruct (s1 =? ws), (s2 =? ws); lia | destruct (s1 =? ws), (s2 =? ws); lia|].
    all: destruct (l1 <? l2) eqn:E3; [destruct (s1 =? ws), (s2 =? ws); lia|].
    all: destruct (l1 >? l2) eqn:E4; destruct (s1 =? ws), (s2 =? ws); lia.
  - unfold centre_rank. rewrite (Z.eqb_sym c2 wc), E2. destruct (c2 =? 0), (c2 =? 65535); cbn [Z.gtb Z.compare Pos.compare Pos.compare_cont lex_lt]; lia.
  - unfold centre_rank. rewrite (Z.eqb_sym c1 wc), E1. destruct (c1 =? 0), (c1 =? 65535); cbn [Z.gtb Z.compare Pos.compare Pos.compare_cont lex_lt]; lia.
  - unfold centre_rank. rewrite (Z.eqb_sym c1 wc), (Z.eqb_sym c2 wc), E1, E2.
    destruct (c1 =? 0), (c1 =? 65535), (c2 =? 0), (c2 =? 65535);
      cbn [Z.gtb Z.compare Pos.compare Pos.compare_cont lex_lt Z.eqb Pos.eqb negb]; lia.
Qed.

Lemma version_decides v1 v2 rest a b :
  (decide rest < 0 <-> lex_lt a b) /\ (0 < decide rest <-> lex_lt b a) ->
  (decide (compare_version v1 v2 :: rest) < 0 <-> lex_lt (v1 :: a) (v2 :: b)) /\
  (0 < decide (compare_version v1 v2 :: rest) <-> lex_lt (v2 :: b) (v1 :: a)).
Proof.
  intros [H1 H2]. unfold compare_version. rewrite !lex_cons.
  destruct (v1 <? v2) eqn:E1; [cbn [decide]; lia|]. destruct (v2 <? v1) eqn:E2; cbn [decide]; [lia|].
  assert (v1 = v2) by lia. rewrite H1, H2. split; split; intros H0; try (right; split; [lia|tauto]); destruct H0 as [H0|[_ H0]]; [lia|tauto|lia|tauto].
Qed.

Lemma bufr_closest_rank w a b : bufr_id_ok w -> bufr_id_ok a -> bufr_id_ok b ->
  (bufr_closest w a b < 0 <-> lex_lt (bufr_rank w a) (bufr_rank w b)) /\
  (0 < bufr_closest w a b <-> lex_lt (bufr_rank w b) (bufr_rank w a)).
Proof.
  intros (_ & _ & _ & _ & W) (_ & _ & _ & _ & A) (_ & _ & _ & _ & B). unfold bufr_closest, bufr_rank.
  apply version_decides. apply origin_decides; assumption.
Qed.
Lemma crex_closest_bufr_rank w a b : crex_id_ok w -> bufr_id_ok a -> bufr_id_ok b ->
  (crex_closest_bufr w a b < 0 <-> lex_lt (crex_rank_bufr w a) (crex_rank_bufr w b)) /\
  (0 < crex_closest_bufr w a b <-> lex_lt (crex_rank_bufr w b) (crex_rank_bufr w a)).
Proof.
  intros (_ & _ & _ & _ & _ & _ & W) (_ & _ & _ & _ & A) (_ & _ & _ & _ & B). unfold crex_closest_bufr, crex_rank_bufr.
  apply version_decides. apply origin_decides; assumption.
Qed.
Lemma crex_closest_crex_rank w a b : crex_id_ok w -> crex_id_ok a -> crex_id_ok b ->
  (crex_closest_crex w a b < 0 <-> lex_lt (crex_rank w a) (crex_rank w b)) /\
  (0 < crex_closest_crex w a b <-> lex_lt (crex_rank w b) (crex_rank w a)).
Proof.
  intros (_ & _ & _ & _ & _ & _ & W) (_ & _ & _ & _ & _ & _ & A) (_ & _ & _ & _ & _ & _ & B). unfold crex_closest_crex, crex_rank.
  apply version_decides. apply version_decides. apply origin_decides; assumption.
Qed.
Lemma crex_closest_both_rank w a b : crex_id_ok w -> bufr_id_ok a -> crex_id_ok b ->
  (crex_closest_both w a b < 0 <-> lex_lt (crex_rank_bufr w a) (crex_rank_both w b)) /\
  (0 < crex_closest_both w a b <-> lex_lt (crex_rank_both w b) (crex_rank_bufr w a)).
Proof.
  intros (_ & _ & _ & _ & _ & _ & W) (_ & _ & _ & _ & A) (_ & _ & _ & _ & _ & _ & B). unfold crex_closest_both, crex_rank_bufr, crex_rank_both.
  apply version_decides. apply origin_decides; assumption.
Qed.

Lemma origin_length wc ws wl c s l : length (origin_rank wc ws wl c s l) = 3%nat.
Proof. unfold origin_rank. destruct (c =? wc); reflexivity. Qed.

Lemma bufr_accepts_spec w t : bufr_accepts_bufr w t = true <-> bufr_usable w t.
Proof. unfold bufr_accepts_bufr, bufr_usable. destruct (bi_mt t =? bi_mt w) eqn:E; cbn [negb]; [|split; [discriminate|lia]]. destruct (bi_mtv t <? bi_mtv w) eqn:E2; lia. Qed.
Lemma crex_accepts_bufr_spec w t : crex_accepts_bufr w t = true <-> crex_usable_bufr w t.
Proof. unfold crex_accepts_bufr, crex_usable_bufr. destruct (bi_mt t =? ci_mt w) eqn:E; cbn [negb]; [|split; [discriminate|lia]]. destruct (bi_mtv t <? ci_mtv_bufr w) eqn:E2; lia. Qed.
Lemma crex_accepts_spec w t : crex_accepts_crex w t = true <-> crex_usable w t.
Proof.
  unfold crex_accepts_crex, crex_usable. destruct (ci_edition t =? ci_edition w) eqn:E0; cbn [negb]; [|split; [discriminate|lia]].
  destruct (ci_mt t =? ci_mt w) eqn:E; cbn [negb]; [|split; [discriminate|lia]]. destruct (ci_mtv t <? ci_mtv w) eqn:E2; [lia|].
  destruct (ci_mtv_bufr t <? ci_mtv_bufr w) eqn:E3; lia.
Qed.

(** ** The search keeps the first of the best *)
Section Search.
Context {A : Type} (accept : A -> bool) (closest : A -> A -> Z) (rank : A -> list Z) (ok : A -> Prop).
Hypothesis closest_rank : forall a b, ok a -> ok b -> (0 < closest a b <-> lex_lt (rank b) (rank a)).
Hypothesis rank_length : forall a b, length (rank a) = length (rank b).

Definition is_best (l : list (A * table)) (b : best A) : Prop :=
  match b with
  | None => Forall (fun x => accept (fst x) = false) l
  | Some x => accept (fst x) = true /\ exists l1 l2, l = l1 ++ x :: l2 /\
      Forall (fun y => accept (fst y) = true -> lex_lt (rank (fst x)) (rank (fst y))) l1 /\
      Forall (fun y => accept (fst y) = true -> ~ lex_lt (rank (fst y)) (rank (fst x))) l2
  end.

Lemma search_best l' : Forall (fun x => ok (fst x)) l' -> forall l b, Forall (fun x => ok (fst x)) l -> is_best l b ->
  is_best (l ++ l') (fold_left (fun b x => consider accept closest (fst x) (snd x) b) l' b).
Proof.
  induction l' as [|[id t] l' IH]; intros F l b Fl B; [rewrite app_nil_r; exact B|]. apply Forall_cons_iff in F as [F1 F].
  cbn [fold_left fst snd]. replace (l ++ (id, t) :: l') with ((l ++ [(id, t)]) ++ l') by (rewrite <- app_assoc; reflexivity).
  apply IH; [exact F|apply Forall_app; auto|]. unfold consider. cbn [fst] in F1. destruct (accept id) eqn:Ac; cbn [negb].
  2:{ destruct b as [[id0 t0]|]; cbn [is_best fst] in *.
      - destruct B as (A0 & l1 & l2 & -> & B1 & B2). split; [exact A0|]. exists l1, (l2 ++ [(id, t)]). rewrite <- app_assoc. split; [reflexivity|].
        split; [exact B1|]. apply Forall_app. split; [exact B2|]. constructor; [|constructor]. cbn [fst]. congruence.
      - apply Forall_app. auto. }
  destruct b as [[id0 t0]|]; cbn [is_best fst] in *.
  - destruct B as (A0 & l1 & l2 & -> & B1 & B2).
    assert (O0 : ok id0) by (apply Forall_app in Fl as [_ Fl]; apply Forall_cons_iff in Fl as [Fl _]; exact Fl).
    destruct (closest id0 id <=? 0) eqn:C; cbn [fst].
    + split; [exact A0|]. exists l1, (l2 ++ [(id, t)]). rewrite <- app_assoc. split; [reflexivity|].
      split; [exact B1|]. apply Forall_app. split; [exact B2|]. constructor; [|constructor]. cbn [fst]. intros _ H.
      apply closest_rank in H; auto. lia.
    + assert (C' : lex_lt (rank id) (rank id0)) by (apply closest_rank; auto; lia).
      split; [exact Ac|]. exists (l1 ++ (id0, t0) :: l2), []. split; [reflexivity|]. split; [|constructor].
      apply Forall_app. split; [|constructor].
      * eapply Forall_impl; [|exact B1]. cbn. intros y Hy Ay. eapply lex_trans; [exact C'|auto].
      * cbn [fst]. intros _. exact C'.
      * eapply Forall_impl; [|exact B2]. cbn. intros y Hy Ay. eapply lex_lt_le; [apply rank_length|exact C'|auto].
  - split; [exact Ac|]. exists l, []. split; [reflexivity|]. split; [|constructor].
    eapply Forall_impl; [|exact B]. cbn. congruence.
Qed.

Lemma best_minimal l x : is_best l (Some x) -> In x l /\ accept (fst x) = true /\
  forall y, In y l -> accept (fst y) = true -> ~ lex_lt (rank (fst y)) (rank (fst x)).
Proof.
  intros (A0 & l1 & l2 & -> & B1 & B2). split; [apply in_elt|]. split; [exact A0|]. intros y I Ay. rewrite Forall_forall in B1, B2.
  apply in_app_or in I as [I|[<-|I]].
  - apply lex_asym. auto.
  - apply lex_irrefl.
  - auto.
Qed.
Lemma best_none l : is_best l None -> forall y, In y l -> accept (fst y) = true -> False.
Proof. cbn [is_best]. intros F y I A0. rewrite Forall_forall in F. specialize (F y I). congruence. Qed.

Lemma best_same_rank l l' x x' : Permutation l l' -> is_best l (Some x) -> is_best l' (Some x') -> rank (fst x) = rank (fst x').
Proof.
  intros P B B'. apply best_minimal in B as (I & A0 & M), B' as (I' & A0' & M').
  destruct (lex_total (rank (fst x)) (rank (fst x')) (rank_length _ _)) as [H|[H|H]]; [|exact H|].
  - exfalso. apply (M' x); auto. eapply Permutation_in; eauto.
  - exfalso. apply (M x'); auto. eapply Permutation_in; [apply Permutation_sym|]; eauto.
Qed.
Lemma best_same_option l l' b b' : Permutation l l' -> is_best l b -> is_best l' b' -> (b = None <-> b' = None).
Proof.
  intros P B B'. destruct b as [x|], b' as [x'|]; try tauto; split; try discriminate; intros _; exfalso.
  - apply best_minimal in B as (I & A0 & _). eapply best_none; [exact B'| |exact A0]. eapply Permutation_in; eauto.
  - apply best_minimal in B' as (I & A0 & _). eapply best_none; [exact B| |exact A0]. eapply Permutation_in; [apply Permutation_sym|]; eauto.
Qed.
End Search.

(** ** The two searches *)
Lemma fold_bufr w l : forall b,
  fold_left (consider_bufr w) l b =
  (fold_left (fun b x => consider (bufr_accepts_bufr w) (bufr_closest w) (fst x) (snd x) b) (flat_map bufr_of l) (fst b),
   fold_left (fun b x => consider (bufr_accepts_crex w) (fun _ _ => 0) (fst x) (snd x) b) (flat_map crex_of l) (snd b)).
Proof.
  induction l as [|t l IH]; intros b; [destruct b; reflexivity|]. cbn [fold_left flat_map]. rewrite IH, !fold_left_app.
  unfold consider_bufr, bufr_of, crex_of. destruct (tb_kind t); reflexivity.
Qed.
Lemma fold_crex w l : forall b,
  fold_left (consider_crex w) l b =
  (fold_left (fun b x => consider (crex_accepts_bufr w) (crex_closest_bufr w) (fst x) (snd x) b) (flat_map bufr_of l) (fst b),
   fold_left (fun b x => consider (crex_accepts_crex w) (crex_closest_crex w) (fst x) (snd x) b) (flat_map crex_of l) (snd b)).
Proof.
  induction l as [|t l IH]; intros b; [destruct b; reflexivity|]. cbn [fold_left flat_map]. rewrite IH, !fold_left_app.
  unfold consider_crex, bufr_of, crex_of. destruct (tb_kind t); reflexivity.
Qed.

Lemma bufr_of_in l id t : In (id, t) (flat_map bufr_of l) <-> In t l /\ tb_kind t = KBufr id.
Proof.
  rewrite in_flat_map. unfold bufr_of. split.
  - intros (x & I & J). destruct (tb_kind x) eqn:E; cbn [In] in J; try tauto. destruct J as [J|[]]. injection J as -> ->. auto.
  - intros [I E]. exists t. rewrite E. cbn [In]. auto.
Qed.
Lemma crex_of_in l id t : In (id, t) (flat_map crex_of l) <-> In t l /\ tb_kind t = KCrex id.
Proof.
  rewrite in_flat_map. unfold crex_of. split.
  - intros (x & I & J). destruct (tb_kind x) eqn:E; cbn [In] in J; try tauto. destruct J as [J|[]]. injection J as -> ->. auto.
  - intros [I E]. exists t. rewrite E. cbn [In]. auto.
Qed.
Lemma bufr_of_ok l : Forall (fun t => kind_ok (tb_kind t)) l -> Forall (fun x => bufr_id_ok (fst x)) (flat_map bufr_of l).
Proof.
  intros F. rewrite Forall_forall in *. intros [id t] I. apply bufr_of_in in I as [I E]. specialize (F t I). rewrite E in F. exact F.
Qed.
Lemma crex_of_ok l : Forall (fun t => kind_ok (tb_kind t)) l -> Forall (fun x => crex_id_ok (fst x)) (flat_map crex_of l).
Proof.
  intros F. rewrite Forall_forall in *. intros [id t] I. apply crex_of_in in I as [I E]. specialize (F t I). rewrite E in F. exact F.
Qed.

Lemma no_crex w l b : fold_left (fun b x => consider (bufr_accepts_crex w) (fun _ _ => 0) (fst x) (snd x) b) l b = b.
Proof. induction l as [|x l IH]; [reflexivity|]. cbn [fold_left]. exact IH. Qed.

Lemma search_bufr_best w l : bufr_id_ok w -> Forall (fun t => kind_ok (tb_kind t)) l ->
  exists b, search_bufr w l = option_map snd b /\ is_best (bufr_accepts_bufr w) (bufr_rank w) (flat_map bufr_of l) b.
Proof.
  intros W F. exists (fold_left (fun b x => consider (bufr_accepts_bufr w) (bufr_closest w) (fst x) (snd x) b) (flat_map bufr_of l) None). split.
  - unfold search_bufr. rewrite fold_bufr, no_crex. cbn [fst snd]. destruct (fold_left _ _ _); reflexivity.
  - apply (search_best _ _ _ bufr_id_ok) with (l := []).
    + intros a b Ha Hb. apply bufr_closest_rank; auto.
    + intros a b. unfold bufr_rank. cbn [length]. rewrite !origin_length. reflexivity.
    + apply bufr_of_ok, F.
    + constructor.
    + constructor.
Qed.

Lemma search_crex_best w l : crex_id_ok w -> Forall (fun t => kind_ok (tb_kind t)) l ->
  exists b c, is_best (crex_accepts_bufr w) (crex_rank_bufr w) (flat_map bufr_of l) b /\
    is_best (crex_accepts_crex w) (crex_rank w) (flat_map crex_of l) c /\
    search_crex w l =
      match b, c with
      | None, _ => option_map snd c
      | Some f, None => Some (snd f)
      | Some f, Some g => Some (if crex_closest_both w (fst f) (fst g) <=? 0 then snd f else snd g)
      end.
Proof.
  intros W F.
  exists (fold_left (fun b x => consider (crex_accepts_bufr w) (crex_closest_bufr w) (fst x) (snd x) b) (flat_map bufr_of l) None).
  exists (fold_left (fun b x => consider (crex_accepts_crex w) (crex_closest_crex w) (fst x) (snd x) b) (flat_map crex_of l) None).
  split; [|split].
  - apply (search_best _ (crex_closest_bufr w) _ bufr_id_ok) with (l := []) (b := None).
    + intros a b Ha Hb. apply crex_closest_bufr_rank; auto.
    + intros a b. unfold crex_rank_bufr. cbn [length]. rewrite !origin_length. reflexivity.
    + apply bufr_of_ok, F.
    + constructor.
    + constructor.
  - apply (search_best _ (crex_closest_crex w) _ crex_id_ok) with (l := []) (b := None).
    + intros a b Ha Hb. apply crex_closest_crex_rank; auto.
    + intros a b. unfold crex_rank. cbn [length]. rewrite !origin_length. reflexivity.
    + apply crex_of_ok, F.
    + constructor.
    + constructor.
  - unfold search_crex. rewrite fold_crex. cbn [fst snd].
    match goal with |- result_of _ (?x, ?y) = _ => generalize x, y end. intros [f|] [g|]; reflexivity.
Qed.

(** ** Names *)
Lemma u8_range z : 0 <= u8 z < 256.
Proof. unfold u8. apply Z.mod_pos_bound. reflexivity. Qed.
Lemma u16_range z : 0 <= u16 z < 65536.
Proof. unfold u16. apply Z.mod_pos_bound. reflexivity. Qed.

Definition plain_crex (k : table_kind) : Prop :=
  match k with KCrex id => ci_centre id = 0 /\ ci_subcentre id = 0 /\ ci_mtv_bufr id = 0 /\ ci_local id = 0 | _ => True end.

Lemma index_entry_ok dir name : Forall (fun t => kind_ok (tb_kind t) /\ plain_crex (tb_kind t)) (index_entry dir name).
Proof.
  unfold index_entry. destruct (Nat.ltb _ _); [constructor|]. destruct (negb _); [constructor|].
  assert (U8 := u8_range). assert (U16 := u16_range).
  destruct (hd 0 name =? 66).
  - destruct (Nat.eqb _ 11).
    { destruct (scan _ _ name) as [[|a [|b [|c [|]]]]|]; repeat (apply Forall_nil); constructor; [|constructor].
      cbn [tb_kind kind_ok plain_crex]. unfold crex_id_ok. cbn. split; [|auto]. repeat split; try apply U8; lia. }
    destruct (Nat.eqb _ 20).
    { destruct (scan _ _ name) as [[|a [|b [|c [|d [|]]]]]|]; repeat (apply Forall_nil); constructor; [|constructor].
      cbn [tb_kind kind_ok plain_crex]. unfold bufr_id_ok. cbn. split; [|auto]. repeat split; try apply U8; try apply U16; lia. }
    destruct (Nat.eqb _ 24); [|constructor].
    destruct (scan _ _ name) as [[|a [|b [|c [|d [|e [|]]]]]]|]; repeat (apply Forall_nil); constructor; [|constructor].
    cbn [tb_kind kind_ok plain_crex]. unfold bufr_id_ok. cbn. split; [|auto]. repeat split; try apply U8; try apply U16; lia.
  - destruct (hd 0 name =? 68); [constructor|]. constructor; [|constructor]. split; exact I.
Qed.

Lemma listed_ok fs dirs : Forall (fun t => kind_ok (tb_kind t) /\ plain_crex (tb_kind t)) (listed fs dirs).
Proof.
  unfold listed, index_dir. apply Forall_flat_map, Forall_forall. intros d _. apply Forall_flat_map, Forall_forall. intros n _. apply index_entry_ok.
Qed.
Lemma listed_kinds fs dirs : Forall (fun t => kind_ok (tb_kind t)) (listed fs dirs).
Proof. eapply Forall_impl; [|apply listed_ok]. cbn. tauto. Qed.

Lemma digit_char k : 0 <= k < 10 -> c_isdigit (48 + k) = true /\ c_isspace (48 + k) = false.
Proof. intros H. unfold c_isdigit, c_isspace. lia. Qed.

Lemma digits_length w : forall k, length (digits w k) = w.
Proof. induction w as [|w IH]; intros k; cbn [digits]; [reflexivity|]. rewrite app_length, IH. cbn. lia. Qed.
Lemma digits_forall w : forall k, Forall (fun c => c_isdigit c = true /\ c_isspace c = false) (digits w k).
Proof.
  induction w as [|w IH]; intros k; cbn [digits]; [constructor|]. apply Forall_app. split; [apply IH|]. constructor; [|constructor].
  apply digit_char. apply Z.mod_pos_bound. lia.
Qed.
Lemma scan_num_app s : Forall (fun c => c_isdigit c = true /\ c_isspace c = false) s -> forall acc rest,
  scan_num (length s) acc (s ++ rest) = (fold_left (fun a c => 10 * a + (c - 48)) s acc, length s, rest).
Proof.
  induction 1 as [|c s [Hc _] F IH]; intros acc rest; cbn [length app scan_num fold_left]; [reflexivity|]. rewrite Hc, IH. reflexivity.
Qed.
Lemma digits_value w : forall k acc, 0 <= k < 10 ^ Z.of_nat w ->
  fold_left (fun a c => 10 * a + (c - 48)) (digits w k) acc = acc * 10 ^ Z.of_nat w + k.
Proof.
  induction w as [|w IH]; intros k acc H; cbn [digits].
  - cbn [fold_left]. change (10 ^ Z.of_nat 0) with 1 in *. lia.
  - rewrite fold_left_app. cbn [fold_left]. rewrite Nat2Z.inj_succ, Z.pow_succ_r in * by lia.
    rewrite IH by (split; [apply Z.div_pos; lia|apply Z.div_lt_upper_bound; lia]).
    pose proof (Z.div_mod k 10). lia.
Qed.
Lemma scan_digits_ok w k rest : (1 <= w)%nat -> 0 <= k < 10 ^ Z.of_nat w -> scan_int w (digits w k ++ rest) = Some (k, rest).
Proof.
  intros W H. unfold scan_int. pose proof (digits_forall w k) as F. pose proof (digits_length w k) as L.
  pose proof (digits_value w k 0 H) as V. remember (digits w k) as s eqn:Es.
  destruct s as [|c s]; [cbn in L; lia|]. pose proof F as F0. apply Forall_cons_iff in F0 as [[Hc Hs] _].
  cbn [app scan_blanks]. rewrite Hs. replace (c =? 45) with false by (unfold c_isdigit in Hc; lia).
  replace (c =? 43) with false by (unfold c_isdigit in Hc; lia). rewrite <- L, app_comm_cons, scan_num_app by exact F.
  rewrite V. cbn [length]. repeat f_equal. lia.
Qed.

(** ** Caches *)
Lemma chain_false l : chain_lt l = false -> chain_lt (map (fun p => (snd p, fst p)) l) = false -> Forall (fun p => fst p = snd p) l.
Proof.
  induction l as [|[a b] l IH]; cbn [chain_lt map fst snd]; intros H1 H2; [constructor|].
  destruct (a <? b) eqn:E1; [discriminate|]. destruct (b <? a) eqn:E2; [discriminate|]. constructor; [cbn; lia|auto].
Qed.
Lemma chain_irrefl l : chain_lt (map (fun a : Z => (a, a)) l) = false.
Proof. induction l as [|a l IH]; cbn [chain_lt map]; [reflexivity|]. rewrite !Z.ltb_irrefl. exact IH. Qed.
Lemma chain_asym l : chain_lt l = true -> chain_lt (map (fun p => (snd p, fst p)) l) = false.
Proof.
  induction l as [|[a b] l IH]; cbn [chain_lt map fst snd]; intros H; [discriminate|].
  destruct (a <? b) eqn:E1; [replace (b <? a) with false by lia; reflexivity|].
  destruct (b <? a) eqn:E2; [discriminate|]. auto.
Qed.
Lemma chain_trans a : forall b c, length a = length b -> length b = length c ->
  chain_lt (combine a b) = true -> chain_lt (combine b c) = true -> chain_lt (combine a c) = true.
Proof.
  induction a as [|x a IH]; intros [|y b] [|z c] L1 L2; cbn [combine chain_lt length] in *; try discriminate; auto.
  destruct (x <? y) eqn:E1.
  - destruct (y <? z) eqn:E2; [replace (x <? z) with true by lia; auto|]. destruct (z <? y) eqn:E3; [discriminate|].
    replace (x <? z) with true by lia. auto.
  - destruct (y <? x) eqn:E3; [discriminate|]. assert (x = y) by lia. subst y.
    destruct (x <? z); [auto|]. destruct (z <? x); [discriminate|]. apply IH; lia.
Qed.

Lemma bid_same a b : bid_lt a b = false -> bid_lt b a = false -> a = b.
Proof.
  unfold bid_lt. intros H1 H2. apply chain_false in H1; [|exact H2].
  repeat match goal with H : Forall _ (_ :: _) |- _ => apply Forall_cons_iff in H as [? H] end.
  destruct a, b; cbn in *. congruence.
Qed.
Lemma cid_same a b : cid_lt a b = false -> cid_lt b a = false -> a = b.
Proof.
  unfold cid_lt. intros H1 H2. apply chain_false in H1; [|exact H2].
  repeat match goal with H : Forall _ (_ :: _) |- _ => apply Forall_cons_iff in H as [? H] end.
  destruct a, b; cbn in *. congruence.
Qed.
Lemma map_find_in {K V} (lt : K -> K -> bool) (same : forall a b, lt a b = false -> lt b a = false -> a = b) k (m : list (K * V)) v :
  map_find lt k m = Some v -> In (k, v) m.
Proof.
  induction m as [|[k' v'] m IH]; cbn [map_find]; intros H; [discriminate|].
  destruct (negb (lt k' k) && negb (lt k k')) eqn:E; [|right; auto].
  injection H as ->. apply andb_true_iff in E as [E1 E2]. left. f_equal. apply same; [destruct (lt k' k)|destruct (lt k k')]; auto; discriminate.
Qed.

Definition index_ok (fs : filesystem) (dirs : list (list Z)) (ix : index) : Prop :=
  ix_tables ix = listed fs dirs /\
  Forall (fun e => search_bufr (fst e) (listed fs dirs) = Some (snd e)) (ix_bufr ix) /\
  Forall (fun e => search_crex (fst e) (listed fs dirs) = Some (snd e)) (ix_crex ix).

Lemma make_index_ok fs dirs : index_ok fs dirs (make_index fs dirs).
Proof. split; [reflexivity|]. split; constructor. Qed.
Lemma ix_find_bufr_ok fs dirs w ix : index_ok fs dirs ix ->
  fst (ix_find_bufr w ix) = search_bufr w (listed fs dirs) /\ index_ok fs dirs (snd (ix_find_bufr w ix)).
Proof.
  intros (T & B & C). unfold ix_find_bufr. destruct (map_find _ _ _) eqn:M.
  - apply (map_find_in bid_lt bid_same) in M. pose proof B as B'. rewrite Forall_forall in B'. specialize (B' _ M). cbn in *.
    split; [auto|]. split; auto.
  - rewrite T. destruct (search_bufr w (listed fs dirs)) eqn:S1; cbn [fst snd]; (split; [auto|]); [|split; auto].
    split; [reflexivity|]. split; [|exact C]. constructor; [exact S1|exact B].
Qed.
Lemma ix_find_crex_ok fs dirs w ix : index_ok fs dirs ix ->
  fst (ix_find_crex w ix) = search_crex w (listed fs dirs) /\ index_ok fs dirs (snd (ix_find_crex w ix)).
Proof.
  intros (T & B & C). unfold ix_find_crex. destruct (map_find _ _ _) eqn:M.
  - apply (map_find_in cid_lt cid_same) in M. pose proof C as C'. rewrite Forall_forall in C'. specialize (C' _ M). cbn in *.
    split; [auto|]. split; auto.
  - rewrite T. destruct (search_crex w (listed fs dirs)) eqn:S1; cbn [fst snd]; (split; [auto|]); [|split; auto].
    split; [reflexivity|]. split; [exact B|]. constructor; [exact S1|exact C].
Qed.

Definition dirs_ok (fs : filesystem) (td : tabledirs) : Prop :=
  match td_index td with None => True | Some ix => index_ok fs (td_dirs td) ix end.

Lemma get_index_ok fs td : dirs_ok fs td -> index_ok fs (td_dirs td) (get_index fs td).
Proof. unfold dirs_ok, get_index. destruct (td_index td); auto using make_index_ok. Qed.
Lemma find_bufr_ok fs w td : dirs_ok fs td ->
  fst (find_bufr fs w td) = search_bufr w (listed fs (td_dirs td)) /\ dirs_ok fs (snd (find_bufr fs w td)) /\
  td_dirs (snd (find_bufr fs w td)) = td_dirs td.
Proof.
  intros D. apply get_index_ok in D. destruct (ix_find_bufr_ok _ _ w _ D) as [E1 E2]. unfold find_bufr.
  destruct (ix_find_bufr w (get_index fs td)) as [r ix]. auto.
Qed.
Lemma find_crex_ok fs w td : dirs_ok fs td ->
  fst (find_crex fs w td) = search_crex w (listed fs (td_dirs td)) /\ dirs_ok fs (snd (find_crex fs w td)) /\
  td_dirs (snd (find_crex fs w td)) = td_dirs td.
Proof.
  intros D. apply get_index_ok in D. destruct (ix_find_crex_ok _ _ w _ D) as [E1 E2]. unfold find_crex.
  destruct (ix_find_crex w (get_index fs td)) as [r ix]. auto.
Qed.

Lemma calls_ok fs calls : forall td, dirs_ok fs td ->
  dirs_ok fs (fold_left (run_call fs) calls td) /\
  td_dirs (fold_left (run_call fs) calls td) =
  fold_left (fun ds c => match c with AddDir d => if existsb (zlist_eqb (clean_dir d)) ds then ds else ds ++ [clean_dir d] | _ => ds end)
    calls (td_dirs td).
Proof.
  induction calls as [|c calls IH]; intros td D; cbn [fold_left]; [auto|].
  assert (H : dirs_ok fs (run_call fs td c) /\ td_dirs (run_call fs td c) =
    match c with AddDir d => if existsb (zlist_eqb (clean_dir d)) (td_dirs td) then td_dirs td else td_dirs td ++ [clean_dir d] | _ => td_dirs td end).
  { destruct c as [d|w|w]; cbn [run_call].
    - unfold add_directory. destruct (existsb _ _); [auto|]. split; [exact I|reflexivity].
    - destruct (find_bufr_ok fs w td D) as (_ & A & B). auto.
    - destruct (find_crex_ok fs w td D) as (_ & A & B). auto. }
  destruct H as [H1 H2]. rewrite <- H2. apply IH, H1.
Qed.

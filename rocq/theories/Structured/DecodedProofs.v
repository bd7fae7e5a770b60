(** Decoded subsets can be printed. *)
From Coq Require Import ZArith Lia ZifyBool ZifyNat.
From Verif Require Import Base Num.Float Bits.Model Varcode.Model Varinfo.Model Varinfo.RangeProofs Tables.Model Tables.Spec Tables.LoadProofs
  Var.Model Var.Spec Var.Proofs Var.CodecProofs Var.AttrProofs Interp.Model Interp.Spec Interp.Appears Interp.Sim Interp.Follow Interp.Holds
  Codec.Model Codec.Compressed Codec.CompressedProofs Codec.StepProofs Codec.Again Codec.AgainSteps Codec.Sound Codec.SoundProofs Codec.SoundRuns Listing.Model Structured.Model Structured.Spec Structured.Proofs Structured.FollowProofs.
Local Open Scope Z_scope.

(** Whatever happens to a value out of range, a variable keeps its definition. *)
Section Keeps.
Context (o : options) (HO : hook_ok o).

Lemma hook_info c x c' h : cell_ok c -> o_hook o = Some h -> h c x = Done c' -> c_info c' = c_info c.
Proof. intros Hc E H. unfold hook_ok in HO. rewrite E in HO. apply (HO c x c' Hc). rewrite H. reflexivity. Qed.

Lemma assign_i_info c v c' : cell_ok c -> assign_i_checked o c v = Done c' -> c_info c' = c_info c.
Proof.
  intros Hc E. unfold assign_i_checked in E. destruct (_ || _); [|injection E as <-; reflexivity].
  destruct (o_silent o); [injection E as <-; reflexivity|]. destruct (o_clamp o); [injection E as <-; reflexivity|].
  destruct (o_hook o) as [h|] eqn:Eh; [|discriminate]. eapply hook_info; eauto.
Qed.
Lemma store_d_info c d c' : store_d c d = Done c' -> c_info c' = c_info c.
Proof. unfold store_d. destruct (encode_decimal _ _); try discriminate. intros E. injection E as <-. reflexivity. Qed.
Lemma assign_d_info c d c' : cell_ok c -> assign_d_checked o c d = Done c' -> c_info c' = c_info c.
Proof.
  intros Hc E. unfold assign_d_checked in E.
  assert (Hh : match o_hook o with Some h => h c (inr d) | None => Thrown EDomain (unset c) end = Done c' -> c_info c' = c_info c)
    by (destruct (o_hook o) as [h|] eqn:Eh; [intros Q; eapply hook_info; eauto|discriminate]).
  destruct (fisnan d); [destruct (o_silent o); [injection E as <-; reflexivity|exact (Hh E)]|].
  destruct (_ || _); [|eapply store_d_info; eauto]. destruct (o_silent o); [injection E as <-; reflexivity|].
  destruct (o_clamp o); [eapply store_d_info; eauto|exact (Hh E)].
Qed.
Lemma setd_info c d c' : cell_ok c -> setd o c d = Done c' -> c_info c' = c_info c.
Proof.
  intros Hc E. unfold setd in E. destruct (vi_type (c_info c)); try discriminate; [|eapply assign_d_info; eauto].
  destruct (f_lround d); try discriminate. eapply assign_i_info; eauto.
Qed.
Lemma value_keeps i inp c inp' : info_ok i -> decode_value o i inp = Ok (c, inp') -> c_info c = i.
Proof.
  intros Hi E. pose proof (fresh_ok i Hi) as Hf.
  assert (N : decode_number o i inp = Ok (c, inp') -> c_info c = i).
  { intros X. unfold decode_number in X. inv_bind X. destruct a as [v inp1]. inv_bind Hk. destruct a; [injection Hk0 as <- _; reflexivity|].
    inv_bind Hk0. inv_bind Hk. injection Hk0 as <- _. destruct (setd o (fresh i) a) eqn:Es; try discriminate. cbn [of_outcome] in Hb2. injection Hb2 as <-.
    apply setd_info in Es; auto. }
  unfold decode_value in E. destruct (vi_type i) eqn:Ty; try (apply N; exact E); inv_bind E; destruct a as [[r|] inp1].
  - rewrite setc_string in Hk by exact Ty. cbn [of_outcome bind] in Hk. injection Hk as <- _. reflexivity.
  - injection Hk as <- _. reflexivity.
  - inv_bind Hk. injection Hk0 as <- _. unfold setc in Hb0. cbn [fresh c_info] in Hb0. rewrite Ty in Hb0.
    unfold assign_b_checked in Hb0. repeat match type of Hb0 with context [if ?b then _ else _] => destruct b end; try discriminate; injection Hb0 as <-; reflexivity.
  - injection Hk as <- _. reflexivity.
Qed.
End Keeps.

Lemma unknown_made lt code bits i lt' : 0 < bits < 256 -> locals_ok lt -> get_unknown lt code bits = Ok (i, lt') ->
  info_ok i /\ locals_ok lt' /\ vi_code i = code /\ assoc Z.eqb bits (lt_unknown lt') = Some i /\
  forall b j, assoc Z.eqb b (lt_unknown lt) = Some j -> assoc Z.eqb b (lt_unknown lt') = Some j.
Proof.
  intros B K E. destruct (unknown_step lt code bits i lt') as [Q1 Q2]; auto; [lia|]. split; [exact Q1|]. split; [exact Q2|].
  unfold get_unknown in E. destruct (assoc Z.eqb bits (lt_unknown lt)) as [j|] eqn:A.
  - destruct (Z.eqb_spec (vi_code j) code); cbn [negb] in E; [|discriminate]. injection E as <- <-. auto.
  - inv_bind E. injection Hk as <- <-. unfold set_binary in Hb. pose proof (compute_range_fields _ _ _ _ _ _ _ _ Hb) as (C & _). split; [exact C|].
    cbn [lt_unknown assoc]. rewrite Z.eqb_refl. split; [reflexivity|]. intros b j Hj. destruct (Z.eqb_spec b bits) as [->|]; [congruence|exact Hj].
Qed.

Section Decoded.
Context (fixed : nat -> f64 -> list Z) (desc : varinfo -> list Z) (o : options) (HO : hook_ok o) (T : tables) (skip : bool).
Context (HT : table_ok (tb_b T)) (HD : defs_ok (tb_b T)).

Definition dcells (s : dec) : list cell := map v_cell (d_vars s).
Definition dunk (s : dec) : list (Z * varinfo) := lt_unknown (d_lt s).
Definition dgood (s : dec) : Prop := locals_ok (d_lt s).

Lemma push_pushed s inp c attrs lt : locals_ok lt -> lt_unknown lt = lt_unknown (d_lt s) ->
  pushed dcells dunk dgood s (mkdec inp (d_vars s ++ [mkvar c attrs]) lt) c.
Proof. intros K U. split; [exact K|]. split; [unfold dcells; cbn [d_vars]; rewrite map_app; reflexivity|exact U]. Qed.
Lemma attr_same i p s s' : dgood s -> d_attr o i p s = Ok s' -> same dcells dunk dgood s s'.
Proof.
  intros G E. unfold d_attr in E. inv_bind E. destruct a as [c inp]. destruct (negb _); [apply same_ok in Hk; subst; split; [exact G|split; reflexivity]|].
  destruct (nth_error (d_vars s) p) as [v|] eqn:N; [|discriminate]. apply same_ok in Hk. subst. split; [exact G|]. split; [|reflexivity].
  unfold dcells. cbn [d_vars]. clear - N. revert p N. induction (d_vars s) as [|w l IH]; intros [|p] N; cbn in *; try discriminate; [injection N as ->; reflexivity|]. rewrite (IH _ N). reflexivity.
Qed.

Lemma printed_run sub fuel ops st s' inp lt L :
  (forall c, appears T ops c -> new_refvals c = false) -> locals_ok lt ->
  run (decoder o T skip) T fuel ops (ist_init, mkdec inp [] lt) = Ok (st, s') ->
  (forall b i, assoc Z.eqb b (lt_unknown (d_lt s')) = Some i -> assoc Z.eqb b (lt_unknown L) = Some i) ->
  locals_ok (d_lt s') /\ (forall b i, assoc Z.eqb b (lt_unknown lt) = Some i -> assoc Z.eqb b (lt_unknown (d_lt s')) = Some i) /\
  exists x, walk (structured_walker fixed desc o T (d_vars s') sub) T fuel ops (ist_init, mksp 0 [] [] L) = Ok (st, x) /\
    sp_pos x = length (d_vars s') /\ sp_lt x = L.
Proof.
  intros A K E HL.
  assert (Sn : Forall (sound_var o) (d_vars s')).
  { destruct (decoder_keeps o HO T HT HD skip fuel ops ist_init (mkdec inp [] lt) st s') as [[Q _] _]; auto.
    - split; [constructor|exact K].
    - split; [constructor|]. cbn. lia. }
  destruct (run_unread false (decoder o T skip) T fuel ops) with (st := ist_init) (s := mkdec inp [] lt) (st' := st) (s' := s') as [E2 _]; auto.
  { intros c Ac. unfold barred. rewrite (A c Ac). reflexivity. }
  { split; reflexivity. }
  set (V := unread false (decoder o T skip)) in *.
  destruct (walk_steps fixed desc o T sub HT HD V dcells dunk dgood (d_vars s') L Sn) with (fuel := fuel) (ops := ops) (st := ist_init) (s := mkdec inp [] lt) (st' := st) (s' := s') as (_ & G & Le & Kp); auto.
  - intros i s t Hi G Q. cbn [on_var V unread decoder] in Q. unfold d_var in Q. inv_bind Q. destruct a as [c inp1]. apply same_ok in Hk. subst t. exists c. apply push_pushed; auto.
  - intros bits sig i s t Nb Hi G Q. cbn [on_var_af V unread decoder] in Q. unfold d_var_af in Q. inv_bind Q. destruct a as [v inp1]. inv_bind Hk. inv_bind Hk0. destruct a0 as [c inp2]. apply same_ok in Hk. subst t. split.
    + unfold make_attribute in Hb0. inv_bind Hb0. inv_bind Hk. eauto.
    + exists c. apply push_pushed; auto.
  - intros i s n t Hi G Q. cbn [on_factor V unread decoder] in Q. unfold d_factor in Q. inv_bind Q. destruct a as [c inp1]. inv_bind Hk. apply same_ok, pair_equal_spec in Hk0 as [<- <-].
    exists c, a. split; [apply push_pushed; auto|auto].
  - intros i s n t Hi G Q. cbn [on_significance V unread decoder] in Q. unfold d_significance in Q. inv_bind Q. destruct a as [c inp1]. inv_bind Hk. apply same_ok, pair_equal_spec in Hk0 as [<- <-].
    exists c, a. split; [apply push_pushed; auto|auto].
  - intros p s t Pp G Q. cbn [on_subst V unread decoder] in Q. unfold d_subst in Q. destruct (nth_error (d_vars s) p); [|discriminate]. eapply attr_same; eauto.
  - intros i p s t Pp Hi G Q. cbn [on_attr V unread decoder] in Q. eapply attr_same; [exact G|exact Q].
  - intros code s t G Q. cbn [on_raw V unread decoder] in Q. unfold d_raw in Q. inv_bind Q. destruct a as [i lt1]. inv_bind Hk. destruct a as [buf inp1]. inv_bind Hk0. apply same_ok in Hk. subst t. exists a.
    apply push_pushed; [apply chardata_step in Hb; [apply Hb|exact G]|]. unfold get_chardata in Hb. destruct (assoc _ _ _); [destruct (negb _); [discriminate|]; apply same_ok, pair_equal_spec in Hb as [_ <-]; reflexivity|].
    inv_bind Hb. apply same_ok, pair_equal_spec in Hk as [_ <-]. reflexivity.
  - intros b code s y Q. discriminate Q.
  - intros code bits s i t B G Q. cbn [on_unknown V unread decoder] in Q. unfold d_unknown in Q. inv_bind Q. destruct a as [j lt1]. apply same_ok, pair_equal_spec in Hk as [<- <-].
    destruct (unknown_made _ _ _ _ _ B G Hb) as (Q1 & Q2 & Q3 & Q4 & Q5). repeat (split; [assumption|]). split; [reflexivity|]. split; [exact Q3|]. split; [exact Q4|exact Q5].
  - intros i s n t Hi G Q. cbn [on_bitmap_factor V unread decoder] in Q. unfold d_bitmap_factor in Q. inv_bind Q. destruct a as [c inp1]. inv_bind Hk. apply same_ok, pair_equal_spec in Hk0 as [<- <-].
    split; [split; [exact G|split; reflexivity]|]. exists c, a. split; [eapply value_sound; eauto|]. split; [eapply value_keeps; eauto|auto].
  - intros pending n s codes bits t Fp Hn G Nb Q. cbn [on_bitmap V unread decoder] in Q. unfold d_bitmap in Q. inv_bind Q. destruct a as [chars inp1]. inv_bind Hk. destruct a as [i lt1]. inv_bind Hk0. cbv zeta in Hk. inv_bind Hk.
    apply same_ok, pair_equal_spec in Hk0 as [Hk0 <-]. apply pair_equal_spec in Hk0 as [<- <-].
    apply read_bitmap_range in Hb as [R1 R2]. pose proof Hb0 as Hu. apply bitmap_info in Hb0 as (B1 & B2 & B3 & B4 & B5); [|exact G|lia].
    rewrite sets_string in Hb1 by exact B1. cbn [of_outcome fresh c_info] in Hb1. apply same_ok in Hb1. subst a.
    eexists. split; [apply push_pushed; [exact B5|]|].
    + unfold get_bitmap in Hu. destruct (assoc _ _ _); [destruct (negb _); [discriminate|]; apply same_ok, pair_equal_spec in Hu as [_ <-]; reflexivity|].
      inv_bind Hu. apply same_ok, pair_equal_spec in Hk as [_ <-]. reflexivity.
    + cbn [c_code c_info with_val fresh v_cell]. unfold c_code. cbn [c_info]. split; [cbn [with_val fresh c_info]; rewrite B3; exact Fp|]. split; [unfold codes_of, dcells; cbn [d_vars]; rewrite map_map; reflexivity|].
      split; [exact Hb2|cbn [with_val fresh c_info]; lia].
  - split; [apply ist_ok_init|]. split; [left; reflexivity|]. split; [constructor|]. cbn. split; [lia|]. split; [lia|]. split; discriminate.
  - split; [exact G|]. split; [apply Le|]. destruct (Kp) with (x := mksp 0 [] [] L) as (x & Ex & Px & Lx).
    + split; [exists []; rewrite app_nil_r; reflexivity|exact HL].
    + split; reflexivity.
    + exists x. split; [exact Ex|]. split; [rewrite Px; unfold dcells; apply map_length|exact Lx].
Qed.

(** All the subsets of a message that is not compressed. *)
Lemma subsets_unknown : forall n fuel ops lt inp subs lt' inp', locals_ok lt -> (forall c, appears T ops c -> new_refvals c = false) ->
  decode_subsets o T skip fuel ops n lt inp = Ok (subs, lt', inp') -> locals_ok lt' /\
  (forall b i, assoc Z.eqb b (lt_unknown lt) = Some i -> assoc Z.eqb b (lt_unknown lt') = Some i) /\
  forall L sub, (forall b i, assoc Z.eqb b (lt_unknown lt') = Some i -> assoc Z.eqb b (lt_unknown L) = Some i) ->
  forall j, (j < length subs)%nat -> exists st x, walk (structured_walker fixed desc o T (nth j subs []) sub) T fuel ops (ist_init, mksp 0 [] [] L) = Ok (st, x) /\
    sp_pos x = length (nth j subs []) /\ sp_lt x = L.
Proof.
  induction n as [|n IH]; intros fuel ops lt inp subs lt' inp' K A E; cbn [decode_subsets] in E.
  - apply same_ok, pair_equal_spec in E as [E _]. apply pair_equal_spec in E as [<- <-]. split; [exact K|]. split; [auto|]. intros L sub _ j J. cbn in J. lia.
  - inv_bind E. destruct a as [st s]. inv_bind Hk. destruct a as [[rest lt1] inp1]. apply same_ok, pair_equal_spec in Hk0 as [Hk0 _]. apply pair_equal_spec in Hk0 as [<- <-].
    destruct (printed_run 0 fuel ops st s inp lt (d_lt s) A K Hb) as (K1 & U1 & _); auto.
    destruct (IH _ _ _ _ _ _ _ K1 A Hb0) as (K2 & U2 & P2). split; [exact K2|]. split; [auto|]. intros L sub HL [|j] J; cbn [nth length] in *.
    + destruct (printed_run sub fuel ops st s inp lt L A K Hb) as (_ & _ & x & Ex & Px & Lx); auto. eauto.
    + apply P2; [exact HL|lia].
Qed.
End Decoded.

(** ** Compressed messages *)

Lemma Forall2_nth {A} (R : A -> A -> Prop) (d : A) : forall l m j, Forall2 R l m -> (j < length l)%nat -> R (nth j l d) (nth j m d).
Proof. intros l m j H. revert j. induction H; intros [|j] L; cbn in *; try lia; auto. apply IHForall2. lia. Qed.
Lemma push_nth : forall subs vs j v, length subs = length vs -> (j < length subs)%nat -> nth j (push_all subs vs) [] = nth j subs [] ++ [nth j vs v].
Proof. induction subs as [|x subs IH]; intros [|w vs] [|j] v L J; cbn in *; try lia; [reflexivity|]. apply IH; lia. Qed.
Lemma push_infos is i : forall subs vs, Forall (fun l : list var => map (fun v => c_info (v_cell v)) l = is) subs -> Forall (fun v => c_info (v_cell v) = i) vs ->
  Forall (fun l : list var => map (fun v => c_info (v_cell v)) l = is ++ [i]) (push_all subs vs).
Proof.
  intros subs vs H. revert vs. induction H as [|x subs Hx _ IH]; intros vs V; cbn; [constructor|]. destruct V as [|v vs Hv V]; cbn; constructor; [|apply IH; exact V].
  rewrite map_app. cbn [map]. rewrite Hx, Hv. reflexivity.
Qed.
Lemma attach_same pos : forall subs cs subs', length cs = length subs -> attach_all pos subs cs = Ok subs' ->
  Forall2 (fun l m => map v_cell l = map v_cell m) subs subs'.
Proof.
  induction subs as [|vars subs IH]; intros [|c cs] subs' L E; cbn [attach_all length] in *; try lia; [apply same_ok in E; subst; constructor|].
  inv_bind E. inv_bind Hk. apply same_ok in Hk0. subst. constructor; [|apply (IH cs); auto].
  unfold attach in Hb. destruct (negb (isset c)); [apply same_ok in Hb; subst; reflexivity|]. destruct (nth_error vars pos) as [v|] eqn:N; [|discriminate]. apply same_ok in Hb. subst.
  clear - N. revert pos N. induction vars as [|w l IHl]; intros [|p] N; cbn in *; try discriminate; [injection N as ->; reflexivity|]. rewrite (IHl _ N). reflexivity.
Qed.

Section Columns.
Context (o : options) (HO : hook_ok o).

Lemma raw_keeps i raw c : info_ok i -> raw_number o i raw = Ok c -> c_info c = i.
Proof.
  intros Hi E. unfold raw_number in E. inv_bind E. destruct (setd o (fresh i) a) eqn:Es; try discriminate. cbn [of_outcome] in Hk. apply same_ok in Hk. subst.
  apply (setd_info o HO) in Es; [exact Es|apply fresh_ok, Hi].
Qed.
Lemma repeat_infos i n (c : cell) : c_info c = i -> length (repeat c n) = n /\ Forall (fun c => c_info c = i) (repeat c n).
Proof. intros E. split; [apply repeat_length|apply repeat_all, E]. Qed.
Lemma diffs_keeps i base width : info_ok i -> forall n inp cs inp', comp_diffs o i base width n inp = Ok (cs, inp') -> length cs = n /\ Forall (fun c => c_info c = i) cs.
Proof.
  intros Hi. induction n as [|n IH]; intros inp cs inp' E; cbn [comp_diffs] in E; [apply same_ok, pair_equal_spec in E as [<- _]; split; [reflexivity|constructor]|].
  inv_bind E. destruct a as [c inp1]. inv_bind Hk. destruct a as [cs1 inp2]. apply same_ok, pair_equal_spec in Hk0 as [<- _]. apply IH in Hb0 as [I1 I2]. split; [cbn; lia|]. constructor; [|exact I2].
  unfold comp_diff in Hb. inv_bind Hb. destruct a as [d inp3]. inv_bind Hk. inv_bind Hk0. cbv zeta in Hk.
  repeat match type of Hk with (if ?b then _ else _) = _ => destruct b end; try (apply same_ok, pair_equal_spec in Hk as [<- _]; reflexivity).
  inv_bind Hk. apply same_ok, pair_equal_spec in Hk0 as [<- _]. eapply raw_keeps; eauto.
Qed.
Lemma numbers_keeps i n inp cs k inp' : info_ok i -> comp_numbers o i n inp = Ok (cs, k, inp') -> length cs = n /\ Forall (fun c => c_info c = i) cs.
Proof.
  intros Hi E. unfold comp_numbers in E. inv_bind E. destruct a as [[[m base] width] inp1]. destruct m; [|destruct (width =? 0)].
  - apply same_ok, pair_equal_spec in Hk as [Hk _]. apply pair_equal_spec in Hk as [<- _]. apply repeat_infos. reflexivity.
  - inv_bind Hk. apply same_ok, pair_equal_spec in Hk0 as [Hk0 _]. apply pair_equal_spec in Hk0 as [<- _]. apply repeat_infos. eapply raw_keeps; eauto.
  - inv_bind Hk. destruct a as [cs1 inp2]. apply same_ok, pair_equal_spec in Hk0 as [Hk0 _]. apply pair_equal_spec in Hk0 as [<- _]. eapply diffs_keeps; eauto.
Qed.
Lemma text_keeps i bits inp c inp' : vi_type i = TString -> comp_text o i bits inp = Ok (c, inp') -> c_info c = i.
Proof.
  intros Ty E. unfold comp_text in E. inv_bind E. destruct a as [[r|] inp1].
  - rewrite setc_string in Hk by exact Ty. cbn [of_outcome bind] in Hk. apply same_ok, pair_equal_spec in Hk as [<- _]. reflexivity.
  - apply same_ok, pair_equal_spec in Hk as [<- _]. reflexivity.
Qed.
Lemma texts_keeps i bits : vi_type i = TString -> forall n inp cs inp', comp_texts o i bits n inp = Ok (cs, inp') -> length cs = n /\ Forall (fun c => c_info c = i) cs.
Proof.
  intros Ty. induction n as [|n IH]; intros inp cs inp' E; cbn [comp_texts] in E; [apply same_ok, pair_equal_spec in E as [<- _]; split; [reflexivity|constructor]|].
  inv_bind E. destruct a as [c inp1]. inv_bind Hk. destruct a as [cs1 inp2]. apply same_ok, pair_equal_spec in Hk0 as [<- _]. apply IH in Hb0 as [I1 I2]. split; [cbn; lia|]. constructor; [|exact I2].
  eapply text_keeps; eauto.
Qed.
Lemma values_keeps i n inp cs inp' : info_ok i -> comp_values o i n inp = Ok (cs, inp') -> length cs = n /\ Forall (fun c => c_info c = i) cs.
Proof.
  intros Hi E. assert (N : (' (cs, _, inp1) <- comp_numbers o i n inp ;; Ok (cs, inp1)) = Ok (cs, inp') -> length cs = n /\ Forall (fun c => c_info c = i) cs).
  { intros X. inv_bind X. destruct a as [[cs1 k] inp1]. apply same_ok, pair_equal_spec in Hk as [<- _]. eapply numbers_keeps; eauto. }
  unfold comp_values in E. destruct (vi_type i) eqn:Ty; try (apply N; exact E); [|discriminate].
  unfold comp_strings in E. inv_bind E. destruct a as [r inp1]. inv_bind Hk. destruct a as [width inp2]. destruct (width =? 0).
  - destruct r as [r|].
    + rewrite setc_string in Hk0 by exact Ty. cbn [of_outcome bind] in Hk0. apply same_ok, pair_equal_spec in Hk0 as [<- _]. apply repeat_infos. reflexivity.
    + apply same_ok, pair_equal_spec in Hk0 as [<- _]. apply repeat_infos. reflexivity.
  - destruct (_ <? _); [discriminate|]. eapply texts_keeps; eauto.
Qed.
Lemma uniform_keeps i n inp c inp' : info_ok i -> comp_uniform o i n inp = Ok (c, inp') -> c_info c = i.
Proof.
  intros Hi E. assert (N : comp_semantic o i inp = Ok (c, inp') -> c_info c = i).
  { intros X. unfold comp_semantic in X. inv_bind X. destruct a as [base inp1]. inv_bind Hk. inv_bind Hk0. destruct a0 as [width inp2]. destruct (negb _); [discriminate|].
    destruct (base =? a); [apply same_ok, pair_equal_spec in Hk as [<- _]; reflexivity|]. inv_bind Hk. apply same_ok, pair_equal_spec in Hk0 as [<- _]. eapply raw_keeps; eauto. }
  unfold comp_uniform in E. destruct (vi_type i) eqn:Ty; try (apply N; exact E); [|discriminate].
  unfold comp_same_string in E. inv_bind E. destruct a as [r inp1]. inv_bind Hk. destruct a as [width inp2]. destruct (width =? 0).
  - destruct r as [r|].
    + rewrite setc_string in Hk0 by exact Ty. cbn [of_outcome bind] in Hk0. apply same_ok, pair_equal_spec in Hk0 as [<- _]. reflexivity.
    + apply same_ok, pair_equal_spec in Hk0 as [<- _]. reflexivity.
  - destruct (_ <? _); [discriminate|]. inv_bind Hk0. destruct a as [c1 inp3]. inv_bind Hk. apply same_ok, pair_equal_spec in Hk0 as [<- _]. eapply text_keeps; eauto.
Qed.
Lemma comp_bitmap_length : forall n inp chars inp', comp_bitmap n inp = Ok (chars, inp') -> length chars = n.
Proof.
  induction n as [|n IH]; intros inp chars inp' E; cbn [comp_bitmap] in E; [apply same_ok, pair_equal_spec in E as [<- _]; reflexivity|].
  inv_bind E. destruct a as [b inp1]. inv_bind Hk. destruct a as [w inp2]. destruct (negb _); [discriminate|]. inv_bind Hk0. destruct a as [bs inp3].
  apply same_ok, pair_equal_spec in Hk as [<- _]. cbn [length]. f_equal. eapply IH; eauto.
Qed.
End Columns.

Section Compressed.
Context (fixed : nat -> f64 -> list Z) (desc : varinfo -> list Z) (o : options) (HO : hook_ok o) (T : tables) (skip : bool).
Context (HT : table_ok (tb_b T)) (HD : defs_ok (tb_b T)) (j n : nat) (Hj : (j < n)%nat).

Definition kcells (s : cdec) : list cell := map v_cell (nth j (k_subs s) []).
Definition kunk (s : cdec) : list (Z * varinfo) := lt_unknown (k_lt s).
Definition kgood (s : cdec) : Prop := locals_ok (k_lt s) /\ ksize s = n /\ exists is, Forall info_ok is /\ Forall (fun l => map (fun v => c_info (v_cell v)) l = is) (k_subs s).

Lemma push_column s inp vs lt i : info_ok i -> kgood s -> locals_ok lt -> lt_unknown lt = lt_unknown (k_lt s) -> length vs = ksize s -> Forall (fun v => c_info (v_cell v) = i) vs ->
  pushed kcells kunk kgood s (mkcdec inp (push_all (k_subs s) vs) lt) (v_cell (nth j vs (mkvar (fresh i) []))).
Proof.
  intros Hi (K & J & is & Hs & H) L U Len V. unfold ksize in *. split; [|split; [|exact U]].
  - split; [exact L|]. unfold ksize. cbn [k_subs]. rewrite push_all_length by congruence. split; [exact J|]. exists (is ++ [i]). split; [apply Forall_app; auto|]. apply push_infos; auto.
  - unfold kcells. cbn [k_subs]. rewrite push_nth with (v := mkvar (fresh i) []) by (congruence || (rewrite J; exact Hj)). rewrite map_app. reflexivity.
Qed.
Lemma kvars_infos i cs : Forall (fun c => c_info c = i) cs -> Forall (fun v => c_info (v_cell v) = i) (map (fun c => mkvar c []) cs).
Proof. induction 1; cbn; constructor; auto. Qed.
Lemma push_uniform s inp c i : info_ok i -> kgood s -> c_info c = i -> pushed kcells kunk kgood s (k_push (repeat c (ksize s)) inp s) c.
Proof.
  intros Hi G E. assert (J : (j < ksize s)%nat) by (destruct G as (_ & -> & _); exact Hj).
  pose proof (push_column s inp (map (fun c => mkvar c []) (repeat c (ksize s))) (k_lt s) i Hi G (proj1 G) eq_refl) as Q. rewrite map_length, repeat_length in Q. specialize (Q eq_refl).
  replace (v_cell (nth j (map (fun c => mkvar c []) (repeat c (ksize s))) (mkvar (fresh i) []))) with c in Q; [apply Q; apply kvars_infos, repeat_all, E|].
  rewrite nth_indep with (d' := mkvar c []) by (rewrite map_length, repeat_length; exact J).
  rewrite (map_nth (fun c => mkvar c [])). cbn [v_cell]. generalize (ksize s). clear. intros n. revert n. induction j as [|k IH]; intros [|n]; cbn; auto.
Qed.
Lemma kattr_same i p s s' : info_ok i -> kgood s -> k_attr o i p s = Ok s' -> same kcells kunk kgood s s'.
Proof.
  intros Hi (K & J & is & Hs & H) E. unfold k_attr in E. inv_bind E. destruct a as [cs inp]. inv_bind Hk. apply same_ok in Hk0. subst. apply (values_keeps o HO) in Hb as [Lc _]; [|exact Hi].
  apply attach_same in Hb0; [|exact Lc]. unfold ksize in *. split; [|split; [|reflexivity]].
  - split; [exact K|]. unfold ksize. cbn [k_subs]. rewrite <- (Forall2_len _ _ _ Hb0). split; [exact J|]. exists is. split; [exact Hs|]. clear - H Hb0. induction Hb0; constructor; inversion H; subst; auto.
    rewrite <- map_map with (f := v_cell) (g := c_info), <- H0, map_map. reflexivity.
  - unfold kcells. cbn [k_subs]. symmetry. apply (Forall2_nth (fun l m => map v_cell l = map v_cell m) [] _ _ j Hb0). rewrite J. exact Hj.
Qed.

Lemma printed_compressed sub fuel ops st s' inp lt :
  (forall c, appears T ops c -> barred true c = false) -> locals_ok lt ->
  run (cdecoder o T skip) T fuel ops (ist_init, mkcdec inp (repeat [] n) lt) = Ok (st, s') ->
  length (k_subs s') = n /\
  exists x, walk (structured_walker fixed desc o T (nth j (k_subs s') []) sub) T fuel ops (ist_init, mksp 0 [] [] (k_lt s')) = Ok (st, x) /\
    sp_pos x = length (nth j (k_subs s') []) /\ sp_lt x = k_lt s'.
Proof.
  intros A K E.
  assert (G0 : kgood (mkcdec inp (repeat [] n) lt)).
  { split; [exact K|]. split; [apply repeat_length|]. exists []. split; [constructor|]. apply repeat_all. reflexivity. }
  assert (N0 : nth j (repeat (@nil var) n) [] = []) by (generalize n; clear; induction j as [|k IH]; intros [|m]; cbn; auto).
  assert (Sn : Forall (sound_var o) (nth j (k_subs s') [])).
  { destruct (cdecoder_keeps o HO T HT HD skip fuel ops ist_init (mkcdec inp (repeat [] n) lt) st s') as [[Q _] _]; auto.
    - split; [|exact K]. apply repeat_all. constructor.
    - apply calm_init.
    - destruct (nth_in_or_default j (k_subs s') []) as [I| ->]; [|constructor]. unfold all_sound in Q. rewrite Forall_forall in Q. auto. }
  destruct (run_unread true (cdecoder o T skip) T fuel ops A ist_init (mkcdec inp (repeat [] n) lt) st s') as [E2 _]; auto.
  { split; reflexivity. }
  set (V := unread true (cdecoder o T skip)) in *.
  destruct (walk_steps fixed desc o T sub HT HD V kcells kunk kgood (nth j (k_subs s') []) (k_lt s') Sn) with (fuel := fuel) (ops := ops) (st := ist_init) (s := mkcdec inp (repeat [] n) lt) (st' := st) (s' := s') as (_ & G & Le & Kp); auto.
  - intros i s t Hi G Q. cbn [on_var V unread cdecoder] in Q. unfold k_var in Q. inv_bind Q. destruct a as [cs inp1]. apply same_ok in Hk. subst t. apply (values_keeps o HO) in Hb as [Lc Fc]; [|exact Hi].
    eexists. apply push_column with (i := i); auto; [apply G|rewrite map_length; exact Lc|apply kvars_infos, Fc].
  - intros bits sig i s t Nb Hi G Q. discriminate Q.
  - intros i s m t Hi G Q. cbn [on_factor V unread cdecoder] in Q. unfold k_factor in Q. inv_bind Q. destruct a as [c inp1]. inv_bind Hk. apply same_ok, pair_equal_spec in Hk0 as [<- <-].
    exists c, a. split; [eapply push_uniform; [exact Hi|exact G|eapply uniform_keeps; eauto]|auto].
  - intros i s m t Hi G Q. cbn [on_significance V unread cdecoder] in Q. unfold k_significance in Q. inv_bind Q. destruct a as [c inp1]. inv_bind Hk. apply same_ok, pair_equal_spec in Hk0 as [<- <-].
    exists c, a. split; [eapply push_uniform; [exact Hi|exact G|eapply uniform_keeps; eauto]|auto].
  - intros p s t Pp G Q. cbn [on_subst V unread cdecoder] in Q. unfold k_subst in Q. destruct (k_subs s) as [|vars subs] eqn:Es; [discriminate|]. destruct (nth_error vars p) as [v|] eqn:Nv; [|discriminate].
    eapply kattr_same; [|exact G|exact Q]. destruct G as (_ & _ & is & Hs & H). rewrite Es in H. inversion H as [|? ? H1 _]. subst. rewrite Forall_forall in Hs. apply Hs.
    change (c_info (v_cell v)) with ((fun v => c_info (v_cell v)) v). apply in_map. eapply nth_error_In; eauto.
  - intros i p s t Pp Hi G Q. cbn [on_attr V unread cdecoder] in Q. eapply kattr_same; eauto.
  - intros code s t G Q. cbn [on_raw V unread cdecoder] in Q. unfold k_raw in Q. inv_bind Q. discriminate.
  - intros b code s y Q. discriminate Q.
  - intros code bits s i t B (K1 & J & is & Hs & H) Q. cbn [on_unknown V unread cdecoder] in Q. unfold k_unknown in Q. inv_bind Q. destruct a as [i1 lt1]. apply same_ok, pair_equal_spec in Hk as [<- <-].
    destruct (unknown_made _ _ _ _ _ B K1 Hb) as (Q1 & Q2 & Q3 & Q4 & Q5). split; [exact Q1|]. split; [split; [exact Q2|split; [exact J|exists is; split; [exact Hs|exact H]]]|]. split; [reflexivity|]. split; [exact Q3|]. split; [exact Q4|exact Q5].
  - intros i s m t Hi G Q. cbn [on_bitmap_factor V unread cdecoder] in Q. unfold k_bitmap_factor in Q. inv_bind Q. destruct a as [c inp1]. inv_bind Hk. apply same_ok, pair_equal_spec in Hk0 as [<- <-].
    split; [split; [exact G|split; reflexivity]|]. exists c, a. split; [eapply uniform_sound; eauto|]. split; [eapply uniform_keeps; eauto|auto].
  - intros pending m s codes bits t Fp Hn G Nb Q. cbn [on_bitmap V unread cdecoder] in Q. unfold k_bitmap in Q. inv_bind Q. destruct a as [chars inp1]. inv_bind Hk. destruct a as [i lt1]. inv_bind Hk0. cbv zeta in Hk. inv_bind Hk.
    apply comp_bitmap_length in Hb. pose proof Hb0 as Hu. apply bitmap_info in Hb0 as (B1 & B2 & B3 & B4 & B5); [|apply G|lia].
    rewrite sets_string in Hb1 by exact B1. cbn [of_outcome fresh c_info] in Hb1. apply same_ok in Hb1.
    assert (Ic : c_info a = i) by (subst a; reflexivity).
    assert (U : lt_unknown lt1 = lt_unknown (k_lt s)).
    { unfold get_bitmap in Hu. destruct (assoc _ _ _); [destruct (negb _); [discriminate|]; apply same_ok, pair_equal_spec in Hu as [_ <-]; reflexivity|].
      inv_bind Hu. apply same_ok, pair_equal_spec in Hk as [_ <-]. reflexivity. }
    assert (P : pushed kcells kunk kgood s (mkcdec inp1 (push_all (k_subs s) (repeat (mkvar a []) (ksize s))) lt1) a).
    { assert (J : (j < ksize s)%nat) by (destruct G as (_ & -> & _); exact Hj).
      pose proof (push_column s inp1 (repeat (mkvar a []) (ksize s)) lt1 i B4 G B5 U) as P. rewrite repeat_length in P. specialize (P eq_refl). assert (Fa : Forall (fun v => c_info (v_cell v) = i) (repeat (mkvar a []) (ksize s))) by (apply repeat_all; exact Ic). specialize (P Fa).
      replace (v_cell (nth j (repeat (mkvar a []) (ksize s)) (mkvar (fresh i) []))) with a in P; [exact P|].
      rewrite nth_indep with (d' := mkvar a []) by (rewrite repeat_length; exact J). generalize (ksize s). clear. intros k. revert k. induction j as [|q IH]; intros [|k]; cbn; auto. }
    destruct (push_all (k_subs s) (repeat (mkvar a []) (ksize s))) as [|vars subs] eqn:Ep; [discriminate|]. apply same_ok, pair_equal_spec in Hk0 as [Hk0 <-]. apply pair_equal_spec in Hk0 as [<- <-].
    exists a. split; [exact P|]. unfold c_code. rewrite Ic. split; [rewrite B3; exact Fp|]. split; [|split; [exact Hb2|lia]].
    destruct P as ((_ & J & is & _ & H) & _ & _). cbn [k_subs] in *. unfold codes_of, kcells. cbn [k_subs].
    assert (H1 : map (fun v => c_info (v_cell v)) vars = is) by (inversion H; assumption).
    assert (H2 : map (fun v => c_info (v_cell v)) (nth j (vars :: subs) []) = is).
    { rewrite Forall_forall in H. apply H, nth_In. unfold ksize in J. cbn [k_subs] in J. rewrite J. exact Hj. }
    rewrite map_map. transitivity (map vi_code is); [rewrite <- H1|rewrite <- H2]; rewrite map_map; reflexivity.
  - split; [apply ist_ok_init|]. split; [left; reflexivity|]. split; [constructor|]. cbn. split; [lia|]. split; [lia|]. split; discriminate.
  - split; [apply G|]. destruct (Kp) with (x := mksp 0 [] [] (k_lt s')) as (x & Ex & Px & Lx).
    + split; [exists []; rewrite app_nil_r; reflexivity|auto].
    + split; [|reflexivity]. unfold kcells. cbn [k_subs]. rewrite N0. reflexivity.
    + exists x. split; [exact Ex|]. split; [rewrite Px; unfold kcells; apply map_length|exact Lx].
Qed.
End Compressed.

Lemma no_subsets o T skip fuel ops st s' inp lt : run (cdecoder o T skip) T fuel ops (ist_init, mkcdec inp [] lt) = Ok (st, s') -> k_subs s' = [].
Proof.
  intros E. refine (run_inv (cdecoder o T skip) T (fun s => k_subs s = []) fuel ops _ _ _ _ _ ist_ok_init _ E); [|reflexivity]. clear.
  assert (A : forall i p s s', k_subs s = [] -> k_attr o i p s = Ok s' -> k_subs s' = []).
  { intros i p s s' H E. unfold k_attr in E. rewrite H in E. inv_bind E. destruct a as [cs inp]. cbn [attach_all bind] in Hk. apply same_ok in Hk. subst. reflexivity. }
  assert (B : forall i s s', k_subs s = [] -> k_var o i s = Ok s' -> k_subs s' = []).
  { intros i s s' H E. unfold k_var in E. inv_bind E. destruct a as [cs inp]. apply same_ok in Hk. subst. unfold k_push. cbn [k_subs]. rewrite H. reflexivity. }
  constructor; cbn [cdecoder on_var on_var_af on_factor on_bitmap_factor on_significance on_subst on_attr on_raw on_refval on_bitmap on_unknown]; intros.
  - eapply B; eauto.
  - unfold k_var_af in *. destruct (vi_type i); try discriminate; try (eapply B; eassumption);
      (match goal with X : bind _ _ = Ok _ |- _ => inv_bind X end; destruct a as [vs inp]; apply same_ok in Hk; subst; cbn [k_subs]; match goal with X : k_subs s = [] |- _ => rewrite X end; reflexivity).
  - unfold k_factor in *. inv_bind H0. destruct a as [c inp]. inv_bind Hk. apply same_ok, pair_equal_spec in Hk0 as [_ <-]. unfold k_push. cbn [k_subs]. rewrite H. reflexivity.
  - unfold k_bitmap_factor in *. inv_bind H0. destruct a as [c inp]. inv_bind Hk. apply same_ok, pair_equal_spec in Hk0 as [_ <-]. exact H.
  - unfold k_significance in *. inv_bind H0. destruct a as [c inp]. inv_bind Hk. apply same_ok, pair_equal_spec in Hk0 as [_ <-]. unfold k_push. cbn [k_subs]. rewrite H. reflexivity.
  - unfold k_subst in *. rewrite H in H0. discriminate.
  - eapply A; eauto.
  - unfold k_raw in *. inv_bind H2. discriminate.
  - discriminate.
  - unfold k_bitmap in *. rewrite H in H0. inv_bind H0. destruct a. inv_bind Hk. destruct a. inv_bind Hk0. cbn in Hk. inv_bind Hk. discriminate.
  - unfold k_unknown in *. inv_bind H0. destruct a. apply same_ok, pair_equal_spec in Hk as [_ <-]. exact H.
Qed.

(** ** All the subsets *)
Section All.
Context (fixed : nat -> f64 -> list Z) (desc : varinfo -> list Z) (o : options) (T : tables).

Lemma prints_all fuel ops L : forall subs sub,
  (forall j sub, (j < length subs)%nat -> exists st x, walk (structured_walker fixed desc o T (nth j subs []) sub) T fuel ops (ist_init, mksp 0 [] [] L) = Ok (st, x) /\
    sp_pos x = length (nth j subs []) /\ sp_lt x = L) ->
  exists ess, print_subsets fixed desc o T fuel ops sub subs L = Ok (ess, L) /\ map printed ess = subs.
Proof.
  induction subs as [|vars subs IH]; intros sub H; cbn [print_subsets]; [exists []; auto|].
  destruct (H O sub) as (st & x & E & Px & Lx); [cbn; lia|]. cbn [nth] in E, Px. rewrite E. cbn [bind]. rewrite Lx.
  destruct (IH (S sub)) as (ess & -> & Q). { intros j sb J. apply (H (S j) sb). cbn. lia. }
  cbn [bind]. exists (sp_out x :: ess). split; [reflexivity|]. cbn [map]. f_equal; [|exact Q].
  apply walk_outline in E as (es & (E1 & _ & Fo) & _). cbn [sp_out sp_pos app] in E1, Fo. rewrite E1. apply follows_printed in Fo as [_ ->]. rewrite Px, Nat.sub_0_r, skipn_O. apply firstn_all.
Qed.
End All.

(** What printing a message along its template shows. *)
From Coq Require Import ZArith Lia ZifyBool ZifyNat.
From Verif Require Import Base Num.Float Varcode.Model Varinfo.Model Tables.Model Tables.Spec Tables.LoadProofs Tables.AlterProofs Var.Model Interp.Model Interp.Spec
  Interp.ExpandProofs Interp.Holds Codec.Model Listing.Model Listing.Spec Listing.Proofs Structured.Model Structured.Spec.
Local Open Scope Z_scope.

(** ** Definitions have the code that was asked for *)
Lemma get_varinfo_code t st c i : get_varinfo t st c = Ok i -> vi_code i = c.
Proof.
  unfold get_varinfo. intros E. inv_bind E. pose proof (query_code _ _ _ Hb) as Q.
  destruct ((is_scale st =? 0) && _ && _ && _ && _); [apply same_ok in Hk; subst i; exact Q|].
  cbv zeta in Hk. inv_bind Hk. destruct a0 as [[sc b] r]. unfold expected in Hk0. cbn [r_code r_scale r_bits r_ref] in Hk0.
  destruct (List.find (fun e => be_code e =? c) t) as [e|] eqn:F; [|discriminate]. apply find_some in F as [_ F].
  assert (Ce : vi_code (be_info e) = c) by (unfold be_code in F; lia).
  destruct ((vi_scale (be_info e) =? sc) && _ && _); [apply same_ok in Hk0; subst i; exact Ce|].
  apply alter_checked_fields in Hk0 as (A & _). congruence.
Qed.

Lemma get_unknown_code lt c b i lt' : get_unknown lt c b = Ok (i, lt') -> vi_code i = c.
Proof.
  unfold get_unknown. destruct (assoc Z.eqb b (lt_unknown lt)) as [j|].
  - destruct (Z.eqb_spec (vi_code j) c); cbn [negb]; [|discriminate]. intros E. apply same_ok, pair_equal_spec in E as [<- _]. assumption.
  - intros E. inv_bind E. apply same_ok, pair_equal_spec in Hk as [<- _]. unfold set_binary in Hb.
    repeat match type of Hb with
    | (if ?b then _ else _) = _ => destruct b
    | bind ?m _ = Ok _ => let Q := fresh in destruct m eqn:Q; cbn [bind] in Hb; [|discriminate Hb|discriminate Hb]
    end; try discriminate Hb; apply same_ok in Hb; subst; reflexivity.
Qed.

Section Shows.
Context (fixed : nat -> f64 -> list Z) (desc : varinfo -> list Z) (o : options) (T : tables) (vars : list var) (sub : nat).
Let V := sp_visitor fixed desc o vars sub.
Let W := structured_walker fixed desc o T vars sub.

(** A step that printed [es]. *)
Definition stepped (s : sp) (es : list entry) (s' : sp) : Prop :=
  sp_out s' = sp_out s ++ es /\ sp_path s' = sp_path s /\ follows o vars (sp_pos s) es (sp_pos s').

Lemma follows_app es1 : forall n k es2 m, follows o vars n es1 k -> follows o vars k es2 m -> follows o vars n (es1 ++ es2) m.
Proof.
  induction es1 as [|e es1 IH]; intros n k es2 m; cbn [follows app]; [intros ->; auto|].
  destruct (en_what e); intros H1 H2; repeat (destruct H1 as [? H1]); repeat (split; [auto|]); eauto.
Qed.

Lemma stepped_app s es1 s1 es2 s2 : stepped s es1 s1 -> stepped s1 es2 s2 -> stepped s (es1 ++ es2) s2.
Proof.
  intros (O1 & P1 & F1) (O2 & P2 & F2). split; [rewrite O2, O1, app_assoc; reflexivity|]. split; [congruence|].
  eapply follows_app; eauto.
Qed.
Lemma stepped_nil s s' : sp_out s' = sp_out s -> sp_path s' = sp_path s -> sp_pos s' = sp_pos s -> stepped s [] s'.
Proof. intros A B C. split; [rewrite app_nil_r; exact A|]. split; [exact B|]. cbn [follows]. auto. Qed.

Lemma show_ok pos code w s s' : show fixed desc sub pos code w s = Ok s' ->
  s' = mksp (sp_pos s) (sp_path s) (sp_out s ++ [mkentry pos (sp_path s) code w]) (sp_lt s).
Proof. unfold show. intros E. inv_bind E. apply same_ok in Hk. auto. Qed.

Lemma next_ok s v s' : sp_next vars s = Ok (v, s') -> nth_error vars (sp_pos s) = Some v /\ s' = mksp (S (sp_pos s)) (sp_path s) (sp_out s) (sp_lt s).
Proof.
  unfold sp_next, get_var. destruct (nth_error vars (sp_pos s)); cbn [bind]; [|discriminate]. intros E. apply same_ok, pair_equal_spec in E as [<- <-]. auto.
Qed.

Ltac steps E :=
  repeat match type of E with
  | bind ?m _ = Ok _ => let Q := fresh "Q" in destruct m as [?|?|] eqn:Q; cbn [bind] in E; [|discriminate E|discriminate E]
  | (let (_, _) := ?p in _) = _ => destruct p
  | (if ?b then _ else _) = _ => destruct b eqn:?
  | Err _ = Ok _ => discriminate E
  end;
  repeat match goal with
  | Q : sp_next _ _ = Ok _ |- _ => apply next_ok in Q as [? ->]
  | Q : show _ _ _ _ _ _ _ = Ok _ |- _ => apply show_ok in Q; cbn [sp_pos sp_path sp_out sp_lt] in Q
  end.


(** One variable of the subset. *)
Lemma var_step i s s' : sp_var fixed desc vars sub i s = Ok s' ->
  exists e, stepped s [e] s' /\ at_ (sp_path s) (vi_code i) e /\ is_value e.
Proof.
  unfold sp_var, sp_encode. intros E. steps E. subst s'.
  exists (mkentry (S (sp_pos s)) (sp_path s) (vi_code i) (PVar v)). split; [|split; [split; reflexivity|exact Logic.I]].
  split; [reflexivity|]. split; [reflexivity|]. cbn [follows en_what en_pos sp_pos]. auto.
Qed.

Lemma var_af_step bits sig i s s' : sp_var_af fixed desc vars sub bits sig i s = Ok s' ->
  exists f e, stepped s [f; e] s' /\ at_ (sp_path s) (vi_code i) e /\ is_value e /\ en_path f = sp_path s /\ is_field f.
Proof.
  unfold sp_var_af, sp_encode, sp_field. intros E. steps E. steps Q0. subst a. cbn [sp_pos sp_path sp_out sp_lt] in E. subst s'.
  assert (L : (sp_pos s < length vars)%nat) by (apply nth_error_Some; congruence).
  match goal with H : af_code sig = Ok ?oc |- _ =>
    set (w := match oc with None => PNoField sig | Some code => match enqa_on code (v_attrs v) with Some a => PField a | None => PNoField sig end end) end.
  exists (mkentry (S (sp_pos s)) (sp_path s) (c_code (v_cell v)) w), (mkentry (S (sp_pos s)) (sp_path s) (vi_code i) (PVar v)).
  split; [|split; [split; reflexivity|split; [exact Logic.I|split; [reflexivity|]]]].
  - split; [cbn [sp_out]; rewrite <- app_assoc; reflexivity|]. split; [reflexivity|]. cbn [follows en_what en_pos sp_pos].
    assert (F : nth_error vars (sp_pos s) = Some v /\ (S (sp_pos s) = S (sp_pos s) \/ S (sp_pos s) = 0%nat /\ var_f (vi_code i) = 2) /\ S (sp_pos s) = S (sp_pos s)) by auto.
    subst w. destruct a0 as [code|]; [destruct (enqa_on code (v_attrs v)) eqn:Q1|]; (split; [eauto|split; [reflexivity|exact F]]).
  - unfold is_field. cbn [en_what]. subst w. destruct a0 as [code|]; [destruct (enqa_on code (v_attrs v))|]; exact Logic.I.
Qed.

Lemma factor_step i s n s' : sp_factor fixed desc vars sub i s = Ok (n, s') ->
  exists e, stepped s [e] s' /\ factor_entry (sp_path s) (vi_code i) (Z.to_nat n) e.
Proof.
  unfold sp_factor, sp_encode. intros E. steps E. apply same_ok, pair_equal_spec in E as [<- <-]. subst.
  exists (mkentry (S (sp_pos s)) (sp_path s) (vi_code i) (PVar v)). split; [|split; [split; reflexivity|]].
  - split; [reflexivity|]. split; [reflexivity|]. cbn [follows en_what en_pos sp_pos]. auto.
  - eexists _, _. split; [reflexivity|]. split; [eassumption|reflexivity].
Qed.

Lemma significance_step i s n s' : sp_significance fixed desc vars sub i s = Ok (n, s') ->
  exists e, stepped s [e] s' /\ at_ (sp_path s) (vi_code i) e /\ is_value e.
Proof.
  unfold sp_significance, sp_encode. intros E. steps E. apply same_ok, pair_equal_spec in E as [<- <-]. subst.
  exists (mkentry (S (sp_pos s)) (sp_path s) (vi_code i) (PVar v)). split; [|split; [split; reflexivity|exact Logic.I]].
  split; [reflexivity|]. split; [reflexivity|]. cbn [follows en_what en_pos sp_pos]. auto.
Qed.

Lemma attr_step i pos s s' : sp_attr fixed desc vars sub i pos s = Ok s' ->
  exists e, stepped s [e] s' /\ at_ (sp_path s) (vi_code i) e /\ is_attr e.
Proof.
  unfold sp_attr, get_var. intros E. destruct (nth_error vars pos) as [v|] eqn:N; cbn [bind] in E; [|discriminate]. apply show_ok in E. subst s'.
  exists (mkentry pos (sp_path s) (vi_code i) (PAttr (enqa_on (vi_code i) (v_attrs v)))). split; [|split; [split; reflexivity|exact Logic.I]].
  split; [reflexivity|]. split; [reflexivity|]. cbn [follows en_what en_pos en_code sp_pos]. eauto.
Qed.

Lemma raw_step c s s' : var_f c = 2 -> sp_raw fixed desc vars sub c s = Ok s' ->
  exists e, stepped s [e] s' /\ at_ (sp_path s) c e /\ is_value e.
Proof.
  unfold sp_raw. intros F E. steps E. subst s'.
  exists (mkentry 0 (sp_path s) c (PVar v)). split; [|split; [split; reflexivity|exact Logic.I]].
  split; [reflexivity|]. split; [reflexivity|]. cbn [follows en_what en_pos en_code sp_pos]. auto.
Qed.

Lemma bitmap_step p n s cs r s' : sp_bitmap fixed desc vars sub p n s = Ok (cs, r, s') -> exists e, stepped s [e] s' /\ bitmap_entry (sp_path s) e.
Proof.
  unfold sp_bitmap. intros E. steps E. apply same_ok, pair_equal_spec in E as [_ <-]. subst.
  exists (mkentry 0 (sp_path s) (c_code (v_cell v)) (PVar v)). split; [|split; [reflexivity|split; [|exact Logic.I]]]; [|cbn [en_code]; lia].
  split; [reflexivity|]. split; [reflexivity|]. cbn [follows en_what en_pos en_code sp_pos].
  split; [assumption|]. split; [right; split; [reflexivity|lia]|reflexivity].
Qed.

Lemma bitmap_factor_step i s n s' : sp_bitmap_factor fixed desc o vars sub i s = Ok (n, s') ->
  exists f, stepped s [f] s' /\ at_ (sp_path s) (vi_code i) f.
Proof.
  unfold sp_bitmap_factor, get_var. intros E. destruct (nth_error vars (sp_pos s)) as [v|] eqn:N; cbn [bind] in E; [|discriminate]. cbv zeta in E.
  steps E. apply same_ok, pair_equal_spec in E as [_ <-]. subst.
  exists (mkentry (sp_pos s) (sp_path s) (vi_code i) (PMade a)). split; [|split; reflexivity].
  split; [reflexivity|]. split; [reflexivity|]. cbn [follows en_what en_pos en_code sp_pos]. split; [|auto].
  exists v, i. split; [assumption|]. split; [reflexivity|]. destruct (seti o (fresh i) _); cbn [of_outcome] in *; try discriminate. apply same_ok in Q. congruence.
Qed.

Ltac steps2 E :=
  repeat match type of E with
  | (if ?b then _ else _) = _ => destruct b eqn:?
  | bind ?m _ = Ok _ => let Q := fresh "Q" in destruct m as [?|?|] eqn:Q; cbn [bind] in E; [|discriminate E|discriminate E]
  | (let (_, _) := ?p in _) = _ => destruct p
  | Err _ = Ok _ => discriminate E
  end.

Lemma element_step c st s st' s' : var_f c = 0 -> b_variable V T c (st, s) = Ok (st', s') ->
  is_pending st' = is_pending st /\ exists es, stepped s es s' /\ element_entries (sp_path s) c es.
Proof.
  intros F E. unfold b_variable in E. steps2 E; try (unfold V, sp_visitor, unimplemented in Q; cbn [on_refval] in Q; discriminate Q);
    match goal with Q : get_varinfo _ _ _ = Ok _ |- _ => apply get_varinfo_code in Q as Ci end;
    apply same_ok, pair_equal_spec in E as [<- <-].
  - split.
    { match goal with Q : bitmaps_next _ = Ok _ |- _ => unfold bitmaps_next in Q;
        repeat match type of Q with match ?x with _ => _ end = _ => destruct x; try discriminate Q end;
        apply same_ok, pair_equal_spec in Q as [_ <-] end. destruct l; reflexivity. }
    match goal with Q : on_attr _ _ _ _ = Ok _ |- _ => apply attr_step in Q as (e & S1 & A & B) end.
    exists [e]. split; [assumption|]. exists e. rewrite Ci in A. auto.
  - split; [reflexivity|].
    match goal with Q : on_var_af _ _ _ _ _ = Ok _ |- _ => apply (var_af_step (is_afbits st)) in Q as (f & e & S1 & A & B & C & D) end.
    exists [f; e]. split; [assumption|]. exists e. rewrite Ci in A. split; [auto|]. split; [auto|]. right. exists f. auto.
  - split; [reflexivity|].
    match goal with Q : on_var _ _ _ = Ok _ |- _ => apply var_step in Q as (e & S1 & A & B) end.
    exists [e]. split; [assumption|]. exists e. rewrite Ci in A. auto.
Qed.

Lemma operator_step c next st s next' st' s' : var_f c = 2 -> takes_arg c = false ->
  c_modifier V T c next (st, s) = Ok (next', st', s') -> exists es, stepped s es s' /\ operator_entries (sp_path s) c es.
Proof.
  intros F A E. unfold takes_arg in A. unfold operator_entries. unfold c_modifier in E. cbv zeta in E.
  steps2 E; try lia;
  (apply same_ok in E; apply pair_equal_spec in E as [E <-]; apply pair_equal_spec in E as [<- <-]);
  repeat match goal with |- context [if ?b then _ else _] => destruct b eqn:? end; try lia;
  try (exists []; split; [apply stepped_nil; reflexivity|reflexivity]).
  - match goal with Q : on_raw _ _ _ = Ok _ |- _ => apply raw_step in Q as (e & S1 & B & C); [|exact F] end. eauto 6.
  - match goal with Q : on_subst _ _ _ = Ok _ |- _ => cbn [on_subst V sp_visitor] in Q; unfold sp_subst in Q end.
    match goal with Q : match nth_error vars ?n with _ => _ end = Ok _ |- _ => destruct (nth_error vars n); [|discriminate Q]; apply attr_step in Q as (e & S1 & [B _] & C) end.
    eauto 7.
Qed.

Lemma operand_step c a next st s next' st' s' : var_f c = 2 -> takes_arg c = true ->
  c_modifier V T c (a :: next) (st, s) = Ok (next', st', s') -> exists es, stepped s es s' /\ operand_entries (sp_path s) c a es.
Proof.
  intros F A E. unfold takes_arg in A. unfold operand_entries. unfold c_modifier in E. cbv zeta in E.
  steps2 E; try lia;
  (apply same_ok in E; apply pair_equal_spec in E as [E <-]; apply pair_equal_spec in E as [<- <-]);
  repeat match goal with Q : pop_left _ = Ok _ |- _ => apply same_ok, pair_equal_spec in Q as [<- <-] end;
  repeat match goal with |- context [if ?b then _ else _] => destruct b eqn:? end; try lia.
  - match goal with Q : query _ _ = Ok _ |- _ => apply query_code in Q as Ci end.
    match goal with Q : on_significance _ _ _ = Ok _ |- _ => apply significance_step in Q as (e & S1 & B & C) end.
    rewrite Ci in B. exists [e]. split; [assumption|]. exists e. split; [reflexivity|]. split; [exact B|]. split; [|exact C].
    match goal with Q : negb (a =? var_B31021) = false |- _ => apply negb_false_iff, Z.eqb_eq in Q; exact Q end.
  - exists []. split; [apply stepped_nil; reflexivity|reflexivity].
  - match goal with Q : on_var _ ?i ?x = Ok _ |- _ => assert (Ci : vi_code i = a /\ stepped s [] x); [|apply var_step in Q as (e & S1 & B & C)] end.
    + match goal with Q : match ?x with Some _ => _ | None => _ end = Ok _ |- _ => destruct x as [j|] end.
      * match goal with Q : Ok (j, s) = Ok _ |- _ => apply same_ok, pair_equal_spec in Q as [<- <-] end. split; [|apply stepped_nil; reflexivity].
        destruct a0; [|discriminate Q1]. inv_bind Q1. apply get_varinfo_code in Hb. revert Hk. destruct (vi_bit_len _ =? _); intros Hk; [|discriminate Hk]. apply same_ok in Hk. congruence.
      * match goal with Q : on_unknown _ _ _ _ = Ok _ |- _ => cbn [on_unknown V sp_visitor] in Q; unfold sp_unknown in Q; apply bind_ok in Q as ([i lt] & Hu & Hv) end.
        apply same_ok, pair_equal_spec in Hv as [<- <-]. apply get_unknown_code in Hu. split; [exact Hu|apply stepped_nil; reflexivity].
    + destruct Ci as [Ci S0]. rewrite Ci in B. exists [e]. pose proof (stepped_app _ _ _ _ _ S0 S1) as S2. split; [exact S2|].
      exists e. split; [reflexivity|]. split; [|exact C]. destruct S0 as (_ & P & _). rewrite P in B. exact B.
Qed.

Lemma bitmap_steps r d ops st s st' s' : r_bitmap V T r d ops (st, s) = Ok (st', s') ->
  var_x r = 1 /\ hd 0 ops = var_B31031 /\ is_pending st' = 0 /\
  exists es e, stepped s (es ++ [e]) s' /\ bitmap_entry (sp_path s) e /\ (if var_y r =? 0 then exists f, es = [f] /\ at_ (sp_path s) d f else es = []).
Proof.
  unfold r_bitmap. intros E.
  destruct (Z.eqb_spec (var_x r) 1) as [X|]; cbn [negb] in E; [|discriminate].
  destruct (Z.eqb_spec (hd 0 ops) var_B31031) as [H|]; cbn [negb] in E; [|discriminate].
  split; [exact X|]. split; [exact H|]. inv_bind E. destruct a as [count s1]. inv_bind Hk. destruct a as [[codes bits] s2]. inv_bind Hk0.
  apply same_ok, pair_equal_spec in Hk as [<- <-]. split; [reflexivity|].
  apply (bitmap_step (is_pending st) count) in Hb0 as (e & S2 & B). destruct (Z.eqb_spec (var_y r) 0) as [Y|Y].
  - inv_bind Hb. apply query_code in Hb0 as Ci. apply bitmap_factor_step in Hk as (f & S1 & A). rewrite Ci in A.
    exists [f], e. split; [eapply stepped_app; eauto|]. destruct S1 as (_ & P & _). rewrite P in B. eauto.
  - apply same_ok, pair_equal_spec in Hb as [_ <-]. exists [], e. auto.
Qed.


Lemma repeat_times body f p : (forall st s st' s', sp_path s = p -> f (st, s) = Ok (st', s') ->
    exists es, stepped s es s' /\ outline T (waits st) p body es (waits st')) ->
  forall n st s st' s', sp_path s = p -> repeat_m n f (st, s) = Ok (st', s') ->
    exists es, stepped s es s' /\ times T n (waits st) p body es (waits st').
Proof.
  intros H. induction n as [|n IH]; intros st s st' s' P E; cbn [repeat_m] in E.
  - apply same_ok, pair_equal_spec in E as [<- <-]. exists []. split; [apply stepped_nil; reflexivity|constructor].
  - inv_bind E. destruct a as [st1 s1]. destruct (H _ _ _ _ P Hb) as (es1 & S1 & O1). assert (P1 : sp_path s1 = p) by (destruct S1 as (_ & P1 & _); congruence).
    destruct (IH _ _ _ _ P1 Hk) as (es2 & S2 & O2). exists (es1 ++ es2). split; [eapply stepped_app; eauto|]. econstructor; eauto.
Qed.

Lemma stepped_within c s s1 es s2 s' : stepped s1 es s2 -> s1 = into c s -> s' = out_of s2 -> stepped s es s'.
Proof.
  intros (A & B & C) -> ->. cbn [into sp_out sp_path sp_pos] in *. split; [exact A|]. split; [|exact C].
  cbn [out_of sp_path]. rewrite B. apply removelast_last.
Qed.

(** What a printing shows, descriptor by descriptor. *)
Lemma walk_outline : forall fuel ops st s st' s', walk W T fuel ops (st, s) = Ok (st', s') ->
  exists es, stepped s es s' /\ outline T (waits st) (sp_path s) ops es (waits st').
Proof.
  induction fuel as [|k IH]; intros ops st s st' s' E; cbn [walk] in E; [discriminate|].
  destruct ops as [|cur rest].
  { apply same_ok, pair_equal_spec in E as [<- <-]. exists []. split; [apply stepped_nil; reflexivity|constructor]. }
  cbv zeta in E. cbn [fst snd] in *.
  assert (Join : forall es1 s1 st1 rest', stepped s es1 s1 -> walk W T k rest' (st1, s1) = Ok (st', s') ->
     exists es2, stepped s (es1 ++ es2) s' /\ outline T (waits st1) (sp_path s) rest' es2 (waits st')).
  { intros es1 s1 st1 rest' S1 E1. destruct (IH _ _ _ _ _ E1) as (es2 & S2 & O2). exists es2. split; [eapply stepped_app; eauto|].
    destruct S1 as (_ & P & _). rewrite P in O2. exact O2. }
  destruct (Z.eqb_spec (var_f cur) 0) as [F0|F0].
  { inv_bind E. destruct a as [st1 s1]. cbn [w_element W structured_walker] in Hb. destruct (element_step _ _ _ _ _ F0 Hb) as (P1 & es1 & S1 & A1).
    destruct (Join _ _ _ _ S1 Hk) as (es2 & S2 & O2). exists (es1 ++ es2). split; [exact S2|].
    constructor; auto. unfold waits in O2 at 1. rewrite P1 in O2. exact O2. }
  destruct (Z.eqb_spec (var_f cur) 1) as [F1|F1].
  { destruct (delayed_code cur rest) as [delayed rest1] eqn:Ed.
    destruct (Nat.ltb_spec (length rest1) (Z.to_nat (var_x cur))) as [|Ln]; [discriminate|].
    inv_bind E. destruct a as [st1 s1].
    assert (Xr : 0 <= var_x cur) by (unfold var_x; apply Z.land_nonneg; lia).
    assert (Lb : Z.of_nat (length (firstn (Z.to_nat (var_x cur)) rest1)) = var_x cur) by (rewrite firstn_length; lia).
    rewrite <- (firstn_skipn (Z.to_nat (var_x cur)) rest1) in Ed.
    set (body := firstn (Z.to_nat (var_x cur)) rest1) in *. set (tail := skipn (Z.to_nat (var_x cur)) rest1) in *.
    destruct (Z.eqb_spec (is_pending st) 0) as [P0|P0].
    - cbn [w_repeat W structured_walker] in Hb. unfold sp_repeat in Hb. inv_bind Hb. apply same_ok in Hk0. destruct a as [st2 s2].
      unfold on_snd in Hk0, Hb0. cbn [fst snd] in Hk0, Hb0. apply pair_equal_spec in Hk0 as [<- Q1]. unfold r_replication in Hb0. inv_bind Hb0. destruct a as [count s3].
      assert (Wf : waits st = false) by (unfold waits; rewrite P0; reflexivity).
      assert (Body : forall esf, stepped (into cur s) esf s3 -> exists es1 es2, stepped s ((esf ++ es1) ++ es2) s' /\
                times T (Z.to_nat count) false (sp_path s ++ [cur]) body es1 (waits st2) /\ outline T (waits st2) (sp_path s) tail es2 (waits st')).
      { intros esf Sf. assert (P3 : sp_path s3 = sp_path s ++ [cur]) by (destruct Sf as (_ & P3 & _); exact P3).
        destruct (repeat_times body (walk W T k body) (sp_path s ++ [cur])) with (n := Z.to_nat count) (st := st) (s := s3) (st' := st2) (s' := s2) as (es1 & S1 & O1); auto.
        { intros sa xa sb xb Pa Ea. destruct (IH _ _ _ _ _ Ea) as (es & A & B). rewrite Pa in B. eauto. }
        pose proof (stepped_app _ _ _ _ _ Sf S1) as S12. pose proof (stepped_within _ _ _ _ _ _ S12 eq_refl (eq_sym Q1)) as S13.
        destruct (Join _ _ _ _ S13 Hk) as (es2 & S2 & O2). exists es1, es2. split; [exact S2|]. split; [|exact O2]. rewrite Wf in O1. exact O1. }
      rewrite Wf. unfold delayed_code in Ed. revert Hb. destruct (Z.eqb_spec (var_y cur) 0) as [Y0|Y0]; intros Hb.
      + apply bind_ok in Hb as (inf & Hq & Hf). apply query_code in Hq as Ci. apply factor_step in Hf as (e & Sf & A). rewrite Ci in A. cbn [into sp_path] in A.
        destruct (Body _ Sf) as (es1 & es2 & S2 & O1 & O2). exists ((e :: es1) ++ es2). split; [exact S2|].
        destruct rest as [|n rest'].
        * apply pair_equal_spec in Ed as [<- Et]. rewrite Et. eapply ol_implied; eauto. intros c l Q. rewrite <- Et in Q. discriminate Q.
        * destruct ((var_f n =? 0) && (var_x n =? 31)) eqn:C31; apply pair_equal_spec in Ed as [<- Et]; rewrite Et.
          -- eapply ol_delayed; eauto. unfold class31. lia.
          -- eapply ol_implied; eauto. intros c l Q [Q2 Q3]. rewrite <- Et in Q. injection Q as -> ->. lia.
      + apply same_ok, pair_equal_spec in Hb as [<- <-]. destruct (Body []) as (es1 & es2 & S2 & O1 & O2); [apply stepped_nil; reflexivity|].
        apply pair_equal_spec in Ed as [<- Et]. rewrite Et. exists (es1 ++ es2). split; [exact S2|]. eapply ol_repeat; eauto.
    - cbn [w_bitmap W structured_walker] in Hb. destruct (bitmap_steps _ _ _ _ _ _ _ Hb) as (X1 & H1 & P1 & es1 & e & S1 & B1 & D1).
      destruct (Join _ _ _ _ S1 Hk) as (es2 & S2 & O2).
      rewrite X1 in Lb. destruct body as [|o1 [|? ?]]; [cbn in Lb; lia| |cbn [length] in Lb; lia]. cbn [hd] in H1. subst o1.
      unfold waits in O2 at 1. rewrite P1 in O2. cbn [negb Z.eqb] in O2.
      unfold waits at 1. replace (is_pending st =? 0) with false by lia. cbn [negb].
      unfold delayed_code in Ed. destruct (Z.eqb_spec (var_y cur) 0) as [Y0|Y0].
      + destruct D1 as (f & -> & Af). destruct rest as [|n rest']; [discriminate (f_equal snd Ed)|].
        destruct ((var_f n =? 0) && (var_x n =? 31)) eqn:C31; apply pair_equal_spec in Ed as [<- Et].
        * exists ([f; e] ++ es2). split; [exact S2|]. rewrite Et. apply ol_bitmap_delayed; auto. unfold class31. lia.
        * injection Et as -> ->. discriminate C31.
      + subst es1. apply pair_equal_spec in Ed as [<- Et]. exists ([e] ++ es2). split; [exact S2|]. rewrite Et. apply ol_bitmap; auto. }
  destruct (Z.eqb_spec (var_f cur) 2) as [F2|F2].
  { inv_bind E. destruct a as [[rest' st1] s1]. unfold on_snd in Hb. cbn [fst snd] in Hb. cbn [w_operator W structured_walker] in Hb.
    destruct (takes_arg cur) eqn:A.
    - destruct (c_modifier_arg W T _ _ _ _ _ _ _ F2 A Hb) as [a [-> P1]]. cbn [w_visitor W structured_walker] in Hb.
      destruct (operand_step _ _ _ _ _ _ _ _ F2 A Hb) as (es1 & S1 & A1). destruct (Join _ _ _ _ S1 Hk) as (es2 & S2 & O2).
      exists (es1 ++ es2). split; [exact S2|]. apply ol_operand; auto. rewrite <- P1. exact O2.
    - destruct (c_modifier_plain W T _ _ _ _ _ _ _ F2 A Hb) as [-> P1]. cbn [w_visitor W structured_walker] in Hb.
      destruct (operator_step _ _ _ _ _ _ _ F2 A Hb) as (es1 & S1 & A1). destruct (Join _ _ _ _ S1 Hk) as (es2 & S2 & O2).
      exists (es1 ++ es2). split; [exact S2|]. apply ol_operator; auto. rewrite <- P1. exact O2. }
  inv_bind E. inv_bind Hk. destruct a0 as [st1 s1]. unfold on_snd in *. cbn [fst snd w_enter w_leave W structured_walker] in *.
  destruct (IH _ _ _ _ _ Hb0) as (es1 & S1 & O1). cbn [into sp_path] in O1.
  pose proof (stepped_within _ _ _ _ _ _ S1 eq_refl eq_refl) as S3.
  destruct (Join _ _ _ _ S3 Hk0) as (es2 & S2 & O2). exists (es1 ++ es2). split; [exact S2|].
  eapply ol_sequence; eauto. pose proof (var_f_range cur). lia.
Qed.

(** The variables that were printed. *)
Lemma follows_printed es : forall n m, follows o vars n es m -> (n <= m)%nat /\ printed es = firstn (m - n) (skipn n vars).
Proof.
  induction es as [|e es IH]; intros n m; cbn [follows printed flat_map].
  - intros <-. rewrite Nat.sub_diag. auto.
  - intros H. assert (G : forall k, follows o vars k es m -> (k <= m)%nat /\ printed es = firstn (m - k) (skipn k vars)) by (intros k; apply IH). clear IH.
    unfold printed in G |- *. destruct (en_what e).
    + destruct H as (N & _ & H). apply G in H as [L ->]. split; [lia|]. replace (m - n)%nat with (S (m - S n)) by lia.
      assert (K : skipn n vars = v :: skipn (S n) vars).
      { clear - N. revert n N. induction vars as [|x l IH]; intros n N; [destruct n; discriminate|]. destruct n; cbn in *; [congruence|]. apply IH, N. }
      rewrite K. reflexivity.
    + destruct H as (_ & _ & H). apply G in H. exact H.
    + destruct H as (_ & H). apply G in H. exact H.
    + destruct H as (_ & _ & H). apply G in H. exact H.
    + destruct H as (_ & _ & H). apply G in H. exact H.
Qed.
End Shows.

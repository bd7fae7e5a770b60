(** The three decoders give sound variables. *)
From Coq Require Import ZArith Lia ZifyBool ZifyNat String.
From Verif Require Import Base Bits.Model Num.Float Varcode.Model Varinfo.Model Varinfo.RangeProofs Tables.Model Tables.Spec Tables.AlterProofs Tables.LoadProofs Codec.CheckedSafe Codec.AgainProofs
  Var.Model Var.Spec Var.Proofs Var.AttrProofs Interp.Model Interp.Holds Codec.Model Codec.Compressed Codec.StepProofs Codec.ColumnProofs Codec.AgainSteps Codec.Sound Codec.SoundProofs.
From Verif Require Subset.Proofs Crex.Model.
Local Open Scope Z_scope.

Section Decoders.
Context (o : options) (HO : hook_ok o) (T : tables) (HT : table_ok (tb_b T)) (HD : defs_ok (tb_b T)) (skip : bool).

Lemma one_var c : sound o c -> sound_var o (mkvar c []).
Proof. intros H. split; [exact H|]. cbn [v_attrs]. split; constructor. Qed.
Lemma add_attr c v : sound o c -> sound_var o v -> sound_var o (mkvar (v_cell v) (seta c (v_attrs v))).
Proof. intros H (A & B & C). split; [exact A|]. cbn [v_attrs]. apply seta_sound; assumption. Qed.
Lemma snoc_all {A} (P : A -> Prop) l x : Forall P l -> P x -> Forall P (l ++ [x]).
Proof. intros H Hx. apply Forall_app. split; [exact H|constructor; [exact Hx|constructor]]. Qed.
Lemma update_all {A} (P : A -> Prop) (l : list A) n x : Forall P l -> P x -> Forall P (update l n x).
Proof. intros H Hx. revert n. induction H as [|y l Hy Hl IH]; intros [|n]; cbn; auto; constructor; auto. Qed.
Lemma nth_all {A} (P : A -> Prop) (l : list A) n x : Forall P l -> nth_error l n = Some x -> P x.
Proof. rewrite Forall_forall. intros H E. apply nth_error_In in E. auto. Qed.

Lemma unknown_step lt code bits i lt' : 0 <= bits < 256 -> locals_ok lt -> get_unknown lt code bits = Ok (i, lt') -> info_ok i /\ locals_ok lt'.
Proof.
  intros B (L1 & L2 & L3) E. unfold get_unknown in E. destruct (assoc Z.eqb bits (lt_unknown lt)) as [j|] eqn:Ea.
  - destruct (negb _); [discriminate|]. injection E as <- <-. apply assoc_in in Ea. pose proof L3 as L4. rewrite Forall_forall in L4.
    split; [exact (L4 _ Ea)|]. split; [exact L1|]. split; assumption.
  - inv_bind E. injection Hk as <- <-. apply set_binary_ok in Hb; [|lia]. split; [exact Hb|]. split; [exact L1|]. split; [exact L2|]. constructor; assumption.
Qed.

(** *** Subsets one by one *)
Lemma value_sound i inp c inp' : info_ok i -> decode_value o i inp = Ok (c, inp') -> sound o c.
Proof.
  intros Hi E. pose proof (fresh_ok i Hi) as Hf.
  assert (N : decode_number o i inp = Ok (c, inp') -> sound o c).
  { intros X. unfold decode_number in X. inv_bind X. destruct a as [v inp1]. inv_bind Hk. destruct a; [injection Hk0 as <- _; apply fresh_sound; exact Hi|].
    inv_bind Hk0. inv_bind Hk. injection Hk0 as <- _. eapply setd_sound; eauto. }
  unfold decode_value in E. destruct (vi_type i); try (apply N; exact E); inv_bind E; destruct a as [[r|] inp1].
  - inv_bind Hk. injection Hk0 as <- _. eapply setc_sound; eauto.
  - injection Hk as <- _. apply fresh_sound. exact Hi.
  - inv_bind Hk. injection Hk0 as <- _. eapply setc_sound; eauto.
  - injection Hk as <- _. apply fresh_sound. exact Hi.
Qed.

Definition kept (s : dec) : Prop := Forall (sound_var o) (d_vars s) /\ locals_ok (d_lt s).

Lemma attr_kept i pos s s' : info_ok i -> kept s -> d_attr o i pos s = Ok s' -> kept s'.
Proof.
  intros Hi [H L] E. unfold d_attr in E. inv_bind E. destruct a as [c inp]. apply value_sound in Hb; [|exact Hi].
  destruct (negb (isset c)); [apply ok_inj in Hk; subst s'; split; assumption|].
  destruct (nth_error (d_vars s) pos) as [v|] eqn:N; [|discriminate]. apply ok_inj in Hk. subst s'. split; [|exact L]. apply update_all; [exact H|]. apply add_attr; [exact Hb|].
  exact (nth_all _ _ _ _ H N).
Qed.

Lemma decoder_keeps fuel ops st s st' s' : kept s -> calm st -> run (decoder o T skip) T fuel ops (st, s) = Ok (st', s') -> kept s' /\ calm st'.
Proof.
  intros K C E. refine (run_keeps (decoder o T skip) T HT HD kept _ _ _ _ _ _ _ _ _ _ _ fuel ops (st, s) (st', s') K C E); clear K C E st s st' s';
    cbn [decoder on_var on_var_af on_factor on_bitmap_factor on_significance on_subst on_attr on_raw on_refval on_bitmap on_unknown].
  - intros i s s' Hi [H L] E. unfold d_var in E. inv_bind E. destruct a as [c inp]. apply ok_inj in Hk. subst s'. split; [|exact L]. apply snoc_all; [exact H|]. apply one_var. eapply value_sound; eauto.
  - intros bits sig i s s' Hi [H L] E. unfold d_var_af in E. inv_bind E. destruct a as [v inp1]. inv_bind Hk. inv_bind Hk0. destruct a0 as [c inp2]. apply ok_inj in Hk. subst s'.
    split; [|exact L]. apply snoc_all; [exact H|]. apply value_sound in Hb1; [|exact Hi]. destruct a as [x|]; [|apply one_var; exact Hb1].
    apply (add_attr x (mkvar c [])); [|apply one_var; exact Hb1]. eapply make_attribute_sound; eauto.
  - intros i s n s' Hi [H L] E. unfold d_factor in E. inv_bind E. destruct a as [c inp]. inv_bind Hk. apply ok_inj in Hk0. injection Hk0 as _ <-. split; [|exact L]. apply snoc_all; [exact H|]. apply one_var. eapply value_sound; eauto.
  - intros i s n s' Hi [H L] E. unfold d_bitmap_factor in E. inv_bind E. destruct a as [c inp]. inv_bind Hk. apply ok_inj in Hk0. apply pair_equal_spec in Hk0 as [<- <-]. split; [split; assumption|apply u32_range].
  - intros i s n s' Hi [H L] E. unfold d_significance in E. inv_bind E. destruct a as [c inp]. inv_bind Hk. apply ok_inj in Hk0. injection Hk0 as _ <-. split; [|exact L]. apply snoc_all; [exact H|]. apply one_var. eapply value_sound; eauto.
  - intros pos s s' K E. unfold d_subst in E. destruct (nth_error (d_vars s) pos) as [v|] eqn:N; [|discriminate]. eapply attr_kept; eauto.
    destruct K as [H _]. destruct (nth_all _ _ _ _ H N) as [Q _]. eapply sound_info; eauto.
  - intros i pos s s' Hi K E. eapply attr_kept; eauto.
  - intros code s s' [H L] E. unfold d_raw in E. inv_bind E. destruct a as [i lt]. inv_bind Hk. destruct a as [buf inp]. inv_bind Hk0. apply ok_inj in Hk. subst s'.
    apply chardata_step in Hb as (_ & _ & Hi & L'); [|exact L]. split; [|exact L']. apply snoc_all; [exact H|]. apply one_var. eapply sets_sound; eauto. apply fresh_ok. exact Hi.
  - intros bits code s r s' [H L] E. unfold d_refval in E. inv_bind E. destruct a as [v inp]. inv_bind Hk. apply ok_inj in Hk0. apply pair_equal_spec in Hk0 as [<- <-]. split; [split; assumption|].
    apply wrap_int_range.
  - intros pending n s codes bits s' Hn [H L] E. unfold d_bitmap in E. inv_bind E. destruct a as [chars inp]. inv_bind Hk. destruct a as [i lt]. inv_bind Hk0. cbv zeta in Hk. inv_bind Hk.
    apply ok_inj in Hk0. injection Hk0 as _ _ <-. apply read_bitmap_range in Hb as [Q _].
    apply bitmap_info in Hb0 as (_ & _ & _ & Hi & L'); [|exact L|lia]. split; [|exact L']. apply snoc_all; [exact H|]. apply one_var. eapply sets_sound; eauto. apply fresh_ok. exact Hi.
  - intros code bits s i s' B [H L] E. unfold d_unknown in E. inv_bind E. destruct a as [j lt]. apply ok_inj in Hk. injection Hk as <- <-. apply unknown_step in Hb as [Q1 Q2]; [|exact B|exact L].
    split; [split; assumption|exact Q1].
Qed.

(** *** Compressed messages *)
Lemma raw_sound i raw c : info_ok i -> raw_number o i raw = Ok c -> sound o c.
Proof. intros Hi E. unfold raw_number in E. inv_bind E. eapply setd_sound; eauto. apply fresh_ok. exact Hi. Qed.
Lemma diffs_sound i base width : info_ok i -> forall n inp cs inp', comp_diffs o i base width n inp = Ok (cs, inp') -> Forall (sound o) cs.
Proof.
  intros Hi. induction n as [|n IH]; intros inp cs inp' E; cbn [comp_diffs] in E; [injection E as <- _; constructor|].
  inv_bind E. destruct a as [c inp1]. inv_bind Hk. destruct a as [cs1 inp2]. injection Hk0 as <- _. constructor; [|eapply IH; eauto].
  unfold comp_diff in Hb. inv_bind Hb. destruct a as [diff inp3]. inv_bind Hk. inv_bind Hk0. destruct ((base =? a) || (diff =? a0)); [injection Hk as <- _; apply fresh_sound; exact Hi|]. cbv zeta in Hk.
  destruct (u32 (base + diff) =? a); [injection Hk as <- _; apply fresh_sound; exact Hi|]. inv_bind Hk. injection Hk0 as <- _. eapply raw_sound; eauto.
Qed.
Lemma repeat_all {A} (P : A -> Prop) x n : P x -> Forall P (repeat x n).
Proof. intros H. induction n; cbn; constructor; assumption. Qed.
Lemma numbers_sound i n inp cs k inp' : info_ok i -> comp_numbers o i n inp = Ok (cs, k, inp') -> Forall (sound o) cs.
Proof.
  intros Hi E. unfold comp_numbers in E. inv_bind E. destruct a as [[[missing base] width] inp1]. destruct missing; [injection Hk as <- _ _; apply repeat_all, fresh_sound, Hi|].
  destruct (width =? 0).
  - inv_bind Hk. injection Hk0 as <- _ _. apply repeat_all. eapply raw_sound; eauto.
  - inv_bind Hk. destruct a as [cs1 inp2]. injection Hk0 as <- _ _. eapply diffs_sound; eauto.
Qed.
Lemma text_sound i bits inp c inp' : info_ok i -> comp_text o i bits inp = Ok (c, inp') -> sound o c.
Proof.
  intros Hi E. unfold comp_text in E. inv_bind E. destruct a as [[r|] inp1]; [|injection Hk as <- _; apply fresh_sound, Hi]. inv_bind Hk. injection Hk0 as <- _. eapply setc_sound; eauto. apply fresh_ok, Hi.
Qed.
Lemma texts_sound i bits : info_ok i -> forall n inp cs inp', comp_texts o i bits n inp = Ok (cs, inp') -> Forall (sound o) cs.
Proof.
  intros Hi. induction n as [|n IH]; intros inp cs inp' E; cbn [comp_texts] in E; [injection E as <- _; constructor|].
  inv_bind E. destruct a as [c inp1]. inv_bind Hk. destruct a as [cs1 inp2]. injection Hk0 as <- _. constructor; [|eapply IH; eauto]. eapply text_sound; eauto.
Qed.
Lemma values_sound i n inp cs inp' : info_ok i -> comp_values o i n inp = Ok (cs, inp') -> Forall (sound o) cs.
Proof.
  intros Hi E. unfold comp_values in E.
  assert (N : (' (cs, _, inp1) <- comp_numbers o i n inp ;; Ok (cs, inp1)) = Ok (cs, inp') -> Forall (sound o) cs).
  { intros X. inv_bind X. destruct a as [[cs1 k] inp1]. injection Hk as <- _. eapply numbers_sound; eauto. }
  destruct (vi_type i); try (apply N; exact E); [|discriminate]. unfold comp_strings in E. inv_bind E. destruct a as [r inp1]. inv_bind Hk. destruct a as [width inp2]. destruct (width =? 0).
  - destruct r as [s|]; [|injection Hk0 as <- _; apply repeat_all, fresh_sound, Hi]. inv_bind Hk0. injection Hk as <- _. apply repeat_all. eapply setc_sound; eauto. apply fresh_ok, Hi.
  - destruct (vi_bit_len i <? width * 8); [discriminate|]. eapply texts_sound; eauto.
Qed.
Lemma uniform_sound i n inp c inp' : info_ok i -> comp_uniform o i n inp = Ok (c, inp') -> sound o c.
Proof.
  intros Hi E. unfold comp_uniform in E.
  assert (N : comp_semantic o i inp = Ok (c, inp') -> sound o c).
  { intros X. unfold comp_semantic in X. inv_bind X. destruct a as [base inp1]. inv_bind Hk. inv_bind Hk0. destruct a0 as [width inp2]. destruct (negb (width =? 0)); [discriminate|].
    destruct (base =? a); [injection Hk as <- _; apply fresh_sound, Hi|]. inv_bind Hk. injection Hk0 as <- _. eapply raw_sound; eauto. }
  destruct (vi_type i); try (apply N; exact E); [|discriminate]. unfold comp_same_string in E. inv_bind E. destruct a as [r inp1]. inv_bind Hk. destruct a as [width inp2]. destruct (width =? 0).
  - destruct r as [s|]; [|injection Hk0 as <- _; apply fresh_sound, Hi]. inv_bind Hk0. injection Hk as <- _. eapply setc_sound; eauto. apply fresh_ok, Hi.
  - destruct (vi_bit_len i <? width * 8); [discriminate|]. inv_bind Hk0. destruct a as [c1 inp3]. inv_bind Hk. injection Hk0 as <- _. eapply text_sound; eauto.
Qed.

Definition all_sound (subs : list (list var)) : Prop := Forall (Forall (sound_var o)) subs.
Definition ckept (s : cdec) : Prop := all_sound (k_subs s) /\ locals_ok (k_lt s).

Lemma push_sound : forall subs vs, all_sound subs -> Forall (sound_var o) vs -> all_sound (push_all subs vs).
Proof.
  unfold push_all, all_sound. intros subs vs H. revert vs. induction H as [|x subs Hx _ IH]; intros vs V; cbn; [constructor|]. destruct V as [|v vs Hv V]; cbn; constructor; [|apply IH; exact V].
  apply snoc_all; assumption.
Qed.
Lemma cells_vars cs : Forall (sound o) cs -> Forall (sound_var o) (map (fun c => mkvar c []) cs).
Proof. induction 1; cbn; constructor; auto. apply one_var. assumption. Qed.
Lemma fields_sound bits sig base width : forall n inp afs inp', comp_fields o T skip bits sig base width n inp = Ok (afs, inp') ->
  Forall (fun a => match a with Some c => sound o c | None => True end) afs.
Proof.
  induction n as [|n IH]; intros inp afs inp' E; cbn [comp_fields] in E; [injection E as <- _; constructor|].
  inv_bind E. destruct a as [diff inp1]. inv_bind Hk. inv_bind Hk0. destruct a0 as [as_ inp2]. injection Hk as <- _. constructor; [|eapply IH; eauto].
  destruct a; [|exact I]. eapply make_attribute_sound; eauto.
Qed.
Lemma give_sound k : forall afs attrs, Forall (fun a => match a with Some c => sound o c | None => True end) afs -> Forall (sound o) attrs -> sorted attrs ->
  Forall (fun l => Forall (sound o) l /\ sorted l) (give_fields k attrs afs).
Proof.
  induction afs as [|a afs IH]; intros attrs H A S; cbn [give_fields]; [constructor|]. inversion H as [|? ? Ha Hr]; subst.
  assert (Q : Forall (sound o) (match a with Some c => seta c attrs | None => attrs end) /\ sorted (match a with Some c => seta c attrs | None => attrs end)).
  { destruct a; [apply seta_sound; assumption|split; assumption]. }
  constructor; [exact Q|]. destruct Q. apply IH; [exact Hr| |]; destruct k; auto; constructor.
Qed.
Lemma pair_sound : forall cs ls, Forall (sound o) cs -> Forall (fun l => Forall (sound o) l /\ sorted l) ls -> Forall (sound_var o) (map (fun p => mkvar (fst p) (snd p)) (combine cs ls)).
Proof.
  intros cs ls H. revert ls. induction H as [|c cs Hc _ IH]; intros ls L; cbn; [constructor|]. destruct L as [|l ls Hl L]; cbn; constructor; [|apply IH; exact L]. split; [exact Hc|exact Hl].
Qed.
Lemma numbers_af_sound bits sig i n inp vs inp' : info_ok i -> comp_numbers_af o T skip bits sig i n inp = Ok (vs, inp') -> Forall (sound_var o) vs.
Proof.
  intros Hi E. unfold comp_numbers_af in E. inv_bind E. destruct a as [af inp1]. inv_bind Hk. destruct a as [aw inp2]. inv_bind Hk0. destruct (af =? a).
  - inv_bind Hk. destruct a0 as [[cs k] inp3]. injection Hk0 as <- _. apply cells_vars. eapply numbers_sound; eauto.
  - inv_bind Hk. destruct a0 as [afs inp3]. inv_bind Hk0. destruct a0 as [[cs k] inp4]. injection Hk as <- _. apply pair_sound; [eapply numbers_sound; eauto|].
    apply give_sound; [eapply fields_sound; eauto|constructor|constructor].
Qed.
Lemma attach_sound pos : forall subs cs subs', all_sound subs -> Forall (sound o) cs -> attach_all pos subs cs = Ok subs' -> all_sound subs'.
Proof.
  unfold all_sound. induction subs as [|vars subs IH]; intros cs subs' H C E; cbn [attach_all] in E; [injection E as <-; constructor|].
  destruct cs as [|c cs]; [injection E as <-; constructor|]. inversion H as [|? ? H1 H2]; subst. inversion C as [|? ? C1 C2]; subst. inv_bind E. inv_bind Hk. injection Hk0 as <-. constructor; [|eapply IH; eauto].
  unfold attach in Hb. destruct (negb (isset c)); [injection Hb as <-; exact H1|]. destruct (nth_error vars pos) as [v|] eqn:N; [|discriminate]. injection Hb as <-.
  apply update_all; [exact H1|]. apply add_attr; [exact C1|]. exact (nth_all _ _ _ _ H1 N).
Qed.
Lemma cattr_kept i pos s s' : info_ok i -> ckept s -> k_attr o i pos s = Ok s' -> ckept s'.
Proof.
  intros Hi [H L] E. unfold k_attr in E. inv_bind E. destruct a as [cs inp]. inv_bind Hk. apply ok_inj in Hk0. subst s'. split; [|exact L]. apply (attach_sound _ _ _ _ H (values_sound _ _ _ _ _ Hi Hb) Hb0).
Qed.
Lemma cvar_kept i s s' : info_ok i -> ckept s -> k_var o i s = Ok s' -> ckept s'.
Proof.
  intros Hi [H L] E. unfold k_var in E. inv_bind E. destruct a as [cs inp]. apply ok_inj in Hk. subst s'. split; [|exact L]. apply push_sound; [exact H|]. apply cells_vars. eapply values_sound; eauto.
Qed.
Lemma ckept_same c inp s : sound o c -> ckept s -> ckept (k_push (repeat c (ksize s)) inp s).
Proof. intros Hc [H L]. split; [|exact L]. apply push_sound; [exact H|]. apply cells_vars, repeat_all, Hc. Qed.

Lemma cdecoder_keeps fuel ops st s st' s' : ckept s -> calm st -> run (cdecoder o T skip) T fuel ops (st, s) = Ok (st', s') -> ckept s' /\ calm st'.
Proof.
  intros K C E. refine (run_keeps (cdecoder o T skip) T HT HD ckept _ _ _ _ _ _ _ _ _ _ _ fuel ops (st, s) (st', s') K C E); clear K C E st s st' s';
    cbn [cdecoder on_var on_var_af on_factor on_bitmap_factor on_significance on_subst on_attr on_raw on_refval on_bitmap on_unknown].
  - intros i s s' Hi K E. eapply cvar_kept; eauto.
  - intros bits sig i s s' Hi K E. unfold k_var_af in E.
    assert (N : (' (vs, inp) <- comp_numbers_af o T skip bits sig i (ksize s) (k_in s) ;; Ok (mkcdec inp (push_all (k_subs s) vs) (k_lt s))) = Ok s' -> ckept s').
    { intros X. inv_bind X. destruct a as [vs inp]. apply ok_inj in Hk. subst s'. destruct K as [H L]. split; [|exact L]. apply push_sound; [exact H|]. eapply numbers_af_sound; eauto. }
    destruct (vi_type i); try (apply N; exact E); [|discriminate]. eapply cvar_kept; eauto.
  - intros i s n s' Hi K E. unfold k_factor in E. inv_bind E. destruct a as [c inp]. inv_bind Hk. apply ok_inj in Hk0. injection Hk0 as _ <-. apply ckept_same; [|exact K]. eapply uniform_sound; eauto.
  - intros i s n s' Hi [H L] E. unfold k_bitmap_factor in E. inv_bind E. destruct a as [c inp]. inv_bind Hk. apply ok_inj in Hk0. apply pair_equal_spec in Hk0 as [<- <-]. split; [split; assumption|apply u32_range].
  - intros i s n s' Hi K E. unfold k_significance in E. inv_bind E. destruct a as [c inp]. inv_bind Hk. apply ok_inj in Hk0. injection Hk0 as _ <-. apply ckept_same; [|exact K]. eapply uniform_sound; eauto.
  - intros pos s s' K E. unfold k_subst in E. destruct (k_subs s) as [|vars subs] eqn:Es; [discriminate|]. destruct (nth_error vars pos) as [v|] eqn:N; [|discriminate]. eapply cattr_kept; eauto.
    destruct K as [H _]. rewrite Es in H. inversion H as [|? ? H1 _]; subst. destruct (nth_all _ _ _ _ H1 N) as [Q _]. eapply sound_info; eauto.
  - intros i pos s s' Hi K E. eapply cattr_kept; eauto.
  - intros code s s' _ E. unfold k_raw in E. inv_bind E. discriminate.
  - intros bits code s r s' _ E. discriminate.
  - intros pending n s codes bits s' Hn [H L] E. unfold k_bitmap in E. inv_bind E. destruct a as [chars inp]. inv_bind Hk. destruct a as [i lt]. inv_bind Hk0. cbv zeta in Hk. inv_bind Hk.
    assert (Q : length chars = Z.to_nat n).
    { clear - Hb. revert Hb. generalize (Z.to_nat n) (k_in s). intros m. revert chars inp. induction m as [|m IH]; intros chars inp x E; cbn [comp_bitmap] in E; [injection E as <- _; reflexivity|].
      inv_bind E. destruct a as [b inp1]. inv_bind Hk. destruct a as [w inp2]. destruct (negb (w =? 0)); [discriminate|]. inv_bind Hk0. destruct a as [bs inp3]. injection Hk as <- _. cbn [length]. f_equal. eapply IH; eauto. }
    apply bitmap_info in Hb0 as (_ & _ & _ & Hi & L'); [|exact L|lia].
    match type of Hk0 with match ?x with _ => _ end = _ => assert (W : all_sound x); [|destruct x; [discriminate|]; apply ok_inj in Hk0; injection Hk0 as _ _ <-; split; [exact W|exact L']] end.
    apply push_sound; [exact H|]. apply repeat_all, one_var. eapply sets_sound; eauto. apply fresh_ok. exact Hi.
  - intros code bits s i s' B [H L] E. unfold k_unknown in E. inv_bind E. destruct a as [j lt]. apply ok_inj in Hk. injection Hk as <- <-. apply unknown_step in Hb as [Q1 Q2]; [|exact B|exact L].
    split; [split; assumption|exact Q1].
Qed.

Lemma calm_init : calm ist_init.
Proof. split; [constructor|]. cbn. lia. Qed.

Lemma subsets_sound fuel ops : forall n lt inp subs lt' inp', locals_ok lt -> decode_subsets o T skip fuel ops n lt inp = Ok (subs, lt', inp') -> all_sound subs /\ locals_ok lt'.
Proof.
  induction n as [|n IH]; intros lt inp subs lt' inp' L E; cbn [decode_subsets] in E; [apply ok_inj in E; injection E as <- <- _; split; [constructor|exact L]|].
  inv_bind E. destruct a as [st s]. inv_bind Hk. destruct a as [[rest lt1] inp1]. apply ok_inj in Hk0. injection Hk0 as <- <- _.
  apply decoder_keeps in Hb as [[H1 H2] _]; [|split; [constructor|exact L]|exact calm_init]. apply IH in Hb0 as [I1 I2]; [|exact H2]. split; [constructor; assumption|exact I2].
Qed.
Lemma compressed_sound fuel ops n lt inp subs lt' inp' : locals_ok lt -> decode_compressed o T skip fuel ops n lt inp = Ok (subs, lt', inp') -> all_sound subs /\ locals_ok lt'.
Proof.
  intros L E. unfold decode_compressed in E. inv_bind E. destruct a as [st s]. apply ok_inj in Hk. injection Hk as <- <- _.
  apply cdecoder_keeps in Hb as [[H1 H2] _]; [split; assumption|split; [|exact L]|exact calm_init]. apply repeat_all. constructor.
Qed.

(** *** CREX *)
Import Crex.Model.
Definition xkept (s : cdec) : Prop := Forall (sound_var o) (cd_vars s) /\ locals_ok (cd_lt s).
Lemma read_kept i s n s' : info_ok i -> xkept s -> cd_read o i s = Ok (n, s') -> xkept s'.
Proof.
  intros Hi [H L] E. unfold cd_read in E. inv_bind E. destruct a as [[m v] c]. apply ok_inj in Hk. injection Hk as _ <-. split; [|exact L]. apply snoc_all; [exact H|]. apply one_var.
  pose proof (fresh_ok i Hi) as Hf. unfold read_variable in Hb. inv_bind Hb. destruct a as [[here field] c1]. destruct (hd 0 here =? 47); [injection Hk as _ <- _; apply fresh_sound, Hi|].
  destruct (vi_type i); cbv zeta in Hk; inv_bind Hk; injection Hk0 as _ <- _; solve [eapply seti_sound; eauto | eapply setc_sound; eauto].
Qed.
Lemma crex_keeps fuel ops st s st' s' : xkept s -> calm st -> run (c_decoder o) T fuel ops (st, s) = Ok (st', s') -> xkept s' /\ calm st'.
Proof.
  intros K C E. refine (run_keeps (c_decoder o) T HT HD xkept _ _ _ _ _ _ _ _ _ _ _ fuel ops (st, s) (st', s') K C E); clear K C E st s st' s';
    cbn [c_decoder on_var on_var_af on_factor on_bitmap_factor on_significance on_subst on_attr on_raw on_refval on_bitmap on_unknown]; try (intros; discriminate).
  - intros i s s' Hi K E. unfold cd_var in E. inv_bind E. destruct a as [n s1]. apply ok_inj in Hk. subst s'. eapply read_kept; eauto.
  - intros i s n s' Hi K E. eapply read_kept; eauto.
  - intros code bits s i s' B [H L] E. unfold cd_unknown in E. inv_bind E. destruct a as [j lt]. apply ok_inj in Hk. injection Hk as <- <-. apply unknown_step in Hb as [Q1 Q2]; [|exact B|exact L].
    split; [split; assumption|exact Q1].
Qed.
Lemma csubsets_sound fuel ops : forall k lt c subs c', locals_ok lt -> decode_csubsets o T fuel ops k lt c = Ok (subs, c') -> all_sound subs.
Proof.
  induction k as [|k IH]; intros lt c subs c' L E; cbn [decode_csubsets] in E; [discriminate|]. inv_bind E. destruct a as [st s]. cbv zeta in Hk.
  apply crex_keeps in Hb as [[H1 H2] _]; [|split; [constructor|exact L]|exact calm_init]. inv_bind Hk. destruct (negb _); [discriminate|]. inv_bind Hk0.
  destruct (_ =? 43); [apply ok_inj in Hk; injection Hk as <- _; constructor; [exact H1|constructor]|]. inv_bind Hk. destruct a1 as [gots c3]. apply ok_inj in Hk0. injection Hk0 as <- _.
  constructor; [exact H1|]. eapply IH; eauto.
Qed.
End Decoders.

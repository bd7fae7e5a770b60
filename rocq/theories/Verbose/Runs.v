(** The two decoders, telling or not. *)
From Coq Require Import ZArith Lia ZifyBool ZifyNat String.
From Verif Require Import Base Bits.Model Num.Float Varcode.Model Varinfo.Model Varinfo.RangeProofs Tables.Model Tables.Spec Tables.Proofs Tables.LoadProofs
  Var.Model Var.Spec Var.AttrProofs Var.FormatSpec Var.Format Interp.Model Interp.Hom Interp.SureProofs Interp.ExpandProofs Interp.Holds
  Codec.Model Codec.Compressed Codec.CompressedProofs Codec.ColumnProofs Codec.StepProofs Codec.AgainSteps Codec.Sound Codec.SoundProofs Codec.SoundRuns
  Structured.DecodedProofs Message.Model Listing.Model Print.Properties Verbose.Model Verbose.Proofs.
Local Open Scope Z_scope.

Section Runs.
Context (fixed : nat -> f64 -> list Z) (full : varinfo -> list Z) (path : list Z) (o : options) (HO : hook_ok o) (T : tables)
  (HT : table_ok (tb_b T)) (HD : defs_ok (tb_b T)) (skip : bool).

Lemma sound_dashed c : sound o c -> exists t, dashed fixed c = Ok t.
Proof. apply sound_prints. Qed.
Lemma last_sound vars v : sound_var o v -> exists t, last_text fixed (vars ++ [v]) = Ok t.
Proof. intros [H _]. unfold last_text. rewrite rev_app_distr. cbn [rev app]. apply sound_dashed, H. Qed.
Lemma enqa_in code : forall l a, enqa code l = Some a -> In a l.
Proof. induction l as [|b l IH]; cbn [enqa]; [discriminate|]. intros a. destruct (_ <=? _); [|discriminate]. destruct (_ =? _); [intros [= <-]; left; reflexivity|right; auto]. Qed.
Lemma attr_sound code pos vars : Forall (sound_var o) vars -> (pos < length vars)%nat ->
  (exists v, var_at vars pos = Ok v) /\ exists t, attr_text fixed code pos vars = Ok t.
Proof.
  intros F L. unfold attr_text, var_at. destruct (nth_error vars pos) as [v|] eqn:N; [|apply nth_error_None in N; lia]. split; [eauto|]. cbn [bind].
  destruct (enqa code (v_attrs v)) as [a|] eqn:E; [|eauto]. apply sound_dashed. destruct (nth_all _ _ _ _ F N) as (_ & A & _). rewrite Forall_forall in A. apply A. eapply enqa_in; eauto.
Qed.

Definition nvars (s : dec) : nat := length (d_vars s).

Lemma update_len {A} (l : list A) n x : length (update l n x) = length l.
Proof. revert n. induction l as [|y l IH]; intros [|n]; cbn; auto. Qed.

Lemma attr_more i pos s s' : d_attr o i pos s = Ok s' -> nvars s' = nvars s.
Proof.
  intros E. unfold d_attr in E. inv_bind E. destruct a as [c inp]. destruct (negb (isset c)); [apply same_ok in Hk; subst; reflexivity|].
  destruct (nth_error (d_vars s) pos); [|discriminate]. apply same_ok in Hk. subst. unfold nvars. cbn. apply update_len.
Qed.
Lemma snoc_len {A} (l : list A) x : (length l <= length (l ++ [x]))%nat.
Proof. rewrite app_length. lia. Qed.

Theorem one_by_one_agree k ops st (w : telling dec) : calm st -> marks st (nvars (te_s w)) -> kept o (te_s w) ->
  rmap p2 (walk (narrator full path (one_by_one fixed o T skip) T) T k ops (st, w)) = run (decoder o T skip) T k ops (st, te_s w).
Proof.
  intros C M K. refine (proj1 (walk_agree full path (one_by_one fixed o T skip) T HT HD (kept o) nvars _ _ _ _ _ _ _ _ _ _ _ k ops (st, w) _)).
  12:{ split; [exact C|]. split; [exact M|exact K]. }
  all: clear C M K st w; unfold keeps; cbn [one_by_one tg_visitor tg_last tg_info tg_attr decoder on_var on_var_af on_factor on_bitmap_factor on_significance on_subst on_attr on_raw on_refval on_bitmap on_unknown].
  - intros i s s' Hi [H L] E. unfold d_var in E. inv_bind E. destruct a as [c inp]. apply same_ok in Hk. subst s'. apply value_sound in Hb; [|exact HO|exact Hi]. apply one_var in Hb.
    split; [|apply last_sound; exact Hb]. split; [split; [apply snoc_all; assumption|exact L]|apply snoc_len].
  - intros bits sig i s s' Hi [H L] E. unfold d_var_af in E. inv_bind E. destruct a as [v inp1]. inv_bind Hk. inv_bind Hk0. destruct a0 as [c inp2]. apply same_ok in Hk. subst s'.
    split; [|apply snoc_len]. split; [|exact L]. apply snoc_all; [exact H|]. apply value_sound in Hb1; [|exact HO|exact Hi]. destruct a as [x|]; [|apply one_var; exact Hb1].
    apply (add_attr o x (mkvar c [])); [|apply one_var; exact Hb1]. eapply make_attribute_sound; eauto.
  - intros i s n s' Hi [H L] E. unfold d_factor in E. inv_bind E. destruct a as [c inp]. inv_bind Hk. apply same_ok in Hk0. injection Hk0 as _ <-. split; [|apply snoc_len]. split; [|exact L].
    apply snoc_all; [exact H|]. apply one_var. eapply value_sound; eauto.
  - intros i s n s' Hi [H L] E. unfold d_bitmap_factor in E. inv_bind E. destruct a as [c inp]. inv_bind Hk. apply same_ok in Hk0. apply pair_equal_spec in Hk0 as [<- <-].
    split; [split; [split; assumption|apply Nat.le_refl]|apply u32_range].
  - intros i s n s' Hi [H L] E. unfold d_significance in E. inv_bind E. destruct a as [c inp]. inv_bind Hk. apply same_ok in Hk0. injection Hk0 as _ <-. split; [|apply snoc_len]. split; [|exact L].
    apply snoc_all; [exact H|]. apply one_var. eapply value_sound; eauto.
  - intros pos s s' K E. unfold d_subst in E. destruct (nth_error (d_vars s) pos) as [v|] eqn:N; [|discriminate]. split; [|rewrite (attr_more _ _ _ _ E); apply Nat.le_refl]. eapply attr_kept; eauto.
    destruct K as [H _]. destruct (nth_all _ _ _ _ H N) as [Q _]. eapply sound_info; eauto.
  - intros i pos s s' Hi K L E. pose proof (attr_more _ _ _ _ E) as Q. assert (K' : kept o s') by (eapply attr_kept; eauto). split; [split; [exact K'|rewrite Q; apply Nat.le_refl]|].
    destruct (attr_sound (vi_code i) pos (d_vars s') (proj1 K') ltac:(unfold nvars in *; lia)) as [(v & ->) A]. split; [cbn [bind]; eauto|exact A].
  - intros code s s' [H L] E. unfold d_raw in E. inv_bind E. destruct a as [i lt]. inv_bind Hk. destruct a as [buf inp]. inv_bind Hk0. apply same_ok in Hk. subst s'.
    apply chardata_step in Hb as (_ & _ & Hi & L'); [|exact L]. split; [|apply snoc_len]. split; [|exact L']. apply snoc_all; [exact H|]. apply one_var. eapply sets_sound; eauto. apply fresh_ok. exact Hi.
  - intros bits code s r s' [H L] E. unfold d_refval in E. inv_bind E. destruct a as [v inp]. inv_bind Hk. apply same_ok in Hk0. apply pair_equal_spec in Hk0 as [<- <-].
    split; [split; [split; assumption|apply Nat.le_refl]|]. apply wrap_int_range.
  - intros pending n s codes bits s' Hn [H L] E. unfold d_bitmap in E. inv_bind E. destruct a as [chars inp]. inv_bind Hk. destruct a as [i lt]. inv_bind Hk0. cbv zeta in Hk. inv_bind Hk.
    apply same_ok in Hk0. injection Hk0 as <- _ <-. apply read_bitmap_range in Hb as [Q _].
    apply bitmap_info in Hb0 as (_ & _ & _ & Hi & L'); [|exact L|lia]. split; [|unfold codes_of; rewrite map_length; apply Nat.le_refl]. split; [|apply snoc_len].
    split; [|exact L']. apply snoc_all; [exact H|]. apply one_var. eapply sets_sound; eauto. apply fresh_ok. exact Hi.
  - intros code bits s i s' B [H L] E. unfold d_unknown in E. inv_bind E. destruct a as [j lt]. apply same_ok in Hk. injection Hk as <- <-. apply unknown_step in Hb as [Q1 Q2]; [|exact B|exact L].
    split; [split; [split; assumption|apply Nat.le_refl]|exact Q1].
Qed.

(** *** Compressed messages *)
Definition nrow (s : cdec) : nat := length (hd [] (k_subs s)).
(** At least one subset, and as many variables in each. *)
Definition even (subs : list (list var)) : Prop := subs <> [] /\ Forall (fun l => length l = length (hd [] subs)) subs.
Definition levelled (s : cdec) : Prop := ckept o s /\ even (k_subs s).

Lemma push_even subs vs : even subs -> length vs = length subs ->
  even (push_all subs vs) /\ length (hd [] (push_all subs vs)) = Datatypes.S (length (hd [] subs)) /\
  (Forall (sound_var o) vs -> exists t, each (last_text fixed) (push_all subs vs) = Ok t).
Proof.
  intros [N F] L. assert (R : forall n ss us, Forall (fun l : list var => length l = n) ss -> length us = length ss -> Forall (fun l : list var => length l = Datatypes.S n) (push_all ss us)).
  { intros n ss us Fs. revert us. induction Fs as [|x ss Hx _ IH]; intros [|u us] Lu; cbn in *; try lia; [constructor|]. constructor; [rewrite app_length; cbn; lia|apply IH; lia]. }
  specialize (R _ _ vs F L). destruct subs as [|x subs]; [congruence|]. destruct vs as [|v vs]; [discriminate|].
  assert (H1 : length (hd [] (push_all (x :: subs) (v :: vs))) = Datatypes.S (length (hd [] (x :: subs)))) by (cbn; rewrite app_length; cbn; lia).
  split; [|split; [exact H1|]].
  - split; [discriminate|]. rewrite H1. exact R.
  - clear. generalize (x :: subs) (v :: vs). clear. intros ss us Fv. revert ss. induction Fv as [|v us Hv _ IH]; intros [|x ss]; try (cbn; eauto; fail).
    change (push_all (x :: ss) (v :: us)) with ((x ++ [v]) :: push_all ss us). cbn [each]. destruct (last_sound x v Hv) as (t & ->). destruct (IH ss) as (u & ->). cbn [bind]. eauto.
Qed.

Lemma values_even i s s' : info_ok i -> levelled s -> k_var o i s = Ok s' -> (levelled s' /\ (nrow s <= nrow s')%nat) /\ exists t, each (last_text fixed) (k_subs s') = Ok t.
Proof.
  intros Hi [K E] X. pose proof (cvar_kept o HO _ _ _ Hi K X) as K'. unfold k_var in X. inv_bind X. destruct a as [cs inp]. apply same_ok in Hk. subst s'.
  pose proof (values_sound o HO _ _ _ _ _ Hi Hb) as Sc. apply (values_keeps o HO) in Hb as [Lc _]; [|exact Hi].
  destruct (push_even (k_subs s) (map (fun c => mkvar c []) cs) E) as (P1 & P2 & P3); [rewrite map_length; exact Lc|].
  split; [|apply P3, cells_vars, Sc]. split; [split; [exact K'|exact P1]|]. unfold nrow, k_push. cbn [k_subs]. rewrite P2. lia.
Qed.
Lemma uniform_even c inp s : sound o c -> levelled s -> levelled (k_push (repeat c (ksize s)) inp s) /\ (nrow s <= nrow (k_push (repeat c (ksize s)) inp s))%nat.
Proof.
  intros Hc [K E]. destruct (push_even (k_subs s) (map (fun c => mkvar c []) (repeat c (ksize s))) E) as (P1 & P2 & _); [rewrite map_length; apply repeat_length|].
  split; [split; [apply ckept_same; assumption|exact P1]|]. unfold nrow, k_push. cbn [k_subs]. rewrite P2. lia.
Qed.
Lemma attach_even pos subs cs subs' : even subs -> length cs = length subs -> attach_all pos subs cs = Ok subs' -> even subs' /\ length (hd [] subs') = length (hd [] subs).
Proof.
  intros [N F] L E. apply attach_same in E; [|exact L].
  assert (H1 : length (hd [] subs') = length (hd [] subs)). { destruct E as [|x y ? ? Hx _]; [reflexivity|]. cbn. apply (f_equal (@length cell)) in Hx. rewrite !map_length in Hx. congruence. }
  split; [|exact H1]. split; [destruct E; [congruence|discriminate]|]. rewrite H1. clear - F E. revert F. generalize (length (hd [] subs)) as n. induction E as [|x y s t Hx _ IH]; intros n F; constructor; inversion F; subst; auto.
  apply (f_equal (@length cell)) in Hx. rewrite !map_length in Hx. congruence.
Qed.
Lemma cattr_even i pos s s' : info_ok i -> levelled s -> k_attr o i pos s = Ok s' -> levelled s' /\ nrow s' = nrow s.
Proof.
  intros Hi [K E] X. pose proof (cattr_kept o HO _ _ _ _ Hi K X) as K'. unfold k_attr in X. inv_bind X. destruct a as [cs inp]. inv_bind Hk. apply same_ok in Hk0. subst s'.
  apply (values_keeps o HO) in Hb as [Lc _]; [|exact Hi]. destruct (attach_even _ _ _ _ E Lc Hb0) as [P1 P2]. split; [split; [exact K'|exact P1]|exact P2].
Qed.
Lemma fields_length bits sig base width : forall n inp afs inp', comp_fields o T skip bits sig base width n inp = Ok (afs, inp') -> length afs = n.
Proof.
  induction n as [|n IH]; intros inp afs inp' E; cbn [comp_fields] in E; [injection E as <- _; reflexivity|]. inv_bind E. destruct a as [diff inp1]. inv_bind Hk. inv_bind Hk0. destruct a0 as [as_ inp2].
  injection Hk as <- _. cbn [length]. f_equal. eapply IH; eauto.
Qed.
Lemma give_length k : forall afs attrs, length (give_fields k attrs afs) = length afs.
Proof. induction afs as [|a afs IH]; intros attrs; cbn [give_fields length]; [reflexivity|]. f_equal. apply IH. Qed.
Lemma numbers_af_length bits sig i n inp vs inp' : info_ok i -> comp_numbers_af o T skip bits sig i n inp = Ok (vs, inp') -> length vs = n.
Proof.
  intros Hi E. unfold comp_numbers_af in E. inv_bind E. destruct a as [base inp1]. inv_bind Hk. destruct a as [width inp2]. inv_bind Hk0. destruct (base =? a).
  - inv_bind Hk. destruct a0 as [[cs k] inp3]. injection Hk0 as <- _. rewrite map_length. apply (numbers_keeps o HO) in Hb2 as [Lc _]; [exact Lc|exact Hi].
  - inv_bind Hk. destruct a0 as [afs inp3]. inv_bind Hk0. destruct a0 as [[cs k] inp4]. injection Hk as <- _. apply fields_length in Hb2. apply (numbers_keeps o HO) in Hb3 as [Lc _]; [|exact Hi].
    rewrite map_length, combine_length, give_length. lia.
Qed.

Lemma each_attr code pos n subs : all_sound o subs -> Forall (fun l => length l = n) subs -> (pos < n)%nat -> exists t, each (attr_text fixed code pos) subs = Ok t.
Proof.
  intros A F L. induction F as [|x subs Hx _ IH]; cbn [each]; [eauto|]. inversion A; subst. destruct (attr_sound code pos x) as [_ (t & ->)]; [assumption|lia|].
  destruct IH as (u & ->); [assumption|]. cbn [bind]. eauto.
Qed.

Theorem together_agree k ops st (w : telling cdec) : calm st -> marks st (nrow (te_s w)) -> levelled (te_s w) ->
  rmap p2 (walk (narrator full path (together fixed o T skip) T) T k ops (st, w)) = run (cdecoder o T skip) T k ops (st, te_s w).
Proof.
  intros C M K. refine (proj1 (walk_agree full path (together fixed o T skip) T HT HD levelled nrow _ _ _ _ _ _ _ _ _ _ _ k ops (st, w) _)).
  12:{ split; [exact C|]. split; [exact M|exact K]. }
  all: clear C M K st w; unfold keeps; cbn [together tg_visitor tg_last tg_info tg_attr cdecoder on_var on_var_af on_factor on_bitmap_factor on_significance on_subst on_attr on_raw on_refval on_bitmap on_unknown].
  - intros i s s' Hi K E. apply (values_even i); assumption.
  - intros bits sig i s s' Hi K E. unfold k_var_af in E.
    assert (N : (' (vs, inp) <- comp_numbers_af o T skip bits sig i (ksize s) (k_in s) ;; Ok (mkcdec inp (push_all (k_subs s) vs) (k_lt s))) = Ok s' -> levelled s' /\ (nrow s <= nrow s')%nat).
    { intros X. inv_bind X. destruct a as [vs inp]. apply same_ok in Hk. subst s'. destruct K as [[H L] Ev]. pose proof (numbers_af_length _ _ _ _ _ _ _ Hi Hb) as Lv.
      destruct (push_even (k_subs s) vs Ev Lv) as (P1 & P2 & _). split; [split; [split; [|exact L]|exact P1]|unfold nrow; cbn [k_subs]; lia].
      apply push_sound; [exact H|]. eapply numbers_af_sound; eauto. }
    destruct (vi_type i); try (apply N; exact E); [|discriminate]. apply (values_even i); assumption.
  - intros i s n s' Hi K E. unfold k_factor in E. inv_bind E. destruct a as [c inp]. inv_bind Hk. apply same_ok in Hk0. injection Hk0 as _ <-. apply uniform_even; [|exact K]. eapply uniform_sound; eauto.
  - intros i s n s' Hi [[H L] Ev] E. unfold k_bitmap_factor in E. inv_bind E. destruct a as [c inp]. inv_bind Hk. apply same_ok in Hk0. apply pair_equal_spec in Hk0 as [<- <-].
    split; [split; [split; [split; assumption|exact Ev]|apply Nat.le_refl]|apply u32_range].
  - intros i s n s' Hi K E. unfold k_significance in E. inv_bind E. destruct a as [c inp]. inv_bind Hk. apply same_ok in Hk0. injection Hk0 as _ <-. apply uniform_even; [|exact K]. eapply uniform_sound; eauto.
  - intros pos s s' K E. unfold k_subst in E. destruct (k_subs s) as [|vars subs] eqn:Es; [discriminate|]. destruct (nth_error vars pos) as [v|] eqn:N; [|discriminate].
    assert (Hi : info_ok (c_info (v_cell v))). { destruct K as [[H _] _]. rewrite Es in H. inversion H as [|? ? H1 _]; subst. destruct (nth_all _ _ _ _ H1 N) as [Q _]. eapply sound_info; eauto. }
    destruct (cattr_even _ _ _ _ Hi K E) as [K' ->]. split; [exact K'|apply Nat.le_refl].
  - intros i pos s s' Hi K L E. destruct (cattr_even _ _ _ _ Hi K E) as [K' Q]. rewrite Q. split; [split; [exact K'|apply Nat.le_refl]|]. destruct K' as [[H' _] [N F]]. unfold nrow in *.
    rewrite <- Q in L. split; [|apply (each_attr _ _ _ _ H' F L)]. destruct (k_subs s') as [|vars subs]; [congruence|]. cbn [hd] in L. inversion H'; subst. destruct (attr_sound 0 pos vars) as [(v & ->) _]; auto. cbn [bind]. eauto.
  - intros code s s' _ E. unfold k_raw in E. inv_bind E. discriminate.
  - intros bits code s r s' _ E. discriminate.
  - intros pending n s codes bits s' Hn [[H L] Ev] E. unfold k_bitmap in E. inv_bind E. destruct a as [chars inp]. inv_bind Hk. destruct a as [i lt]. inv_bind Hk0. cbv zeta in Hk. inv_bind Hk.
    apply comp_bitmap_length in Hb. apply bitmap_info in Hb0 as (_ & _ & _ & Hi & L'); [|exact L|lia].
    destruct (push_even (k_subs s) (repeat (mkvar a []) (ksize s)) Ev (repeat_length _ _)) as (P1 & P2 & _).
    assert (A : all_sound o (push_all (k_subs s) (repeat (mkvar a []) (ksize s)))).
    { apply push_sound; [exact H|]. apply repeat_all, one_var. eapply sets_sound; eauto. apply fresh_ok. exact Hi. }
    unfold nrow. set (subs := push_all (k_subs s) (repeat (mkvar a []) (ksize s))) in *. destruct subs as [|vars subs']; [discriminate|]. apply same_ok in Hk0. injection Hk0 as <- _ <-. cbn [k_subs].
    split; [split; [split; [split; [exact A|exact L']|exact P1]|lia]|]. unfold codes_of. rewrite map_length. apply Nat.le_refl.
  - intros code bits s i s' B [[H L] Ev] E. unfold k_unknown in E. inv_bind E. destruct a as [j lt]. apply same_ok in Hk. injection Hk as <- <-. apply unknown_step in Hb as [Q1 Q2]; [|exact B|exact L].
    split; [split; [split; [split; assumption|exact Ev]|apply Nat.le_refl]|exact Q1].
Qed.
End Runs.

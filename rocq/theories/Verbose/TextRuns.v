(** What is told of the data section. *)
From Coq Require Import ZArith Lia ZifyBool ZifyNat String.
From Verif Require Import Base Bits.Model Num.Float Varcode.Model Varinfo.Model Tables.Model Tables.Spec
  Var.Model Var.FormatSpec Var.Format Interp.Model Interp.Spec Interp.ExpandProofs Interp.Appears Interp.Holds
  Codec.Model Codec.Compressed Message.Model Listing.Model Listing.Spec Verbose.Model Verbose.Spec Verbose.TextProofs.
Local Open Scope Z_scope.

Section Runs.
Context (fixed : nat -> f64 -> list Z) (full : varinfo -> list Z) (path : list Z) (o : options) (T : tables) (skip : bool).
Context (top : list Z) (HX : forall c, appears T top c -> var_f c = 2 -> ~ In (var_x c) [3; 4; 22; 23; 37]).

Lemma top_appears : Forall (appears T top) top.
Proof. apply Forall_forall. intros c I. apply ap_here. exact I. Qed.

Lemma last_dashed l v t : last_text fixed (l ++ [v]) = Ok t -> var_shows fixed v t.
Proof. unfold last_text. rewrite rev_app_distr. cbn [rev app]. auto. Qed.

Lemma u32_range z : 0 <= u32 z.
Proof. unfold u32. pose proof (Z.mod_pos_bound z (2 ^ 32)). lia. Qed.

(** One subset. *)
Lemma tell_one_told fuel s t s' : d_vars s = [] -> tell full path (one_by_one fixed o T skip) T fuel top s = Ok (t, s') ->
  told T full (var_shows fixed) var_counts 0 top (d_vars s') t.
Proof.
  intros Z0 E. unfold tell in E. inv_bind E. destruct a as [st w]. apply same_ok, pair_equal_spec in Hk as [<- <-].
  apply (walk_told T full path (one_by_one fixed o T skip) (var_shows fixed) var_counts (fun s l => d_vars s = l)) with (top := top) (l := []) in Hb.
  - destruct Hb as (_ & _ & vs & t & D & H & O). cbn [fst snd te_indent te_out te_s app] in *. rewrite H, O. exact D.
  - intros i x x' l u H Ev Et. cbn [one_by_one tg_visitor tg_last decoder on_var] in Ev, Et. unfold d_var in Ev. inv_bind Ev. destruct a as [c inp].
    apply same_ok in Hk. subst x'. cbn [d_store d_vars] in *. rewrite H in *. exists (mkvar c []). split; [reflexivity|]. exact (last_dashed _ _ _ Et).
  - intros i x x' l n H Ev. cbn [one_by_one tg_visitor decoder on_factor] in Ev. unfold d_factor in Ev. inv_bind Ev. destruct a as [c inp]. inv_bind Hk.
    apply same_ok, pair_equal_spec in Hk0 as [<- <-]. exists (mkvar c []). cbn [d_store d_vars]. rewrite H. split; [reflexivity|]. split; [exists a; split; [exact Hb1|reflexivity]|apply u32_range].
  - intros code x x' l H Ev. cbn [one_by_one tg_visitor decoder on_raw] in Ev. unfold d_raw in Ev. inv_bind Ev. destruct a as [i lt]. inv_bind Hk. destruct a as [buf inp]. inv_bind Hk0.
    apply same_ok in Hk. subst x'. exists (mkvar a []). cbn [d_vars]. rewrite H. reflexivity.
  - intros code bits x x' i l H Ev. cbn [one_by_one tg_visitor decoder on_unknown] in Ev. unfold d_unknown in Ev. inv_bind Ev. destruct a as [j lt].
    apply same_ok, pair_equal_spec in Hk as [_ <-]. exact H.
  - exact HX.
  - exact top_appears.
  - exact quiet_init.
  - exact Z0.
Qed.

Lemma tell_subsets_told fuel : forall n lt inp subs lt' inp' t, tell_subsets fixed full path o T skip fuel top n lt inp = Ok (subs, lt', inp', t) ->
  exists texts, t = concat texts /\ Forall2 (told T full (var_shows fixed) var_counts 0 top) subs texts.
Proof.
  induction n as [|n IH]; intros lt inp subs lt' inp' t E; cbn [tell_subsets] in E.
  - apply same_ok, pair_equal_spec in E as [E <-]. injection E as <- _ _. exists []. split; [reflexivity|constructor].
  - inv_bind E. destruct a as [t1 s]. inv_bind Hk. destruct a as [[[rest lt1] inp1] u]. apply same_ok, pair_equal_spec in Hk0 as [E <-].
    apply pair_equal_spec in E as [E _]. apply pair_equal_spec in E as [<- _]. apply tell_one_told in Hb; [|reflexivity].
    destruct (IH _ _ _ _ _ _ Hb0) as (texts & -> & F). exists (t1 :: texts). split; [reflexivity|]. constructor; assumption.
Qed.

(** Columns. *)
Lemma diffs_length i base width : forall n inp cs inp', comp_diffs o i base width n inp = Ok (cs, inp') -> length cs = n.
Proof.
  induction n as [|n IH]; intros inp cs inp' E; cbn [comp_diffs] in E; [apply same_ok, pair_equal_spec in E as [<- _]; reflexivity|].
  inv_bind E. destruct a as [c inp1]. inv_bind Hk. destruct a as [cs' inp2]. apply same_ok, pair_equal_spec in Hk0 as [<- _]. cbn [length]. f_equal. eapply IH; eauto.
Qed.
Lemma texts_length i bits : forall n inp cs inp', comp_texts o i bits n inp = Ok (cs, inp') -> length cs = n.
Proof.
  induction n as [|n IH]; intros inp cs inp' E; cbn [comp_texts] in E; [apply same_ok, pair_equal_spec in E as [<- _]; reflexivity|].
  inv_bind E. destruct a as [c inp1]. inv_bind Hk. destruct a as [cs' inp2]. apply same_ok, pair_equal_spec in Hk0 as [<- _]. cbn [length]. f_equal. eapply IH; eauto.
Qed.
Lemma values_length i n inp cs inp' : comp_values o i n inp = Ok (cs, inp') -> length cs = n.
Proof.
  assert (N : (' (cs, _, inp1) <- comp_numbers o i n inp ;; Ok (cs, inp1)) = Ok (cs, inp') -> length cs = n).
  { intros E. inv_bind E. destruct a as [[cs1 b] inp1]. apply same_ok, pair_equal_spec in Hk as [<- _]. unfold comp_numbers in Hb. inv_bind Hb. destruct a as [[[missing base] width] inp2].
    destruct missing; [apply same_ok, pair_equal_spec in Hk as [Hk _]; apply pair_equal_spec in Hk as [<- _]; apply repeat_length|].
    destruct (width =? 0); inv_bind Hk; [apply same_ok, pair_equal_spec in Hk0 as [Hk0 _]; apply pair_equal_spec in Hk0 as [<- _]; apply repeat_length|].
    destruct a as [cs2 inp3]. apply same_ok, pair_equal_spec in Hk0 as [Hk0 _]; apply pair_equal_spec in Hk0 as [<- _]. exact (diffs_length _ _ _ _ _ _ _ Hb). }
  unfold comp_values. destruct (vi_type i); [exact N|exact N| |discriminate].
  clear N. intros E. unfold comp_strings in E. inv_bind E. destruct a as [r inp1]. inv_bind Hk. destruct a as [width inp2]. destruct (width =? 0).
  - destruct r as [s|]; [inv_bind Hk0; apply same_ok, pair_equal_spec in Hk as [<- _]; apply repeat_length|apply same_ok, pair_equal_spec in Hk0 as [<- _]; apply repeat_length].
  - destruct (vi_bit_len i <? width * 8); [discriminate|]. exact (texts_length _ _ _ _ _ _ Hk0).
Qed.

Lemma push_size subs vs : length vs = length subs -> length (push_all subs vs) = length subs.
Proof using. intros L. unfold push_all. rewrite map_length, combine_length, L. apply Nat.min_id. Qed.

Lemma push_shows : forall subs vs t, length vs = length subs -> each (last_text fixed) (push_all subs vs) = Ok t -> column_shows fixed vs t.
Proof.
  induction subs as [|x subs IH]; intros [|v vs] t L E; try discriminate; cbn [push_all combine map each fst snd] in E.
  - apply same_ok in E. subst t. constructor.
  - inv_bind E. inv_bind Hk. apply same_ok in Hk0. subst t. constructor; [exact (last_dashed _ _ _ Hb)|]. apply IH; [cbn in L; lia|exact Hb0].
Qed.

Lemma columns_size n cols : Forall (fun c => length c = n) cols -> length (of_columns n cols) = n.
Proof using.
  unfold of_columns. intros F. assert (H : forall subs, length subs = n -> length (fold_left push_all cols subs) = n); [|apply H, repeat_length].
  induction F as [|c cols Hc _ IH]; intros subs L; cbn [fold_left]; [exact L|]. apply IH. rewrite push_size; congruence.
Qed.

Definition stands (n : nat) (s : cdec) (cols : list (list var)) : Prop :=
  length (k_subs s) = n /\ k_subs s = of_columns n cols /\ Forall (fun c => length c = n) cols.

Lemma stands_push n s cols vs inp lt : stands n s cols -> length vs = n -> stands n (mkcdec inp (push_all (k_subs s) vs) lt) (cols ++ [vs]).
Proof.
  intros (L & E & F) Lv. split; [cbn [k_subs]; rewrite push_size; lia|]. split; [cbn [k_subs]; unfold of_columns in *; rewrite fold_left_app, <- E; reflexivity|].
  apply Forall_app. split; [exact F|]. constructor; [exact Lv|constructor].
Qed.

Lemma tell_compressed_told fuel n lt inp subs lt' inp' t : tell_compressed fixed full path o T skip fuel top n lt inp = Ok (subs, lt', inp', t) ->
  exists cols, subs = of_columns n cols /\ Forall (fun c => length c = n) cols /\ told T full (column_shows fixed) column_counts 0 top cols t.
Proof.
  intros E. unfold tell_compressed in E. inv_bind E. destruct a as [t1 s]. apply same_ok, pair_equal_spec in Hk as [Hk <-]. apply pair_equal_spec in Hk as [Hk _]. apply pair_equal_spec in Hk as [<- _].
  unfold tell in Hb. inv_bind Hb. destruct a as [st w]. apply same_ok, pair_equal_spec in Hk as [<- <-].
  apply (walk_told T full path (together fixed o T skip) (column_shows fixed) column_counts (stands n)) with (top := top) (l := []) in Hb0.
  - destruct Hb0 as (_ & _ & vs & u & D & (_ & H & F) & O). cbn [fst snd te_indent te_out te_s app] in *. rewrite O. exists vs. auto.
  - intros i x x' l u H Ev Et. cbn [together tg_visitor tg_last cdecoder on_var] in Ev, Et. unfold k_var in Ev. inv_bind Ev. destruct a as [cs inp1].
    apply same_ok in Hk. subst x'. apply values_length in Hb. unfold ksize in Hb. exists (map (fun c => mkvar c []) cs). split.
    + apply stands_push; [exact H|]. rewrite map_length, Hb. apply H.
    + apply push_shows with (subs := k_subs x); [rewrite map_length; exact Hb|exact Et].
  - intros i x x' l m H Ev. cbn [together tg_visitor cdecoder on_factor] in Ev. unfold k_factor in Ev. inv_bind Ev. destruct a as [c inp1]. inv_bind Hk.
    apply same_ok, pair_equal_spec in Hk0 as [<- <-]. exists (map (fun c => mkvar c []) (repeat c (ksize x))). split.
    + apply stands_push; [exact H|]. rewrite map_length, repeat_length. apply H.
    + split; [|apply u32_range]. exists c, a. split; [|split; [exact Hb1|reflexivity]]. apply Forall_forall. intros v Iv. apply in_map_iff in Iv as (c' & <- & Ic). apply repeat_spec in Ic. exact Ic.
  - intros code x x' l H Ev. cbn [together tg_visitor cdecoder on_raw] in Ev. unfold k_raw in Ev. inv_bind Ev. discriminate.
  - intros code bits x x' i l H Ev. cbn [together tg_visitor cdecoder on_unknown] in Ev. unfold k_unknown in Ev. inv_bind Ev. destruct a as [j lt1].
    apply same_ok, pair_equal_spec in Hk as [_ <-]. exact H.
  - exact HX.
  - exact top_appears.
  - exact quiet_init.
  - split; [apply repeat_length|]. split; [reflexivity|constructor].
Qed.
End Runs.

From Coq Require Import Sorting.Sorted ZifyBool ZifyNat String.
From Verif Require Import Base Bits.Spec Num.Float Varcode.Model Varinfo.Model Varinfo.RangeProofs
  Tables.Model Tables.Spec.
Local Open Scope Z_scope.

(** ** Descriptor lists *)

Lemma skipn_skipn {A} : forall n m (l : list A), skipn n (skipn m l) = skipn (m + n) l.
Proof. intros n m. induction m as [|m IH]; intros l; auto. destruct l; cbn; auto. apply skipn_nil. Qed.


Lemma deref_slice o i : wf_ops o -> (i < ops_size o)%nat ->
  exists c, deref (o_mem o) (o_beg o + i) = Ok c /\ nth_error (slice o) i = Some c.
Proof.
  unfold wf_ops, ops_size, deref, slice. intros W H.
  destruct (nth_error (o_mem o) (o_beg o + i)) eqn:E.
  - exists z. split; auto. rewrite <- E.
    rewrite <- (firstn_skipn (o_beg o) (o_mem o)) at 2.
    rewrite nth_error_app2; rewrite firstn_length; [|lia].
    replace (o_beg o + i - Nat.min (o_beg o) (length (o_mem o)))%nat with i by lia.
    rewrite <- (firstn_skipn (o_end o - o_beg o) (skipn (o_beg o) (o_mem o))) at 2.
    rewrite nth_error_app1; auto. rewrite firstn_length, skipn_length. lia.
  - apply nth_error_None in E. lia.
Qed.

Lemma slice_length o : wf_ops o -> length (slice o) = ops_size o.
Proof. unfold wf_ops, slice, ops_size. intros. rewrite firstn_length, skipn_length. lia. Qed.

Lemma slice_ops_of l : wf_ops (ops_of l) /\ slice (ops_of l) = l.
Proof.
  unfold wf_ops, slice, ops_of. cbn. split; [lia|]. rewrite Nat.sub_0_r. apply firstn_all.
Qed.

Lemma slice_sub mem b e k : (b + k <= e)%nat -> (e <= length mem)%nat ->
  slice (mkops mem (b + k) e) = skipn k (slice (mkops mem b e)).
Proof.
  intros. unfold slice. cbn. rewrite skipn_firstn_comm, skipn_skipn.
  f_equal. lia.
Qed.

Lemma slice_prefix mem b e k : (b + k <= e)%nat ->
  slice (mkops mem b (b + k)) = firstn k (slice (mkops mem b e)).
Proof. intros. unfold slice. cbn. rewrite firstn_firstn. f_equal. lia. Qed.

Lemma ops_pop_spec o : wf_ops o ->
  match slice o with
  | [] => ops_pop o = Err EConsistency
  | c :: rest => exists o', ops_pop o = Ok (c, o') /\ wf_ops o' /\ slice o' = rest
  end.
Proof.
  intros W. pose proof (slice_length o W) as L. unfold ops_pop, ops_empty.
  destruct (slice o) as [|c rest] eqn:E; cbn in L.
  - unfold ops_size, wf_ops in *. replace (o_beg o =? o_end o)%nat with true by lia. reflexivity.
  - unfold ops_size in L. unfold wf_ops in W. replace (o_beg o =? o_end o)%nat with false by lia.
    destruct (deref_slice o 0 W) as (c' & D & N); [unfold ops_size; lia|].
    rewrite Nat.add_0_r in D. rewrite D. cbn [bind]. rewrite E in N. injection N as <-.
    eexists. split; [reflexivity|]. split; [unfold wf_ops; cbn; lia|].
    replace (S (o_beg o)) with (o_beg o + 1)%nat by lia.
    rewrite slice_sub by lia. destruct o as [m b e]. cbn [o_mem o_beg o_end] in *. rewrite E. reflexivity.
Qed.

Lemma ops_pop_n_spec o n : wf_ops o ->
  if Nat.ltb (length (slice o)) n then ops_pop_n o n = Err EConsistency
  else exists a b, ops_pop_n o n = Ok (a, b) /\ wf_ops a /\ wf_ops b /\
       slice a = firstn n (slice o) /\ slice b = skipn n (slice o).
Proof.
  intros W. rewrite (slice_length o W). unfold ops_pop_n. destruct (Nat.ltb_spec (ops_size o) n); auto.
  destruct o as [m b e]. unfold ops_size, wf_ops in *. cbn in *.
  eexists _, _. split; [reflexivity|]. split; [cbn; lia|]. split; [cbn; lia|].
  split; [apply slice_prefix; lia|apply slice_sub; lia].
Qed.

Lemma ops_next_spec o : wf_ops o -> wf_ops (ops_next o) /\ slice (ops_next o) = tl (slice o).
Proof.
  intros W. pose proof (slice_length o W) as L. unfold ops_next, ops_empty, ops_size, wf_ops in *.
  destruct (Nat.eqb_spec (o_beg o) (o_end o)).
  - split; auto. destruct (slice o); cbn in *; auto. lia.
  - split; [cbn; lia|]. replace (S (o_beg o)) with (o_beg o + 1)%nat by lia.
    rewrite slice_sub by lia. destruct o as [m b e]. cbn [o_mem o_beg o_end] in *.
    destruct (slice _); reflexivity.
Qed.

Lemma ops_sub_spec o k : wf_ops o -> wf_ops (ops_sub o k) /\ slice (ops_sub o k) = skipn k (slice o).
Proof.
  intros W. pose proof (slice_length o W) as L. unfold ops_sub, ops_size, wf_ops in *.
  destruct (Nat.ltb_spec (o_end o) (o_beg o + k)).
  - split; [cbn; lia|]. rewrite skipn_all2 by lia. unfold slice. cbn. rewrite Nat.sub_diag. reflexivity.
  - split; [cbn; lia|]. destruct o as [m b e]. cbn [o_mem o_beg o_end] in *. apply slice_sub; lia.
Qed.

Lemma ops_sub_len_spec o k n : wf_ops o ->
  wf_ops (ops_sub_len o k n) /\ slice (ops_sub_len o k n) = firstn n (skipn k (slice o)).
Proof.
  intros W. pose proof (slice_length o W) as L. unfold ops_sub_len, ops_size, wf_ops in *.
  destruct (Nat.ltb_spec (o_end o) (o_beg o + k)).
  - split; [cbn; lia|]. rewrite (skipn_all2 (slice o)) by lia. rewrite firstn_nil.
    unfold slice. cbn. rewrite Nat.sub_diag. reflexivity.
  - destruct o as [m b e]. cbn [o_mem o_beg o_end] in *.
    destruct (Nat.leb_spec e (b + k + n)).
    + split; [cbn; lia|]. rewrite slice_sub by lia. rewrite firstn_all2; auto. rewrite skipn_length. lia.
    + split; [cbn; lia|]. rewrite (slice_prefix m (b + k) e n) by lia. rewrite slice_sub by lia. reflexivity.
Qed.

Lemma ops_head_spec o : wf_ops o -> ops_head o = Ok (hd 0 (slice o)).
Proof.
  intros W. pose proof (slice_length o W) as L. unfold ops_head, ops_empty, ops_size, wf_ops in *.
  destruct (Nat.eqb_spec (o_beg o) (o_end o)).
  - destruct (slice o); cbn in *; auto. lia.
  - destruct (deref_slice o 0 W) as (c & D & N); [unfold ops_size; lia|].
    rewrite Nat.add_0_r in D. rewrite D. destruct (slice o); [discriminate|]. injection N as ->. reflexivity.
Qed.

Lemma ops_get_spec o i : wf_ops o ->
  ops_get o i = if Nat.ltb i (length (slice o)) then Ok (nth i (slice o) 0)
                else if Nat.eqb i (length (slice o)) then deref (o_mem o) (o_end o) else Ok 0.
Proof.
  intros W. rewrite (slice_length o W). unfold ops_get, ops_size in *. pose proof W as W'. unfold wf_ops in W'.
  destruct (Nat.ltb_spec i (o_end o - o_beg o)).
  - replace (o_end o <? o_beg o + i)%nat with false by lia.
    destruct (deref_slice o i W) as (c & -> & N); [unfold ops_size; lia|].
    rewrite (nth_error_nth _ _ 0 N). reflexivity.
  - destruct (Nat.eqb_spec i (o_end o - o_beg o)).
    + replace (o_end o <? o_beg o + i)%nat with false by lia. f_equal. lia.
    + replace (o_end o <? o_beg o + i)%nat with true by lia. reflexivity.
Qed.

(** ** Binary search *)

Lemma read_from_slice mem n : forall b e, (b + n = e)%nat -> (e <= length mem)%nat ->
  read_from mem b n = Ok (slice (mkops mem b e)).
Proof.
  induction n as [|n IH]; intros b e H L; cbn [read_from].
  - unfold slice. cbn. replace (e - b)%nat with O by lia. reflexivity.
  - assert (W : wf_ops (mkops mem b e)) by (unfold wf_ops; cbn; lia).
    destruct (deref_slice (mkops mem b e) 0 W) as (c & D & N); [unfold ops_size; cbn; lia|].
    cbn [o_mem o_beg] in D. rewrite Nat.add_0_r in D. rewrite D. cbn [bind]. rewrite (IH (S b) e) by lia. cbn [bind].
    replace (S b) with (b + 1)%nat by lia. rewrite slice_sub by lia.
    destruct (slice (mkops mem b e)); [discriminate|]. injection N as ->. reflexivity.
Qed.

Lemma ops_step_spec o op : wf_ops o ->
  match list_step (slice o) op with
  | None => ops_step o op = Err EConsistency
  | Some (seen, l) => exists o', ops_step o op = Ok (seen, o') /\ wf_ops o' /\ slice o' = l
  end.
Proof.
  intros W. destruct op; cbn [list_step ops_step].
  - pose proof (ops_pop_spec o W) as P. destruct (slice o) as [|c r].
    + rewrite P. reflexivity.
    + destruct P as (o' & -> & W' & S). cbn. eauto.
  - pose proof (ops_pop_n_spec o n W) as P. destruct (Nat.ltb_spec (length (slice o)) n).
    + rewrite P. reflexivity.
    + destruct P as (a & b & -> & Wa & Wb & Sa & Sb). cbn [bind].
      rewrite (read_from_slice _ _ _ (o_end a)).
      * cbn [bind]. destruct a as [m x y]. cbn [o_mem o_beg o_end]. rewrite Sa. eauto.
      * unfold ops_size, wf_ops in *. lia.
      * unfold wf_ops in Wa. lia.
  - destruct (ops_next_spec o W) as [W' S]. eauto.
  - rewrite (ops_head_spec o W). cbn. eauto.
  - destruct (ops_sub_spec o skip W) as [W' S]. eauto.
  - destruct (ops_sub_len_spec o skip len W) as [W' S]. eauto.
Qed.

Lemma ops_run_spec ops : forall o, wf_ops o -> ops_run o ops = Ok (list_run (slice o) ops).
Proof.
  induction ops as [|op ops IH]; intros o W; cbn [ops_run list_run]; auto.
  pose proof (ops_step_spec o op W) as P. destruct (list_step (slice o) op) as [[seen l]|].
  - destruct P as (o' & -> & W' & <-). rewrite IH by auto. reflexivity.
  - rewrite P, IH by auto. reflexivity.
Qed.

Lemma at_code_ok codes i : 0 <= i < Z.of_nat (length codes) ->
  exists c, at_code codes i = Ok c /\ nth_error codes (Z.to_nat i) = Some c.
Proof.
  intros H. unfold at_code. replace (i <? 0) with false by lia.
  destruct (nth_error codes (Z.to_nat i)) eqn:E; [eauto|]. apply nth_error_None in E. lia.
Qed.

Lemma sorted_mono codes : StronglySorted Z.lt codes -> forall i j a c, (i < j)%nat ->
  nth_error codes i = Some a -> nth_error codes j = Some c -> a < c.
Proof.
  induction 1 as [|x l S IH F]; intros i j a c Hij Ha Hc; [destruct i; discriminate|].
  destruct j as [|j]; [lia|]. cbn in Hc. destruct i as [|i]; cbn in Ha.
  - injection Ha as <-. rewrite Forall_forall in F. apply F. eapply nth_error_In; eauto.
  - apply (IH i j); auto. lia.
Qed.

Lemma bsearch_spec codes code : forall fuel b e, -1 <= b < e -> e <= Z.of_nat (length codes) ->
  e - b <= Z.of_nat fuel ->
  (forall i c, Z.of_nat i <= b -> nth_error codes i = Some c -> StronglySorted Z.lt codes -> c <= code) ->
  (forall i c, e <= Z.of_nat i -> nth_error codes i = Some c -> StronglySorted Z.lt codes -> code < c) ->
  exists r, bsearch fuel codes code b e = Ok r /\ -1 <= r < Z.of_nat (length codes) /\
    (forall i c, Z.of_nat i <= r -> nth_error codes i = Some c -> StronglySorted Z.lt codes -> c <= code) /\
    (forall i c, r < Z.of_nat i -> nth_error codes i = Some c -> StronglySorted Z.lt codes -> code < c).
Proof.
  induction fuel as [|k IH]; intros b e Hb He Hf Lo Hi; [lia|]. cbn [bsearch].
  destruct (Z.ltb_spec 1 (e - b)).
  - assert (Q : Z.quot (e + b) 2 = (e + b) / 2) by (apply Z.quot_div_nonneg; lia). rewrite Q. clear Q.
    set (cur := (e + b) / 2). assert (C : b < cur < e) by (unfold cur; lia).
    destruct (at_code_ok codes cur) as (c & -> & N); [lia|]. cbn [bind].
    destruct (Z.ltb_spec code c).
    + apply IH; auto; try lia. intros i x Hi1 Hx S.
      destruct (Nat.eq_dec i (Z.to_nat cur)) as [->|]; [rewrite N in Hx; injection Hx as <-; auto|].
      assert (c < x) by (apply (sorted_mono codes S (Z.to_nat cur) i); auto; lia). lia.
    + apply IH; auto; try lia. intros i x Hi1 Hx S.
      destruct (Nat.eq_dec i (Z.to_nat cur)) as [->|]; [rewrite N in Hx; injection Hx as <-; auto|].
      assert (x < c) by (apply (sorted_mono codes S i (Z.to_nat cur)); auto; lia). lia.
  - exists b. split; auto. split; [lia|]. split; auto. intros i c Hi1. apply Hi. lia.
Qed.

(** Every array access is in bounds, whatever the table; an answer is always a
    matching entry; on sorted tables no entry is missed. *)
Lemma find_code_spec codes code :
  exists r, find_code codes code = Ok r /\
    (forall i, r = Some i -> nth_error codes i = Some code) /\
    (StronglySorted Z.lt codes -> forall i, nth_error codes i = Some code -> r = Some i).
Proof.
  unfold find_code.
  destruct (bsearch_spec codes code (S (length codes)) (-1) (Z.of_nat (length codes))) as (r & -> & R & Lo & Hi); try lia.
  { intros i c Hi Hc. assert (i < length codes)%nat by (apply nth_error_Some; congruence). lia. }
  cbn [bind]. destruct (Z.eqb_spec r (-1)).
  - exists None. split; auto. split; [discriminate|]. intros S i Hc. exfalso.
    pose proof (Hi i code ltac:(lia) Hc S). lia.
  - destruct (at_code_ok codes r) as (c & -> & N); [lia|]. cbn [bind].
    destruct (Z.eqb_spec c code) as [->|].
    + eexists. split; [reflexivity|]. split; [intros i [= <-]; auto|]. intros S i Hc. f_equal.
      destruct (Z.lt_trichotomy (Z.of_nat i) r) as [L|[L|L]]; [|lia|].
      * pose proof (sorted_mono codes S i (Z.to_nat r) code code ltac:(lia) Hc N). lia.
      * pose proof (Hi i code L Hc S). lia.
    + eexists. split; [reflexivity|]. split; [discriminate|]. intros S i Hc. exfalso.
      destruct (Z.lt_trichotomy (Z.of_nat i) r) as [L|[L|L]].
      * pose proof (sorted_mono codes S i (Z.to_nat r) code c ltac:(lia) Hc N). pose proof (Lo (Z.to_nat r) c ltac:(lia) N S). lia.
      * subst r. rewrite Nat2Z.id in N. congruence.
      * pose proof (Hi i code L Hc S). lia.
Qed.

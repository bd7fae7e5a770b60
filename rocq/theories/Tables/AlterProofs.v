(** Table B: loading, lookup and alterations. *)
From Coq Require Import Sorting.Sorted ZifyBool ZifyNat String.
From Verif Require Import Base Bits.Spec Num.Float Varcode.Model Varinfo.Model Varinfo.RangeProofs
  Tables.Model Tables.Spec Tables.Proofs.
Local Open Scope Z_scope.

Lemma Forall2_len {A B} (P : A -> B -> Prop) l m : Forall2 P l m -> length l = length m.
Proof. induction 1; cbn; auto. Qed.

(** ** Loading and lookup *)

Definition sorted_table (t : btable) : Prop := StronglySorted (fun a b => be_code a < be_code b) t.

Lemma sorted_codes t : sorted_table t -> StronglySorted Z.lt (map be_code t).
Proof.
  induction 1 as [|e t S IH F]; cbn; constructor; auto. rewrite Forall_map. auto.
Qed.

Lemma sorted_app t e : sorted_table t -> (forall x, In x t -> be_code x < be_code e) -> sorted_table (t ++ [e]).
Proof.
  induction 1 as [|a t S IH F]; intros H; cbn; [repeat constructor|].
  constructor; [apply IH; intros; apply H; cbn; auto|]. apply Forall_app. split; auto.
  constructor; auto. apply H. cbn. auto.
Qed.

Lemma obtain_spec t i t' : sorted_table t -> obtain t i = Ok t' ->
  t' = t ++ [mkbentry i []] /\ sorted_table t'.
Proof.
  intros S H. unfold obtain in H. destruct (rev t) as [|e r] eqn:E.
  - injection H as <-. split; auto. apply (f_equal (@rev bentry)) in E. rewrite rev_involutive in E. subst t.
    repeat constructor.
  - destruct (Z.leb_spec (vi_code i) (be_code e)); [discriminate|]. injection H as <-. split; auto.
    apply sorted_app; auto. intros x Hx. change (be_code (mkbentry i [])) with (vi_code i).
    apply (f_equal (@rev bentry)) in E. rewrite rev_involutive in E. cbn in E. subst t.
    apply in_app_iff in Hx as [Hx|[<-|[]]]; [|auto].
    enough (be_code x < be_code e) by lia. clear -S Hx. induction (rev r) as [|a l IH]; [contradiction|].
    cbn in S. inversion S as [|? ? S' F]; subst. destruct Hx as [<-|Hx]; auto.
    rewrite Forall_forall in F. apply F. apply in_app_iff. cbn. auto.
Qed.

Definition line_entry (l : list Z) (e : bentry) : Prop := bufr_line l = Ok (be_info e) /\ be_alts e = [].

Lemma load_blines_spec lines : forall t t', sorted_table t -> load_blines lines t = Ok t' ->
  sorted_table t' /\ exists t2, t' = t ++ t2 /\ Forall2 line_entry lines t2.
Proof.
  induction lines as [|l lines IH]; intros t t' S H; cbn [load_blines] in H.
  - injection H as <-. split; auto. exists []. rewrite app_nil_r. auto.
  - inv_bind H. inv_bind Hk. destruct (obtain_spec _ _ _ S Hb0) as [-> S'].
    destruct (IH _ _ S' Hk0) as (S2 & t2 & -> & F). split; auto.
    exists (mkbentry a [] :: t2). split; [rewrite <- app_assoc; reflexivity|].
    constructor; auto. split; auto.
Qed.

Lemma fresh_of_lines lines t : Forall2 line_entry lines t -> Forall (fun e => be_alts e = []) t.
Proof. induction 1 as [|? ? ? ? [_ H]]; auto. Qed.

Lemma load_bufr_spec text t : load_bufr text = Ok t ->
  fresh_table t /\ Forall2 line_entry (file_lines text) t.
Proof.
  intros H. destruct (load_blines_spec _ [] t ltac:(constructor) H) as (S & t2 & E & F).
  cbn in E. subst t2. split; auto. split; auto. eapply fresh_of_lines; eauto.
Qed.

Lemma load_clines_spec lines : forall t t', sorted_table t -> load_clines lines t = Ok t' ->
  sorted_table t' /\ exists t2, t' = t ++ t2 /\ Forall (fun e => be_alts e = []) t2 /\
  forall i, (exists l, In l lines /\ crex_line l = Ok (Some i)) <-> In i (map be_info t2).
Proof.
  induction lines as [|l lines IH]; intros t t' S H; cbn [load_clines] in H.
  - injection H as <-. split; auto. exists []. rewrite app_nil_r. split; auto. split; auto.
    intros i. split; [intros (l & [] & _)|intros []].
  - inv_bind H. destruct a as [i|].
    + inv_bind Hk. destruct (obtain_spec _ _ _ S Hb0) as [-> S'].
      destruct (IH _ _ S' Hk0) as (S2 & t2 & -> & F & Q). split; auto.
      exists (mkbentry i [] :: t2). split; [rewrite <- app_assoc; reflexivity|]. split; [constructor; auto|].
      intros j. cbn. rewrite <- Q. split.
      * intros (l' & [<-|Hl] & E); [rewrite Hb in E; injection E as <-; auto|right; eauto].
      * intros [<-|(l' & Hl & E)]; [exists l; auto|exists l'; auto].
    + destruct (IH _ _ S Hk) as (S2 & t2 & -> & F & Q). split; auto. exists t2. split; auto. split; auto.
      intros j. rewrite <- Q. split.
      * intros (l' & [<-|Hl] & E); [rewrite Hb in E; discriminate|eauto].
      * intros (l' & Hl & E). exists l'. cbn. auto.
Qed.

Lemma query_entry_spec t code : sorted_table t ->
  exists r, query_entry t code = Ok r /\
    (forall i, r = Some i <-> exists e, nth_error t i = Some e /\ be_code e = code).
Proof.
  intros S. unfold query_entry. destruct (find_code_spec (map be_code t) code) as (r & -> & A & B).
  exists r. split; auto. intros i. split.
  - intros H. apply A in H. rewrite nth_error_map in H. destruct (nth_error t i) as [e|]; [|discriminate].
    injection H as H. eauto.
  - intros (e & N & E). apply (B (sorted_codes t S)). rewrite nth_error_map, N, <- E. reflexivity.
Qed.

Lemma query_spec t code : sorted_table t ->
  match List.find (fun e => be_code e =? code) t with
  | Some e => query t code = Ok (be_info e) /\ contains t code = Ok true
  | None => query t code = Err ENotFound /\ contains t code = Ok false
  end.
Proof.
  intros S. unfold query, contains. destruct (query_entry_spec t code S) as (r & -> & Q). cbn [bind].
  destruct (List.find _ t) as [e|] eqn:F.
  - apply find_some in F as [Hin Hc]. apply In_nth_error in Hin as [i N].
    assert (E : r = Some i) by (apply Q; exists e; split; auto; lia). subst r.
    unfold entry_at. rewrite N. auto.
  - destruct r as [i|]; auto. exfalso. destruct (proj1 (Q i) eq_refl) as (e & N & E).
    apply nth_error_In in N. pose proof (find_none _ _ F _ N). cbn in H. lia.
Qed.

(** ** Alterations *)

Lemma alter_checked_fields i s b r j : alter_checked i s b r = Ok j ->
  vi_code j = vi_code i /\ vi_scale j = s /\ vi_bit_len j = b /\ vi_bit_ref j = r.
Proof.
  unfold alter_checked. destruct (_ && _); [discriminate|]. unfold alter_info. intros H. inv_bind H.
  apply compute_range_fields in Hk. tauto.
Qed.

Lemma same_alteration_spec i s b r : same_alteration i s b r = true <->
  vi_scale i = s /\ vi_bit_len i = b /\ vi_bit_ref i = r.
Proof. unfold same_alteration. lia. Qed.

Lemma find_alt_some chain s b r n j : find_alt chain s b r = Some (n, j) ->
  nth_error chain n = Some j /\ same_alteration j s b r = true.
Proof.
  revert n. induction chain as [|i chain IH]; intros n H; cbn in H; [discriminate|].
  destruct (same_alteration i s b r) eqn:E; [injection H as <- <-; auto|].
  destruct (find_alt chain s b r) as [[m k]|]; [|discriminate]. injection H as <- <-. cbn. apply IH. auto.
Qed.

Lemma find_alt_none chain s b r : find_alt chain s b r = None <->
  Forall (fun i => same_alteration i s b r = false) chain.
Proof.
  induction chain as [|i chain IH]; cbn; [split; auto|].
  destruct (same_alteration i s b r) eqn:E.
  - split; [discriminate|]. intros H. inversion H. congruence.
  - destruct (find_alt chain s b r) as [[n j]|]; split; intros H; try discriminate; auto.
    + inversion H as [|? ? _ H2]; subst. apply IH in H2. discriminate.
    + constructor; auto. apply IH. auto.
Qed.

Lemma find_alt_app new chain s b r : Forall (fun i => same_alteration i s b r = false) new ->
  find_alt (new ++ chain) s b r =
  match find_alt chain s b r with Some (n, j) => Some (length new + n, j)%nat | None => None end.
Proof.
  induction 1 as [|i new H F IH]; cbn; [destruct (find_alt chain s b r) as [[]|]; auto|].
  rewrite H, IH. destruct (find_alt chain s b r) as [[]|]; auto.
Qed.

(** Later tables: same originals, alterations only added in front, with new keys. *)
Definition extends_entry (e e2 : bentry) : Prop :=
  be_info e2 = be_info e /\ exists new, be_alts e2 = new ++ be_alts e /\
    forall j, In j new -> find_alt (be_info e :: be_alts e) (vi_scale j) (vi_bit_len j) (vi_bit_ref j) = None.
Definition extends (t t2 : btable) : Prop := Forall2 extends_entry t t2.

Lemma extends_entry_refl e : extends_entry e e.
Proof. split; auto. exists []. split; auto. intros j []. Qed.

Lemma extends_refl t : extends t t.
Proof. induction t; constructor; auto. apply extends_entry_refl. Qed.

Lemma extends_entry_trans a b c : extends_entry a b -> extends_entry b c -> extends_entry a c.
Proof.
  intros (I1 & n1 & A1 & F1) (I2 & n2 & A2 & F2). split; [congruence|].
  exists (n2 ++ n1). rewrite A2, A1, app_assoc. split; auto. intros j Hj.
  apply in_app_iff in Hj as [Hj|Hj]; auto. apply F2 in Hj. rewrite I1, A1 in Hj.
  apply find_alt_none in Hj. apply find_alt_none. inversion Hj as [|? ? H1 H2]; subst. constructor; auto.
  apply Forall_app in H2. tauto.
Qed.

Lemma extends_trans a b c : extends a b -> extends b c -> extends a c.
Proof.
  intros H. revert c. induction H as [|x y a b H F IH]; intros c H2; inversion H2; subst; constructor.
  - eapply extends_entry_trans; eauto.
  - apply IH; auto.
Qed.

Lemma extends_codes t t2 : extends t t2 -> map be_code t2 = map be_code t.
Proof. induction 1 as [|x y a b [H _] F IH]; cbn; auto. rewrite IH. unfold be_code. rewrite H. reflexivity. Qed.

Lemma extends_nth t t2 i e : extends t t2 -> nth_error t i = Some e ->
  exists e2, nth_error t2 i = Some e2 /\ extends_entry e e2.
Proof.
  intros H. revert i. induction H as [|x y a b Hx F IH]; intros [|i] N; cbn in *; try discriminate; eauto.
  injection N as <-. eauto.
Qed.

Lemma nth_error_update {A} (l : list A) i a : forall j, (i < length l)%nat ->
  nth_error (update l i a) j = if Nat.eqb i j then Some a else nth_error l j.
Proof.
  revert i. induction l as [|x l IH]; intros [|i] j H; cbn in *; try lia.
  - destruct j; auto.
  - destruct j as [|j]; cbn; auto. apply IH. lia.
Qed.

Lemma update_extends t i e e2 : nth_error t i = Some e -> extends_entry e e2 -> extends t (update t i e2).
Proof.
  revert i. induction t as [|x t IH]; intros [|i] N H; cbn in *; try discriminate.
  - injection N as ->. constructor; auto. apply extends_refl.
  - constructor; [apply extends_entry_refl|]. apply IH; auto.
Qed.

Lemma ask_extends t r p j t2 : ask t r = Ok (p, j, t2) -> extends t t2.
Proof.
  unfold ask, query_altered. intros H. inv_bind H. destruct a as [i|]; [|discriminate].
  inv_bind Hk. unfold entry_at in Hb0. destruct (nth_error t i) as [e|] eqn:N; [|discriminate]. injection Hb0 as <-.
  destruct (find_alt (be_info e :: be_alts e) _ _ _) as [[[|n] k]|] eqn:F.
  - injection Hk0 as <- <- <-. apply extends_refl.
  - injection Hk0 as <- <- <-. apply extends_refl.
  - inv_bind Hk0. injection Hk as <- <- <-. eapply update_extends; eauto.
    split; auto. exists [a]. split; auto. intros k [<-|[]].
    destruct (alter_checked_fields _ _ _ _ _ Hb0) as (_ & -> & -> & ->). exact F.
Qed.

(** The answer to a request, on the found entry. *)
Lemma ask_entry t r p j t2 : ask t r = Ok (p, j, t2) -> exists i e,
  query_entry t (r_code r) = Ok (Some i) /\ nth_error t i = Some e /\
  ((exists n, find_alt (be_info e :: be_alts e) (r_scale r) (r_bits r) (r_ref r) = Some (n, j) /\ t2 = t /\
     p = match n with O => POrig i | S m => PAlt i (length (be_alts e) - S m) end) \/
   (find_alt (be_info e :: be_alts e) (r_scale r) (r_bits r) (r_ref r) = None /\
    alter_checked (be_info e) (r_scale r) (r_bits r) (r_ref r) = Ok j /\
    p = PAlt i (length (be_alts e)) /\ t2 = update t i (mkbentry (be_info e) (j :: be_alts e)))).
Proof.
  unfold ask, query_altered. intros H. inv_bind H. destruct a as [i|]; [|discriminate].
  inv_bind Hk. unfold entry_at in Hb0. destruct (nth_error t i) as [e|] eqn:N; [|discriminate]. injection Hb0 as <-.
  exists i, e. split; auto. split; auto.
  destruct (find_alt (be_info e :: be_alts e) _ _ _) as [[[|n] k]|] eqn:F.
  - injection Hk0 as <- <- <-. left. exists 0%nat. auto.
  - injection Hk0 as <- <- <-. left. exists (S n). auto.
  - inv_bind Hk0. injection Hk as <- <- <-. right. auto.
Qed.

(** Once answered, a request gets the same answer from every later table. *)
Lemma ask_found_stable t r i e n j t3 : query_entry t (r_code r) = Ok (Some i) -> nth_error t i = Some e ->
  find_alt (be_info e :: be_alts e) (r_scale r) (r_bits r) (r_ref r) = Some (n, j) -> extends t t3 ->
  ask t3 r = Ok (match n with O => POrig i | S m => PAlt i (length (be_alts e) - S m) end, j, t3).
Proof.
  intros Q N F X. unfold ask, query_altered. unfold query_entry in *. rewrite (extends_codes t t3 X), Q. cbn [bind].
  destruct (extends_nth t t3 i e X N) as (e3 & N3 & I3 & new & A3 & K). unfold entry_at. rewrite N3. cbn [bind].
  rewrite I3, A3. cbn [find_alt] in F |- *.
  destruct (same_alteration (be_info e) (r_scale r) (r_bits r) (r_ref r)) eqn:S0.
  { injection F as <- <-. reflexivity. }
  destruct (find_alt (be_alts e) (r_scale r) (r_bits r) (r_ref r)) as [[m k]|] eqn:G; [|discriminate].
  injection F as <- <-.
  rewrite find_alt_app.
  - rewrite G. rewrite app_length. f_equal. f_equal. f_equal. f_equal.
    pose proof (find_alt_some _ _ _ _ _ _ G) as [H _].
    assert (m < length (be_alts e))%nat by (apply nth_error_Some; congruence). lia.
  - apply Forall_forall. intros x Hx. destruct (same_alteration x _ _ _) eqn:Sx; auto. exfalso.
    apply same_alteration_spec in Sx as (E1 & E2 & E3). apply K in Hx. rewrite E1, E2, E3 in Hx. cbn in Hx.
    rewrite S0, G in Hx. discriminate.
Qed.

Lemma query_entry_some t code i : query_entry t code = Ok (Some i) ->
  exists e, nth_error t i = Some e /\ be_code e = code.
Proof.
  unfold query_entry. destruct (find_code_spec (map be_code t) code) as (r & -> & A & _). intros [= ->].
  specialize (A i eq_refl). rewrite nth_error_map in A. destruct (nth_error t i); [|discriminate].
  injection A as A. eauto.
Qed.

Lemma ask_stable t r p j t2 t3 : ask t r = Ok (p, j, t2) -> extends t2 t3 -> ask t3 r = Ok (p, j, t3).
Proof.
  intros H X. destruct (ask_entry _ _ _ _ _ H) as (i & e & Q & N & [(n & F & -> & ->)|(F & A & -> & ->)]).
  - eapply ask_found_stable; eauto.
  - assert (L : (i < length t)%nat) by (apply nth_error_Some; congruence).
    assert (X0 : extends t (update t i (mkbentry (be_info e) (j :: be_alts e)))) by (eapply ask_extends; eauto).
    assert (N2 : nth_error (update t i (mkbentry (be_info e) (j :: be_alts e))) i = Some (mkbentry (be_info e) (j :: be_alts e))).
    { rewrite nth_error_update by auto. rewrite Nat.eqb_refl. reflexivity. }
    assert (F2 : find_alt (be_info e :: j :: be_alts e) (r_scale r) (r_bits r) (r_ref r) = Some (1%nat, j)).
    { cbn in F |- *. destruct (same_alteration (be_info e) _ _ _); [discriminate|].
      destruct (alter_checked_fields _ _ _ _ _ A) as (_ & B1 & B2 & B3).
      replace (same_alteration j (r_scale r) (r_bits r) (r_ref r)) with true; auto.
      symmetry. apply same_alteration_spec. auto. }
    pose proof (ask_found_stable _ r i _ 1%nat j t3 ltac:(unfold query_entry; rewrite (extends_codes _ _ X0); exact Q) N2 F2 X) as R.
    cbn [be_alts] in R. rewrite R. f_equal. f_equal. f_equal. f_equal. cbn [length]. lia.
Qed.

Lemma ask_lookup t r p j t2 : ask t r = Ok (p, j, t2) -> lookup t2 p = Some j.
Proof.
  intros H. destruct (ask_entry _ _ _ _ _ H) as (i & e & Q & N & [(n & F & -> & ->)|(F & A & -> & ->)]).
  - pose proof (find_alt_some _ _ _ _ _ _ F) as [G _]. destruct n as [|m]; cbn in G |- *; rewrite N; auto.
    assert (L : (m < length (be_alts e))%nat) by (apply nth_error_Some; congruence).
    rewrite (nth_error_nth' _ j) by (rewrite rev_length; lia).
    rewrite rev_nth by lia. f_equal. replace (length (be_alts e) - S (length (be_alts e) - S m))%nat with m by lia.
    apply nth_error_nth. auto.
  - cbn. rewrite nth_error_update by (apply nth_error_Some; congruence). rewrite Nat.eqb_refl. cbn.
    rewrite nth_error_app2; rewrite rev_length; [|lia]. rewrite Nat.sub_diag. reflexivity.
Qed.

Lemma after_requests_extends l : forall t, extends t (after_requests t l).
Proof.
  induction l as [|r l IH]; intros t; cbn [after_requests]; [apply extends_refl|].
  destruct (ask t r) as [[[p j] t2]| |] eqn:E; auto.
  eapply extends_trans; [eapply ask_extends; eauto|]. apply IH.
Qed.

(** The table reached from a fresh one holds only alterations of its originals. *)
Definition from_entry (e0 e : bentry) : Prop :=
  be_info e = be_info e0 /\
  Forall (fun j => alter_checked (be_info e0) (vi_scale j) (vi_bit_len j) (vi_bit_ref j) = Ok j) (be_alts e).
Definition from_table (t0 t : btable) : Prop := Forall2 from_entry t0 t.

Lemma from_refl t : Forall (fun e => be_alts e = []) t -> from_table t t.
Proof. induction 1 as [|e t H F IH]; constructor; auto. split; auto. rewrite H. auto. Qed.

Lemma from_nth t0 t i e : from_table t0 t -> nth_error t i = Some e ->
  exists e0, nth_error t0 i = Some e0 /\ from_entry e0 e.
Proof.
  intros H. revert i. induction H as [|x y a b Hx F IH]; intros [|i] N; cbn in *; try discriminate; eauto.
  injection N as <-. eauto.
Qed.

Lemma from_update t0 t i e0 e2 : from_table t0 t -> nth_error t0 i = Some e0 -> from_entry e0 e2 ->
  from_table t0 (update t i e2).
Proof.
  intros H. revert i. induction H as [|x y a b Hx F IH]; intros [|i] N G; cbn in *; try discriminate.
  - injection N as ->. constructor; auto.
  - constructor; auto. apply IH; auto.
Qed.

Lemma from_ask t0 t r p j t2 : from_table t0 t -> ask t r = Ok (p, j, t2) -> from_table t0 t2.
Proof.
  intros X H. destruct (ask_entry _ _ _ _ _ H) as (i & e & Q & N & [(n & F & -> & ->)|(F & A & -> & ->)]); auto.
  destruct (from_nth t0 t i e X N) as (e0 & N0 & I & G). eapply from_update; eauto.
  split; auto. cbn. constructor; auto. destruct (alter_checked_fields _ _ _ _ _ A) as (_ & -> & -> & ->).
  rewrite <- I. auto.
Qed.

Lemma from_requests t0 l : forall t, from_table t0 t -> from_table t0 (after_requests t l).
Proof.
  induction l as [|r l IH]; intros t X; cbn [after_requests]; auto.
  destruct (ask t r) as [[[p j] t2]| |] eqn:E; auto. apply IH. eapply from_ask; eauto.
Qed.

Lemma from_codes t0 t : from_table t0 t -> map be_code t = map be_code t0.
Proof. induction 1 as [|x y a b [H _] F IH]; cbn; auto. rewrite IH. unfold be_code. rewrite H. reflexivity. Qed.

(** The definition returned is a function of the loaded table alone. *)
Lemma ask_expected t0 t r : sorted_table t0 -> from_table t0 t ->
  match ask t r with
  | Ok (_, j, _) => expected t0 r = Ok j
  | Err e => expected t0 r = Err e
  | UB => expected t0 r = UB
  end.
Proof.
  intros S X. unfold ask, query_altered, expected.
  destruct (query_entry_spec t0 (r_code r) S) as (o & Q0 & Qi).
  assert (Q : query_entry t (r_code r) = Ok o).
  { unfold query_entry in *. rewrite (from_codes _ _ X). auto. }
  rewrite Q. cbn [bind]. destruct o as [i|].
  - destruct (proj1 (Qi i) eq_refl) as (e0 & N0 & E0).
    assert (Fi : List.find (fun e => be_code e =? r_code r) t0 = Some e0).
    { destruct (List.find _ t0) as [e1|] eqn:F1.
      - apply find_some in F1 as [Hin Hc]. apply In_nth_error in Hin as [k Nk].
        assert (Some i = Some k) by (apply Qi; exists e1; split; auto; lia). congruence.
      - apply nth_error_In in N0. pose proof (find_none _ _ F1 _ N0). cbn in H. lia. }
    rewrite Fi.
    assert (L : (i < length t)%nat).
    { apply Forall2_len in X. rewrite <- X. apply nth_error_Some. congruence. }
    destruct (nth_error t i) as [e|] eqn:N; [|apply nth_error_None in N; lia].
    destruct (from_nth t0 t i e X N) as (e0' & N0' & I & G). rewrite N0 in N0'. injection N0' as <-.
    unfold entry_at. rewrite N. cbn [bind]. rewrite I. cbn [find_alt]. fold (same_alteration (be_info e0) (r_scale r) (r_bits r) (r_ref r)).
    destruct (same_alteration (be_info e0) (r_scale r) (r_bits r) (r_ref r)); [reflexivity|].
    destruct (find_alt (be_alts e) (r_scale r) (r_bits r) (r_ref r)) as [[n j]|] eqn:F.
    + apply find_alt_some in F as [Hj Sj]. apply nth_error_In in Hj. rewrite Forall_forall in G. apply G in Hj.
      apply same_alteration_spec in Sj as (<- & <- & <-). exact Hj.
    + destruct (alter_checked (be_info e0) (r_scale r) (r_bits r) (r_ref r)); reflexivity.
  - destruct (List.find _ t0) as [e1|] eqn:F1; auto. exfalso.
    apply find_some in F1 as [Hin Hc]. apply In_nth_error in Hin as [k Nk].
    assert (None = Some k) by (apply Qi; exists e1; split; auto; lia). discriminate.
Qed.

(** Alterations of good definitions are good definitions. *)
Lemma alter_info_ok i s b r j : info_ok i -> int_min <= s <= int_max -> int_min <= r <= int_max -> 0 <= b < 2 ^ 32 ->
  alter_checked i s b r = Ok j -> info_ok j.
Proof.
  intros Hi Hs Hr Hb H. unfold alter_checked in H. destruct (_ && _); [discriminate|].
  unfold alter_info in H. inv_bind H. pose proof (compute_range_built _ _ _ _ _ _ _ _ Hk) as B.
  pose proof (compute_range_fields _ _ _ _ _ _ _ _ Hk) as (F1 & F2 & F3 & F4 & F5 & F6 & F7).
  assert (La : 0 <= a < 2 ^ 32).
  { destruct (vi_type i).
    - unfold digits_per_bits in Hb0. destruct (_ || _); [discriminate|]. injection Hb0 as <-.
      repeat match goal with |- context [if ?c then _ else _] => destruct c end; lia.
    - unfold digits_per_bits in Hb0. destruct (_ || _); [discriminate|]. injection Hb0 as <-.
      repeat match goal with |- context [if ?c then _ else _] => destruct c end; lia.
    - injection Hb0 as <-. split; [apply Z.div_pos; lia|]. apply Z.div_lt_upper_bound; lia.
    - injection Hb0 as <-. split; [apply Z.div_pos; lia|]. apply Z.div_lt_upper_bound; lia. }
  constructor; auto; try congruence; try lia. rewrite F2, F4.
  destruct (vi_type i); destruct (Z.eqb_spec s 0); intros; try discriminate; auto.
Qed.

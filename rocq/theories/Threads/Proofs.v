(** Threads: programs that only read, and what one run of a job leaves behind. *)
From Coq Require Import String ZArith List Lia Eqdep_dec ZifyBool.
From Verif Require Import Base Num.Float Varinfo.Model Tables.Model Tables.Spec Tables.AlterProofs
  Select.Model Select.Spec Select.Proofs Conv.Model Threads.Model Threads.Spec.
Import ListNotations.
Local Open Scope Z_scope.

(** ** The memory *)
Lemma put_same c l v : put c l v l = v.
Proof.
  unfold put. destruct (loc_eq_dec l l) as [e|n]; [|contradiction].
  rewrite (UIP_dec loc_eq_dec e eq_refl). reflexivity.
Qed.
Lemma put_other c l v l' : l <> l' -> put c l v l' = c l'.
Proof. intros N. unfold put. destruct (loc_eq_dec l l'); [contradiction|reflexivity]. Qed.
Lemma write_same m l v : cell (write m l v) l = v.
Proof. apply put_same. Qed.
Lemma write_other m l v l' : l <> l' -> cell (write m l v) l' = cell m l'.
Proof. apply put_other. Qed.
Lemma alloc_same m o : cell (alloc m o) (LObj (next m)) = Some o.
Proof. apply (put_same (cell m) (LObj (next m)) (Some o)). Qed.
Lemma alloc_other m o l : l <> LObj (next m) -> cell (alloc m o) l = cell m l.
Proof. intros N. apply (put_other (cell m) (LObj (next m)) (Some o)). congruence. Qed.

(** ** Programs in sequence *)
Lemma alone_andthen {A B} (p : prog A) (f : res A -> prog B) : forall m,
  alone (andthen p f) m = alone (f (fst (alone p m))) (snd (alone p m)).
Proof. induction p; intros m; cbn; auto. Qed.

Fixpoint quiet {A} (p : prog A) (m : mem) : Prop :=
  match p with
  | Ret _ => True
  | Rd l k => quiet (k (cell m l)) m
  | Wr _ _ _ | New _ _ => False
  end.

Lemma quiet_alone {A} (p : prog A) : forall m, quiet p m -> snd (alone p m) = m.
Proof. induction p; intros m Q; cbn in *; auto; contradiction. Qed.
Lemma quiet_andthen {A B} (p : prog A) (f : res A -> prog B) : forall m,
  quiet p m -> quiet (f (fst (alone p m))) m -> quiet (andthen p f) m.
Proof. induction p; intros m Q R; cbn in *; auto; contradiction. Qed.
Lemma quiet_andthen_inv {A B} (p : prog A) (f : res A -> prog B) : forall m,
  quiet (andthen p f) m -> quiet p m /\ quiet (f (fst (alone p m))) m.
Proof. induction p; intros m Q; cbn in *; auto; contradiction. Qed.

(** ** Threads whose programs only read *)
Lemma quiet_step {A} (p p' : prog A) m m' : quiet p m -> step1 p m = Some (p', m') ->
  m' = m /\ quiet p' m /\ alone p' m = alone p m.
Proof. destruct p; cbn; intros Q S; try discriminate; try contradiction. injection S as <- <-. auto. Qed.

Lemma quiet_steps {A} s s' : @steps A s s' -> Forall (fun p => quiet p (fst s)) (snd s) ->
  fst s' = fst s /\ Forall2 (fun p p' => quiet p' (fst s) /\ alone p' (fst s) = alone p (fst s)) (snd s) (snd s').
Proof.
  induction 1 as [s|m before p after p' m' s S T IH]; intros F.
  - split; auto. induction F; constructor; auto.
  - cbn [fst snd] in *. apply Forall_app in F as [F1 F2]. inversion F2 as [|? ? Q F3]; subst.
    destruct (quiet_step _ _ _ _ Q S) as (-> & Q' & E).
    destruct IH as [E1 G]; [apply Forall_app; auto|]. split; auto.
    apply Forall2_app_inv_l in G as (l1 & l2 & G1 & G2 & ->).
    inversion G2 as [|? q ? ? [Qq Eq] G3]; subst. apply Forall2_app; auto. constructor; auto. split; auto. congruence.
Qed.

Lemma quiet_no_race {A} (ps : list (prog A)) m : Forall (fun p => quiet p m) ps -> ~ race ps.
Proof.
  intros F (i & j & p & q & l & w & w' & _ & Hi & Hj & Ap & Aq & W).
  rewrite Forall_forall in F. pose proof (F _ (nth_error_In _ _ Hi)) as Qp. pose proof (F _ (nth_error_In _ _ Hj)) as Qq.
  destruct p; cbn in *; try discriminate; try contradiction. destruct q; cbn in *; try discriminate; try contradiction.
  injection Ap as <- <-. injection Aq as _ <-. discriminate.
Qed.

(** ** What stays when programs run one after the other *)
Record grows (m m' : mem) : Prop := {
  gr_next : (next m <= next m')%nat;
  gr_ptr : cell m LDirsPtr = true -> cell m' LDirsPtr = true /\ cell m' LDirList = cell m LDirList;
  gr_index : forall t, cell m LIndex = Some t -> cell m' LIndex = Some t;
  gr_bufr : forall id t, map_find bid_lt id (cell m LBufrCache) = Some t -> map_find bid_lt id (cell m' LBufrCache) = Some t;
  gr_crex : forall id t, map_find cid_lt id (cell m LCrexCache) = Some t -> map_find cid_lt id (cell m' LCrexCache) = Some t;
  gr_reg : forall k r, cell m (LReg k) = Some r -> exists r', cell m' (LReg k) = Some r' /\
    forall path a, registered path r = Some a -> registered path r' = Some a;
  gr_obj : forall a o, cell m (LObj a) = Some o -> cell m' (LObj a) = Some o;
  gr_chain : forall a e s b r x, List.find (fun p => same_alteration (snd p) s b r) (cell m (LChain a e)) = Some x ->
    List.find (fun p => same_alteration (snd p) s b r) (cell m' (LChain a e)) = Some x;
  gr_repo : cell m LRepo = true -> cell m' LRepo = true }.

Lemma grows_refl m : grows m m.
Proof. constructor; eauto. Qed.
Lemma grows_trans a b c : grows a b -> grows b c -> grows a c.
Proof.
  intros H1 H2. constructor.
  - pose proof (gr_next _ _ H1). pose proof (gr_next _ _ H2). lia.
  - intros P. destruct (gr_ptr _ _ H1 P) as [P1 E1]. destruct (gr_ptr _ _ H2 P1) as [P2 E2]. split; auto. congruence.
  - intros. eapply gr_index; eauto. eapply gr_index; eauto.
  - intros. eapply gr_bufr; eauto. eapply gr_bufr; eauto.
  - intros. eapply gr_crex; eauto. eapply gr_crex; eauto.
  - intros k r E. destruct (gr_reg _ _ H1 _ _ E) as (r1 & E1 & G1). destruct (gr_reg _ _ H2 _ _ E1) as (r2 & E2 & G2). eauto.
  - intros. eapply gr_obj; eauto. eapply gr_obj; eauto.
  - intros. eapply gr_chain; eauto. eapply gr_chain; eauto.
  - intros. eapply gr_repo; eauto. eapply gr_repo; eauto.
Qed.

Section Library.
Context (E : env).

Record ok (m : mem) : Prop := {
  ok_fresh : forall a, (next m <= a)%nat -> cell m (LObj a) = None;
  ok_dirs : cell m LDirList = if cell m LDirsPtr then default_dirs E else [];
  ok_ptr : forall t, cell m LIndex = Some t -> cell m LDirsPtr = true;
  ok_list : forall t, cell m LIndex = Some t -> t = listed (e_fs E) (default_dirs E);
  ok_bufr : forall id t, In (id, t) (cell m LBufrCache) -> exists ts, cell m LIndex = Some ts /\ search_bufr id ts = Some t;
  ok_crex : forall id t, In (id, t) (cell m LCrexCache) -> exists ts, cell m LIndex = Some ts /\ search_crex id ts = Some t;
  ok_reg : forall k r path a, cell m (LReg k) = Some r -> In (path, a) r ->
    exists o, read_table E k path = Ok o /\ cell m (LObj a) = Some o;
  ok_chain : forall a e p j, In (p, j) (cell m (LChain a e)) -> exists t x, cell m (LObj a) = Some (OB t) /\ nth_error t e = Some x /\
    alter_checked (be_info x) (vi_scale j) (vi_bit_len j) (vi_bit_ref j) = Ok j /\ cell m (LObj p) = Some (OAlt j) }.

Lemma start_ok : ok start.
Proof. constructor; cbn; auto; intros; try discriminate; try contradiction; auto. Qed.

(** A program that, once it has run in a state, does the same without writing in all later states. *)
Definition settles {A} (P : mem -> Prop) (p : prog A) (Q : res A -> mem -> Prop) : Prop :=
  forall m r m', ok m -> P m -> alone p m = (r, m') -> r <> UB ->
    ok m' /\ grows m m' /\ Q r m' /\ forall m2, ok m2 -> grows m' m2 -> quiet p m2 /\ fst (alone p m2) = r.

Definition any (m : mem) : Prop := True.
Definition anyr {A} (r : res A) (m : mem) : Prop := True.

Lemma settles_andthen {A B} P Q R (p : prog A) (f : res A -> prog B) :
  settles P p Q -> (forall r, r <> UB -> settles (Q r) (f r) R) -> f UB = Ret UB -> settles P (andthen p f) R.
Proof.
  intros Sp Sf U m r m' O HP H N. rewrite alone_andthen in H. destruct (alone p m) as [r1 m1] eqn:E1. cbn [fst snd] in H.
  assert (N1 : r1 <> UB). { intros ->. rewrite U in H. injection H as <- _. congruence. }
  destruct (Sp _ _ _ O HP E1 N1) as (O1 & G1 & Q1 & L1). destruct (Sf _ N1 _ _ _ O1 Q1 H N) as (O2 & G2 & Q2 & L2).
  split; auto. split; [eapply grows_trans; eauto|]. split; auto.
  intros m2 O' G'. destruct (L1 _ O' (grows_trans _ _ _ G2 G')) as [Qu F]. destruct (L2 _ O' G') as [Qu2 F2].
  split; [apply quiet_andthen; auto; rewrite F; auto|].
  rewrite alone_andthen, F, quiet_alone; auto.
Qed.
Lemma settles_bind {A B} P Q R (p : prog A) (f : A -> prog B) :
  settles P p Q -> (forall a, settles (Q (Ok a)) (f a) R) -> (forall e m, Q (Err e) m -> R (Err e) m) -> settles P (pbind p f) R.
Proof.
  intros Sp Sf HE. apply (settles_andthen P Q); auto. intros [a|e|] N; auto; [|congruence].
  intros m r m' O HP H _. cbn in H. injection H as <- <-. split; auto. split; [apply grows_refl|]. split; auto.
  intros; cbn; auto.
Qed.
Lemma settles_ret {A} (P : mem -> Prop) (r : res A) (Q : res A -> mem -> Prop) : (forall m, P m -> Q r m) -> settles P (Ret r) Q.
Proof.
  intros H m r' m' O HP Ha N. cbn in Ha. injection Ha as <- <-. split; auto. split; [apply grows_refl|]. split; auto. intros; cbn; auto.
Qed.
Lemma settles_weak {A} (P P' : mem -> Prop) Q (p : prog A) : settles P p Q -> (forall m, P' m -> P m) -> settles P' p anyr.
Proof.
  intros S H m r m' O HP Ha N. destruct (S _ _ _ O (H _ HP) Ha N) as (O1 & G1 & _ & L). split; [exact O1|]. split; [exact G1|]. split; [exact Logic.I|exact L].
Qed.

(** ** The directories and the index *)
Lemma alone_add d m : cell m LDirsPtr = true -> exists m', alone (p_add_directory d) m = (Ok tt, m') /\
  (cell m LIndex = None -> cell m' LIndex = None) /\ next m' = next m /\
  cell m' LDirList = add_dir (cell m LDirList) d /\
  forall l, l <> LDirList -> l <> LIndex -> cell m' l = cell m l.
Proof.
  intros P. unfold p_add_directory, add_dir. cbn [alone].
  destruct (existsb _ _); cbn [alone skip].
  - exists m. auto.
  - eexists. split; [reflexivity|]. split; [intros _; apply write_same|]. split; [reflexivity|].
    split; [rewrite write_other by congruence; apply write_same|].
    intros l N1 N2. rewrite !write_other by congruence. reflexivity.
Qed.
Lemma alone_adds ds : forall m, cell m LDirsPtr = true -> exists m', alone (p_add_directories ds) m = (Ok tt, m') /\
  (cell m LIndex = None -> cell m' LIndex = None) /\ next m' = next m /\
  cell m' LDirList = fold_left add_dir ds (cell m LDirList) /\
  forall l, l <> LDirList -> l <> LIndex -> cell m' l = cell m l.
Proof.
  induction ds as [|d ds IH]; intros m P; cbn [p_add_directories].
  - exists m. auto.
  - unfold pbind. rewrite alone_andthen. destruct (alone_add d m P) as (m1 & -> & I1 & N1 & D1 & F1). cbn [fst snd].
    destruct (IH m1) as (m2 & -> & I2 & N2 & D2 & F2); [rewrite F1; congruence|].
    exists m2. split; auto. split; auto. split; [congruence|]. split; [rewrite D2, D1; reflexivity|]. intros l A B. rewrite F2, F1; auto.
Qed.
Lemma alone_dirs m : ok m -> exists m', alone (p_dirs E) m = (Ok tt, m') /\ cell m' LDirsPtr = true /\
  (cell m LDirsPtr = true -> m' = m) /\ (cell m LDirsPtr = false -> cell m' LIndex = None) /\ next m' = next m /\
  cell m' LDirList = default_dirs E /\
  forall l, l <> LDirsPtr -> l <> LDirList -> l <> LIndex -> cell m' l = cell m l.
Proof.
  intros O. unfold p_dirs. cbn [alone]. destruct (cell m LDirsPtr) eqn:P; cbn [alone skip].
  - exists m. pose proof (ok_dirs _ O) as D. rewrite P in D. repeat split; auto. congruence.
  - destruct (alone_adds (e_dirs E) (write m LDirsPtr true)) as (m' & -> & I' & N & D & F); [apply write_same|].
    exists m'. split; auto. split; [rewrite F by congruence; apply write_same|]. split; [congruence|].
    split.
    { intros _. apply I'. rewrite write_other by congruence. destruct (cell m LIndex) eqn:Ix; auto.
      apply (ok_ptr _ O) in Ix. congruence. }
    split; [rewrite N; reflexivity|].
    split. { rewrite D, write_other by congruence. pose proof (ok_dirs _ O) as D0. rewrite P in D0. rewrite D0. reflexivity. }
    intros l A B C. rewrite F by auto. apply write_other. congruence.
Qed.

Lemma settles_index : settles any (p_dirs E ;;; p_index E) (fun r m => exists t, r = Ok t /\ cell m LIndex = Some t).
Proof.
  intros m r m' O _ H N. unfold pbind at 1 in H. rewrite alone_andthen in H.
  destruct (alone_dirs m O) as (m1 & A1 & P1 & S1 & I1 & N1 & DL1 & F1). rewrite A1 in H. cbn [fst snd] in H.
  unfold p_index, pbind in H. cbn [alone andthen] in H.
  assert (Caches : cell m LIndex = None -> cell m LBufrCache = [] /\ cell m LCrexCache = []).
  { intros Ix. split.
    - destruct (cell m LBufrCache) as [|[id t] c] eqn:C; auto.
      destruct (ok_bufr _ O id t) as (ts & Q & _); [rewrite C; cbn; auto|congruence].
    - destruct (cell m LCrexCache) as [|[id t] c] eqn:C; auto.
      destruct (ok_crex _ O id t) as (ts & Q & _); [rewrite C; cbn; auto|congruence]. }
  assert (Old : forall t, cell m1 LIndex = Some t -> m1 = m).
  { intros t Ix. destruct (cell m LDirsPtr) eqn:P; auto. rewrite (I1 eq_refl) in Ix. discriminate. }
  destruct (cell m1 LIndex) as [t|] eqn:Ix.
  - rewrite (Old _ eq_refl) in *. cbn [alone andthen skip] in H. rewrite Ix in H. cbn [alone] in H. injection H as <- <-.
    split; auto. split; [apply grows_refl|]. split; [eauto|].
    intros m2 O2 G. pose proof (gr_index _ _ G _ Ix) as Ix2. pose proof (ok_ptr _ O2 _ Ix2) as P2.
    unfold p_dirs, p_index, pbind. cbn [alone andthen quiet]. rewrite P2. cbn [andthen skip quiet alone]. rewrite Ix2. cbn [andthen skip quiet alone].
    rewrite Ix2. cbn. auto.
  - assert (Ixm : cell m LIndex = None).
    { destruct (cell m LIndex) eqn:Q; auto. pose proof (ok_ptr _ O _ Q) as P. rewrite (S1 P) in Ix. congruence. }
    destruct (Caches Ixm) as [CB CC].
    cbn [alone andthen skip] in H.
    set (t := flat_map (index_dir (e_fs E)) (cell m1 LDirList)) in *.
    rewrite write_same in H. cbn [alone] in H. injection H as <- <-.
    set (m' := write _ LIndex _).
    assert (I' : cell m' LIndex = Some t) by apply write_same.
    assert (D' : cell m' LDirsPtr = true) by (unfold m'; rewrite !write_other by congruence; auto).
    assert (B' : cell m' LBufrCache = []).
    { unfold m'. rewrite write_other by congruence. rewrite write_other by congruence. apply write_same. }
    assert (C' : cell m' LCrexCache = []).
    { unfold m'. rewrite write_other by congruence. apply write_same. }
    assert (DL' : cell m' LDirList = default_dirs E) by (unfold m'; rewrite !write_other by congruence; auto).
    assert (Et : t = listed (e_fs E) (default_dirs E)) by (unfold t; rewrite DL1; reflexivity).
    assert (L' : cell m LDirsPtr = true -> cell m' LDirList = cell m LDirList).
    { intros P. unfold m'. rewrite !write_other by congruence. rewrite (S1 P). reflexivity. }
    assert (F' : forall l, match l with LReg _ | LObj _ | LChain _ _ | LRepo => cell m' l = cell m l | _ => True end).
    { intros [| | | | |k|a|a e|]; auto; unfold m'; rewrite !write_other by congruence; apply F1; congruence. }
    assert (N' : next m' = next m) by exact N1.
    clearbody m' t. clear - O I' D' B' C' L' F' N' Ixm CB CC DL' Et.
    split; [|split; [|split; [eauto|]]].
    + constructor.
      * intros a. rewrite N', (F' (LObj a)). apply (ok_fresh _ O).
      * rewrite D'. auto.
      * auto.
      * intros t' Q. congruence.
      * intros id x. rewrite B'. intros [].
      * intros id x. rewrite C'. intros [].
      * intros k r path a. rewrite (F' (LReg k)), (F' (LObj a)). apply (ok_reg _ O).
      * intros a e p j. rewrite (F' (LChain a e)), (F' (LObj a)), (F' (LObj p)). apply (ok_chain _ O).
    + constructor.
      * lia.
      * auto.
      * congruence.
      * rewrite CB. cbn. discriminate.
      * rewrite CC. cbn. discriminate.
      * intros k r. rewrite (F' (LReg k)). eauto.
      * intros a o. rewrite (F' (LObj a)). auto.
      * intros a e s b r x. rewrite (F' (LChain a e)). auto.
      * rewrite (F' LRepo). auto.
    + intros m2 O2 G. pose proof (gr_index _ _ G _ I') as Ix2. pose proof (ok_ptr _ O2 _ Ix2) as P2.
      unfold p_dirs, p_index, pbind. cbn [alone andthen quiet]. rewrite P2. cbn [andthen skip quiet alone]. rewrite Ix2. cbn [andthen skip quiet alone].
      rewrite Ix2. cbn. auto.
Qed.

(** ** The choice of the tables *)
Lemma map_find_same {K V} (lt : K -> K -> bool) k (v : V) c : lt k k = false -> map_find lt k ((k, v) :: c) = Some v.
Proof. intros R. cbn. rewrite R. reflexivity. Qed.
Lemma bid_irr id : bid_lt id id = false.
Proof. apply (chain_irrefl [bi_centre id; bi_subcentre id; bi_mt id; bi_mtv id; bi_local id]). Qed.
Lemma cid_irr id : cid_lt id id = false.
Proof. apply (chain_irrefl [ci_edition id; ci_centre id; ci_subcentre id; ci_mt id; ci_mtv id; ci_local id; ci_mtv_bufr id]). Qed.

Definition indexed (t : list table) (m : mem) : Prop := cell m LIndex = Some t.

Lemma settles_find_bufr id : settles any (p_find_bufr E id) anyr.
Proof.
  unfold p_find_bufr. apply (settles_bind any (fun r m => exists t, r = Ok t /\ cell m LIndex = Some t)); [apply settles_index| |unfold anyr; auto].
  intros ts m r m' O (t0 & Et & Ix) H N. injection Et as <-. cbn [alone] in H.
  assert (Hit : forall m2 t, ok m2 -> indexed ts m2 -> map_find bid_lt id (cell m2 LBufrCache) = Some t -> search_bufr id ts = Some t).
  { intros m2 t O2 I2 M. apply (map_find_in bid_lt bid_same) in M. destruct (ok_bufr _ O2 _ _ M) as (ts' & I' & S). unfold indexed in I2. congruence. }
  destruct (map_find bid_lt id (cell m LBufrCache)) as [t|] eqn:M.
  - cbn [alone] in H. injection H as <- <-. split; auto. split; [apply grows_refl|]. split; [exact Logic.I|].
    intros m2 O2 G. cbn [quiet alone]. rewrite (gr_bufr _ _ G _ _ M). cbn. auto.
  - destruct (search_bufr id ts) as [t|] eqn:S; cbn [alone] in H; injection H as <- <-.
    + set (c := (id, t) :: cell m LBufrCache). assert (G1 : grows m (write m LBufrCache c)).
      { constructor; try (intros; rewrite ?write_other by congruence; eauto; fail); auto.
        intros id' t'. rewrite write_same. unfold c. intros M'. cbn [map_find].
        destruct (negb (bid_lt id id') && negb (bid_lt id' id)) eqn:B; auto.
        apply andb_true_iff in B as [B1 B2]. apply negb_true_iff in B1, B2. pose proof (bid_same _ _ B1 B2). subst. congruence. }
      assert (O1 : ok (write m LBufrCache c)).
      { constructor; try (intros *; rewrite ?write_other by congruence; apply O; fail).
        intros id' t'. rewrite write_same, write_other by congruence. unfold c. intros [Q|Q]; [|apply (ok_bufr _ O); auto].
        injection Q as <- <-. eauto. }
      split; auto. split; auto. split; [exact Logic.I|].
      intros m2 O2 G. cbn [quiet alone].
      rewrite (gr_bufr _ _ G id t); [cbn; auto|]. rewrite write_same. apply map_find_same, bid_irr.
    + split; auto. split; [apply grows_refl|]. split; [exact Logic.I|].
      intros m2 O2 G. cbn [quiet alone]. destruct (map_find bid_lt id (cell m2 LBufrCache)) as [t|] eqn:M2.
      * pose proof (Hit _ _ O2 (gr_index _ _ G _ Ix) M2). congruence.
      * cbn. auto.
Qed.

Lemma settles_find_crex id : settles any (p_find_crex E id) anyr.
Proof.
  unfold p_find_crex. apply (settles_bind any (fun r m => exists t, r = Ok t /\ cell m LIndex = Some t)); [apply settles_index| |unfold anyr; auto].
  intros ts m r m' O (t0 & Et & Ix) H N. injection Et as <-. cbn [alone] in H.
  assert (Hit : forall m2 t, ok m2 -> indexed ts m2 -> map_find cid_lt id (cell m2 LCrexCache) = Some t -> search_crex id ts = Some t).
  { intros m2 t O2 I2 M. apply (map_find_in cid_lt cid_same) in M. destruct (ok_crex _ O2 _ _ M) as (ts' & I' & S). unfold indexed in I2. congruence. }
  destruct (map_find cid_lt id (cell m LCrexCache)) as [t|] eqn:M.
  - cbn [alone] in H. injection H as <- <-. split; auto. split; [apply grows_refl|]. split; [exact Logic.I|].
    intros m2 O2 G. cbn [quiet alone]. rewrite (gr_crex _ _ G _ _ M). cbn. auto.
  - destruct (search_crex id ts) as [t|] eqn:S; cbn [alone] in H; injection H as <- <-.
    + set (c := (id, t) :: cell m LCrexCache). assert (G1 : grows m (write m LCrexCache c)).
      { constructor; try (intros; rewrite ?write_other by congruence; eauto; fail); auto.
        intros id' t'. rewrite write_same. unfold c. intros M'. cbn [map_find].
        destruct (negb (cid_lt id id') && negb (cid_lt id' id)) eqn:B; auto.
        apply andb_true_iff in B as [B1 B2]. apply negb_true_iff in B1, B2. pose proof (cid_same _ _ B1 B2). subst. congruence. }
      assert (O1 : ok (write m LCrexCache c)).
      { constructor; try (intros *; rewrite ?write_other by congruence; apply O; fail).
        intros id' t'. rewrite write_same, write_other by congruence. unfold c. intros [Q|Q]; [|apply (ok_crex _ O); auto].
        injection Q as <- <-. eauto. }
      split; auto. split; auto. split; [exact Logic.I|].
      intros m2 O2 G. cbn [quiet alone].
      rewrite (gr_crex _ _ G id t); [cbn; auto|]. rewrite write_same. apply map_find_same, cid_irr.
    + split; auto. split; [apply grows_refl|]. split; [exact Logic.I|].
      intros m2 O2 G. cbn [quiet alone]. destruct (map_find cid_lt id (cell m2 LCrexCache)) as [t|] eqn:M2.
      * pose proof (Hit _ _ O2 (gr_index _ _ G _ Ix) M2). congruence.
      * cbn. auto.
Qed.

(** ** The registries *)
Lemma zlist_eqb_true a : forall b, zlist_eqb a b = true <-> a = b.
Proof.
  induction a as [|x a IH]; intros [|y b]; cbn; try (split; congruence).
  rewrite andb_true_iff, Z.eqb_eq, IH. split; [intros [-> ->]; auto|intros Q; injection Q; auto].
Qed.
Lemma registered_in path r a : registered path r = Some a -> In (path, a) r.
Proof.
  induction r as [|[p b] r IH]; cbn; [discriminate|]. destruct (zlist_eqb p path) eqn:Z.
  - intros H. injection H as <-. apply zlist_eqb_true in Z. subst. auto.
  - auto.
Qed.
Lemma registered_new path a r p b : registered path r = None -> registered p r = Some b -> registered p ((path, a) :: r) = Some b.
Proof.
  intros N H. cbn. destruct (zlist_eqb path p) eqn:Z; auto. apply zlist_eqb_true in Z. subst. congruence.
Qed.
Lemma registered_same path a r : registered path ((path, a) :: r) = Some a.
Proof. cbn. replace (zlist_eqb path path) with true; auto. symmetry. apply zlist_eqb_true. reflexivity. Qed.

Lemma grows_reg m k r' :
  (forall r0, cell m (LReg k) = Some r0 -> forall p a, registered p r0 = Some a -> registered p r' = Some a) ->
  grows m (write m (LReg k) (Some r')).
Proof.
  intros H. constructor; try (intros; rewrite ?write_other by congruence; eauto; fail); auto.
  intros k' r0 Q. destruct (loc_eq_dec (LReg k) (LReg k')) as [e|n].
  - injection e as <-. rewrite write_same. eauto.
  - rewrite write_other by auto. eauto.
Qed.
Lemma ok_write_reg m k r' : ok m ->
  (forall path a, In (path, a) r' -> exists o, read_table E k path = Ok o /\ cell m (LObj a) = Some o) ->
  ok (write m (LReg k) (Some r')).
Proof.
  intros O H. constructor; try (intros *; rewrite ?write_other by congruence; apply O; fail).
  intros k' r path a. rewrite (write_other _ _ _ (LObj a)) by congruence.
  destruct (loc_eq_dec (LReg k) (LReg k')) as [e|n].
  - injection e as <-. rewrite write_same. intros Q. injection Q as <-. auto.
  - rewrite write_other by auto. apply (ok_reg _ O).
Qed.
Lemma grows_alloc m o : ok m -> grows m (alloc m o).
Proof.
  intros O. constructor; try (intros; rewrite ?alloc_other by congruence; eauto; fail).
  - cbn. lia.
  - intros a x Q. rewrite alloc_other; auto. intros X. injection X as ->. rewrite (ok_fresh _ O) in Q; [discriminate|lia].
Qed.
Lemma ok_alloc m o : ok m -> ok (alloc m o).
Proof.
  intros O. pose proof (gr_obj _ _ (grows_alloc m o O)) as G. constructor.
  - intros a L. cbn [next alloc] in L. rewrite alloc_other; [apply (ok_fresh _ O); lia|]. intros X. injection X. lia.
  - rewrite !alloc_other by congruence. apply (ok_dirs _ O).
  - intros t. rewrite !alloc_other by congruence. apply (ok_ptr _ O).
  - intros t. rewrite !alloc_other by congruence. apply (ok_list _ O).
  - intros id t. rewrite !alloc_other by congruence. apply (ok_bufr _ O).
  - intros id t. rewrite !alloc_other by congruence. apply (ok_crex _ O).
  - intros k r path a. rewrite alloc_other by congruence. intros Q J. destruct (ok_reg _ O _ _ _ _ Q J) as (x & R & C). eauto.
  - intros a e p j. rewrite alloc_other by congruence. intros J. destruct (ok_chain _ O _ _ _ _ J) as (t & x & C1 & C2 & C3 & C4). eauto 8.
Qed.

Lemma settles_load k path : settles any (p_load E k path) anyr.
Proof.
  unfold p_load. apply (settles_bind any (fun _ m => exists r, cell m (LReg k) = Some r)); [| |unfold anyr; auto].
  - intros m r m' O _ H N. cbn [alone] in H. destruct (cell m (LReg k)) as [g|] eqn:R.
    + cbn in H. injection H as <- <-. split; auto. split; [apply grows_refl|]. split; [eauto|].
      intros m2 O2 G. destruct (gr_reg _ _ G _ _ R) as (r' & R' & _). cbn [quiet alone]. rewrite R'. cbn. auto.
    + cbn [alone skip] in H. injection H as <- <-.
      split; [apply ok_write_reg; auto; intros ? ? []|]. split; [apply grows_reg; congruence|].
      split; [exists []; apply write_same|].
      intros m2 O2 G. destruct (gr_reg _ _ G k []) as (r' & R' & _); [apply write_same|]. cbn [quiet alone]. rewrite R'. cbn. auto.
  - intros _ m r m' O (g & R) H N. cbn [alone] in H. rewrite R in H.
    destruct (registered path g) as [a|] eqn:F.
    + cbn in H. injection H as <- <-. split; auto. split; [apply grows_refl|]. split; [exact Logic.I|].
      intros m2 O2 G. destruct (gr_reg _ _ G _ _ R) as (r' & R' & K). cbn [quiet alone]. rewrite R', (K _ _ F). cbn. auto.
    + destruct (read_table E k path) as [o|e|] eqn:T; cbn [alone] in H.
      * rewrite alloc_other in H by congruence. rewrite R in H. cbn [alone] in H. injection H as <- <-.
        pose proof (ok_alloc m o O) as O1. pose proof (grows_alloc m o O) as G1.
        split.
        { apply ok_write_reg; auto. intros p b [Q|Q].
          - injection Q as <- <-. exists o. split; auto. apply alloc_same.
          - destruct (ok_reg _ O _ _ _ _ R Q) as (x & X1 & X2). exists x. split; auto. apply (gr_obj _ _ G1). auto. }
        split.
        { apply (grows_trans _ _ _ G1). apply grows_reg.
          rewrite alloc_other by congruence. intros r0 Q p b J. assert (r0 = g) by congruence. subst. apply registered_new; auto. }
        split; [exact Logic.I|].
        intros m2 O2 G. destruct (gr_reg _ _ G k _ (write_same _ _ _)) as (r' & R' & K).
        cbn [quiet alone]. rewrite R', (K path (next m)); [cbn; auto|apply registered_same].
      * injection H as <- <-. split; auto. split; [apply grows_refl|]. split; [exact Logic.I|].
        intros m2 O2 G. destruct (gr_reg _ _ G _ _ R) as (r' & R' & _). cbn [quiet alone]. rewrite R'.
        destruct (registered path r') as [a|] eqn:F2.
        -- apply registered_in in F2. destruct (ok_reg _ O2 _ _ _ _ R' F2) as (o & X & _). congruence.
        -- cbn. auto.
      * injection H as <- <-. congruence.
Qed.

(** ** Definitions *)
Lemma settles_query a code : settles any (p_query a code) anyr.
Proof.
  intros m r m' O _ H N. unfold p_query in *. cbn [alone] in H.
  destruct (cell m (LObj a)) as [o|] eqn:C; [|cbn in H; injection H as <- <-; congruence].
  assert (R : m' = m /\ forall m2, cell m2 (LObj a) = Some o -> quiet (p_query a code) m2 /\ fst (alone (p_query a code) m2) = r).
  { unfold p_query. destruct o as [t|d|i]; cbn [alone] in H; try (injection H as <- <-; congruence).
    split.
    - destruct (query_entry t code) as [[e|]| |]; try (injection H; auto; fail). destruct (nth_error t e); injection H; auto.
    - intros m2 C2. cbn [quiet alone]. rewrite C2.
      destruct (query_entry t code) as [[e|]| |]; try (injection H as <- <-; cbn; auto; fail).
      destruct (nth_error t e); injection H as <- <-; cbn; auto. }
  destruct R as [-> R]. split; auto. split; [apply grows_refl|]. split; [exact Logic.I|].
  intros m2 O2 G. apply R. apply (gr_obj _ _ G). auto.
Qed.

Lemma settles_dquery a code : settles any (p_dquery a code) anyr.
Proof.
  intros m r m' O _ H N. unfold p_dquery in *. cbn [alone] in H.
  destruct (cell m (LObj a)) as [[t|d|i]|] eqn:C; cbn [alone] in H; injection H as <- <-; try congruence.
  split; auto. split; [apply grows_refl|]. split; [exact Logic.I|].
  intros m2 O2 G. cbn [quiet alone]. rewrite (gr_obj _ _ G _ _ C). cbn. auto.
Qed.

Lemma same_alteration_eq j s b r : same_alteration j s b r = true -> vi_scale j = s /\ vi_bit_len j = b /\ vi_bit_ref j = r.
Proof. unfold same_alteration. rewrite !andb_true_iff, !Z.eqb_eq. tauto. Qed.

Lemma settles_altered a code s b r : settles any (p_altered a code s b r) anyr.
Proof.
  intros m v m' O _ H N.
  unfold p_altered in H. cbn [alone] in H.
  destruct (cell m (LObj a)) as [[t|d|i]|] eqn:C; cbn [alone] in H; try (injection H as <- <-; congruence).
  assert (Still : m' = m -> (forall m2, ok m2 -> grows m m2 -> quiet (p_altered a code s b r) m2 /\ fst (alone (p_altered a code s b r) m2) = v) ->
    ok m' /\ grows m m' /\ anyr v m' /\ forall m2, ok m2 -> grows m' m2 -> quiet (p_altered a code s b r) m2 /\ fst (alone (p_altered a code s b r) m2) = v).
  { intros -> K. split; auto. split; [apply grows_refl|]. split; [exact Logic.I|auto]. }
  assert (Obj : forall m2, grows m m2 -> cell m2 (LObj a) = Some (OB t)) by (intros m2 G; apply (gr_obj _ _ G); auto).
  destruct (query_entry t code) as [[e|]|x|] eqn:Q; cbn [alone] in H.
  2:{ injection H as <- <-. apply Still; auto. intros m2 O2 G. unfold p_altered. cbn [quiet alone]. rewrite (Obj _ G), Q. cbn. auto. }
  2:{ injection H as <- <-. apply Still; auto. intros m2 O2 G. unfold p_altered. cbn [quiet alone]. rewrite (Obj _ G), Q. cbn. auto. }
  2:{ injection H as <- <-. congruence. }
  destruct (nth_error t e) as [x|] eqn:Nx; cbn [alone] in H; [|injection H as <- <-; congruence].
  destruct (same_alteration (be_info x) s b r) eqn:Sa; cbn [alone] in H.
  { injection H as <- <-. apply Still; auto. intros m2 O2 G. unfold p_altered. cbn [quiet alone]. rewrite (Obj _ G), Q, Nx, Sa. cbn. auto. }
  destruct (List.find _ (cell m (LChain a e))) as [[p j]|] eqn:F; cbn [alone] in H.
  { injection H as <- <-. apply Still; auto. intros m2 O2 G. unfold p_altered. cbn [quiet alone]. rewrite (Obj _ G), Q, Nx, Sa. cbn [quiet alone].
    rewrite (gr_chain _ _ G _ _ _ _ _ _ F). cbn. auto. }
  destruct (alter_checked (be_info x) s b r) as [j|er|] eqn:Al; cbn [alone] in H.
  - rewrite alloc_other in H by congruence. injection H as <- <-.
    destruct (alter_checked_fields _ _ _ _ _ Al) as (_ & K1 & K2 & K3).
    assert (Sj : same_alteration j s b r = true) by (unfold same_alteration; rewrite K1, K2, K3, !Z.eqb_refl; reflexivity).
    set (m1 := alloc m (OAlt j)). pose proof (ok_alloc m (OAlt j) O : ok m1) as O1. pose proof (grows_alloc m (OAlt j) O : grows m m1) as G1.
    set (c := (next m, j) :: cell m (LChain a e)).
    assert (C1 : cell m1 (LChain a e) = cell m (LChain a e)) by (apply alloc_other; congruence).
    assert (P1 : cell m1 (LObj (next m)) = Some (OAlt j)) by apply alloc_same.
    clearbody m1.
    assert (O2 : ok (write m1 (LChain a e) c)).
    { constructor; try (intros *; rewrite ?write_other by congruence; apply O1; fail).
      intros a' e' p' j'. rewrite (write_other _ _ _ (LObj a')) by congruence. rewrite (write_other _ _ _ (LObj p')) by congruence.
      destruct (loc_eq_dec (LChain a e) (LChain a' e')) as [q|n].
      - injection q as <- <-. rewrite write_same. unfold c. intros [J|J].
        + injection J as <- <-. exists t, x. split; [apply (gr_obj _ _ G1); auto|]. split; auto. split; auto. congruence.
        + apply (ok_chain _ O1). rewrite C1. auto.
      - rewrite write_other by auto. apply (ok_chain _ O1). }
    split; auto.
    assert (G2 : grows m1 (write m1 (LChain a e) c)).
    { constructor; try (intros; rewrite ?write_other by congruence; eauto; fail); auto.
      intros a' e' s' b' r' y. destruct (loc_eq_dec (LChain a e) (LChain a' e')) as [q|n].
      - injection q as <- <-. rewrite write_same. unfold c. cbn [List.find snd]. rewrite C1.
        destruct (same_alteration j s' b' r') eqn:S'; auto. apply same_alteration_eq in S' as (<- & <- & <-).
        rewrite K1, K2, K3. congruence.
      - rewrite write_other by auto. auto. }
    split; [eapply grows_trans; eauto|]. split; [exact Logic.I|].
    intros m2 O3 G. unfold p_altered. cbn [quiet alone].
    rewrite (Obj m2) by (eapply grows_trans; [|exact G]; eapply grows_trans; eauto).
    rewrite Q, Nx, Sa. cbn [quiet alone].
    rewrite (gr_chain _ _ G a e s b r (next m, j)); [cbn; auto|]. rewrite write_same. unfold c. cbn [List.find snd]. rewrite Sj. reflexivity.
  - injection H as <- <-. apply Still; auto. intros m2 O2 G. unfold p_altered. cbn [quiet alone]. rewrite (Obj _ G), Q, Nx, Sa. cbn [quiet alone].
    destruct (List.find _ (cell m2 (LChain a e))) as [[p j]|] eqn:F2.
    + apply find_some in F2 as [J Sj]. cbn [snd] in Sj. apply same_alteration_eq in Sj as (<- & <- & <-).
      destruct (ok_chain _ O2 _ _ _ _ J) as (t' & x' & T1 & T2 & T3 & _). rewrite (Obj _ G) in T1. injection T1 as <-. congruence.
    + rewrite Al. cbn. auto.
  - injection H as <- <-. congruence.
Qed.

Lemma settles_convert from to v : settles any (p_convert E from to v) anyr.
Proof.
  unfold p_convert. destruct (_ =? 0); [apply settles_ret; unfold anyr; auto|].
  apply (settles_bind any anyr); [| |unfold anyr; auto].
  - intros m r m' O _ H N. cbn [alone] in H. destruct (cell m LRepo) eqn:R; cbn [alone skip] in H; injection H as <- <-.
    + split; auto. split; [apply grows_refl|]. split; [exact Logic.I|]. intros m2 O2 G. cbn [quiet alone]. rewrite (gr_repo _ _ G R). cbn. auto.
    + split; [|split].
      * constructor; intros *; rewrite ?write_other by congruence; apply O.
      * constructor; try (intros; rewrite ?write_other by congruence; eauto; fail); auto.
      * split; [exact Logic.I|]. intros m2 O2 G. cbn [quiet alone]. rewrite (gr_repo _ _ G (write_same _ _ _)). cbn. auto.
  - intros _ m r m' O _ H N. cbn [alone] in H. injection H as <- <-. split; auto. split; [apply grows_refl|]. split; [exact Logic.I|]. intros; cbn; auto.
Qed.

(** ** Jobs *)
Lemma settles_bind_any {A B} (p : prog A) (f : A -> prog B) : settles any p anyr -> (forall a, settles any (f a) anyr) -> settles any (pbind p f) anyr.
Proof.
  intros Sp Sf. apply (settles_bind any anyr); auto.
Qed.
Lemma settles_any_ret {A} (r : res A) : settles any (Ret r) anyr.
Proof. apply settles_ret. unfold anyr. auto. Qed.

Lemma settles_call c : settles any (p_call E c) anyr.
Proof.
  destruct c; cbn [p_call]; apply settles_bind_any; intros; try apply settles_any_ret.
  - apply settles_bind_any; [apply settles_find_bufr|]. intros [t|]; [|apply settles_any_ret].
    apply settles_bind_any; [apply settles_load|]. intros ?. apply settles_bind_any; [apply settles_load|]. intros. apply settles_any_ret.
  - apply settles_bind_any; [apply settles_find_crex|]. intros [t|]; [|apply settles_any_ret].
    apply settles_bind_any; [apply settles_load|]. intros ?. apply settles_bind_any; [apply settles_load|]. intros. apply settles_any_ret.
  - apply settles_load.
  - apply settles_query.
  - apply settles_altered.
  - apply settles_dquery.
  - apply settles_convert.
Qed.

Lemma settles_job {A} (j : job A) : settles any (p_job E j) anyr.
Proof.
  induction j as [a|c k IH]; cbn [p_job]; [apply settles_any_ret|].
  apply (settles_andthen any anyr); [apply settles_call| |reflexivity].
  intros [a|e|] N; [| |congruence].
  - eapply settles_weak; [apply IH|unfold any; auto].
  - eapply settles_weak; [apply IH|unfold any; auto].
Qed.

Lemma ok_job {A} (j : job A) m x m' : ok m -> alone (p_job E j) m = (Ok x, m') -> ok m' /\ grows m m'.
Proof. intros O H. destruct (settles_job j m _ _ O Logic.I H) as (O' & G & _); [discriminate|auto]. Qed.

Lemma reached_ok {A} m : reached (A := A) E m -> ok m.
Proof. induction 1; [apply start_ok|]. eapply ok_job; eauto. Qed.

(** ** Several jobs, one after the other *)
Lemma jobs_cons {A} (j : job A) js m : alone (p_jobs E (j :: js)) m =
  match alone (p_job E j) m with
  | (Ok x, m1) => match alone (p_jobs E js) m1 with (Ok xs, m2) => (Ok (x :: xs), m2) | (Err e, m2) => (Err e, m2) | (UB, m2) => (UB, m2) end
  | (Err e, m1) => (Err e, m1)
  | (UB, m1) => (UB, m1)
  end.
Proof.
  cbn [p_jobs]. unfold pbind. rewrite alone_andthen. destruct (alone (p_job E j) m) as [[x|e|] m1]; cbn [fst snd alone]; auto.
  rewrite alone_andthen. destruct (alone (p_jobs E js) m1) as [[xs|e|] m2]; cbn [fst snd alone]; auto.
Qed.

Lemma jobs_settle {A} (js : list (job A)) : forall m xs m', ok m -> alone (p_jobs E js) m = (Ok xs, m') ->
  ok m' /\ grows m m' /\ Forall2 (fun j x => forall m2, ok m2 -> grows m' m2 -> quiet (p_job E j) m2 /\ fst (alone (p_job E j) m2) = Ok x) js xs.
Proof.
  induction js as [|j js IH]; intros m xs m' O H.
  - cbn in H. injection H as <- <-. split; auto. split; [apply grows_refl|constructor].
  - rewrite jobs_cons in H. destruct (alone (p_job E j) m) as [[x|e|] m1] eqn:A1; try discriminate.
    destruct (alone (p_jobs E js) m1) as [[ys|e|] m2] eqn:A2; try discriminate. injection H as <- <-.
    destruct (settles_job j m _ _ O Logic.I A1) as (O1 & G1 & _ & L1); [discriminate|].
    destruct (IH _ _ _ O1 A2) as (O2 & G2 & F). split; auto. split; [eapply grows_trans; eauto|].
    constructor; auto. intros m3 O3 G3. apply L1; auto. eapply grows_trans; eauto.
Qed.

Lemma quiet_jobs {A} (P : job A -> A -> Prop) m (js : list (job A)) :
  (forall j, In j js -> exists x, P j x /\ quiet (p_job E j) m /\ fst (alone (p_job E j) m) = Ok x) ->
  exists xs, quiet (p_jobs E js) m /\ fst (alone (p_jobs E js) m) = Ok xs /\ Forall2 P js xs.
Proof.
  induction js as [|j js IH]; intros H.
  - exists []. cbn. auto.
  - destruct (H j) as (x & Px & Q & F); [cbn; auto|]. destruct IH as (xs & Qs & Fs & Ps); [intros; apply H; cbn; auto|].
    exists (x :: xs). split; [|split; [|constructor; auto]].
    + cbn [p_jobs]. unfold pbind. apply quiet_andthen; auto. rewrite F. apply quiet_andthen; auto. rewrite Fs. cbn. auto.
    + rewrite jobs_cons. pose proof (quiet_alone _ _ Q) as S. destruct (alone (p_job E j) m) as [r m1]. cbn in F, S. subst.
      pose proof (quiet_alone _ _ Qs) as S. destruct (alone (p_jobs E js) m) as [r m1]. cbn in Fs, S. subst. reflexivity.
Qed.

(** ** Answers *)
Lemma index_answer m : ok m -> exists m', alone (p_dirs E ;;; p_index E) m = (Ok (listed (e_fs E) (default_dirs E)), m') /\ ok m' /\
  cell m' LIndex = Some (listed (e_fs E) (default_dirs E)).
Proof.
  intros O. destruct (alone (p_dirs E ;;; p_index E) m) as [r m'] eqn:H.
  assert (N : r <> UB).
  { unfold pbind at 1 in H. rewrite alone_andthen in H. destruct (alone_dirs m O) as (m1 & A1 & _). rewrite A1 in H. cbn [fst snd] in H.
    unfold p_index, pbind in H. cbn [alone andthen] in H. destruct (cell m1 LIndex) as [t|] eqn:Ix; cbn [alone andthen skip] in H.
    - rewrite Ix in H. cbn in H. congruence.
    - rewrite write_same in H. cbn in H. congruence. }
  destruct (settles_index m r m' O Logic.I H N) as (O' & _ & (t & -> & Ix) & _).
  exists m'. rewrite <- (ok_list _ O' _ Ix). auto.
Qed.

Lemma find_bufr_answer id m : ok m -> exists m', alone (p_find_bufr E id) m = (Ok (search_bufr id (listed (e_fs E) (default_dirs E))), m').
Proof.
  intros O. unfold p_find_bufr. unfold pbind at 1. rewrite alone_andthen. destruct (index_answer m O) as (m1 & A1 & O1 & I1). rewrite A1. cbn [fst snd alone].
  destruct (map_find bid_lt id (cell m1 LBufrCache)) as [t|] eqn:M; cbn [alone].
  - apply (map_find_in bid_lt bid_same) in M. destruct (ok_bufr _ O1 _ _ M) as (ts & I' & S). exists m1. f_equal. f_equal. congruence.
  - destruct (search_bufr id _) eqn:S; cbn [alone]; eauto.
Qed.
Lemma find_crex_answer id m : ok m -> exists m', alone (p_find_crex E id) m = (Ok (search_crex id (listed (e_fs E) (default_dirs E))), m').
Proof.
  intros O. unfold p_find_crex. unfold pbind at 1. rewrite alone_andthen. destruct (index_answer m O) as (m1 & A1 & O1 & I1). rewrite A1. cbn [fst snd alone].
  destruct (map_find cid_lt id (cell m1 LCrexCache)) as [t|] eqn:M; cbn [alone].
  - apply (map_find_in cid_lt cid_same) in M. destruct (ok_crex _ O1 _ _ M) as (ts & I' & S). exists m1. f_equal. f_equal. congruence.
  - destruct (search_crex id _) eqn:S; cbn [alone]; eauto.
Qed.

Lemma load_answer k path m : ok m -> exists m', match read_table E k path with
  | Ok o => exists a, alone (p_load E k path) m = (Ok a, m') /\ cell m' (LObj a) = Some o
  | Err e => alone (p_load E k path) m = (Err e, m')
  | UB => alone (p_load E k path) m = (UB, m')
  end.
Proof.
  intros O. unfold p_load. unfold pbind. rewrite alone_andthen.
  assert (H : exists m1 r, alone (Rd (LReg k) (fun reg => match reg with Some _ => skip | None => Wr (LReg k) (Some []) skip end)) m = (Ok tt, m1) /\
    ok m1 /\ cell m1 (LReg k) = Some r).
  { cbn [alone]. destruct (cell m (LReg k)) as [r|] eqn:R; cbn [alone skip].
    - exists m, r. auto.
    - eexists _, []. split; [reflexivity|]. split; [apply ok_write_reg; auto; intros ? ? []|apply write_same]. }
  destruct H as (m1 & r & -> & O1 & R1). cbn [fst snd alone]. rewrite R1.
  destruct (registered path r) as [a|] eqn:F; cbn [alone].
  - apply registered_in in F. destruct (ok_reg _ O1 _ _ _ _ R1 F) as (o & -> & C). eauto.
  - destruct (read_table E k path) as [o|e|] eqn:T; cbn [alone].
    + rewrite alloc_other by congruence. rewrite R1. cbn [alone]. eexists. exists (next m1). split; [reflexivity|].
      rewrite write_other by congruence. apply alloc_same.
    + eauto.
    + eauto.
Qed.

Lemma altered_answer a t code s b r m : ok m -> cell m (LObj a) = Some (OB t) -> fresh_table t ->
  match expected t (mkreq code s b r) with
  | Ok i => exists p m', alone (p_altered a code s b r) m = (Ok (p, i), m') /\ points m' p i
  | Err e => fst (alone (p_altered a code s b r) m) = Err e
  | UB => fst (alone (p_altered a code s b r) m) = UB
  end.
Proof.
  intros O C [S Fr]. unfold p_altered. cbn [alone]. rewrite C. unfold expected. cbn [r_code r_scale r_bits r_ref].
  destruct (query_entry_spec t code S) as (q & -> & Q).
  destruct (List.find (fun e => be_code e =? code) t) as [x|] eqn:F.
  - apply find_some in F as [J K]. apply Z.eqb_eq in K. apply In_nth_error in J as [e N].
    assert (q = Some e) by (apply Q; eauto). subst q. rewrite N.
    fold (same_alteration (be_info x) s b r). destruct (same_alteration (be_info x) s b r) eqn:Sa; cbn [alone fst].
    { exists (Inside a e), m. split; auto. cbn. eauto. }
    destruct (List.find _ (cell m (LChain a e))) as [[p j]|] eqn:Fc; cbn [alone fst].
    + apply find_some in Fc as [J Sj]. cbn [snd] in Sj. apply same_alteration_eq in Sj as (<- & <- & <-).
      destruct (ok_chain _ O _ _ _ _ J) as (t' & x' & T1 & T2 & T3 & T4).
      rewrite C in T1. injection T1 as <-. assert (x' = x) by congruence. subst x'. rewrite T3. exists (Own p), m. auto.
    + destruct (alter_checked (be_info x) s b r); cbn [alone fst]; eauto.
      do 2 eexists. split; [reflexivity|]. cbn [points]. rewrite write_other by congruence. apply alloc_same.
  - destruct q as [e|]; [|reflexivity]. destruct (Q e) as [Q1 _]. destruct (Q1 eq_refl) as (x & N & K).
    apply nth_error_In in N. pose proof (find_none _ _ F _ N) as X. cbn in X. lia.
Qed.
End Library.

(** ** Runs of two threads *)
Inductive solo {A} : prog A -> mem -> prog A -> mem -> Prop :=
| solo_none p m : solo p m p m
| solo_one p m p1 m1 p2 m2 : step1 p m = Some (p1, m1) -> solo p1 m1 p2 m2 -> solo p m p2 m2.
Lemma solo_first {A} (p p' q : prog A) m m' s : solo p m p' m' -> steps (m', [p'; q]) s -> steps (m, [p; q]) s.
Proof. induction 1 as [|? ? ? ? ? ? S H IH]; auto. intros T. apply (steps_one _ [] _ [q] _ _ _ S). cbn. auto. Qed.
Lemma solo_second {A} (p q q' : prog A) m m' s : solo q m q' m' -> steps (m', [p; q']) s -> steps (m, [p; q]) s.
Proof. induction 1 as [|? ? ? ? ? ? S H IH]; auto. intros T. apply (steps_one _ [p] _ [] _ _ _ S). cbn. auto. Qed.

Lemma steps_trans {A} (s s' s'' : mem * list (prog A)) : steps s s' -> steps s' s'' -> steps s s''.
Proof. induction 1; auto. intros. econstructor; eauto. Qed.

(** No thread waits: all can go on until they end. *)
Lemma solo_end {A} (p : prog A) : forall m, solo p m (Ret (fst (alone p m))) (snd (alone p m)).
Proof.
  induction p; intros m; cbn [alone].
  - constructor.
  - econstructor; [reflexivity|]. auto.
  - econstructor; [reflexivity|]. auto.
  - econstructor; [reflexivity|]. auto.
Qed.
Lemma solo_any {A} (p p' : prog A) m m' before after : solo p m p' m' -> steps (m, before ++ p :: after) (m', before ++ p' :: after).
Proof. induction 1 as [|? ? ? ? ? ? S H IH]; [constructor|]. econstructor; eauto. Qed.
Lemma all_end {A} (ps : list (prog A)) : forall m before, exists m' rs, steps (m, before ++ ps) (m', before ++ map (@Ret A) rs).
Proof.
  induction ps as [|p ps IH]; intros m before.
  - exists m, []. constructor.
  - pose proof (solo_any _ _ _ _ before ps (solo_end p m)) as S.
    destruct (IH (snd (alone p m)) (before ++ [Ret (fst (alone p m))])) as (m' & rs & T).
    exists m', (fst (alone p m) :: rs). eapply steps_trans; eauto. rewrite <- !app_assoc in T. exact T.
Qed.

(** C51: threads that use the library at the same time. *)
From Coq Require Import String ZArith List Lia.
From Verif Require Interp.Example.
From Verif Require Tables.Properties.
From Verif Require Import Base Varcode.Model Num.Float Varinfo.Model Tables.Model Tables.Spec
  Select.Model Select.Spec Conv.Model Threads.Model Threads.Spec Threads.Proofs.
Import ListNotations.
Local Open Scope Z_scope.

(** A program does some jobs with one thread.  Then any number of threads do the same jobs, in any order and any
    number of times each.  However their accesses are interleaved there is no data race, the shared memory does not change, and every job
    of every thread gives what it gave the first time, pointers included. *)
Theorem C51_threads : forall A E (js : list (job A)) xs m, alone (p_jobs E js) start = (Ok xs, m) ->
  forall ts m' ps, (forall t, In t ts -> incl t js) -> steps (m, map (p_jobs E) ts) (m', ps) ->
  m' = m /\ ~ race ps /\ length ps = length ts /\
  forall i t r, nth_error ts i = Some t -> nth_error ps i = Some (Ret r) ->
    exists ys, r = Ok ys /\ Forall2 (fun j y => In (j, y) (combine js xs)) t ys.
Proof.
  intros A E js xs m H ts m' ps Hts S.
  destruct (jobs_settle E js _ _ _ (start_ok E) H) as (O & G & F).
  assert (Q : forall t, In t ts -> exists ys, quiet (p_jobs E t) m /\ fst (alone (p_jobs E t) m) = Ok ys /\
    Forall2 (fun j y => In (j, y) (combine js xs)) t ys).
  { intros t It. apply quiet_jobs. intros j Ij. apply Hts in Ij; auto. clear - F Ij O.
    induction F as [|j0 x js xs R F IH]; [contradiction|]. destruct Ij as [->|Ij].
    - exists x. cbn [combine In]. split; auto. apply R; auto. apply grows_refl.
    - destruct IH as (y & I1 & R1); auto. exists y. cbn [combine In]. auto. }
  assert (Qs : Forall (fun p => quiet p m) (map (p_jobs E) ts)).
  { rewrite Forall_map, Forall_forall. intros t It. destruct (Q t It) as (ys & ? & _). auto. }
  destruct (quiet_steps _ _ S Qs) as [E1 F2]. cbn [fst snd] in *.
  split; auto. split.
  { apply (quiet_no_race _ m). clear - F2. induction F2 as [|? ? ? ? [? _]]; constructor; auto. }
  split; [apply Tables.AlterProofs.Forall2_len in F2; rewrite map_length in F2; auto|].
  intros i t r Ti Pi. pose proof (Q t (nth_error_In _ _ Ti)) as (ys & _ & Ry & Fy).
  exists ys. split; auto.
  assert (Mi : nth_error (map (p_jobs E) ts) i = Some (p_jobs E t)) by (apply map_nth_error; auto).
  clear - F2 Mi Pi Ry. revert i Mi Pi. induction F2 as [|p p' l l' [_ Ea] F IH]; intros [|i] Mi Pi; cbn in Mi, Pi; try discriminate.
  - injection Mi as ->. injection Pi as ->. cbn in Ea. rewrite <- Ea in Ry. auto.
  - eauto.
Qed.

(** Nothing blocks: whatever has happened so far, the threads can all go on to their end. *)
Theorem C51_threads_end : forall A (m : mem) (ps : list (prog A)), exists m' rs, steps (m, ps) (m', map (@Ret A) rs).
Proof. intros A m ps. exact (all_end ps m []). Qed.

(** One thread: a job that is done again, after any other jobs, gives the same and changes nothing. *)
Theorem C51_again : forall A B E (j : job A) m x m1 (js : list (job B)) ys m2, reached (A := B) E m ->
  alone (p_job E j) m = (Ok x, m1) -> alone (p_jobs E js) m1 = (Ok ys, m2) -> alone (p_job E j) m2 = (Ok x, m2).
Proof.
  intros A B E j m x m1 js ys m2 R H1 H2. apply reached_ok in R.
  destruct (settles_job E j m _ _ R I H1) as (O1 & G1 & _ & L1); [discriminate|].
  destruct (jobs_settle E js _ _ _ O1 H2) as (O2 & G2 & _).
  destruct (L1 _ O2 G2) as [Q F]. apply quiet_alone in Q. destruct (alone (p_job E j) m2) as [r m3]. cbn in *. congruence.
Qed.

(** What one thread gets does not depend on what was done before: the tables are those in the files
    chosen for the identifier (C30) among those listed by the directories at the first use. *)
Theorem C51_bufr_tables : forall A E m id, reached (A := A) E m -> exists m',
  match search_bufr id (listed (e_fs E) (default_dirs E)) with
  | None => alone (p_tables_bufr E id) m = (Err ENotFound, m')
  | Some t =>
    match read_table E BufrB (file_b t), read_table E BufrD (file_d t) with
    | Ok tb, Ok td => exists b d, alone (p_tables_bufr E id) m = (Ok (b, d), m') /\ cell m' (LObj b) = Some tb /\ cell m' (LObj d) = Some td
    | Ok _, Err e | Err e, _ => alone (p_tables_bufr E id) m = (Err e, m')
    | _, _ => alone (p_tables_bufr E id) m = (UB, m')
    end
  end.
Proof.
  intros A E m id R. apply reached_ok in R. destruct (alone (p_tables_bufr E id) m) as [r m'] eqn:H. exists m'.
  unfold p_tables_bufr in H. unfold pbind at 1 in H. rewrite alone_andthen in H.
  destruct (find_bufr_answer E id m R) as (m1 & A1).
  destruct (settles_find_bufr E id m _ _ R I A1) as (O1 & _); [discriminate|].
  rewrite A1 in H. cbn [fst snd] in H. destruct (search_bufr id _) as [t|]; [change (file_b t) with (path_b t); change (file_d t) with (path_d t)|injection H as <- _; reflexivity].
  unfold pbind at 1 in H. rewrite alone_andthen in H. destruct (load_answer E BufrB (path_b t) m1 O1) as (m2 & L2).
  destruct (read_table E BufrB (path_b t)) as [tb|e|].
  - destruct L2 as (b & A2 & C2). destruct (settles_load E BufrB (path_b t) m1 _ _ O1 I A2) as (O2 & _); [discriminate|].
    rewrite A2 in H. cbn [fst snd] in H. unfold pbind in H. rewrite alone_andthen in H. destruct (load_answer E BufrD (path_d t) m2 O2) as (m3 & L3).
    destruct (read_table E BufrD (path_d t)) as [td|e|].
    + destruct L3 as (d & A3 & C3). destruct (settles_load E BufrD (path_d t) m2 _ _ O2 I A3) as (O3 & G3 & _); [discriminate|].
      rewrite A3 in H. cbn [fst snd alone] in H. injection H as <- <-. exists b, d. split; [reflexivity|]. split; [apply (gr_obj _ _ G3), C2|exact C3].
    + rewrite L3 in H. injection H as <- _. reflexivity.
    + rewrite L3 in H. injection H as <- _. reflexivity.
  - rewrite L2 in H. injection H as <- _. reflexivity.
  - rewrite L2 in H. injection H as <- _. reflexivity.
Qed.
Theorem C51_crex_tables : forall A E m id, reached (A := A) E m -> exists m',
  match search_crex id (listed (e_fs E) (default_dirs E)) with
  | None => alone (p_tables_crex E id) m = (Err ENotFound, m')
  | Some t =>
    match read_table E CrexB (file_b t), read_table E CrexD (file_d t) with
    | Ok tb, Ok td => exists b d, alone (p_tables_crex E id) m = (Ok (b, d), m') /\ cell m' (LObj b) = Some tb /\ cell m' (LObj d) = Some td
    | Ok _, Err e | Err e, _ => alone (p_tables_crex E id) m = (Err e, m')
    | _, _ => alone (p_tables_crex E id) m = (UB, m')
    end
  end.
Proof.
  intros A E m id R. apply reached_ok in R. destruct (alone (p_tables_crex E id) m) as [r m'] eqn:H. exists m'.
  unfold p_tables_crex in H. unfold pbind at 1 in H. rewrite alone_andthen in H.
  destruct (find_crex_answer E id m R) as (m1 & A1).
  destruct (settles_find_crex E id m _ _ R I A1) as (O1 & _); [discriminate|].
  rewrite A1 in H. cbn [fst snd] in H. destruct (search_crex id _) as [t|]; [change (file_b t) with (path_b t); change (file_d t) with (path_d t)|injection H as <- _; reflexivity].
  unfold pbind at 1 in H. rewrite alone_andthen in H. destruct (load_answer E CrexB (path_b t) m1 O1) as (m2 & L2).
  destruct (read_table E CrexB (path_b t)) as [tb|e|].
  - destruct L2 as (b & A2 & C2). destruct (settles_load E CrexB (path_b t) m1 _ _ O1 I A2) as (O2 & _); [discriminate|].
    rewrite A2 in H. cbn [fst snd] in H. unfold pbind in H. rewrite alone_andthen in H. destruct (load_answer E CrexD (path_d t) m2 O2) as (m3 & L3).
    destruct (read_table E CrexD (path_d t)) as [td|e|].
    + destruct L3 as (d & A3 & C3). destruct (settles_load E CrexD (path_d t) m2 _ _ O2 I A3) as (O3 & G3 & _); [discriminate|].
      rewrite A3 in H. cbn [fst snd alone] in H. injection H as <- <-. exists b, d. split; [reflexivity|]. split; [apply (gr_obj _ _ G3), C2|exact C3].
    + rewrite L3 in H. injection H as <- _. reflexivity.
    + rewrite L3 in H. injection H as <- _. reflexivity.
  - rewrite L2 in H. injection H as <- _. reflexivity.
  - rewrite L2 in H. injection H as <- _. reflexivity.
Qed.

(** Altered definitions are those of C16, as a function of the loaded table. *)
Theorem C51_altered : forall A E m a t code s b r, reached (A := A) E m -> cell m (LObj a) = Some (OB t) -> fresh_table t ->
  match expected t (mkreq code s b r) with
  | Ok i => exists p m', alone (p_altered a code s b r) m = (Ok (p, i), m') /\ points m' p i
  | Err e => fst (alone (p_altered a code s b r) m) = Err e
  | UB => fst (alone (p_altered a code s b r) m) = UB
  end.
Proof. intros A E m a t code s b r R. apply altered_answer with (E := E). apply reached_ok in R. auto. Qed.

(** ** Without the first run *)
Definition give {A} (r : A) : job A := Done r.
Definition ask_for (c : call) : job (answer + err) := Call c give.

(** Two threads that are the first to load tables: a data race, whatever the tables, also if the files are different. *)
Theorem C51_first_use_refuted : forall E,
  (forall id id', exists m ps, steps (start, [p_job E (ask_for (CTablesBufr id)); p_job E (ask_for (CTablesBufr id'))]) (m, ps) /\ race ps) /\
  (forall k path path', exists m ps, steps (start, [p_job E (ask_for (CLoad k path)); p_job E (ask_for (CLoad k path'))]) (m, ps) /\ race ps).
Proof.
  intros E. split.
  - intros id id'. eexists _, _. split.
    + eapply (solo_first _ _ _ start start); [eapply solo_one; [reflexivity|apply solo_none]|]. apply steps_none.
    + cbn. exists 0%nat, 1%nat. do 2 eexists. exists LDirsPtr, true, false. repeat split; auto.
  - intros k path path'. eexists _, _. split.
    + eapply (solo_first _ _ _ start start); [eapply solo_one; [reflexivity|apply solo_none]|]. apply steps_none.
    + cbn. exists 0%nat, 1%nat. do 2 eexists. exists (LReg k), true, false. repeat split; auto.
Qed.

(** Two threads with the same, loaded table, that ask for the same alteration, made for none before: a data race.  Even if single
    accesses were atomic, each thread could end with a pointer of its own to an equal definition, and one of the two
    would never be given again. *)
Lemma altered_solo E m a t code e x s b r j : ok E m -> cell m (LObj a) = Some (OB t) -> query_entry t code = Ok (Some e) -> nth_error t e = Some x ->
  same_alteration (be_info x) s b r = false -> List.find (fun p => same_alteration (snd p) s b r) (cell m (LChain a e)) = None ->
  alter_checked (be_info x) s b r = Ok j ->
  solo (p_job E (ask_for (CAltered a code s b r))) m
    (Wr (LChain a e) ((next m, j) :: cell m (LChain a e)) (Ret (Ok (inl (AInfo (Own (next m)) j))))) (alloc m (OAlt j)).
Proof.
  intros O C Q N Sa F Al.
  eapply solo_one; [reflexivity|]. cbn beta. rewrite C, Q, N, Sa.
  eapply solo_one; [reflexivity|]. cbn beta. rewrite F, Al.
  eapply solo_one; [reflexivity|]. cbn beta.
  eapply solo_one; [reflexivity|]. cbn beta. rewrite alloc_other by congruence. apply solo_none.
Qed.

Theorem C51_same_alteration_refuted : forall A E m a t code e x s b r j, reached (A := A) E m -> cell m (LObj a) = Some (OB t) ->
  query_entry t code = Ok (Some e) -> nth_error t e = Some x -> same_alteration (be_info x) s b r = false ->
  (forall p i, In (p, i) (cell m (LChain a e)) -> same_alteration i s b r = false) -> alter_checked (be_info x) s b r = Ok j ->
  let both := [p_job E (ask_for (CAltered a code s b r)); p_job E (ask_for (CAltered a code s b r))] in
  (exists m' ps, steps (m, both) (m', ps) /\ race ps) /\
  exists m' p q, steps (m, both) (m', [Ret (Ok (inl (AInfo (Own p) j))); Ret (Ok (inl (AInfo (Own q) j)))]) /\ p <> q /\
    fst (alone (p_job E (ask_for (CAltered a code s b r))) m') = Ok (inl (AInfo (Own p) j)).
Proof.
  intros A E m a t code e x s b r j R C Q N Sa Hc Al both. apply reached_ok in R.
  assert (F : List.find (fun p => same_alteration (snd p) s b r) (cell m (LChain a e)) = None).
  { destruct (List.find _ _) as [[p i]|] eqn:F; auto. apply find_some in F as [J K]. cbn in K. rewrite (Hc _ _ J) in K. discriminate. }
  pose proof (altered_solo E m a t code e x s b r j R C Q N Sa F Al) as S1.
  set (m1 := alloc m (OAlt j)) in *. pose proof (ok_alloc E m (OAlt j) R : ok E m1) as O1.
  assert (C1 : cell m1 (LObj a) = Some (OB t)) by (apply (gr_obj _ _ (grows_alloc E m (OAlt j) R)); auto).
  assert (F1 : cell m1 (LChain a e) = cell m (LChain a e)) by (apply alloc_other; congruence).
  pose proof (altered_solo E m1 a t code e x s b r j O1 C1 Q N Sa ltac:(rewrite F1; exact F) Al) as S2.
  split.
  - eexists _, _. split.
    + eapply solo_first; [exact S1|]. eapply solo_second; [exact S2|]. apply steps_none.
    + exists 0%nat, 1%nat. do 2 eexists. exists (LChain a e), true, true. repeat split; auto.
  - eexists _, (next m), (next m1). split.
    + eapply solo_first; [exact S1|]. eapply solo_second; [exact S2|].
      eapply solo_second; [eapply solo_one; [reflexivity|apply solo_none]|].
      eapply solo_first; [eapply solo_one; [reflexivity|apply solo_none]|]. apply steps_none.
    + split; [unfold m1; cbn; lia|].
      assert (Sj : same_alteration j s b r = true).
      { destruct (Tables.AlterProofs.alter_checked_fields _ _ _ _ _ Al) as (_ & K1 & K2 & K3).
        unfold same_alteration. rewrite K1, K2, K3, !Z.eqb_refl. reflexivity. }
      set (m2 := alloc m1 (OAlt j)). assert (C2 : cell m2 (LObj a) = Some (OB t)) by (apply (gr_obj _ _ (grows_alloc E m1 (OAlt j) O1)); auto).
      clearbody m2. unfold ask_for. cbn [p_job p_call]. unfold pbind, p_altered. cbn [andthen alone].
      rewrite !write_other by congruence. rewrite C2, Q, N, Sa. cbn [andthen alone]. rewrite write_same. cbn [List.find snd]. rewrite Sj. reflexivity.
Qed.

(** ** Examples *)
Definition ex_dir : list Z := Interp.Example.chars "/usr/share/wreport".
Definition ex_b : list Z := Interp.Example.chars "B0000000000000014000.txt".
Definition ex_d : list Z := Interp.Example.chars "D0000000000000014000.txt".
Definition ex_env : env :=
  mkenv [ex_dir ++ [47]; ex_dir]
    (fun d => if zlist_eqb d ex_dir then [ex_d; ex_b] else [])
    (fun f => if zlist_eqb f (ex_dir ++ 47 :: ex_b) then Some Tables.Properties.bfile
              else if zlist_eqb f (ex_dir ++ 47 :: ex_d) then Some (render Tables.Properties.dsource) else None)
    repo0.

(** A job that loads the tables for a message, asks for an altered definition twice and for one that cannot be, and expands a sequence. *)
Definition seen (x : answer + err) : list (nat * Z) :=
  match x with
  | inl (AInfo (Own p) i) => [(p, vi_scale i)]
  | inl (AInfo (Inside a e) i) => [(a, vi_scale i); (e, 0)]
  | inl (AOps o) => map (fun c => (O, c)) (slice o)
  | inl _ => []
  | inr _ => [(99%nat, 0)]
  end.
Definition ex_job (master scale : Z) : job (list (list (nat * Z))) :=
  Call (CTablesBufr (mkbid 200 0 0 master 0)) (fun x =>
    match x with
    | inl (ATables b d) =>
      Call (CAltered b (wr_var 0 12 101) scale 20 0) (fun y => Call (CAltered b (wr_var 0 12 101) 77 20 0) (fun z =>
      Call (CAltered b (wr_var 0 12 101) scale 20 0) (fun u => Call (CQuery b (wr_var 0 12 101)) (fun v =>
      Call (CDquery d (wr_var 3 1 1)) (fun w => Done (map seen [y; z; u; v; w]))))))
    | _ => Done []
    end).
(** Both jobs are chosen the tables of version 14; a version after the last cannot be had. *)
Example C51_example : fst (alone (p_jobs ex_env [ex_job 14 3; ex_job 12 4; ex_job 15 3]) start) =
  Ok [[[(2%nat, 3)]; [(99%nat, 0)]; [(2%nat, 3)]; [(0%nat, 2); (1%nat, 0)]; [(0%nat, wr_var 0 1 1); (0%nat, wr_var 0 1 2)]];
      [[(3%nat, 4)]; [(99%nat, 0)]; [(3%nat, 4)]; [(0%nat, 2); (1%nat, 0)]; [(0%nat, wr_var 0 1 1); (0%nat, wr_var 0 1 2)]];
      []].
Proof. vm_compute. reflexivity. Qed.

Definition alterable (m : mem) : bool :=
  match cell m (LObj 0) with
  | Some (OB t) =>
    match query_entry t (wr_var 0 12 101), nth_error t 1 with
    | Ok (Some 1%nat), Some x => negb (same_alteration (be_info x) 3 20 0) && match alter_checked (be_info x) 3 20 0 with Ok _ => true | _ => false end
    | _, _ => false
    end
  | _ => false
  end.
Lemma alterable_spec m : alterable m = true -> exists t x j, cell m (LObj 0) = Some (OB t) /\
  query_entry t (wr_var 0 12 101) = Ok (Some 1%nat) /\ nth_error t 1 = Some x /\ same_alteration (be_info x) 3 20 0 = false /\
  alter_checked (be_info x) 3 20 0 = Ok j.
Proof.
  unfold alterable. destruct (cell m (LObj 0)) as [[t| |]|]; try discriminate.
  destruct (query_entry t (wr_var 0 12 101)) as [[[|[|n]]|]| |] eqn:Q; try discriminate.
  destruct (nth_error t 1) as [x|] eqn:N; try discriminate. intros H. apply andb_true_iff in H as [H1 H2].
  destruct (alter_checked (be_info x) 3 20 0) as [j| |] eqn:A; try discriminate. apply negb_true_iff in H1.
  exists t, x, j. auto.
Qed.

(** The hypotheses of C51_same_alteration_refuted: a state reached by loading the table. *)
Example C51_alteration_example : exists m t x j, reached (A := answer + err) ex_env m /\ cell m (LObj 0) = Some (OB t) /\
  query_entry t (wr_var 0 12 101) = Ok (Some 1%nat) /\ nth_error t 1 = Some x /\ same_alteration (be_info x) 3 20 0 = false /\
  (forall p i, In (p, i) (cell m (LChain 0 1)) -> same_alteration i 3 20 0 = false) /\ alter_checked (be_info x) 3 20 0 = Ok j.
Proof.
  assert (R : reached (A := answer + err) ex_env (snd (alone (p_job ex_env (ask_for (CLoad BufrB (ex_dir ++ 47 :: ex_b)))) start))).
  { eapply (reached_job ex_env start (ask_for (CLoad BufrB (ex_dir ++ 47 :: ex_b)))); [apply reached_start|].
    apply injective_projections; [vm_compute; reflexivity|reflexivity]. }
  assert (T : alterable (snd (alone (p_job ex_env (ask_for (CLoad BufrB (ex_dir ++ 47 :: ex_b)))) start)) = true) by (vm_compute; reflexivity).
  apply alterable_spec in T.
  destruct T as (t & x & j & T1 & T2 & T3 & T4 & T5).
  do 4 eexists. split; [exact R|]. split; [exact T1|]. split; [exact T2|]. split; [exact T3|]. split; [exact T4|]. split; [|exact T5].
  intros p i J. vm_compute in J. destruct J.
Qed.

Print Assumptions C51_threads.
Print Assumptions C51_threads_end.
Print Assumptions C51_again.
Print Assumptions C51_bufr_tables.
Print Assumptions C51_crex_tables.
Print Assumptions C51_altered.
Print Assumptions C51_first_use_refuted.
Print Assumptions C51_same_alteration_refuted.

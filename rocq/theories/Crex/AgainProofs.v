(** Decoded CREX subsets can be transmitted, and arrive as they are. *)
From Coq Require Import ZArith Lia ZifyBool ZifyNat String.
From Verif Require Import Base Bits.Spec Bits.StringProofs Num.Float Varcode.Model Varinfo.Model Varinfo.Proofs Varinfo.RangeProofs Tables.Model Tables.Spec Tables.Proofs Tables.AlterProofs Var.Model Var.CodecProofs
  Interp.Model Interp.ExpandProofs Interp.Appears Interp.Sim Interp.SureProofs Interp.Holds Interp.Follow Codec.Model Codec.Spec Codec.Proofs Codec.ColumnProofs Crex.Model Crex.Spec Crex.Again Crex.ValueProofs Crex.Proofs Crex.MessageProofs.
Local Open Scope Z_scope.

(** ** What one value reads as *)
Definition clean (c : cin) : Prop :=
  ci_check c = false /\ Forall (fun b => 1 <= b < 256) (ci_rest c) /\ skip_space (ci_rest c) = ci_rest c.

Lemma forall_skipn {A} (P : A -> Prop) n l : Forall P l -> Forall P (skipn n l).
Proof. revert l. induction n as [|n IH]; intros l F; [exact F|]. destruct l; [constructor|]. inversion F. cbn. auto. Qed.
Lemma forall_firstn {A} (P : A -> Prop) n l : Forall P l -> Forall P (firstn n l).
Proof. revert l. induction n as [|n IH]; intros l F; [constructor|]. destruct l; [constructor|]. inversion F. cbn. auto. Qed.
Lemma forall_skip_space (P : Z -> Prop) l : Forall P l -> Forall P (skip_space l).
Proof. induction 1 as [|c l Hc F IH]; [constructor|]. cbn [skip_space]. destruct (c_isspace c); [exact IH|constructor; auto]. Qed.
Lemma forall_trim (P : Z -> Prop) l : Forall P l -> Forall P (trim l).
Proof.
  induction 1 as [|c l Hc F IH]; [constructor|]. cbn [trim]. destruct (trim l); [destruct (c_isspace c); auto|constructor; auto].
Qed.
Lemma trim_length l : (length (trim l) <= length l)%nat.
Proof. induction l as [|c l IH]; [cbn; lia|]. cbn [trim]. destruct (trim l); [destruct (c_isspace c); cbn; lia|cbn [length] in *; lia]. Qed.
Lemma trim_end l : no_space_at_end (trim l) = true.
Proof.
  induction l as [|c l IH]; [reflexivity|]. cbn [trim]. destruct (trim l) as [|d r]; [|exact IH].
  destruct (c_isspace c) eqn:E; [reflexivity|]. unfold no_space_at_end. cbn [last]. rewrite E. reflexivity.
Qed.
Lemma trim_head c l : c_isspace c = false -> exists r, trim (c :: l) = c :: r.
Proof. intros H. cbn [trim]. destruct (trim l); [rewrite H|]; eauto. Qed.

Lemma seti_plain o i k c : plain_options o -> seti o (fresh i) k = Done c ->
  is_numeric (vi_type i) = true /\ vi_imin i <= k <= vi_imax i /\ c = mkcell i (Some (VInt k)).
Proof.
  intros (P1 & P2 & P3) E. unfold seti in E. cbn [fresh c_info] in E. destruct (is_numeric (vi_type i)); [|discriminate].
  unfold assign_i_checked in E. cbn [fresh c_info] in E. rewrite P1, P2, P3 in E.
  destruct ((k <? vi_imin i) || (vi_imax i <? k)) eqn:Er; [discriminate|]. injection E as <-. split; [reflexivity|]. split; [lia|reflexivity].
Qed.

Lemma cstr_clean s : Forall (fun b => 1 <= b < 256) s -> cstr (s ++ [0]) = s.
Proof. induction 1 as [|c s Hc F IH]; [reflexivity|]. cbn [app cstr]. replace (c =? 0) with false by lia. rewrite IH. reflexivity. Qed.

Lemma read_again o i c n v c' : plain_options o -> clean c -> read_variable o i c = Ok (n, v, c') ->
  clean c' /\ c_info v = i /\ n = count_of (c_val v) /\ (again_definition i = true -> crex_fits false i (c_val v) = true).
Proof.
  intros Po (K & F & S) E. unfold read_variable in E. inv_bind E. destruct a as [[here field] c1].
  unfold parse_value in Hb. inv_bind Hb. rename Hb0 into Ha. rewrite K in Hk0. cbn [bind] in Hk0. apply ok_inj in Hk0.
  assert (Eh : here = ci_rest c) by congruence.
  set (m := if (match vi_type i with TString => false | _ => true end) && (ci_cur c =? 45) then Datatypes.S (ilen i) else ilen i) in *.
  assert (Ef : field = trim (firstn m (ci_rest c))) by congruence.
  assert (Ec : c1 = skip_data_and_spaces m c) by congruence. clear Hk0.
  assert (Hc1 : clean c1).
  { subst c1. unfold clean, skip_data_and_spaces, skip_spaces, with_rest. cbn [ci_check ci_rest]. split; [exact K|]. split; [|apply skip_space_idem].
    apply forall_skip_space, forall_skipn, F. }
  subst here.
  destruct (Z.eqb_spec (hd 0 (ci_rest c)) 47) as [H47|H47].
  { assert (c' = c1 /\ v = fresh i /\ n = 4294967295) as (-> & -> & ->) by (split; [|split]; congruence).
    split; [exact Hc1|]. split; [reflexivity|]. split; [reflexivity|]. intros D. unfold again_definition in D. rewrite !andb_true_iff in D.
    unfold crex_fits. rewrite !andb_true_iff. destruct D as ((((D1 & D2) & D3) & _) & _). split; [lia|]. cbn [fresh c_val]. destruct (vi_type i); try reflexivity. discriminate. }
  unfold check_available in Ha. destruct (Nat.ltb (length (ci_rest c)) (ilen i + 2)) eqn:El; [discriminate|].
  destruct (vi_type i) eqn:Et.
  1,2,4: inv_bind Hk; destruct (seti o (fresh i) (to_int (c_strtol (ci_rest c)))) as [w|? ?|] eqn:Es; try discriminate;
       cbn [of_outcome] in Hb; apply ok_inj in Hb; subst a0;
       assert (c' = c1 /\ v = w /\ n = u32 (to_int (c_strtol (ci_rest c)))) as (-> & -> & ->) by (split; [|split]; congruence);
       apply seti_plain in Es as (N & R & ->); [|exact Po]; try (rewrite Et in N; discriminate N);
       (split; [exact Hc1|]); (split; [reflexivity|]); (split; [reflexivity|]); intros D; unfold again_definition in D; rewrite !andb_true_iff in D;
       destruct D as ((((D1 & D2) & D3) & D4) & D5); rewrite Et in D3; try discriminate D3; rewrite Et in *; unfold crex_fits; rewrite !andb_true_iff; (split; [lia|]);
       cbn [c_val]; rewrite Et; unfold crex_number; rewrite !andb_true_iff; repeat split; try lia; unfold in_int, to_int, wrap_int, int_min, int_max;
       pose proof (Z.mod_pos_bound (c_strtol (ci_rest c) + 2 ^ 31) (2 ^ 32) ltac:(lia)); lia.
  rewrite setc_string in Hk by exact Et. cbn [of_outcome bind] in Hk.
  assert (c' = c1 /\ n = 4294967295) as (-> & ->) by (split; congruence).
  assert (Ev : v = mkcell i (Some (VStr field))).
  { apply ok_inj, (f_equal fst), (f_equal snd) in Hk. cbn [fst snd] in Hk. rewrite <- Hk. unfold with_val, fresh. cbn [c_info]. do 3 f_equal.
    assert (Ff : Forall (fun b => 1 <= b < 256) field) by (subst field; apply forall_trim, forall_firstn, F).
    assert (Lf : (length field <= ilen i)%nat).
    { subst field. etransitivity; [apply trim_length|]. rewrite firstn_length. unfold m. cbn [andb]. lia. }
    rewrite cstr_id by (eapply Forall_impl; [|exact Ff]; cbv beta; lia). apply firstn_all2. exact Lf. }
  subst v. split; [exact Hc1|]. split; [reflexivity|]. split; [reflexivity|]. intros D. unfold again_definition in D. rewrite !andb_true_iff in D.
  destruct D as ((((D1 & D2) & D3) & _) & _). unfold crex_fits. rewrite !andb_true_iff. split; [lia|]. cbn [c_val]. rewrite Et. unfold crex_text.
  assert (Ff : Forall (fun b => 1 <= b < 256) field) by (subst field; apply forall_trim, forall_firstn, F).
  assert (Lf : (length field <= ilen i)%nat).
  { subst field. etransitivity; [apply trim_length|]. rewrite firstn_length. unfold m. cbn [andb]. lia. }
  assert (Hd : exists r, field = hd 0 (ci_rest c) :: r /\ c_isspace (hd 0 (ci_rest c)) = false).
  { destruct (ci_rest c) as [|x rest] eqn:Er; [cbn [length] in El; lia|]. cbn [hd].
    assert (Sx : c_isspace x = false).
    { cbn [skip_space] in S. destruct (c_isspace x) eqn:Ex; [|reflexivity]. exfalso.
      assert (Ls : forall l, (length (skip_space l) <= length l)%nat) by (clear; induction l as [|y l IH]; [cbn; lia|]; cbn [skip_space]; destruct (c_isspace y); cbn [length] in *; lia).
      specialize (Ls rest). rewrite S in Ls. cbn [length] in Ls. lia. }
    subst field m. cbn [andb]. destruct (ilen i) as [|l] eqn:Ei; [unfold ilen in Ei; lia|]. cbn [firstn].
    destruct (trim_head x (firstn l rest) Sx) as (r & ->). eauto. }
  destruct Hd as (r & Er & Sx). rewrite !andb_true_iff. repeat split.
  - unfold ilen in Lf. lia.
  - apply forallb_forall. intros ch Hch. rewrite Forall_forall in Ff. specialize (Ff ch Hch). lia.
  - rewrite Er. cbn [hd]. lia.
  - rewrite Ef. apply trim_end.
  - rewrite Er. rewrite Sx. reflexivity.
Qed.

(** ** Whole subsets *)

Definition is_binary (v : var) : Prop := vi_type (c_info (v_cell v)) = TBinary.

Lemma set_binary_type code bits i : set_binary code bits = Ok i -> vi_type i = TBinary.
Proof. unfold set_binary, compute_range. intros E. inv_bind E. destruct a. apply ok_inj in Hk. subst. reflexivity. Qed.

Section Decoded.
Context (o : options) (T : tables) (vars : list var).
Hypothesis Po : plain_options o.

Lemma read_step i s n s' : clean (cd_in s) -> cd_read o i s = Ok (n, s') ->
  clean (cd_in s') /\ cd_lt s' = cd_lt s /\
  exists v, cd_vars s' = cd_vars s ++ [mkvar v []] /\ c_info v = i /\ n = count_of (c_val v) /\
    (again_definition i = true -> crex_fits false i (c_val v) = true).
Proof.
  intros C E. unfold cd_read in E. inv_bind E. destruct a as [[n1 v] c1]. apply ok_inj in Hk.
  apply read_again in Hb as (C1 & I1 & N1 & D1); [|exact Po|exact C].
  assert (n = n1) as -> by congruence. assert (s' = mkcdec c1 (cd_vars s ++ [mkvar v []]) (cd_lt s)) as -> by congruence.
  cbn [cd_in cd_lt cd_vars]. split; [exact C1|]. split; [reflexivity|]. exists v. auto.
Qed.
Lemma var_step i s s' : clean (cd_in s) -> cd_var o i s = Ok s' ->
  clean (cd_in s') /\ cd_lt s' = cd_lt s /\
  exists v, cd_vars s' = cd_vars s ++ [mkvar v []] /\ c_info v = i /\ (again_definition i = true -> crex_fits false i (c_val v) = true).
Proof.
  intros C E. unfold cd_var in E. inv_bind E. destruct a as [n s1]. apply ok_inj in Hk. subst s1.
  apply read_step in Hb as (C1 & L1 & v & V1 & I1 & _ & D1); [|exact C]. split; [exact C1|]. split; [exact L1|]. exists v. auto.
Qed.

(** Elements that are not in the tables are seen in the result. *)
Definition shown (s : cdec) : Prop := clean (cd_in s) /\ (cd_lt s = empty_local \/ Exists is_binary (cd_vars s)).

Lemma shown_read i s n s' : shown s -> cd_read o i s = Ok (n, s') -> shown s'.
Proof.
  intros (C & H) E. apply read_step in E as (C1 & L1 & v & V1 & _); [|exact C]. split; [exact C1|]. rewrite L1, V1.
  destruct H as [H|H]; [left; exact H|right; apply Exists_app; left; exact H].
Qed.
Lemma shown_var i s s' : shown s -> cd_var o i s = Ok s' -> shown s'.
Proof. intros H E. unfold cd_var in E. inv_bind E. destruct a as [n s1]. apply ok_inj in Hk. subst. eapply shown_read; eauto. Qed.

Lemma shown_run fuel ops x y : shown (snd x) -> run (c_decoder o) T fuel ops x = Ok y -> shown (snd y).
Proof.
  intros H. refine (run_holds (c_decoder o) T (fun _ => shown) (fun _ => True) _ _ _ _ _ fuel ops x _ H y); clear - Po.
  - intros code st s _ H y E. unfold b_variable in E. destruct (negb (is_refbits st =? 0)); [cbn [on_refval c_decoder] in E; discriminate|].
    inv_bind E. destruct ((var_f code =? 0) && (var_x code =? 33) && _).
    { inv_bind Hk. destruct a0 as [pos st']. cbn [on_attr c_decoder bind] in Hk0. discriminate. }
    destruct (negb (is_afbits st =? 0)); [cbn [on_var_af c_decoder bind] in Hk; discriminate|]. inv_bind Hk. apply ok_inj in Hk0. subst y. cbn [snd].
    cbn [on_var c_decoder] in *. eapply shown_var; eauto.
  - intros code next st s _ _ H y E. split; [|intros; apply Forall_forall; auto]. unfold c_modifier in E. cbv zeta in E.
    assert (P : forall a b, Ok (a, b, s) = Ok y -> shown (snd y)) by (intros a b X; apply ok_inj in X; subst y; exact H).
    destruct (var_x code =? 1); [eauto|]. destruct (var_x code =? 2); [eauto|]. destruct (var_x code =? 3); [eauto|].
    destruct (var_x code =? 4).
    { destruct (negb (var_y code =? 0) && negb (is_afbits st =? 0)); [discriminate|]. destruct (32 <? var_y code); [discriminate|].
      destruct (var_y code =? 0); [eauto|]. inv_bind E. destruct a as [c nx]. destruct (negb (c =? var_B31021)); [discriminate|].
      inv_bind Hk. cbn [on_significance c_decoder bind] in Hk0. discriminate. }
    destruct (var_x code =? 5); [cbn [on_raw c_decoder bind] in E; discriminate|].
    destruct (var_x code =? 6).
    { inv_bind E. destruct a as [c nx]. destruct (var_y code =? 0); [eauto|]. inv_bind Hk. inv_bind Hk0. inv_bind Hk. destruct a1 as [i s1].
      inv_bind Hk0. apply ok_inj in Hk. subst y. cbn [snd]. cbn [on_var c_decoder] in Hb3. destruct a0 as [j|].
      - assert (s1 = s) as -> by congruence. eapply shown_var; eauto.
      - cbn [on_unknown c_decoder] in Hb2. unfold cd_unknown in Hb2. inv_bind Hb2. destruct a0 as [j lt]. apply ok_inj in Hk.
        assert (j = i) as -> by congruence. assert (s1 = mkcdec (cd_in s) (cd_vars s) lt) as -> by congruence. clear Hk.
        destruct H as [C H]. apply var_step in Hb3 as (C1 & L1 & v & V1 & I1 & _); [|exact C]. split; [exact C1|]. right. rewrite V1. cbn [cd_vars].
        apply Exists_app. destruct H as [H|H]; [|left; exact H]. right. apply Exists_cons_hd. unfold is_binary. cbn [v_cell]. rewrite I1.
        match goal with X : get_unknown _ _ _ = _ |- _ => rename X into Gu end. rewrite H in Gu.
        unfold get_unknown in Gu. cbn [empty_local lt_unknown assoc] in Gu. inv_bind Gu. assert (i = a0) as -> by congruence.
        eapply set_binary_type; eauto. }
    destruct (var_x code =? 7); [eauto|]. destruct (var_x code =? 8); [eauto|].
    destruct (var_x code =? 22); [destruct (negb (var_y code =? 0)); [discriminate|eauto]|].
    destruct (var_x code =? 23).
    { destruct (var_y code =? 0); [eauto|]. destruct (var_y code =? 255); [|discriminate]. inv_bind E. destruct a as [pos st']. cbn [on_subst c_decoder bind] in Hk. discriminate. }
    destruct (var_x code =? 37); [|eauto]. destruct (var_y code =? 0); [eauto|]. destruct (var_y code =? 255); [eauto|discriminate].
  - intros i code st s _ H [n s'] E. cbn [on_factor c_decoder snd] in *. eapply shown_read; eauto.
  - intros code delayed ops st s H y E. unfold r_bitmap in E. destruct (negb (var_x code =? 1)); [discriminate|].
    destruct (negb (hd 0 ops =? var_B31031)); [discriminate|]. inv_bind E. destruct a as [n s1]. cbn [on_bitmap c_decoder bind] in Hk. discriminate.
  - intros. apply Forall_forall. auto.
  - apply Forall_forall. auto.
Qed.

(** Without operators, the variables have the definitions of the table. *)
Definition unaltered (st : istate) : Prop := is_scale st = 0 /\ is_width st = 0 /\ is_strlen st = 0 /\ is_srw st = 0 /\ is_refs st = [].
Definition from_tables (s : cdec) : Prop :=
  clean (cd_in s) /\ Forall (fun v => exists code, query (tb_b T) code = Ok (c_info (v_cell v))) (cd_vars s).

Lemma plain_run fuel ops x y : (forall code, appears T ops code -> var_f code <> 2) -> unaltered (fst x) -> from_tables (snd x) ->
  run (c_decoder o) T fuel ops x = Ok y -> from_tables (snd y).
Proof.
  intros A H1 H2 E.
  assert (Step : forall i code s s', query (tb_b T) code = Ok i -> from_tables s -> (exists n, cd_read o i s = Ok (n, s')) -> from_tables s').
  { intros i code s s' Q (C & F) (n & R). apply read_step in R as (C1 & _ & v & V1 & I1 & _); [|exact C]. split; [exact C1|]. rewrite V1.
    apply Forall_app. split; [exact F|]. constructor; [|constructor]. exists code. cbn [v_cell]. rewrite I1. exact Q. }
  refine (proj2 (run_holds (c_decoder o) T (fun st s => unaltered st /\ from_tables s) (appears T ops) _ _ _ _ _ fuel ops x (appears_here T ops) (conj H1 H2) y E)); clear E.
  - intros code st s _ (U & Fs) z E. unfold b_variable in E. destruct (negb (is_refbits st =? 0)); [cbn [on_refval c_decoder] in E; discriminate|].
    inv_bind E. destruct ((var_f code =? 0) && (var_x code =? 33) && _).
    { inv_bind Hk. destruct a0 as [pos st']. cbn [on_attr c_decoder bind] in Hk0. discriminate. }
    destruct (negb (is_afbits st =? 0)); [cbn [on_var_af c_decoder bind] in Hk; discriminate|]. inv_bind Hk. apply ok_inj in Hk0. subst z. cbn [fst snd].
    split; [exact U|]. cbn [on_var c_decoder] in Hb0. unfold cd_var in Hb0. inv_bind Hb0. destruct a1 as [n s1]. apply ok_inj in Hk. subst s1.
    eapply (Step a code); eauto. unfold get_varinfo in Hb. destruct U as (U1 & U2 & U3 & U4 & U5). rewrite U1, U2, U3, U4, U5 in Hb. cbn [Z.eqb andb] in Hb.
    inv_bind Hb. congruence.
  - intros code next st s Ac F2 _ z _. exfalso. exact (A code Ac F2).
  - intros i code st s Q (U & Fs) [n s'] E. cbn [on_factor c_decoder snd] in *. split; [exact U|]. eapply (Step i code); eauto.
  - intros code delayed ops0 st s _ z E. unfold r_bitmap in E. destruct (negb (var_x code =? 1)); [discriminate|].
    destruct (negb (hd 0 ops0 =? var_B31031)); [discriminate|]. inv_bind E. destruct a as [n s1]. cbn [on_bitmap c_decoder bind] in Hk. discriminate.
  - intros code body Ac F3 D. eapply appears_inside; eauto.
Qed.

(** ** The transmission of what was decoded *)
Definition le (s s' : cdec) : Prop :=
  (exists l, cd_vars s' = cd_vars s ++ l) /\ (cd_lt s' = empty_local -> cd_lt s = empty_local).
Definition seen (s : cdec) : Prop := (exists l, vars = cd_vars s ++ l) /\ cd_lt s = empty_local.
Definition rel (s : cdec) (x : cxfer) : Prop := cx_got x = cd_vars s /\ cx_pos x = length (cd_vars s).

Lemma again_factors_at l rest k v : again_factors (l ++ mkvar v [] :: rest) = true -> four_digits (c_code v) = true -> c_val v = k ->
  exists n, k = Some (VInt n) /\ cx_factor_fits (c_info v) n (nth_error (l ++ mkvar v [] :: rest) (S (length l))) = true.
Proof.
  intros F D <-. assert (N : nth_error (l ++ mkvar v [] :: rest) (S (length l)) = hd_error rest).
  { rewrite nth_error_app2 by lia. replace (S (length l) - length l)%nat with 1%nat by lia. destruct rest; reflexivity. }
  rewrite N. clear N. induction l as [|w l IH]; cbn [app again_factors] in F; apply andb_true_iff in F as [F1 F2]; [|auto].
  cbn [v_cell] in F1. rewrite D in F1. cbn [negb orb] in F1. destruct (c_val v) as [[n| |]|]; try discriminate. eauto.
Qed.

Lemma get_var_at (l : list var) v rest : get_var (l ++ v :: rest) (length l) = Ok v.
Proof. unfold get_var. rewrite nth_error_app2 by lia. rewrite Nat.sub_diag. reflexivity. Qed.

Hypothesis Hv : again_subset vars = true.

Lemma taken s v i x s' : rel s x -> cd_vars s' = cd_vars s ++ [mkvar v []] -> c_info v = i -> seen s' ->
  cx_take vars i x = Ok (mkvar v []) /\ again_definition i = true /\ rel s' (cx_give (mkvar v []) x) /\
  (four_digits (c_code v) = true -> exists n, c_val v = Some (VInt n) /\ cx_factor_fits i n (nth_error vars (S (cx_pos x))) = true).
Proof.
  intros (R1 & R2) E <- ((l & El) & _). rewrite E, <- app_assoc in El. cbn [app] in El. unfold again_subset in Hv.
  apply andb_true_iff in Hv as [Hd Hf]. split; [|split; [|split]].
  - unfold cx_take. rewrite R2, El, get_var_at. cbn [bind v_cell]. destruct (varinfo_eq_dec (c_info v) (c_info v)); [reflexivity|contradiction].
  - rewrite forallb_forall in Hd. apply (Hd (mkvar v [])). rewrite El. apply in_or_app. right. left. reflexivity.
  - unfold rel, cx_give. cbn [cx_got cx_pos]. rewrite E, R1, R2, app_length. cbn [length]. split; [reflexivity|lia].
  - intros F. rewrite R2. rewrite El in *. eapply again_factors_at; eauto.
Qed.

Theorem decoded_transfer fuel ops c st s : clean c ->
  run (c_decoder o) T fuel ops (ist_init, mkcdec c [] empty_local) = Ok (st, s) -> cd_vars s = vars ->
  crex_transfer vars T fuel ops = Ok vars.
Proof.
  intros C E Ev.
  assert (Lt : cd_lt s = empty_local).
  { pose proof (shown_run fuel ops (ist_init, mkcdec c [] empty_local) (st, s)) as Sh. cbn [snd] in Sh.
    destruct Sh as (_ & [H|H]); [split; [exact C|left; reflexivity]|exact E|exact H|].
    exfalso. rewrite Ev in H. unfold again_subset in Hv. apply andb_true_iff in Hv as [Hd _]. rewrite forallb_forall in Hd.
    apply Exists_exists in H as (v & Hin & Hb). specialize (Hd v Hin). unfold again_definition in Hd. rewrite Hb, !andb_true_iff in Hd.
    destruct Hd as (((_ & X) & _) & _). discriminate. }
  pose proof (run_follows (c_decoder o) (c_transmitter vars) T (fun s => clean (cd_in s)) le seen rel (fun _ _ => True) (fun _ => True) (fun _ _ => True)) as RF.
  destruct (RF) with (fuel := fuel) (ops := ops) (st := ist_init) (s := mkcdec c [] empty_local) (st' := st) (s' := s) as (_ & _ & _ & K); auto; clear RF.
  - intros a. split; [exists []; rewrite app_nil_r; reflexivity|auto].
  - intros a b d ((l1 & L1) & T1) ((l2 & L2) & T2). split; [exists (l1 ++ l2); rewrite L2, L1, app_assoc; reflexivity|auto].
  - intros a b _ ((l1 & L1) & T1) ((l2 & L2) & T2). split; [exists (l1 ++ l2); rewrite L2, L1, app_assoc; reflexivity|auto].
  - intros; repeat split.
  - intros i _ a a' _ Ga Ea. cbn [on_var c_decoder c_transmitter] in *. apply var_step in Ea as (C1 & L1 & v & V1 & I1 & D1); [|exact Ga].
    split; [exact C1|]. split; [split; [exists [mkvar v []]; exact V1|rewrite L1; auto]|]. intros Sn x Rx.
    destruct (taken a v i x a' Rx V1 I1 Sn) as (Tk & Dn & Rn & _). exists (cx_give (mkvar v []) x). split; [|exact Rn].
    unfold cx_var. rewrite Tk. cbn [bind v_cell]. rewrite D1 by exact Dn. reflexivity.
  - intros st0 i _ _ a a' _ _ Ea. cbn [on_var_af c_decoder] in Ea. discriminate.
  - intros i _ X31 a n a' Ga Ea. cbn [on_factor c_decoder c_transmitter] in *. apply read_step in Ea as (C1 & L1 & v & V1 & I1 & N1 & D1); [|exact Ga].
    split; [exact Logic.I|]. split; [exact C1|]. split; [split; [exists [mkvar v []]; exact V1|rewrite L1; auto]|]. intros Sn x Rx.
    destruct (taken a v i x a' Rx V1 I1 Sn) as (Tk & Dn & Rn & Fn). exists (cx_give (mkvar v []) x). split; [|exact Rn].
    specialize (D1 Dn). unfold cx_factor. rewrite Tk. cbn [bind v_cell].
    assert (Code : c_code v = vi_code i) by (unfold c_code; rewrite I1; reflexivity). rewrite Code in Fn.
    destruct (c_val v) as [[k| |]|] eqn:Hval.
    + rewrite D1. cbn [andb]. assert (cx_factor_fits i k (nth_error vars (S (cx_pos x))) = true) as ->.
      { destruct (four_digits (vi_code i)) eqn:F4; [destruct (Fn eq_refl) as (k' & Ek & Hk); injection Ek as <-; exact Hk|].
        unfold cx_factor_fits. unfold four_digits in F4. rewrite F4. reflexivity. }
      cbn [guard bind]. rewrite N1. reflexivity.
    + exfalso. unfold crex_fits in D1. unfold again_definition in Dn. rewrite !andb_true_iff in *. destruct D1 as (_ & D1). destruct Dn as (((_ & Dn) & _) & _).
      rewrite X31 in Dn. destruct (vi_type i); discriminate.
    + exfalso. unfold crex_fits in D1. rewrite !andb_true_iff in *. destruct D1 as (_ & D1). destruct (vi_type i); discriminate.
    + rewrite D1. cbn [andb]. destruct (four_digits (vi_code i)); [destruct (Fn eq_refl) as (k' & Ek & _); discriminate|]. cbn [negb guard bind].
      rewrite N1. reflexivity.
  - intros i _ a n a' _ Ea. cbn [on_significance c_decoder] in Ea. discriminate.
  - intros p0 a a' _ _ Ea. cbn [on_subst c_decoder] in Ea. discriminate.
  - intros i p0 _ a a' _ _ Ea. cbn [on_attr c_decoder] in Ea. discriminate.
  - intros code a a' _ _ Ea. cbn [on_raw c_decoder] in Ea. discriminate.
  - intros st0 s0 code _ _ a r a' _ Ea. cbn [on_refval c_decoder] in Ea. discriminate.
  - intros code op _ a i a' Ga Ea. cbn [on_unknown c_decoder] in Ea. unfold cd_unknown in Ea. inv_bind Ea. destruct a0 as [j lt]. apply ok_inj in Hk.
    assert (a' = mkcdec (cd_in a) (cd_vars a) lt) as -> by congruence. cbn [cd_in].
    assert (Nl : lt <> empty_local).
    { unfold get_unknown in Hb. destruct (assoc Z.eqb (var_y op) (lt_unknown (cd_lt a))) as [i0|] eqn:Ea.
      - destruct (negb (vi_code i0 =? code)); [discriminate|]. assert (lt = cd_lt a) as -> by congruence. intros X. rewrite X in Ea. discriminate.
      - inv_bind Hb. assert (lt = mklocal (lt_bitmaps (cd_lt a)) (lt_chardata (cd_lt a)) ((var_y op, a0) :: lt_unknown (cd_lt a))) as -> by congruence. discriminate. }
    split; [exact Logic.I|]. split; [exact Ga|]. split; [split; [exists []; rewrite app_nil_r; reflexivity|cbn [cd_lt]; intros X; contradiction]|].
    intros Sn. destruct Sn as (_ & X). cbn [cd_lt] in X. contradiction.
  - intros code delayed ops0 st0 s0 st1 s1 _ _ _ Er. exfalso. unfold r_bitmap in Er. destruct (negb (var_x code =? 1)); [discriminate|].
    destruct (negb (hd 0 ops0 =? var_B31031)); [discriminate|]. inv_bind Er. destruct a as [n s2]. cbn [on_bitmap c_decoder bind] in Hk. discriminate.
  - destruct (K (conj (ex_intro _ [] (eq_trans (eq_sym Ev) (eq_sym (app_nil_r _)))) Lt) (mkcx 0 []) (conj eq_refl eq_refl)) as (x & Ex & (R1 & R2)).
    unfold crex_transfer. rewrite Ex. cbn [bind]. rewrite R1, R2, Ev, Nat.eqb_refl. reflexivity.
Qed.
End Decoded.

(** ** Headers *)
Definition bytes_ok (c : cin) : Prop := Forall (fun b => 1 <= b < 256) (ci_rest c).

Lemma skip_data_ok n c : bytes_ok c -> bytes_ok (skip_data_and_spaces n c) /\
  skip_space (ci_rest (skip_data_and_spaces n c)) = ci_rest (skip_data_and_spaces n c).
Proof.
  intros F. unfold bytes_ok, skip_data_and_spaces, skip_spaces, with_rest. cbn [ci_rest].
  split; [apply forall_skip_space, forall_skipn, F|apply skip_space_idem].
Qed.
Lemma word_ok n : forall s w r, word n s = (w, r) -> Forall (fun b => 1 <= b < 256) s -> Forall (fun b => 1 <= b < 256) r.
Proof.
  induction n as [|n IH]; intros s w r E F; cbn [word] in E; [destruct s; congruence|].
  destruct s as [|c s]; [congruence|]. destruct (c_isspace c); [congruence|]. destruct (word n s) as [w1 r1] eqn:Ew.
  assert (r = r1) as -> by congruence. inversion F. eapply IH; eauto.
Qed.
Lemma read_word_ok n c w c' : read_word n c = (w, c') -> bytes_ok c -> bytes_ok c'.
Proof.
  unfold read_word. destruct (word (n - 1) (ci_rest c)) as [w1 r] eqn:E. intros E1 F. assert (c' = skip_spaces (with_rest c r)) as -> by congruence.
  unfold bytes_ok, skip_spaces, with_rest. cbn [ci_rest]. apply forall_skip_space. eapply word_ok; eauto.
Qed.

Lemma descs_again fuel : forall c acc ops c', decode_descs fuel c acc = Ok (ops, c') -> bytes_ok c ->
  bytes_ok c' /\ skip_space (ci_rest c') = ci_rest c' /\ (length ops < fuel + length acc)%nat.
Proof.
  induction fuel as [|k IH]; intros c acc ops c' E F; cbn [decode_descs] in E; [discriminate|].
  destruct ((ci_cur c =? 66) || (ci_cur c =? 82) || (ci_cur c =? 67) || (ci_cur c =? 68)).
  { inv_bind E. inv_bind Hk. apply IH in Hk0; [|apply skip_data_ok, F]. rewrite app_length in Hk0. cbn [length] in Hk0.
    destruct Hk0 as (A & B & L). split; [exact A|]. split; [exact B|lia]. }
  destruct (ci_cur c =? 69).
  { apply IH in E; [|apply skip_data_ok, F]. destruct E as (A & B & L). split; [exact A|]. split; [exact B|lia]. }
  destruct (ci_cur c =? 43).
  { inv_bind E. destruct (negb _); [discriminate|]. apply ok_inj in Hk. assert (ops = acc) as -> by congruence.
    assert (c' = skip_data_and_spaces 2 c) as -> by congruence. destruct (skip_data_ok 2 c F). split; [auto|]. split; [auto|lia]. }
  apply IH in E; [|exact F]. destruct E as (A & B & L). split; [exact A|]. split; [exact B|lia].
Qed.

Lemma header_again fuel data h ops c : Forall (fun b => 1 <= b < 256) data -> decode_cheader fuel data = Ok (h, ops, c) ->
  (length ops < fuel)%nat /\ (ch_check h = false -> clean c) /\
  (ch_check h = false -> ch_subcategory h <> 255 \/ ch_subcategory_local h = 0 -> crex_received h = h).
Proof.
  intros F E. unfold decode_cheader in E. cbv zeta in E. inv_bind E. destruct (negb _); [discriminate|]. inv_bind Hk.
  destruct (negb _); [discriminate|].
  destruct (read_word 11 (skip_data_and_spaces 6 (mkcin data false 0))) as [w c2] eqn:E2. inv_bind Hk0. destruct a1 as [[mtn ed] mtv]. inv_bind Hk.
  destruct (negb _); [discriminate|].
  destruct (read_word 20 c2) as [w2 c3] eqn:E3. inv_bind Hk0. destruct a2 as [[cat sub] subl]. inv_bind Hk. inv_bind Hk0. destruct a3 as [descs c4].
  apply ok_inj in Hk.
  assert (h = mkcheader mtn ed mtv 0 0 cat sub subl (ci_check c4)) as -> by congruence. assert (descs = ops) as -> by congruence. assert (c4 = c) as -> by congruence. clear Hk.
  match goal with X : decode_descs _ _ _ = _ |- _ => apply descs_again in X; [destruct X as (A & B & L)|] end.
  2:{ eapply read_word_ok; [exact E3|]. eapply read_word_ok; [exact E2|]. apply skip_data_ok, F. }
  cbn [length] in L. split; [lia|]. split; [intros K; split; [exact K|split; [exact A|exact B]]|].
  cbn [ch_check]. intros K S. unfold crex_received. cbn [ch_mtn ch_edition ch_mtv ch_category ch_subcategory ch_subcategory_local ch_check] in *. rewrite K.
  match goal with X : parse_atable _ = _ |- _ => rename X into Pa end. unfold parse_atable in Pa. cbv zeta in Pa.
  destruct (Nat.eqb (length (cstr w2)) 4).
  { assert (sub = 255) as -> by congruence. assert (subl = 0) as -> by congruence. reflexivity. }
  destruct (Nat.eqb (length (cstr w2)) 7); [|discriminate]. assert (subl = 255) as -> by congruence.
  destruct S as [S|S]; [|discriminate]. replace (sub =? 255) with false by lia. reflexivity.
Qed.

(** The run of the interpreter in the decoding of a message with one subset. *)
Lemma decoded_run o load fuel data h ops vars T : Forall (fun x => 1 <= x < 256) data ->
  decode_crex o load fuel data = Ok (mkcb h ops [vars]) -> load h = Ok T -> ch_check h = false ->
  (length ops < fuel)%nat /\ (ch_subcategory h <> 255 \/ ch_subcategory_local h = 0 -> crex_received h = h) /\
  exists c st s, clean c /\ run (c_decoder o) T fuel ops (ist_init, mkcdec c [] empty_local) = Ok (st, s) /\ cd_vars s = vars.
Proof.
  intros F E HT K. unfold decode_crex in E. inv_bind E. destruct a as [[h1 ops1] c]. inv_bind Hk. inv_bind Hk0. apply ok_inj in Hk.
  assert (h1 = h) as -> by congruence. assert (ops1 = ops) as -> by congruence. assert (a0 = [vars]) as -> by congruence. assert (a = T) as -> by congruence. clear Hk.
  apply header_again in Hb as (L & C & R); [|exact F]. specialize (C K). specialize (R K). split; [exact L|]. split; [exact R|].
  unfold decode_cdata in Hb1. destruct (check_eof c) as [u|e|]; cbn [bind] in Hb1; try discriminate.
  destruct (decode_csubsets o T fuel ops (S (length (ci_rest c))) empty_local c) as [[gots c1]|e|] eqn:Ed; cbn [bind] in Hb1; try discriminate.
  assert (gots = [vars]) as ->.
  { repeat match type of Hb1 with bind ?m _ = _ => destruct m; cbn [bind] in Hb1; try discriminate end.
    destruct (list_eqb _ _) in Hb1; [congruence|discriminate]. }
  clear Hb1. cbn [decode_csubsets] in Ed.
  destruct (run (c_decoder o) T fuel ops (ist_init, mkcdec c [] empty_local)) as [[st s]|e|] eqn:Er; cbn [bind] in Ed; try discriminate.
  cbv zeta in Ed. destruct (check_eof (skip_spaces (cd_in s))) as [u1|e|]; cbn [bind] in Ed; try discriminate.
  destruct (negb _) in Ed; [discriminate|].
  match type of Ed with bind ?m _ = _ => destruct m; cbn [bind] in Ed; try discriminate end.
  exists c, st, s. split; [exact C|]. split; [exact Er|].
  match type of Ed with (if ?b then _ else _) = _ => destruct b end; [congruence|].
  match type of Ed with bind ?m _ = _ => destruct m as [[gots c3]| |]; cbn [bind] in Ed; try discriminate end. congruence.
Qed.

Theorem crex_again o load fuel data h ops vars T lt :
  plain_options o -> Forall (fun x => 1 <= x < 256) data -> decode_crex o load fuel data = Ok (mkcb h ops [vars]) ->
  load h = Ok T -> again_header h = true -> crex_ops_ok ops = true -> again_subset vars = true ->
  exists text, encode_crex o T fuel lt (mkcb h ops [vars]) = Ok text /\ decode_crex o load fuel text = Ok (mkcb h ops [vars]).
Proof.
  intros Po F E HT Hh Ho Ha. unfold again_header in Hh. rewrite !andb_true_iff in Hh. destruct Hh as ((Hh & K) & Hl).
  destruct (decoded_run _ _ _ _ _ _ _ _ F E HT ltac:(destruct (ch_check h); [discriminate|reflexivity])) as (L & R & c & st & s & C & Er & Ev).
  specialize (R ltac:(lia)). pose proof (decoded_transfer o T vars Po Ha fuel ops c st s C Er Ev) as Tr.
  destruct (message_round_trip o load T fuel lt h ops vars vars Hh Ho L) as (ts & _ & E' & D); [rewrite R; exact HT|exact Tr|].
  eexists. split; [exact E'|]. specialize (D [13; 13; 10]). rewrite R in D. exact D.
Qed.

Theorem crex_plain_again o load fuel data h ops vars T lt :
  plain_options o -> Forall (fun x => 1 <= x < 256) data -> decode_crex o load fuel data = Ok (mkcb h ops [vars]) ->
  load h = Ok T -> again_header h = true -> crex_ops_ok ops = true -> (forall code, appears T ops code -> var_f code <> 2) ->
  (forall code i, query (tb_b T) code = Ok i -> again_definition i = true) -> again_factors vars = true ->
  exists text, encode_crex o T fuel lt (mkcb h ops [vars]) = Ok text /\ decode_crex o load fuel text = Ok (mkcb h ops [vars]).
Proof.
  intros Po F E HT Hh Ho A Ht Hf. eapply crex_again; eauto. unfold again_subset. rewrite Hf, andb_true_r. apply forallb_forall. intros v Iv.
  assert (K : ch_check h = false) by (unfold again_header in Hh; rewrite !andb_true_iff in Hh; destruct (ch_check h); [destruct Hh as ((_ & X) & _); discriminate|reflexivity]).
  destruct (decoded_run _ _ _ _ _ _ _ _ F E HT K) as (_ & _ & c & st & s & C & Er & Ev).
  pose proof (plain_run o T Po fuel ops (ist_init, mkcdec c [] empty_local) (st, s) A) as P. cbn [fst snd] in P.
  destruct P as (_ & P); [repeat split|split; [exact C|constructor]|exact Er|]. rewrite Ev in P. rewrite Forall_forall in P.
  destruct (P v Iv) as (code & Q). eauto.
Qed.

(** ** Tables that come from files *)
Lemma range_again code t u sc len i : compute_range code t u sc len 0 0 = Ok i -> t <> TBinary -> 1 <= len <= 253 -> (t = TString -> var_x code <> 31) ->
  again_definition i = true.
Proof.
  intros R Nb L Nt. assert (P : 10 ^ 1 <= 10 ^ len) by (apply Z.pow_le_mono_r; lia).
  unfold compute_range in R. destruct (compute_irange t code len 0 0) as [[mi ma]| |] eqn:Er; cbn [bind] in R; try discriminate.
  assert (B : - 10 ^ len < mi /\ ma < 10 ^ len).
  { unfold compute_irange in Er. destruct t; try (apply ok_inj in Er; injection Er as <- <-; lia); try congruence.
    all: destruct (10 <=? len) eqn:W; [apply ok_inj in Er; injection Er as <- <-; assert (10 ^ 10 <= 10 ^ len) by (apply Z.pow_le_mono_r; lia); unfold int_min, int_max; lia|].
    all: cbn [Z.eqb] in Er; unfold intexp10 in Er; replace ((0 <=? len) && (len <=? 9)) with true in Er by lia; cbn [bind] in Er; apply ok_inj in Er; injection Er as <- <-; lia. }
  assert (E : vi_code i = code /\ vi_type i = t /\ vi_len i = len /\ vi_imin i = mi /\ vi_imax i = ma).
  { destruct t; try (apply ok_inj in R; subst i; repeat split; reflexivity); inv_bind R; inv_bind Hk; apply ok_inj in Hk0; subst i; repeat split; reflexivity. }
  destruct E as (E1 & E2 & E3 & E4 & E5). unfold again_definition. rewrite E1, E2, E3, E4, E5. rewrite !andb_true_iff. repeat split; try lia.
  destruct t; try reflexivity; try congruence. specialize (Nt eq_refl). lia.
Qed.

Lemma loaded_again text t code i : load_crex text = Ok t -> query t code = Ok i -> 1 <= vi_len i <= 253 -> (vi_type i = TString -> var_x (vi_code i) <> 31) ->
  again_definition i = true.
Proof.
  intros H Q L N. destruct (load_clines_spec _ [] t ltac:(constructor) H) as (S & t2 & E & _ & Qs). cbn [app] in E. subst t2.
  pose proof (query_spec t code S) as X. destruct (List.find _ t) as [e|] eqn:F; [|destruct X as [X _]; congruence]. destruct X as [X _].
  assert (Ei : be_info e = i) by congruence. apply find_some in F as [Ie _].
  destruct (proj2 (Qs (be_info e)) (in_map _ _ _ Ie)) as (l & _ & C). rewrite Ei in C. unfold crex_line in C. inv_bind C.
  destruct (Nat.ltb _ _); [destruct (negb _); discriminate|]. cbv zeta in Hk. inv_bind Hk. apply ok_inj in Hk0. injection Hk0 as <-.
  pose proof (compute_range_fields _ _ _ _ _ _ _ _ Hb0) as (E1 & E2 & _ & _ & E5 & _). eapply range_again; eauto.
  - unfold crex_type. destruct (String.eqb _ _); [discriminate|]. destruct (_ =? _); discriminate.
  - rewrite <- E5. exact L.
  - intros T. rewrite <- E1. apply N. rewrite E2. exact T.
Qed.

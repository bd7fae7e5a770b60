(** The check of a subset before encoding, for CREX. *)
From Coq Require Import ZifyBool ZifyNat.
From Verif Require Import Base Bits.Model Bits.Spec Num.Float Varcode.Model Varinfo.Model Varinfo.Proofs Tables.Model Tables.Spec Tables.LoadProofs
  Var.Model Var.Spec Interp.Model Interp.Sim Interp.Appears Codec.Model Codec.Spec Codec.Proofs Codec.ColumnProofs
  Crex.Model Crex.Spec Crex.CheckedEnc Crex.CheckedEncProofs Crex.Proofs
  Validator.Model Validator.Spec Validator.Proofs Validator.CrexSpec.
Local Open Scope Z_scope.

(** ** Two visitors on a plain template *)
Section Plain.
Context {SV SW : Type} (V : visitor SV) (W : visitor SW) (T : tables) (R : SV -> SW -> Prop).
Hypothesis Hvar : forall c i s s' w, query (tb_b T) c = Ok i -> R s w -> on_var V i s = Ok s' -> exists w', on_var W i w = Ok w' /\ R s' w'.
Hypothesis Hfac : forall c i s n s' w, query (tb_b T) c = Ok i -> var_x c = 31 -> R s w -> on_factor V i s = Ok (n, s') ->
  exists w', on_factor W i w = Ok (n, w') /\ R s' w'.

Lemma plain_repeat (f : istate * SV -> res (istate * SV)) (g : istate * SW -> res (istate * SW)) :
  (forall s w st' s', R s w -> f (ist_init, s) = Ok (st', s') -> st' = ist_init /\ exists w', g (ist_init, w) = Ok (ist_init, w') /\ R s' w') ->
  forall n s w st' s', R s w -> repeat_m n f (ist_init, s) = Ok (st', s') ->
  st' = ist_init /\ exists w', repeat_m n g (ist_init, w) = Ok (ist_init, w') /\ R s' w'.
Proof.
  intros H. induction n as [|n IH]; intros s w st' s' Rs E; cbn [repeat_m] in *.
  - apply ok_inj in E. injection E as <- <-. eauto.
  - inv_bind E. destruct a as [st1 s1]. apply (H _ _ _ _ Rs) in Hb as (-> & w1 & G & R1). rewrite G. cbn [bind]. eauto.
Qed.

Lemma x31_012 : var_x var_B31012 = 31. Proof. reflexivity. Qed.

Lemma plain_run : forall fuel ops s w st' s', plain_template T ops -> R s w -> run V T fuel ops (ist_init, s) = Ok (st', s') ->
  st' = ist_init /\ exists w', run W T fuel ops (ist_init, w) = Ok (ist_init, w') /\ R s' w'.
Proof.
  induction fuel as [|f IH]; intros ops s w st' s' P Rs E; cbn [run] in *; [discriminate|].
  destruct ops as [|cur rest]; [apply ok_inj in E; injection E as <- <-; eauto|]. cbv zeta in *.
  assert (Sub : forall l, (forall c, In c l -> In c rest) -> plain_template T l).
  { intros l Hl c Ap. apply P. clear - Ap Hl. induction Ap as [H|d body A IA F D I]; [apply ap_here; right; auto|eapply ap_inside; eauto]. }
  assert (Pc : plain_op cur = true) by (apply P; apply ap_here; left; reflexivity).
  destruct (Z.eqb_spec (var_f cur) 0) as [F0|F0].
  { inv_bind E. destruct a as [st1 s1]. unfold b_variable in *. cbn [ist_init is_refbits Z.eqb negb] in *. inv_bind Hb. rename a into i.
    assert (Q : query (tb_b T) cur = Ok i).
    { unfold get_varinfo in Hb0. inv_bind Hb0. cbn in Hk1. rewrite Hb. exact Hk1. }
    rewrite Hb0. cbn [bind]. cbn [ist_init is_cur] in *. rewrite andb_false_r in *. cbn [ist_init is_afbits Z.eqb negb] in *.
    inv_bind Hk0. apply ok_inj in Hk1. injection Hk1 as <- <-. destruct (Hvar _ _ _ _ _ Q Rs Hb) as (w1 & -> & R1). cbn [bind].
    eapply IH; eauto. }
  destruct (Z.eqb_spec (var_f cur) 1) as [F1|F1].
  { destruct (delayed_code cur rest) as [delayed rest1] eqn:D.
    assert (Hr : forall c, In c rest1 -> In c rest).
    { unfold delayed_code in D. destruct (var_y cur =? 0); [|injection D as <- <-; auto].
      destruct rest as [|n r]; [injection D as <- <-; auto|]. destruct (_ && _); injection D as <- <-; auto. intros c Hc. right. exact Hc. }
    destruct (Nat.ltb (length rest1) (Z.to_nat (var_x cur))); [discriminate|]. cbn [fst ist_init is_pending Z.eqb] in *.
    inv_bind E. destruct a as [st1 s1]. unfold r_replication in Hb. inv_bind Hb. destruct a as [n s2].
    assert (N : exists w2, (if var_y cur =? 0 then info <- query (tb_b T) delayed ;; on_factor W info w else Ok (var_y cur, w)) = Ok (n, w2) /\ R s2 w2).
    { destruct (var_y cur =? 0) eqn:Y; [|apply ok_inj in Hb0; injection Hb0 as <- <-; eauto]. inv_bind Hb0. rewrite Hb. cbn [bind].
      eapply Hfac; eauto. unfold delayed_code in D. rewrite Y in D.
      destruct rest as [|m r]; [injection D as <- <-; reflexivity|]. destruct (_ && _) eqn:X; injection D as <- <-; [|reflexivity].
      apply andb_prop in X as [_ X]. apply Z.eqb_eq in X. exact X. }
    destruct N as (w2 & N & R2). unfold r_replication. fold ist_init. rewrite N. cbn [bind].
    assert (PB : forall k, plain_template T (firstn k rest1) /\ plain_template T (skipn k rest1)).
    { intros k. split; apply Sub; intros c Hc; apply Hr; rewrite <- (firstn_skipn k rest1); apply in_or_app; auto. }
    fold ist_init in Hk0. eapply plain_repeat in Hk0 as (-> & w3 & G & R3); [|intros s3 w3 st3 s4 R3 E3; exact (IH _ _ _ _ _ (proj1 (PB _)) R3 E3)|exact R2].
    rewrite G. cbn [bind]. exact (IH _ _ _ _ _ (proj2 (PB _)) R3 Hk). }
  destruct (Z.eqb_spec (var_f cur) 2) as [F|F].
  { unfold plain_op in Pc. rewrite F in Pc. discriminate. }
  inv_bind E. rewrite Hb. cbn [bind]. inv_bind Hk. destruct a0 as [st1 s1].
  assert (F3 : var_f cur = 3) by (pose proof (ExpandProofs.var_f_range cur); lia).
  eapply IH in Hb0 as (-> & w1 & G & R1); [|intros c Ap; apply P; clear - Ap Hb F3|exact Rs].
  - fold ist_init. rewrite G. cbn [bind]. eapply IH; eauto.
  - induction Ap as [H|d body A IA F D I]; [eapply ap_inside; [apply ap_here; left; reflexivity|eauto..]|eapply ap_inside; eauto].
Qed.
End Plain.

(** ** What the check looks at *)
Lemma k_factor_inv cx p vars i k n k' : k_factor p cx vars i k = Ok (n, k') ->
  exists v m, get_var vars (k_pos k) = Ok v /\ check_fits p cx i (v_cell v) = Ok tt /\ enqi (v_cell v) = Ok m /\ n = u32 m /\
  k' = mkcheck (S (k_pos k)) (k_lt k).
Proof.
  unfold k_factor, k_next. intros H. inv_bind H. destruct a as [v s1]. inv_bind Hb. apply ok_inj in Hk0. injection Hk0 as <- <-.
  inv_bind Hk. inv_bind Hk0. apply ok_inj in Hk. injection Hk as <- <-. destruct a0. exists a, a1. auto.
Qed.

Lemma enqd_enqi c d : enqd c = Ok d -> exists n, enqi c = Ok n /\ c_val c = Some (VInt n) /\ is_numeric (vi_type (c_info c)) = true.
Proof. unfold enqd, enqi. destruct (c_val c) as [v|]; [|discriminate]. destruct (vi_type (c_info c)), v; try discriminate; eauto. Qed.

Lemma crex_number_check p i c : check_fits p true i c = Ok tt -> is_numeric (vi_type i) = true -> isset c = true ->
  exists n, enqi c = Ok n.
Proof.
  unfold check_fits. intros H N S. destruct (negb (c_code c =? vi_code i)); [discriminate|]. rewrite S in H. cbn [negb] in H.
  destruct (vi_type i); try discriminate; inv_bind H; apply enqd_enqi in Hb as (n & E & _); eauto.
Qed.

Lemma crex_append p i c out : check_fits p true i c = Ok tt -> sound_cell c -> kind_ok i c = true -> vi_type i <> TBinary -> vi_len i <= 254 ->
  exists out', append_var i c out = Ok out'.
Proof.
  intros H So K NB L. unfold append_var. destruct (isset c) eqn:S; cbn [negb]; [|eauto]. cbv zeta.
  assert (Num : is_numeric (vi_type i) = true -> exists out', (k <- enqi c;; raw_appendf (fmt_0d (if k <? 0 then Datatypes.S (ilen i) else ilen i) k)
    (encode_check_digit (raw_append [32] out))) = Ok out').
  { intros N. destruct (crex_number_check _ _ _ H N S) as (n & ->). cbn [bind]. unfold raw_appendf.
    pose proof (fmt_0d_short (ilen i) n ltac:(unfold ilen; lia)) as F.
    match goal with |- context [Nat.ltb 255 ?x] => replace (Nat.ltb 255 x) with false by lia end. eauto. }
  destruct (vi_type i) eqn:Ty; [apply Num; reflexivity|apply Num; reflexivity| |contradiction].
  unfold kind_ok in K. rewrite S, Ty in K. cbn [negb orb] in K. unfold sound_cell in So. unfold isset in S. unfold enqc.
  destruct (c_val c) as [v|]; [|discriminate]. unfold value_ok in So.
  destruct (vi_type (c_info c)) eqn:Tc; try discriminate. destruct v as [n|s|b]; try contradiction. cbn [bind].
  unfold fmt_s. rewrite ended_text. cbn [negb andb bind]. cbv zeta. unfold raw_appendf.
  match goal with |- context [Nat.ltb 255 ?x] => replace (Nat.ltb 255 x) with false
    by (symmetry; apply Nat.ltb_ge; rewrite app_length, repeat_length, firstn_length; unfold ilen; lia) end. eauto.
Qed.

Lemma four_append n c : exists out, raw_appendf (zeros 4 (decimal n)) c = Ok out.
Proof.
  pose proof (four_sure n c) as Q. destruct (raw_appendf (zeros 4 (decimal n)) c) as [x|e|] eqn:X; [eauto| |contradiction].
  unfold raw_appendf in X. destruct (Nat.ltb _ _); discriminate.
Qed.

(** ** What is accepted is encoded *)
Section Encoded.
Context (p : shift_policy) (o : options) (T : tables) (vars : list var).
Hypothesis Sound : Forall sound_var vars.
Hypothesis Types : table_types T vars.
Hypothesis Short : forall e, In e (tb_b T) -> vi_len (be_info e) <= 254.

Let R (k : check) (s : cenc) : Prop := k_pos k = ce_pos s.

Lemma table_entry c i : query (tb_b T) c = Ok i -> exists e, In e (tb_b T) /\ be_info e = i.
Proof. intros H. pose proof (SureProofs.query_sure (tb_b T) c) as Q. rewrite H in Q. exact Q. Qed.

Lemma accepted_append c i n v out : query (tb_b T) c = Ok i -> get_var vars n = Ok v -> check_fits p true i (v_cell v) = Ok tt ->
  exists out', append_var i (v_cell v) out = Ok out'.
Proof.
  intros Q G F. destruct (table_entry _ _ Q) as (e & In1 & <-). destruct (Types e In1) as [NB _].
  eapply crex_append; eauto.
  - eapply sound_at; eauto.
  - eapply kind_from; eauto; [eapply query_from; eauto|]. eapply check_fits_code; eauto.
Qed.

Theorem accepted_encoded fuel ops lt st k out lt' : plain_template T ops ->
  validate p o true T vars fuel ops lt = Ok (st, k) ->
  exists s, run (c_encoder o vars) T fuel ops (ist_init, mkcenc 0 out lt') = Ok (st, s) /\ ce_pos s = k_pos k.
Proof.
  intros P H. unfold validate in H.
  destruct (plain_run (validator p o true T vars) (c_encoder o vars) T R) with (fuel := fuel) (ops := ops) (s := mkcheck 0 lt)
    (w := mkcenc 0 out lt') (st' := st) (s' := k) as (-> & s & E & Rs); auto.
  - intros c i a a' w Q Ra Ea. cbn [on_var validator c_encoder] in *. apply k_var_inv in Ea as (v & G & F & ->).
    unfold R in *. unfold ce_var, ce_next. rewrite <- Ra, G. cbn [bind ce_out].
    destruct (accepted_append _ _ _ _ (ce_out w) Q G F) as (o1 & ->). cbn. eexists. split; [reflexivity|]. reflexivity.
  - intros c i a n a' w Q X Ra Ea. cbn [on_factor validator c_encoder] in *. apply k_factor_inv in Ea as (v & m & G & F & E & -> & ->).
    unfold R in *. unfold ce_factor, ce_next. rewrite <- Ra, G. cbn [bind ce_out]. destruct (four_digits (vi_code i)).
    + rewrite E. cbn [bind]. cbv zeta. destruct (four_append (u32 m) (encode_check_digit (raw_append [32] (ce_out w)))) as (o1 & ->).
      cbn. eexists. split; reflexivity.
    + destruct (accepted_append _ _ _ _ (ce_out w) Q G F) as (o1 & ->). cbn.
      assert (S : isset (v_cell v) = true) by (unfold enqi in E; unfold isset; destruct (c_val (v_cell v)); [reflexivity|discriminate]).
      rewrite S, E. cbn. eexists. split; reflexivity.
  - reflexivity.
  - exists s. split; [exact E|]. symmetry. exact Rs.
Qed.
End Encoded.

(** ** What is accepted is sent *)
Section Sent.
Context (p : shift_policy) (o : options) (T : tables) (vars : list var).
Hypothesis Own : Forall (own_definition T) vars.
Hypothesis Fits : Forall fits_field vars.
Hypothesis Factors : factors_fit vars.

Let R (k : check) (s : cxfer) : Prop := k_pos k = cx_pos s /\ cx_got s = map without_attrs (firstn (cx_pos s) vars).

Lemma accepted_take c i v k s : query (tb_b T) c = Ok i -> R k s -> get_var vars (k_pos k) = Ok v -> check_fits p true i (v_cell v) = Ok tt ->
  cx_take vars i s = Ok v /\ c_info (v_cell v) = i /\ crex_fits false i (c_val (v_cell v)) = true /\
  R (mkcheck (S (k_pos k)) (k_lt k)) (cx_give v s).
Proof.
  intros Q (R1 & R2) G F. pose proof (get_var_nth _ _ _ G) as N. pose proof (nth_error_In _ _ N) as I1.
  assert (E : c_info (v_cell v) = i).
  { apply (proj1 (Forall_forall _ _) Own v I1). apply check_fits_code in F. rewrite F, (query_code _ _ _ Q). exact Q. }
  pose proof (proj1 (Forall_forall _ _) Fits v I1) as Fv. unfold fits_field in Fv. rewrite E in Fv.
  split; [|split; [exact E|split; [exact Fv|]]].
  - unfold cx_take. rewrite <- R1, G. cbn [bind]. destruct (varinfo_eq_dec (c_info (v_cell v)) i); [reflexivity|contradiction].
  - split; cbn [k_pos cx_give cx_pos cx_got]; [lia|]. rewrite <- R1 in *. rewrite (firstn_S_nth _ _ _ N), map_app, R2. reflexivity.
Qed.

Theorem accepted_sent fuel ops lt st k : plain_template T ops ->
  validate p o true T vars fuel ops lt = Ok (st, k) -> k_pos k = length vars ->
  crex_transfer vars T fuel ops = Ok (map without_attrs vars).
Proof.
  intros P H L. unfold validate in H.
  destruct (plain_run (validator p o true T vars) (c_transmitter vars) T R) with (fuel := fuel) (ops := ops) (s := mkcheck 0 lt)
    (w := mkcx 0 []) (st' := st) (s' := k) as (-> & s & E & (R1 & R2)); auto.
  - intros c i a a' w Q Ra Ea. cbn [on_var validator c_transmitter] in *. apply k_var_inv in Ea as (v & G & F & ->).
    destruct (accepted_take _ _ _ _ _ Q Ra G F) as (Tk & E & Fv & Rn). unfold cx_var. rewrite Tk. cbn [bind]. rewrite Fv. cbn [guard bind]. eauto.
  - intros c i a n a' w Q X Ra Ea. cbn [on_factor validator c_transmitter] in *. apply k_factor_inv in Ea as (v & m & G & F & Em & -> & ->).
    destruct (accepted_take _ _ _ _ _ Q Ra G F) as (Tk & E & Fv & Rn). unfold cx_factor. rewrite Tk. cbn [bind].
    assert (Vm : c_val (v_cell v) = Some (VInt m)).
    { unfold enqi in Em. destruct (c_val (v_cell v)) as [w0|]; [|discriminate]. destruct (vi_type (c_info (v_cell v))), w0; try discriminate;
        apply ok_inj in Em; congruence. }
    rewrite Vm in *. rewrite Fv. cbn [andb].
    assert (cx_factor_fits i m (nth_error vars (S (cx_pos w))) = true) as ->.
    { unfold cx_factor_fits. fold (four_digits (vi_code i)). destruct (four_digits (vi_code i)) eqn:F4; [|reflexivity].
      destruct Ra as (Ra & _). destruct (Factors (k_pos a) v (get_var_nth _ _ _ G)) as (m' & Em' & Fm).
      { unfold c_code. rewrite E. exact F4. }
      assert (m' = m) as -> by congruence. rewrite <- Ra. rewrite E in Fm. unfold cx_factor_fits in Fm. fold (four_digits (vi_code i)) in Fm.
      rewrite F4 in Fm. exact Fm. }
    cbn [guard bind]. eauto.
  - split; [reflexivity|]. reflexivity.
  - unfold crex_transfer. rewrite E. cbn [bind]. rewrite <- R1, L, Nat.eqb_refl. cbn [guard bind]. rewrite R2, <- R1, L, firstn_all. reflexivity.
Qed.
End Sent.

(** ** What can be sent is accepted *)
Section Accepted.
Context (p : shift_policy) (o : options) (T : tables) (vars : list var).
Hypothesis Scales : Forall (fun v => usual_scale (c_info (v_cell v))) vars.
Hypothesis Factors : factors_set vars.

Lemma sendable_check i c : c_info c = i -> usual_scale i -> crex_fits false i (c_val c) = true -> check_fits p true i c = Ok tt.
Proof.
  intros E U F. unfold check_fits, c_code. rewrite E, Z.eqb_refl. cbn [negb]. unfold isset. destruct (c_val c) as [v|] eqn:Ev; [|reflexivity]. cbn [negb].
  unfold crex_fits in F. apply andb_prop in F as [_ F].
  assert (Num : is_numeric (vi_type i) = true -> exists d n, enqd c = Ok d /\ encode_decimal (vi_scale i) d = Ok n).
  { intros N. destruct (U N) as [Us Ui]. assert (exists k, v = VInt k /\ int_min <= k <= int_max) as (k & -> & K).
    { destruct v as [k|s|b]; [|destruct (vi_type i); discriminate|destruct (vi_type i); discriminate]. exists k. split; [reflexivity|].
      unfold crex_number, in_int in F. destruct (vi_type i); try discriminate; lia. }
    unfold enqd. rewrite Ev, E. destruct (vi_type i) eqn:Ty; try discriminate.
    - exists (f_of_Z k), k. split; [reflexivity|]. rewrite Ui by reflexivity. destruct (FloatProofs.f_of_Z_ok k) as [A B]; [unfold int_min, int_max in K; lia|].
      apply encode_scaled; auto. unfold scale_ok. lia.
    - destruct (encode_decode_decimal (vi_scale i) k Us K) as (d & -> & En). eauto. }
  destruct (vi_type i); try reflexivity; destruct Num as (d & n & -> & En); auto; cbn [bind]; rewrite En; reflexivity.
Qed.

Let R (s : cxfer) (k : check) : Prop := k_pos k = cx_pos s.

Lemma sendable_take i s v : cx_take vars i s = Ok v -> crex_fits false i (c_val (v_cell v)) = true ->
  get_var vars (cx_pos s) = Ok v /\ c_info (v_cell v) = i /\ check_fits p true i (v_cell v) = Ok tt.
Proof.
  intros Tk F. apply take_inv in Tk as [G E]. split; auto. split; auto. apply sendable_check; auto.
  pose proof (nth_error_In _ _ (get_var_nth _ _ _ G)) as I1. rewrite Forall_forall in Scales. specialize (Scales v I1). cbn beta in Scales. rewrite E in Scales. exact Scales.
Qed.

Theorem sendable_accepted fuel ops lt got : plain_template T ops -> crex_transfer vars T fuel ops = Ok got ->
  exists st k, validate p o true T vars fuel ops lt = Ok (st, k) /\ k_pos k = length vars.
Proof.
  intros P H. unfold crex_transfer in H. inv_bind H. destruct a as [st s]. inv_bind Hk. apply guard_ok in Hb0. apply Nat.eqb_eq in Hb0.
  destruct (plain_run (c_transmitter vars) (validator p o true T vars) T R) with (fuel := fuel) (ops := ops) (s := mkcx 0 [])
    (w := mkcheck 0 lt) (st' := st) (s' := s) as (-> & k & E & Rk); auto.
  - intros c i y y' w Q Ra Ea. cbn [on_var validator c_transmitter] in *. unfold cx_var in Ea. inv_bind Ea. inv_bind Hk. apply guard_ok in Hb2.
    apply ok_inj in Hk1. subst y'. destruct (sendable_take _ _ _ Hb1 Hb2) as (G & E & F). unfold R in *. unfold k_var, k_next. rewrite Ra, G. cbn [bind].
    rewrite F. cbn [bind]. eexists. split; [reflexivity|]. reflexivity.
  - intros c i y n y' w Q X Ra Ea. cbn [on_factor validator c_transmitter] in *. unfold cx_factor in Ea. apply bind_ok in Ea as (v & Hb1 & Hk).
    assert (Code : vi_code i = c) by (eapply query_code; eauto).
    destruct (c_val (v_cell v)) as [[m| |]|] eqn:Vm; try discriminate.
    + inv_bind Hk. apply guard_ok in Hb2. apply andb_prop in Hb2 as [F1 F2]. apply ok_inj in Hk1. injection Hk1 as <- <-.
      rewrite <- Vm in F1. destruct (sendable_take _ _ _ Hb1 F1) as (G & E & F). unfold R in *. unfold k_factor, k_next. rewrite Ra, G. cbn [bind].
      rewrite F. cbn [bind]. unfold enqi. rewrite Vm, E. rewrite Vm in F1. unfold crex_fits in F1. apply andb_prop in F1 as [_ F1].
      destruct (vi_type i); try discriminate; cbn [bind]; eexists; split; reflexivity.
    + exfalso. apply take_inv in Hb1 as [G E]. pose proof (nth_error_In _ _ (get_var_nth _ _ _ G)) as I1.
      specialize (Factors v I1). unfold c_code in Factors. rewrite E, Code in Factors. specialize (Factors X). unfold isset in Factors. rewrite Vm in Factors. discriminate.
  - reflexivity.
  - exists ist_init, k. split; [exact E|]. unfold R in Rk. congruence.
Qed.
End Accepted.

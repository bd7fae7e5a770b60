(** What can be sent without loss is accepted by the validator, unless a number is 32 bits
    wide. *)
From Coq Require Import ZifyBool ZifyNat.
From Verif Require Import Base Bits.Model Bits.Spec Num.Float Varcode.Model Varinfo.Model Varinfo.Proofs Varinfo.RangeProofs
  Tables.Model Tables.Spec Tables.AlterProofs Tables.LoadProofs Var.Model Var.Spec Var.Proofs Var.AttrProofs Var.CodecProofs
  Interp.Model Interp.Sim Codec.Model Codec.Spec Codec.ValueProofs Codec.Proofs Codec.ColumnProofs
  Validator.Model Validator.Spec Validator.Proofs.
Local Open Scope Z_scope.

Lemma set_string_code c n i : set_string c n = Ok i -> vi_code i = c.
Proof. unfold set_string. intros H. apply compute_range_fields in H. apply H. Qed.

Lemma get_chardata_code lt c n i lt' : get_chardata lt c n = Ok (i, lt') -> vi_code i = c.
Proof.
  unfold get_chardata. destruct (assoc Z.eqb c (lt_chardata lt)) as [j|].
  - destruct (Z.eqb_spec (vi_code j) c); [|discriminate]. intros H. apply ok_inj in H. injection H as <- _. auto.
  - intros H. inv_bind H. apply ok_inj in Hk. injection Hk as <- _. eapply set_string_code; eauto.
Qed.

Section Complete.
Context (p : shift_policy) (o : options) (T : tables) (skip : bool) (vars : list var).
Hypothesis VOK : Forall var_infos_ok vars.
Hypothesis TOK : table_ok (tb_b T).
Hypothesis VN : Forall (fun v => Forall (fun c => narrow (c_info c)) (v_cell v :: v_attrs v)) vars.
Hypothesis TN : forall c i, query (tb_b T) c = Ok i -> narrow i.

Lemma field_fits i c : c_info c = i -> (c_val c = None \/ info_ok i) -> narrow i -> field_ok p i (c_val c) = true -> check_fits Strict false i c = Ok tt.
Proof.
  intros E K N F. unfold check_fits, c_code. rewrite E, Z.eqb_refl. cbn [negb].
  unfold isset. destruct (c_val c) as [v|] eqn:Ev; [|reflexivity]. cbn [negb]. destruct K as [|K]; [discriminate|].
  destruct (is_numeric (vi_type i)) eqn:Nu; [|destruct (vi_type i); try discriminate; reflexivity].
  assert (F' : (1 <=? vi_bit_len i) && (vi_bit_len i <=? 32) &&
    match v with VInt k => number_fits i k | _ => false end = true)
    by (unfold field_ok in F; destruct (vi_type i); try discriminate; exact F).
  clear F. apply andb_prop in F' as [B F]. destruct v as [k|s|b]; try discriminate. unfold number_fits in F.
  assert (Hfit : 0 <= k - vi_bit_ref i < 2 ^ vi_bit_len i) by (destruct (no_missing (vi_code i)); lia).
  destruct (info_ok_numeric i K Nu) as (_ & M1 & M2 & _).
  pose proof (encode_cell c k ltac:(rewrite E; exact K) ltac:(rewrite E; exact Nu) ltac:(rewrite E; lia) ltac:(lia) Ev) as Q. rewrite E in Q.
  replace (k <? vi_bit_ref i) with false in Q by lia.
  inv_bind Q. specialize (N Nu).
  assert (G : (d <- enqd c ;; encoded <- encode_binary i d ;; limit <- shl1 Strict (vi_bit_len i) ;;
     if limit <=? encoded then Err EConsistency else Ok tt) = Ok tt).
  { rewrite Hb. cbn [bind]. rewrite Hk. cbn [bind]. unfold shl1. replace ((0 <=? vi_bit_len i) && (vi_bit_len i <? 32)) with true by lia.
    cbn [bind]. replace (2 ^ vi_bit_len i <=? k - vi_bit_ref i) with false by lia. reflexivity. }
  destruct (vi_type i); try discriminate; exact G.
Qed.

Definition agree (x : xfer) (k : check) : Prop :=
  k_pos k = x_pos x /\ lt_unknown (k_lt k) = lt_unknown (x_lt x) /\ infos (x_got x) = infos (firstn (x_pos x) vars).

Definition none' (_ : check) : list unit := [].
Definition nope' (_ : xfer) (_ : unit) (_ : list unit) : Prop := False.

Lemma agree_sim {X} (fA : xfer -> res (X * xfer)) (fE : check -> res (X * check)) (fD : unit -> res (X * unit)) :
  (forall k e x k', agree k e -> fA k = Ok (x, k') -> exists e', fE e = Ok (x, e') /\ agree k' e') ->
  sim agree none' nope' fine fA fE fD.
Proof.
  intros H k e x k' I E. destruct (H _ _ _ _ I E) as (e' & E' & I'). exists [], e'. repeat split; auto; try apply I'. intros ? ? _ [].
Qed.
Lemma agree_sim_u (fA : xfer -> res xfer) (fE : check -> res check) (fD : unit -> res unit) :
  (forall k e k', agree k e -> fA k = Ok k' -> exists e', fE e = Ok e' /\ agree k' e') ->
  sim_u agree none' nope' fine fA fE fD.
Proof.
  intros H k e k' I E. destruct (H _ _ _ I E) as (e' & E' & I'). exists [], e'. repeat split; auto; try apply I'. intros ? ? _ [].
Qed.

Lemma at_ok n v : get_var vars n = Ok v -> var_infos_ok v /\ narrow (c_info (v_cell v)) /\ Forall (fun c => narrow (c_info c)) (v_attrs v).
Proof.
  intros H. apply get_var_nth in H. apply nth_error_In in H. split; [eapply Forall_forall in VOK; eauto|].
  eapply Forall_forall in VN; eauto. apply Forall_cons_iff in VN. exact VN.
Qed.

Lemma take_fits i x v : x_take p vars i x = Ok v ->
  get_var vars (x_pos x) = Ok v /\ c_info (v_cell v) = i /\ check_fits Strict false i (v_cell v) = Ok tt.
Proof.
  unfold x_take. intros H. inv_bind H. destruct (varinfo_eq_dec (c_info (v_cell a)) i) as [E|]; [|discriminate].
  inv_bind Hk. apply guard_ok in Hb0. apply ok_inj in Hk0. subst a. split; auto. split; auto.
  pose proof (at_ok _ _ Hb) as ((K & _) & N & _). apply field_fits; auto; rewrite <- E; auto.
Qed.

Lemma agree_give x k v attrs fields : agree x k -> get_var vars (x_pos x) = Ok v ->
  agree (mkxfer (S (x_pos x)) (x_got x ++ [mkvar (v_cell v) attrs]) (x_lt x) (x_asked x) fields) (mkcheck (S (k_pos k)) (k_lt k)).
Proof.
  intros (A1 & A2 & A3) G. apply get_var_nth in G. unfold agree. cbn [k_pos k_lt x_pos x_lt x_got]. split; [lia|]. split; [auto|].
  rewrite (firstn_S_nth _ _ _ G). unfold infos in *. rewrite !map_app, A3. reflexivity.
Qed.

Lemma attr_fits i pos x x' k : agree x k -> x_attr p vars i pos x = Ok x' ->
  exists k', k_attr Strict false vars i pos k = Ok k' /\ agree x' k'.
Proof.
  intros (A1 & A2 & A3) H. unfold x_attr in H. inv_bind H. rename a into v, Hb into G. inv_bind Hk. rename a into got, Hb into G2.
  cbv zeta in Hk0. unfold k_attr. rewrite G. cbn [bind].
  destruct (var_enqa v (vi_code i)) as [a|] eqn:A.
  - destruct (varinfo_eq_dec (c_info a) i) as [E|]; [|discriminate]. inv_bind Hk0. apply guard_ok in Hb. apply ok_inj in Hk. subst x'.
    pose proof (at_ok _ _ G) as ((_ & K) & _ & N). apply enqa_in in A.
    eapply Forall_forall in K; [|exact A]. eapply Forall_forall in N; [|exact A]. rewrite E in *.
    rewrite (field_fits i a); auto. cbn [bind]. exists k. split; auto. unfold agree. cbn [x_pos x_lt x_got]. split; auto. split; auto.
    destruct (isset a); auto. rewrite <- A3. eapply infos_update; [apply get_var_nth; exact G2|reflexivity].
  - inv_bind Hk0. apply ok_inj in Hk. subst x'. exists k. split; auto. unfold agree. cbn [x_pos x_lt x_got]. auto.
Qed.

Lemma complete_callbacks : callbacks agree none' nope' fine (transmitter p T skip vars) (validator Strict o false T vars) nothing T.
Proof.
  constructor; intros; first [apply agree_sim | apply agree_sim_u]; cbn [transmitter validator on_var on_var_af on_factor
    on_bitmap_factor on_significance on_subst on_attr on_raw on_refval on_bitmap on_unknown].
  - intros x k x' A E. unfold x_var in E. inv_bind E. apply ok_inj in Hk. subst x'. destruct (take_fits _ _ _ Hb) as (G & E & F).
    unfold k_var, k_next. pose proof A as (A1 & _). rewrite A1, G. cbn [bind]. rewrite F. cbn [bind]. eexists. split; [reflexivity|].
    rewrite <- A1. apply agree_give; auto.
  - intros x k x' A E. unfold x_var_af in E. inv_bind E. inv_bind Hk. apply ok_inj in Hk0. subst x'. destruct (take_fits _ _ _ Hb) as (G & E & F).
    unfold k_var_af, k_var, k_next. pose proof A as (A1 & _). rewrite A1, G. cbn [bind]. rewrite F. cbn [bind]. eexists. split; [reflexivity|].
    rewrite <- A1. unfold x_give, x_note. cbn [x_pos x_got x_lt x_asked x_fields]. apply agree_give; auto.
  - intros x k n x' A E. unfold x_factor in E. inv_bind E. inv_bind Hk. apply ok_inj in Hk0. injection Hk0 as <- <-. destruct (take_fits _ _ _ Hb) as (G & E & F).
    unfold k_factor, k_next. pose proof A as (A1 & _). rewrite A1, G. cbn [bind]. rewrite F. cbn [bind]. rewrite Hb0. cbn [bind]. eexists. split; [reflexivity|].
    rewrite <- A1. apply agree_give; auto.
  - intros x k n x' A E. destruct H as (cd & Q). unfold x_bitmap_factor in E. inv_bind E. rename a into v. inv_bind Hk. apply ok_inj in Hk0. injection Hk0 as <- <-.
    apply guard_ok in Hb0. rewrite !andb_true_iff in Hb0. destruct Hb0 as ((B1 & B2) & B3).
    pose proof (TOK _ _ Q) as K. pose proof (TN _ _ Q) as N. destruct (info_ok_numeric i K B1) as (_ & M1 & M2 & _).
    unfold k_bitmap_factor. pose proof A as (A1 & _). rewrite A1, Hb. cbn [bind]. cbv zeta. set (len := vi_len (c_info (v_cell v))) in *.
    assert (Hr : vi_imin i <= len <= vi_imax i).
    { clear - B1 B2. unfold field_ok, number_fits in B2. destruct (vi_type i); try discriminate; lia. }
    rewrite wrap_int_id by lia. rewrite seti_in_range by auto. cbn [of_outcome bind].
    rewrite (field_fits i (mkcell i (Some (VInt len)))); auto. cbn [bind]. eexists. split; [reflexivity|auto].
  - intros x k n x' A E. unfold x_significance in E. inv_bind E. inv_bind Hk. apply ok_inj in Hk0. injection Hk0 as <- <-. destruct (take_fits _ _ _ Hb) as (G & E & F).
    unfold k_significance, k_next. pose proof A as (A1 & _). rewrite A1, G. cbn [bind]. rewrite F. cbn [bind]. rewrite Hb0. cbn [bind]. eexists. split; [reflexivity|].
    rewrite <- A1. apply agree_give; auto.
  - intros x k x' A E. unfold x_subst in E. inv_bind E. unfold k_subst. rewrite (get_var_nth _ _ _ Hb). eapply attr_fits; eauto.
  - intros x k x' A E. eapply attr_fits; eauto.
  - intros x k x' A E. unfold x_raw in E. inv_bind E. rename a into v, Hb into G. inv_bind Hk. destruct a as [i lt]. rename Hb into GC.
    destruct (varinfo_eq_dec (c_info (v_cell v)) i) as [Ei|]; [|discriminate]. inv_bind Hk0. inv_bind Hk. apply ok_inj in Hk0. subst x'.
    unfold k_raw, k_next. pose proof A as (A1 & A2 & A3). rewrite A1, G. cbn [bind]. unfold c_code. rewrite Ei, (get_chardata_code _ _ _ _ _ GC), Z.eqb_refl.
    cbn [negb]. eexists. split; [reflexivity|]. unfold agree, x_tables, x_give. cbn [k_pos k_lt x_pos x_lt x_got]. split; [lia|].
    split; [rewrite A2; symmetry; eapply get_chardata_local; eauto|].
    rewrite (firstn_S_nth _ _ _ (get_var_nth _ _ _ G)). unfold infos in *. rewrite !map_app, A3. cbn [map v_cell c_info]. rewrite Ei. reflexivity.
  - intros x k n x' A E. unfold x_refval in E. inv_bind E. rename a into ref, Hb into G. inv_bind Hk. apply ok_inj in Hk0. injection Hk0 as <- <-.
    apply guard_ok in Hb. rewrite !andb_true_iff in Hb. destruct Hb as ((B1 & B2) & B3).
    assert (P31 : 2 ^ (b - 1) <= 2 ^ 31) by (apply Z.pow_le_mono_r; lia).
    assert (Hlog : Z.log2 (Z.abs ref) < b - 1) by (apply Z.log2_lt_pow2; lia).
    unfold k_refval. rewrite G. cbn [bind]. exists k. split; auto.
    unfold bit_width, int_checked, in_int, int_min, int_max, shl1. destruct (Z.ltb_spec ref 0).
    + replace ((- 2 ^ 31 <=? - ref) && (- ref <=? 2 ^ 31 - 1)) with true by lia. cbn [bind].
      replace (- ref =? 0) with false by lia. cbn [bind]. replace ((0 <=? b - 1) && (b - 1 <? 32)) with true by lia. cbn [bind].
      rewrite Z.abs_neq in Hlog by lia. replace (b <? Z.log2 (- ref) + 1 + 1) with false by lia. reflexivity.
    + replace (ref =? 0) with false by lia. cbn [bind]. rewrite Z.abs_eq in Hlog by lia. replace (b <? Z.log2 ref + 1 + 1) with false by lia. reflexivity.
  - intros x k r x' A E. unfold x_bitmap in E. inv_bind E. rename a into v, Hb into G.
    destruct (c_val (v_cell v)) as [[?|chars|?]|] eqn:Hv; try discriminate. inv_bind Hk. destruct a as [i lt]. rename Hb into GB.
    destruct (varinfo_eq_dec (c_info (v_cell v)) i) as [Ei|]; [|discriminate]. inv_bind Hk0. apply guard_ok in Hb. rewrite !andb_true_iff in Hb.
    destruct Hb as (((((B1 & B2) & B2') & B3) & B4) & B5). apply ok_inj in Hk. injection Hk as <- <-.
    unfold k_bitmap, k_next. pose proof A as (A1 & A2 & A3). rewrite A1, G. cbn [bind]. unfold c_code. rewrite Ei, B4. cbn [negb].
    replace (vi_len i =? 0) with false by lia. unfold bitmap_chars, enqc. rewrite Hv, Ei.
    assert (N : vi_type i = TString) by (destruct (vi_type i); try discriminate; reflexivity). rewrite N. cbn [bind].
    assert (Li : ilen i = length chars) by (unfold ilen; lia).
    rewrite app_length, Li. cbn [length]. replace (length chars + 1 <? length chars)%nat with false by lia. rewrite firstn_exact. cbn [bind k_pos].
    assert (Ec : codes_of (firstn (S (x_pos x)) vars) = codes_of (x_got x ++ [mkvar (v_cell v) []])).
    { rewrite !codes_infos. rewrite (firstn_S_nth _ _ _ (get_var_nth _ _ _ G)). unfold infos in *. rewrite !map_app, A3. reflexivity. }
    rewrite Ec. eexists. split; [reflexivity|]. unfold agree, x_tables, x_give. cbn [k_pos k_lt x_pos x_lt x_got]. split; [lia|].
    split; [rewrite A2; symmetry; eapply get_bitmap_local; eauto|].
    rewrite (firstn_S_nth _ _ _ (get_var_nth _ _ _ G)). unfold infos in *. rewrite !map_app, A3. reflexivity.
  - intros x k i x' (A1 & A2 & A3) E. unfold x_unknown in E. inv_bind E. destruct a as [j lt]. apply ok_inj in Hk. injection Hk as <- <-.
    destruct (get_unknown_local _ (k_lt k) _ _ _ _ A2 Hb) as (lt2 & E & L). unfold k_unknown. rewrite E. cbn [bind].
    eexists. split; [reflexivity|]. unfold agree, x_tables. cbn [k_pos k_lt x_pos x_lt x_got]. auto.
Qed.

Lemma complete fuel ops lt got lt' : transfer p T skip vars fuel ops lt = Ok (got, lt') ->
  exists st k, validate Strict o false T vars fuel ops lt = Ok (st, k) /\ k_pos k = length vars.
Proof.
  unfold transfer, transfer_state. intros H. inv_bind H. inv_bind Hb. destruct a0 as [st s]. inv_bind Hk0. apply guard_ok in Hb. apply ok_inj in Hk1. subst a.
  destruct (run_sim agree none' nope' fine (fun _ _ _ => I) _ _ _ T complete_callbacks fuel ops ist_init ist_ok_init
    (xfer_init lt) (mkcheck 0 lt) st s) as (bs & k & E & (A1 & _) & _).
  - unfold agree. cbn. auto.
  - exact Hb0.
  - exists st, k. split; [exact E|]. apply Nat.eqb_eq in Hb. congruence.
Qed.
End Complete.

(** Whole CREX subsets. *)
From Coq Require Import ZifyBool ZifyNat.
From Verif Require Import Base Bits.Spec Bits.StringProofs Num.Float Varcode.Model Varinfo.Model Tables.Model Var.Model
  Var.CodecProofs Interp.Model Interp.Sim Interp.Hom Codec.Model Codec.Spec Codec.Proofs Codec.ColumnProofs
  Crex.Model Crex.Spec Crex.ValueProofs.
Local Open Scope Z_scope.

(** ** The encoder only appends *)
Definition appended (c c' : cout) (t : list Z) : Prop := c' = mkcout (co_text c ++ t) (co_check c) (co_expected c).

Lemma raw_appendf_appends s c c' : raw_appendf s c = Ok c' -> exists t, appended c c' t.
Proof. unfold raw_appendf. destruct (Nat.ltb 255 (length s)); [discriminate|]. intros E. apply ok_inj in E. subst. eexists. reflexivity. Qed.

Lemma no_digit c : co_check c = false -> encode_check_digit c = c.
Proof. unfold encode_check_digit. intros ->. reflexivity. Qed.

Lemma append_var_appends i v c c' : co_check c = false -> append_var i v c = Ok c' -> exists t, appended c c' t.
Proof.
  intros K. unfold append_var. destruct (negb (isset v)).
  { intros E. apply ok_inj in E. subst. eexists. reflexivity. }
  cbv zeta. rewrite no_digit by exact K.
  assert (A : forall s, raw_appendf s (raw_append [32] c) = Ok c' -> exists t, appended c c' t).
  { intros s E. apply raw_appendf_appends in E as (t & E). exists (32 :: t). unfold appended, raw_append in *.
    cbn [co_text co_check co_expected] in *. rewrite <- app_assoc in E. exact E. }
  destruct (vi_type i); intros E; try discriminate.
  - inv_bind E. eauto.
  - inv_bind E. eauto.
  - inv_bind E. inv_bind Hk. eauto.
Qed.

Lemma digits_no_plus s : Forall digit s -> ~ In 43 s.
Proof. intros F H. rewrite Forall_forall in F. apply F in H. unfold digit in H. lia. Qed.
Lemma repeat_no_plus c n : c <> 43 -> ~ In 43 (repeat c n).
Proof. intros N H. apply repeat_spec in H. auto. Qed.

Section Subset.
Context (o : options) (vars : list var) (base : list Z) (e0 : Z).

(** The encoder with what each variable appended. *)
Record cw : Type := mkcw { w_pos : nat; w_toks : list (list Z); w_lt : localtables }.
Definition plain (w : cw) : cenc := mkcenc (w_pos w) (mkcout (base ++ concat (w_toks w)) false e0) (w_lt w).
Definition cw_log (w : cw) (s : cenc) : cw :=
  mkcw (ce_pos s) (w_toks w ++ [skipn (length (base ++ concat (w_toks w))) (co_text (ce_out s))]) (ce_lt s).
Definition cw_var (i : varinfo) (w : cw) : res cw := s <- ce_var vars i (plain w) ;; Ok (cw_log w s).
Definition cw_factor (i : varinfo) (w : cw) : res (Z * cw) :=
  ' (n, s) <- ce_factor vars i (plain w) ;; Ok (n, cw_log w s).
Definition cw_bitmap (pending size : Z) (w : cw) : res (list Z * list Z * cw) :=
  ' (r, s) <- ce_bitmap vars pending size (plain w) ;; Ok (r, mkcw (ce_pos s) (w_toks w) (ce_lt s)).
Definition cw_unknown (code bits : Z) (w : cw) : res (varinfo * cw) :=
  ' (i, s) <- ce_unknown code bits (plain w) ;; Ok (i, mkcw (ce_pos s) (w_toks w) (ce_lt s)).
Definition logger : visitor cw :=
  mkvisitor cw_var
    (fun bits sig i w => s <- ce_var_af vars bits sig i (plain w) ;; Ok (cw_log w s)) cw_factor
    (fun i w => ' (n, s) <- ce_bitmap_factor o vars i (plain w) ;; Ok (n, cw_log w s))
    (fun i w => ' (n, s) <- ce_significance vars i (plain w) ;; Ok (n, cw_log w s))
    (fun _ _ => Err EUnimpl) (fun _ _ _ => Err EUnimpl) (fun _ _ => Err EUnimpl) (fun _ _ _ => Err EUnimpl)
    cw_bitmap cw_unknown.

Lemma plain_log w s t : appended (ce_out (plain w)) (ce_out s) t -> plain (cw_log w s) = s.
Proof.
  destruct s as [p out lt]. unfold appended. cbn [ce_out plain co_text co_check co_expected]. intros ->.
  unfold plain, cw_log. cbn [w_pos w_toks w_lt ce_pos ce_lt ce_out co_text].
  rewrite (skipn_app_exact (base ++ concat (w_toks w)) t) by reflexivity.
  rewrite concat_app. cbn [concat]. rewrite app_nil_r, app_assoc. reflexivity.
Qed.

Lemma ce_put_appends c s s' (r : res cout) : ce_put s r = Ok s' ->
  (forall c', r = Ok c' -> exists t, appended c c' t) -> exists t, appended c (ce_out s') t.
Proof. unfold ce_put. intros E H. inv_bind E. apply ok_inj in Hk. subst. cbn [ce_out]. auto. Qed.

Lemma ce_next_inv s v s1 : ce_next vars s = Ok (v, s1) -> s1 = mkcenc (S (ce_pos s)) (ce_out s) (ce_lt s).
Proof. unfold ce_next. intros H. inv_bind H. congruence. Qed.

Lemma logger_hom : hom logger (c_encoder o vars) plain.
Proof.
  constructor; cbn [on_var on_var_af on_factor on_bitmap_factor on_significance on_subst on_attr on_raw on_refval on_bitmap
    on_unknown logger c_encoder]; try (intros; intro; reflexivity).
  - intros i w. unfold rmap, cw_var. destruct (ce_var vars i (plain w)) as [s| |] eqn:E; cbn [bind]; try reflexivity.
    f_equal. unfold ce_var in E. inv_bind E. destruct a as [v s1]. apply ce_next_inv in Hb. subst s1.
    cbn [ce_out] in Hk. destruct (ce_put_appends (ce_out (plain w)) _ _ _ Hk) as (t & A).
    { intros c'. apply append_var_appends. reflexivity. }
    eapply plain_log; eauto.
  - intros b g i w. unfold rmap, ce_var_af, ce_next. destruct (get_var vars (ce_pos (plain w))); reflexivity.
  - intros i w. unfold rmap, cw_factor. destruct (ce_factor vars i (plain w)) as [[n s]| |] eqn:E; cbn [bind fst snd]; try reflexivity.
    do 2 f_equal. unfold ce_factor in E. inv_bind E. destruct a as [v s1]. apply ce_next_inv in Hb. subst s1.
    cbn [ce_out] in Hk. destruct (four_digits (vi_code i)).
    + inv_bind Hk. cbv zeta in Hk0. inv_bind Hk0. assert (s = a0) as -> by congruence.
      destruct (ce_put_appends (ce_out (plain w)) _ _ _ Hb0) as (t & A).
      { intros c' Ec. rewrite no_digit in Ec by reflexivity. apply raw_appendf_appends in Ec as (t & Ec). exists (32 :: t).
        unfold appended, raw_append in *. cbn [co_text co_check co_expected] in *. rewrite <- app_assoc in Ec. exact Ec. }
      eapply plain_log; eauto.
    + inv_bind Hk. destruct (ce_put_appends (ce_out (plain w)) _ _ _ Hb) as (t & A).
      { intros c'. apply append_var_appends. reflexivity. }
      assert (s = a) as -> by (destruct (isset (v_cell v)); [inv_bind Hk0|]; congruence).
      eapply plain_log; eauto.
  - intros i w. unfold rmap, ce_bitmap_factor. destruct (get_var vars (ce_pos (plain w))); cbn [bind]; try reflexivity.
    destruct (of_outcome _); reflexivity.
  - intros i w. unfold rmap, ce_significance, ce_next. destruct (get_var vars (ce_pos (plain w))); reflexivity.
  - intros c n w. unfold rmap, cw_bitmap. destruct (ce_bitmap vars c n (plain w)) as [[r s]| |] eqn:E; cbn [bind fst snd]; try reflexivity.
    do 2 f_equal. unfold ce_bitmap in E. inv_bind E. destruct a as [v s1]. apply ce_next_inv in Hb. subst s1.
    destruct (negb _); [discriminate|]. inv_bind Hk. assert (s = mkcenc (S (ce_pos (plain w))) (ce_out (plain w)) (ce_lt (plain w))) as -> by congruence. reflexivity.
  - intros c b w. unfold rmap, cw_unknown. destruct (ce_unknown c b (plain w)) as [[r s]| |] eqn:E; cbn [bind fst snd]; try reflexivity.
    do 2 f_equal. unfold ce_unknown in E. inv_bind E. destruct a as [i lt]. assert (s = mkcenc (ce_pos (plain w)) (ce_out (plain w)) lt) as -> by congruence. reflexivity.
Qed.

(** ** The three runs *)
Definition no_plus (v : var) : Prop := match c_val (v_cell v) with Some (VStr s) => ~ In 43 s | _ => True end.
Definition good_token (v : var) (t : list Z) : Prop :=
  exists r, t = (if isset (v_cell v) then 32 else 47) :: r /\ (no_plus v -> ~ In 43 r).

Definition IE (sa : cxfer) (w : cw) : Prop :=
  w_pos w = cx_pos sa /\ Forall2 good_token (firstn (cx_pos sa) vars) (w_toks w).
Definition ID (sa : cxfer) (sd : cdec) (toks : list (list Z)) : Prop :=
  cd_vars sd = cx_got sa /\ cd_in sd = mkcin (skip_space (concat toks)) false 0 /\
  exists ts tail, toks = ts ++ [tail] /\ follows tail /\ Forall2 good_token (skipn (cx_pos sa) vars) ts.
Definition good (_ : list (list Z)) : Prop := True.
Notation simu f g h := (sim_u IE w_toks ID good f g h).
Notation simv f g h := (sim IE w_toks ID good f g h).

Lemma follows_tokens vs ts tail : Forall2 good_token vs ts -> follows tail -> follows (concat (ts ++ [tail])).
Proof.
  intros F [L E]. rewrite concat_app. cbn [concat]. rewrite app_nil_r. split; [rewrite app_length; lia|].
  destruct F as [|v t vs ts (r & -> & _) F]; [exact E|]. cbn [concat app ends_number]. destruct (isset (v_cell v)); reflexivity.
Qed.

Lemma skipn_nth {A} (l : list A) n x : nth_error l n = Some x -> skipn n l = x :: skipn (S n) l.
Proof.
  revert l. induction n as [|n IH]; intros [|y l] H; cbn in *; try discriminate.
  - congruence.
  - rewrite (IH l H). reflexivity.
Qed.

Lemma forall2_cons_l {A B} (R : A -> B -> Prop) x l ts : Forall2 R (x :: l) ts ->
  exists t ts', ts = t :: ts' /\ R x t /\ Forall2 R l ts'.
Proof. intros F. inversion F. eauto. Qed.

(** What a step has to do: append a token that reads back. *)
Lemma step_sim sa w sd_n v i tok (s' : cenc) :
  IE sa w -> get_var vars (cx_pos sa) = Ok v -> c_info (v_cell v) = i ->
  s' = mkcenc (S (w_pos w)) (mkcout (base ++ concat (w_toks w) ++ tok) false e0) (w_lt w) ->
  good_token v tok ->
  (forall rest next, follows (concat rest) -> nth_error vars (S (cx_pos sa)) = next ->
     (match next with Some v' => exists t r, rest = t :: r /\ good_token v' t /\ (2 <= length (concat r))%nat | None => True end) ->
     read_variable o i (mkcin (skip_space (tok ++ concat rest)) false 0) =
     Ok (sd_n, v_cell v, mkcin (skip_space (concat rest)) false 0)) ->
  IE (cx_give v sa) (cw_log w s') /\ w_toks (cw_log w s') = w_toks w ++ [tok] /\
  forall sd rest, good rest -> ID sa sd ([tok] ++ rest) ->
  exists sd', cd_read o i sd = Ok (sd_n, sd') /\ ID (cx_give v sa) sd' rest.
Proof.
  intros (I1 & I2) Hv Hi -> G R.
  apply get_var_nth in Hv.
  assert (Et : w_toks (cw_log w (mkcenc (S (w_pos w)) (mkcout (base ++ concat (w_toks w) ++ tok) false e0) (w_lt w))) =
               w_toks w ++ [tok]).
  { unfold cw_log. cbn [w_toks ce_out co_text]. rewrite app_assoc. rewrite skipn_app_exact by reflexivity. reflexivity. }
  split; [|split; [exact Et|]].
  - split; [unfold cw_log, cx_give; cbn [w_pos ce_pos cx_pos]; lia|]. rewrite Et. cbn [cx_give cx_pos].
    rewrite (firstn_S_nth _ _ _ Hv). apply Forall2_app; [exact I2|]. constructor; [exact G|constructor].
  - intros sd rest _ (J1 & J2 & ts & tail & Ets & Ft & F).
    rewrite (skipn_nth _ _ _ Hv) in F. apply forall2_cons_l in F as (t & ts' & -> & Gt & F').
    cbn [app] in Ets. injection Ets as Etok Erest. subst t rest.
    specialize (R (ts' ++ [tail]) (nth_error vars (S (cx_pos sa)))).
    unfold cd_read. rewrite J2. cbn [app concat]. rewrite R.
    + cbn [bind]. eexists. split; [reflexivity|]. split; [unfold cx_give; cbn [cd_vars cx_got]; rewrite J1; destruct v; reflexivity|].
      split; [reflexivity|]. exists ts', tail. auto.
    + eapply follows_tokens; eauto.
    + reflexivity.
    + destruct (nth_error vars (S (cx_pos sa))) as [v'|] eqn:Nv; [|exact Logic.I].
      rewrite (skipn_nth _ _ _ Nv) in F'. apply forall2_cons_l in F' as (t & ts2 & -> & Gt' & F''). exists t, (ts2 ++ [tail]).
      split; [reflexivity|]. split; [exact Gt'|]. rewrite concat_app, app_length. cbn [concat]. rewrite app_nil_r. destruct Ft. lia.
Qed.

Lemma cell_eta c : c = mkcell (c_info c) (c_val c).
Proof. destruct c; reflexivity. Qed.

Lemma token_good v i : c_info (v_cell v) = i -> crex_fits false i (c_val (v_cell v)) = true ->
  good_token v (token false 0 i (c_val (v_cell v))).
Proof.
  intros Hi F. pose proof F as F0. unfold crex_fits in F. rewrite !andb_true_iff in F. destruct F as ((L1 & L2) & F).
  unfold good_token, isset, no_plus. destruct (c_val (v_cell v)) as [x|]; cbn [token app].
  - eexists. split; [reflexivity|]. intros NP. destruct x as [k|s|b]; cbn [body].
    + assert (F' : crex_number i k = true) by (destruct (vi_type i); try discriminate; exact F).
      unfold crex_number in F'. rewrite !andb_true_iff in F'. destruct F' as (((A & B) & Ik) & P).
      destruct (fmt_0d_number i k ltac:(lia) ltac:(lia) Ik) as (t & -> & Dg & _).
      rewrite in_app_iff. intros [Hm|Ht]; [|exact (digits_no_plus _ Dg Ht)]. destruct (k <? 0); cbn in Hm; [lia|tauto].
    + rewrite in_app_iff. intros [Hs|Hr]; [auto|]. revert Hr. apply repeat_no_plus. lia.
    + auto.
  - destruct (ilen i) eqn:El; [unfold ilen in El; lia|]. cbn [repeat]. eexists. split; [reflexivity|].
    intros _. apply repeat_no_plus. lia.
Qed.

Lemma take_inv i sa v : cx_take vars i sa = Ok v -> get_var vars (cx_pos sa) = Ok v /\ c_info (v_cell v) = i.
Proof.
  unfold cx_take. intros H. inv_bind H. destruct (varinfo_eq_dec (c_info (v_cell a)) i); [|discriminate].
  apply ok_inj in Hk. subst. auto.
Qed.

Lemma plain_put w i v : append_var i v (mkcout (base ++ concat (w_toks w)) false e0) =
  append_var i v (ce_out (mkcenc (S (w_pos w)) (ce_out (plain w)) (w_lt w))).
Proof. reflexivity. Qed.

Lemma append_fits v i w : c_info (v_cell v) = i -> crex_fits false i (c_val (v_cell v)) = true ->
  append_var i (v_cell v) (mkcout (base ++ concat (w_toks w)) false e0) =
  Ok (mkcout (base ++ concat (w_toks w) ++ token false 0 i (c_val (v_cell v))) false e0).
Proof.
  intros Hi F. rewrite (cell_eta (v_cell v)), Hi. rewrite (append_var_token false) by auto. cbn [co_text co_expected].
  rewrite <- app_assoc. unfold next_digit. cbn [andb]. reflexivity.
Qed.

Lemma sim_cvar i : simu (cx_var vars i) (cw_var i) (cd_var o i).
Proof.
  intros sa w sa' I H. unfold cx_var in H. inv_bind H. rename a into v. inv_bind Hk. apply guard_ok in Hb0.
  apply ok_inj in Hk0. subst sa'. apply take_inv in Hb as [Hv Hi].
  set (tok := token false 0 i (c_val (v_cell v))).
  set (s' := mkcenc (S (w_pos w)) (mkcout (base ++ concat (w_toks w) ++ tok) false e0) (w_lt w)).
  destruct (step_sim sa w (count_of (c_val (v_cell v))) v i tok s' I Hv Hi eq_refl (token_good v i Hi Hb0)) as (I' & Et & D).
  { intros rest next Fr _ _. rewrite (cell_eta (v_cell v)), Hi. cbn [c_val].
    pose proof (read_variable_ok o false 0 i (c_val (v_cell v)) (concat rest) Hb0 ltac:(lia) Fr) as R.
    unfold next_digit in R. exact R. }
  exists [tok], (cw_log w s'). split; [|split; [exact I'|split; [exact Et|]]].
  - unfold cw_var, ce_var, ce_next. cbn [plain ce_pos]. destruct I as (I1 & _). rewrite I1, Hv. cbn [bind].
    cbn [ce_out plain]. rewrite (append_fits v i w Hi Hb0). unfold ce_put. cbn [bind ce_pos ce_lt plain].
    unfold s'. rewrite I1. reflexivity.
  - intros sd rest G J. destruct (D sd rest G J) as (sd' & E & J'). exists sd'. split; [|exact J']. unfold cd_var. rewrite E. reflexivity.
Qed.

(** Delayed replication factors. *)
Lemma decimal_length n w : 10 ^ Z.of_nat w <= n < 10 ^ 20 -> (w < length (decimal n))%nat.
Proof.
  unfold decimal. intros H. assert (G : forall fuel n l w, 10 ^ Z.of_nat w <= n < 10 ^ Z.of_nat fuel ->
    (w + length l < length (decimal_acc fuel n l))%nat).
  { clear. induction fuel as [|k IH]; intros n l w H; cbn [decimal_acc].
    - change (10 ^ Z.of_nat 0) with 1 in H. assert (0 < 10 ^ Z.of_nat w) by (apply Z.pow_pos_nonneg; lia). lia.
    - destruct w as [|w].
      + destruct (Z.ltb_spec n 10); [cbn [length]; lia|].
        specialize (IH (n / 10) (48 + n mod 10 :: l) O). cbn [length Nat.add] in *.
        rewrite Nat2Z.inj_succ, Z.pow_succ_r in H by lia. change (10 ^ Z.of_nat 0) with 1 in *.
        assert (1 <= n / 10 < 10 ^ Z.of_nat k) by (split; [apply Z.div_le_lower_bound; lia|apply Z.div_lt_upper_bound; lia]). lia.
      + rewrite !Nat2Z.inj_succ, !Z.pow_succ_r in H by lia. assert (0 < 10 ^ Z.of_nat w) by (apply Z.pow_pos_nonneg; lia).
        destruct (Z.ltb_spec n 10); [lia|].
        specialize (IH (n / 10) (48 + n mod 10 :: l) w). cbn [length] in IH.
        assert (10 ^ Z.of_nat w <= n / 10 < 10 ^ Z.of_nat k) by (split; [apply Z.div_le_lower_bound; lia|apply Z.div_lt_upper_bound; lia]). lia. }
  specialize (G 20%nat n [] w). cbn [length] in G. change (Z.of_nat 20) with 20 in G. lia.
Qed.

Lemma four_text i k next : cx_factor_fits i k next = true -> four_digits (vi_code i) = true ->
  0 <= k < 100000 /\
  (zeros 4 (decimal k) = body i (VInt k) \/
   (vi_len i = 5 /\ 0 <= k < 10000 /\ exists v, next = Some v /\ isset (v_cell v) = true)).
Proof.
  unfold cx_factor_fits, four_digits. intros F E4. rewrite E4 in F. rewrite andb_true_iff, !orb_true_iff, !andb_true_iff in F.
  destruct F as [K0 [[[L K]|[[L K1] K2]]|[[L K1] K2]]]; (split; [lia|]).
  - left. unfold body, fmt_0d, ilen. replace (k <? 0) with false by lia. replace (vi_len i) with 4 by lia. reflexivity.
  - left. unfold body, fmt_0d, ilen. replace (k <? 0) with false by lia. replace (vi_len i) with 5 by lia.
    assert (Hl := decimal_length k 4 ltac:(change (10 ^ Z.of_nat 4) with 10000; lia)).
    unfold zeros. change (Z.to_nat 5) with 5%nat. replace (4 - length (decimal k))%nat with 0%nat by lia.
    replace (5 - length (decimal k))%nat with 0%nat by lia. reflexivity.
  - right. split; [lia|]. split; [lia|]. destruct next as [v|]; [|discriminate]. eauto.
Qed.

Lemma sim_cfactor i : simv (cx_factor vars i) (cw_factor i) (cd_read o i).
Proof.
  intros sa w x sa' I H. unfold cx_factor in H. inv_bind H. rename a into v.
  destruct (c_val (v_cell v)) as [[k|?|?]|] eqn:Hval; try discriminate.
  2:{ inv_bind Hk. apply guard_ok in Hb0. apply andb_true_iff in Hb0 as [F1 F2]. apply ok_inj in Hk0. injection Hk0 as <- <-. apply take_inv in Hb as [Hv Hi].
    assert (Fv : crex_fits false i (c_val (v_cell v)) = true) by (rewrite Hval; exact F1).
    set (tok := token false 0 i (c_val (v_cell v))).
    set (s' := mkcenc (S (w_pos w)) (mkcout (base ++ concat (w_toks w) ++ tok) false e0) (w_lt w)).
    destruct (step_sim sa w 4294967295 v i tok s' I Hv Hi eq_refl (token_good v i Hi Fv)) as (I' & Et & D).
    { intros rest next Fr _ _. rewrite (cell_eta (v_cell v)), Hi. cbn [c_val].
      pose proof (read_variable_ok o false 0 i (c_val (v_cell v)) (concat rest) Fv ltac:(lia) Fr) as R.
      unfold next_digit in R. unfold tok. rewrite Hval in *. exact R. }
    exists [tok], (cw_log w s'). split; [|split; [exact I'|split; [exact Et|exact D]]].
    unfold cw_factor, ce_factor, ce_next. cbn [plain ce_pos]. destruct I as (I1 & _). rewrite I1, Hv. cbn [bind ce_out plain].
    destruct (four_digits (vi_code i)); [discriminate|]. rewrite (append_fits v i w Hi Fv). unfold ce_put. cbn [bind ce_pos ce_lt plain].
    assert (Hset : isset (v_cell v) = false) by (unfold isset; rewrite Hval; reflexivity). rewrite Hset. unfold s', tok. rewrite I1. reflexivity. }
  inv_bind Hk. apply guard_ok in Hb0.
  apply andb_true_iff in Hb0 as [F1 F2]. apply ok_inj in Hk0. injection Hk0 as <- <-. apply take_inv in Hb as [Hv Hi].
  assert (Fv : crex_fits false i (c_val (v_cell v)) = true) by (rewrite Hval; exact F1).
  assert (Hset : isset (v_cell v) = true) by (unfold isset; rewrite Hval; reflexivity).
  assert (Hnum : is_numeric (vi_type i) = true) by (unfold crex_fits in F1; rewrite !andb_true_iff in F1; destruct (vi_type i); destruct F1; auto; discriminate).
  assert (Hq : enqi (v_cell v) = Ok k) by (unfold enqi; rewrite Hval, Hi; destruct (vi_type i); try discriminate; reflexivity).
  set (tok := if four_digits (vi_code i) then 32 :: zeros 4 (decimal k) else token false 0 i (c_val (v_cell v))).
  set (s' := mkcenc (S (w_pos w)) (mkcout (base ++ concat (w_toks w) ++ tok) false e0) (w_lt w)).
  assert (G : good_token v tok).
  { unfold tok. destruct (four_digits (vi_code i)) eqn:Hf; [|apply token_good; auto]. unfold good_token. rewrite Hset.
    eexists. split; [reflexivity|]. intros _. destruct (four_text i k _ F2 Hf) as (K & _).
    apply digits_no_plus, zeros_digits. unfold decimal. apply decimal_acc_digits; [lia|constructor]. }
  assert (Kint : in_int k = true).
  { unfold crex_fits in F1. rewrite !andb_true_iff in F1. destruct F1 as (_ & F1). destruct (vi_type i); try discriminate;
      unfold crex_number in F1; rewrite !andb_true_iff in F1; tauto. }
  assert (Krange : vi_imin i <= k <= vi_imax i).
  { unfold crex_fits in F1. rewrite !andb_true_iff in F1. destruct F1 as (_ & F1). destruct (vi_type i); try discriminate;
      unfold crex_number in F1; rewrite !andb_true_iff in F1; lia. }
  destruct (step_sim sa w (u32 k) v i tok s' I Hv Hi eq_refl G) as (I' & Et & D).
  { intros rest next Fr Hn Hnext.
    assert (Base : read_variable o i (mkcin (skip_space (token false 0 i (c_val (v_cell v)) ++ concat rest)) false 0) =
      Ok (u32 k, v_cell v, mkcin (skip_space (concat rest)) false 0)).
    { rewrite (cell_eta (v_cell v)), Hi. cbn [c_val].
      pose proof (read_variable_ok o false 0 i (c_val (v_cell v)) (concat rest) Fv ltac:(lia) Fr) as R.
      rewrite Hval in *. exact R. }
    unfold tok. destruct (four_digits (vi_code i)) eqn:Hf; [|exact Base].
    rewrite Hn in F2. destruct (four_text i k next F2 Hf) as (K & [E|(L & K4 & v' & -> & Sv)]).
    - rewrite E. rewrite Hval in Base. exact Base.
    - destruct Hnext as (t & r & -> & (r' & -> & _) & Lr). rewrite Sv in *. clear Base.
      destruct (number_text 4 k) as (Dg & Vl & Lt & Nt); [change (10 ^ Z.of_nat 4) with 10000; lia|lia|lia|].
      set (d4 := zeros 4 (decimal k)) in *.
      cbn [concat app skip_space]. change (c_isspace 32) with true. cbv iota.
      assert (Sk : forall y, skip_space (d4 ++ y) = d4 ++ y).
      { intros y. destruct d4 as [|c d]; [contradiction|]. cbn [app skip_space]. rewrite digit_not_space by (inversion Dg; auto). reflexivity. }
      rewrite Sk. unfold read_variable.
      assert (Sg : (match vi_type i with TString => false | _ => true end) = true) by (destruct (vi_type i); try discriminate; reflexivity).
      assert (Li : ilen i = 5%nat) by (unfold ilen; rewrite L; reflexivity).
      assert (H45 : hd 0 (d4 ++ [32]) <> 45 /\ hd 0 (d4 ++ [32]) <> 47).
      { destruct d4 as [|c d]; [contradiction|]. cbn [app hd]. inversion Dg as [|? ? Dc]. unfold digit in Dc. lia. }
      rewrite Sg, Li.
      replace (d4 ++ 32 :: r' ++ concat r) with ((if false then [48 + 0] else []) ++ (d4 ++ [32]) ++ (r' ++ concat r))
        by (cbn [app]; rewrite <- app_assoc; reflexivity).
      rewrite (parse_value_ok 5 true false 0) by
        (first [rewrite app_length; lia | rewrite app_length, Lt; cbn [length]; lia
               | rewrite app_length, Lt; cbn [length andb]; replace (hd 0 (d4 ++ [32]) =? 45) with false by lia; reflexivity]).
      cbn [bind].
      assert (Hs : hd 0 ((d4 ++ [32]) ++ r' ++ concat r) =? 47 = false).
      { destruct d4 as [|c d]; [contradiction|]. cbn [app hd] in *. lia. }
      rewrite Hs. rewrite <- app_assoc. rewrite strtol_number; [|exact Dg|exact Nt|reflexivity|rewrite Vl; lia].
      rewrite Vl. unfold to_int. rewrite wrap_int_in by exact Kint.
      assert (Se : seti o (fresh i) k = Done (mkcell i (Some (VInt k)))).
      { unfold seti, fresh. cbn [c_info]. rewrite Hnum. unfold assign_i_checked. cbn [c_info].
        replace ((k <? vi_imin i) || (vi_imax i <? k)) with false by lia. reflexivity. }
      rewrite Se. rewrite (cell_eta (v_cell v)), Hval, Hi. cbn [c_val].
      destruct (vi_type i); try discriminate; reflexivity. }
  exists [tok], (cw_log w s'). split; [|split; [exact I'|split; [exact Et|exact D]]].
  unfold cw_factor, ce_factor, ce_next. cbn [plain ce_pos]. destruct I as (I1 & _). rewrite I1, Hv. cbn [bind ce_out plain].
  unfold s', tok. destruct (four_digits (vi_code i)) eqn:Hf.
  - rewrite Hq. cbn [bind]. rewrite no_digit by reflexivity.
    destruct (four_text i k _ F2 Hf) as (K & _).
    assert (Uk : u32 k = k) by (unfold u32; apply Z.mod_small; lia). rewrite Uk.
    assert (Hl : (length (zeros 4 (decimal k)) <= 5)%nat).
    { destruct (number_text 5 k) as (_ & _ & L5 & _); [change (10 ^ Z.of_nat 5) with 100000; lia|lia|lia|].
      unfold zeros in *. rewrite app_length, repeat_length in *. lia. }
    rewrite raw_appendf_short by lia.
    unfold ce_put, raw_append. cbn [bind co_text co_check co_expected ce_pos ce_lt plain]. rewrite <- !app_assoc. cbn [app].
    rewrite I1. reflexivity.
  - rewrite (append_fits v i w Hi Fv). unfold ce_put. cbn [bind ce_pos ce_lt plain]. rewrite Hset, Hq. cbn [bind]. rewrite I1. reflexivity.
Qed.

Lemma callbacks_crex T : callbacks IE w_toks ID good (c_transmitter vars) logger (c_decoder o) T.
Proof.
  constructor; cbn [on_var on_var_af on_factor on_bitmap_factor on_significance on_subst on_attr on_raw on_refval on_bitmap
    on_unknown c_transmitter logger c_decoder]; intros;
    try (intros sa se x sa' I E; discriminate); try (intros sa se sa' I E; discriminate).
  - apply sim_cvar.
  - apply sim_cfactor.
Qed.
End Subset.

(** ** A subset *)
Theorem subset_text o T fuel ops vars got c lt : crex_transfer vars T fuel ops = Ok got -> co_check c = false ->
  exists ts, Forall2 good_token vars ts /\
  (exists st s, run (c_encoder o vars) T fuel ops (ist_init, mkcenc 0 c lt) = Ok (st, s) /\
     ce_out s = mkcout (co_text c ++ concat ts) false (co_expected c)) /\
  (forall tail lt', follows tail -> exists st s,
     run (c_decoder o) T fuel ops (ist_init, mkcdec (mkcin (skip_space (concat ts ++ tail)) false 0) [] lt') = Ok (st, s) /\
     cd_vars s = got /\ cd_in s = mkcin (skip_space tail) false 0).
Proof.
  intros H K. unfold crex_transfer in H. inv_bind H. destruct a as [st sa]. inv_bind Hk. apply guard_ok in Hb0.
  apply Nat.eqb_eq in Hb0. apply ok_inj in Hk0. subst got.
  pose proof (run_sim (IE vars) w_toks (ID vars) good (fun _ _ _ => I) (c_transmitter vars) (logger o vars (co_text c) (co_expected c)) (c_decoder o) T
    (callbacks_crex o vars (co_text c) (co_expected c) T) fuel ops ist_init ist_ok_init) as S.
  specialize (S (mkcx 0 []) (mkcw 0 [] lt) st sa).
  destruct S as (bs & w & Ew & (W1 & W2) & Et & D).
  { split; [reflexivity|]. cbn. constructor. }
  { exact Hb. }
  cbn [w_toks app] in Et. subst bs. rewrite Hb0, firstn_all in W2. exists (w_toks w). split; [exact W2|]. split.
  - exists st, (plain (co_text c) (co_expected c) w). split; [|reflexivity].
    pose proof (run_hom (logger o vars (co_text c) (co_expected c)) (c_encoder o vars) (plain (co_text c) (co_expected c))
      T (logger_hom o vars _ _) fuel ops (ist_init, mkcw 0 [] lt)) as R.
    rewrite Ew in R. cbn [rmap bind under fst snd] in R. etransitivity; [|symmetry; exact R]. f_equal.
    unfold under, plain. cbn [fst snd w_pos w_toks w_lt concat]. rewrite app_nil_r, <- K. destruct c; reflexivity.
  - intros tail lt' F. destruct (D (mkcdec (mkcin (skip_space (concat (w_toks w) ++ tail)) false 0) [] lt') [tail] I) as (sd & Ed & J1 & J2 & _).
    { split; [reflexivity|]. split; [cbn [cd_in]; rewrite concat_app; cbn [concat]; rewrite app_nil_r; reflexivity|].
      exists (w_toks w), tail. auto. }
    exists st, sd. split; [exact Ed|]. split; [exact J1|]. rewrite J2. cbn [concat]. rewrite app_nil_r. reflexivity.
Qed.

(** ** What a transfer gives *)
Lemma transfer_values vars T fuel ops got : crex_transfer vars T fuel ops = Ok got ->
  got = map (fun v => mkvar (v_cell v) []) vars.
Proof.
  intros H. unfold crex_transfer in H. inv_bind H. destruct a as [st sa]. inv_bind Hk. apply guard_ok in Hb0.
  apply Nat.eqb_eq in Hb0. apply ok_inj in Hk0. subst got.
  set (P := fun s : cxfer => cx_got s = map (fun v => mkvar (v_cell v) []) (firstn (cx_pos s) vars)).
  assert (G : forall i s v, P s -> cx_take vars i s = Ok v -> P (cx_give v s)).
  { intros i s v Ps Ht. apply take_inv in Ht as [Hv _]. apply get_var_nth in Hv. unfold P in *. cbn [cx_give cx_got cx_pos].
    rewrite Ps, (firstn_S_nth _ _ _ Hv), map_app. reflexivity. }
  assert (Pf : P sa).
  { eapply (run_inv (c_transmitter vars) T P); [|apply ist_ok_init| |exact Hb]; [|reflexivity].
    constructor; cbn [on_var on_var_af on_factor on_bitmap_factor on_significance on_subst on_attr on_raw on_refval on_bitmap
      on_unknown c_transmitter]; intros; try discriminate.
    - unfold cx_var in H0. inv_bind H0. inv_bind Hk. apply ok_inj in Hk0. subst. eauto.
    - unfold cx_factor in H0. inv_bind H0. destruct (c_val (v_cell a0)) as [[k| |]|]; try discriminate; inv_bind Hk;
      apply ok_inj in Hk0; injection Hk0 as _ <-; eauto. }
  unfold P in Pf. rewrite Pf, Hb0, firstn_all. reflexivity.
Qed.

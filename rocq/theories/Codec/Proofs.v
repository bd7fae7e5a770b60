(** The encoder and the decoder implement the ideal transmission. *)
From Coq Require Import ZifyBool ZifyNat.
From Verif Require Import Base Bits.Model Bits.Spec Bits.Proofs Bits.StringProofs Num.Float Num.FloatProofs
  Varcode.Model Varinfo.Model Varinfo.Proofs Varinfo.RangeProofs Tables.Model Tables.AlterProofs Tables.LoadProofs Var.Model Var.Spec
  Var.Proofs Var.AttrProofs Var.CodecProofs Interp.Model Interp.Sim Codec.Model Codec.Spec Codec.ValueProofs.
Local Open Scope Z_scope.

Definition var_infos_ok (v : var) : Prop :=
  info_ok (c_info (v_cell v)) /\ Forall (fun a => info_ok (c_info a)) (v_attrs v).

Definition infos (vars : list var) : list varinfo := map (fun v => c_info (v_cell v)) vars.

Lemma seti_in_range o i k : info_ok i -> is_numeric (vi_type i) = true -> vi_imin i <= k <= vi_imax i ->
  seti o (fresh i) k = Done (mkcell i (Some (VInt k))).
Proof.
  intros K N R. unfold seti, fresh. cbn [c_info]. rewrite N. unfold assign_i_checked. cbn [c_info].
  replace ((k <? vi_imin i) || (vi_imax i <? k)) with false by lia. reflexivity.
Qed.

Lemma codes_infos vars : codes_of vars = map vi_code (infos vars).
Proof. unfold codes_of, infos. rewrite map_map. reflexivity. Qed.

Lemma get_var_nth vars pos v : get_var vars pos = Ok v -> nth_error vars pos = Some v.
Proof. unfold get_var. destruct (nth_error vars pos); congruence. Qed.

Lemma firstn_S_nth {A} (l : list A) n a : nth_error l n = Some a -> firstn (S n) l = firstn n l ++ [a].
Proof.
  revert n. induction l as [|x l IH]; intros [|n]; cbn; try discriminate.
  - intros H. injection H as ->. destruct l; reflexivity.
  - intros H. f_equal. apply IH. exact H.
Qed.

Lemma guard_ok b x : guard b = Ok x -> b = true.
Proof. unfold guard. destruct b; [reflexivity|discriminate]. Qed.

Lemma enqa_in code l a : enqa code l = Some a -> In a l.
Proof.
  induction l as [|b l IH]; cbn [enqa In]; [discriminate|]. destruct (c_code b <=? code); [|discriminate].
  destruct (c_code b =? code); [intros [= <-]; auto|auto].
Qed.

Lemma get_unknown_local lt lt2 code bits i lt' : lt_unknown lt2 = lt_unknown lt -> get_unknown lt code bits = Ok (i, lt') ->
  exists lt2', get_unknown lt2 code bits = Ok (i, lt2') /\ lt_unknown lt2' = lt_unknown lt'.
Proof.
  unfold get_unknown. intros E. rewrite E. destruct (assoc Z.eqb bits (lt_unknown lt)) as [j|].
  - destruct (negb (vi_code j =? code)); [discriminate|]. intros H. injection H as <- <-. exists lt2. auto.
  - intros H. inv_bind H. injection Hk as <- <-. rewrite Hb. cbn [bind]. eexists. split; [reflexivity|]. reflexivity.
Qed.

Lemma get_chardata_local lt code n i lt' : get_chardata lt code n = Ok (i, lt') -> lt_unknown lt' = lt_unknown lt.
Proof.
  unfold get_chardata. destruct (assoc Z.eqb code (lt_chardata lt)) as [j|].
  - destruct (negb (vi_code j =? code)); [discriminate|]. intros H. injection H as <- <-. reflexivity.
  - intros H. inv_bind H. injection Hk as <- <-. reflexivity.
Qed.

Lemma get_bitmap_local lt code n i lt' : get_bitmap lt code n = Ok (i, lt') -> lt_unknown lt' = lt_unknown lt.
Proof.
  unfold get_bitmap. destruct (assoc zlist_eqb n (lt_bitmaps lt)) as [j|].
  - destruct (negb (vi_code j =? code)); [discriminate|]. intros H. injection H as <- <-. reflexivity.
  - intros H. inv_bind H. injection Hk as <- <-. reflexivity.
Qed.

Lemma infos_update l pos v c : nth_error l pos = Some v -> c_info (v_cell c) = c_info (v_cell v) ->
  infos (update l pos c) = infos l.
Proof.
  revert pos. induction l as [|x l IH]; intros [|pos]; cbn; try discriminate.
  - intros H E. injection H as ->. f_equal. exact E.
  - intros H E. f_equal. apply IH; auto.
Qed.

Section Codec.
Context (p : shift_policy) (o : options) (T : tables) (skip : bool) (vars : list var).
Hypothesis VOK : Forall var_infos_ok vars.
Hypothesis TOK : table_ok (tb_b T).

Definition IE (sa : xfer) (se : enc) : Prop :=
  e_pos se = x_pos sa /\ lt_unknown (e_lt se) = lt_unknown (x_lt sa) /\ wf_out (e_out se) /\
  infos (x_got sa) = infos (firstn (x_pos sa) vars).

Definition ID (sa : xfer) (sd : dec) (bits : list bool) : Prop :=
  d_vars sd = x_got sa /\ d_lt sd = x_lt sa /\ Forall is_byte (idata (d_in sd)) /\ wf_in (d_in sd) /\
  in_bits (d_in sd) = bits.

Definition good (bits : list bool) : Prop := (8 <= length bits)%nat.
Definition emitted (se : enc) : list bool := out_bits (e_out se).

Lemma good_app bs rest : good rest -> good (bs ++ rest).
Proof. unfold good. rewrite app_length. lia. Qed.

Notation simv := (sim IE emitted ID good).
Notation simu := (sim_u IE emitted ID good).

Lemma reads_ID {A} sa sd bs rest (f : input -> res (A * input)) a : reads bs f a -> good rest -> ID sa sd (bs ++ rest) ->
  exists inp, f (d_in sd) = Ok (a, inp) /\ ID sa (mkdec inp (d_vars sd) (d_lt sd)) rest.
Proof.
  intros R G (D1 & D2 & D3 & D4 & D5). destruct (R (d_in sd) rest D3 D4 G D5) as (i' & E & R1 & R2 & R3).
  exists i'. split; auto. unfold ID, x_tables, x_give, xfer_init. cbn [d_vars d_lt d_in]. rewrite R3. auto.
Qed.

Lemma var_info_ok v pos : nth_error vars pos = Some v -> var_infos_ok v.
Proof. intros H. apply nth_error_In in H. eapply Forall_forall in VOK; eauto. Qed.

(** Taking the next variable. *)
Lemma take_spec i sa v : x_take p vars i sa = Ok v ->
  nth_error vars (x_pos sa) = Some v /\ c_info (v_cell v) = i /\ info_ok i /\
  exists bs, writes bs (append_var p i (v_cell v)) /\ reads bs (decode_value o i) (v_cell v).
Proof.
  unfold x_take. intros H. inv_bind H. apply get_var_nth in Hb.
  destruct (varinfo_eq_dec (c_info (v_cell a)) i) as [E|]; [|discriminate].
  inv_bind Hk. injection Hk0 as <-. apply guard_ok in Hb0.
  assert (K : info_ok i) by (rewrite <- E; apply (var_info_ok _ _ Hb)).
  split; auto. split; auto. split; auto.
  destruct (value_roundtrip p o i (c_val (v_cell a)) (or_intror K) Hb0) as (bs & W & R).
  exists bs. destruct (v_cell a) as [i' val]. cbn [c_info c_val] in *. subst i'. auto.
Qed.

Lemma IE_give i sa se v out attrs : IE sa se -> nth_error vars (x_pos sa) = Some v -> c_info (v_cell v) = i -> wf_out out ->
  IE (x_give (v_cell v) attrs sa) (mkenc (S (e_pos se)) out (e_lt se)).
Proof.
  intros (I1 & I2 & I3 & I4) N E W. unfold IE, x_give. cbn [e_pos x_pos e_lt x_lt e_out x_got].
  split; [lia|]. split; auto. split; auto.
  rewrite (firstn_S_nth _ _ _ N). unfold infos in *. rewrite !map_app, I4. reflexivity.
Qed.

Lemma e_next_ok sa se v : IE sa se -> nth_error vars (x_pos sa) = Some v ->
  e_next vars se = Ok (v, mkenc (S (e_pos se)) (e_out se) (e_lt se)).
Proof. intros (I1 & _) N. unfold e_next, get_var. rewrite I1, N. reflexivity. Qed.

Lemma sim_var i : simu (x_var p vars i) (e_var p vars i) (d_var o i).
Proof.
  intros sa se sa' I H. unfold x_var in H. inv_bind H. injection Hk as <-.
  destruct (take_spec _ _ _ Hb) as (N & E & K & bs & W & R). exists bs.
  destruct (W (e_out se)) as (out & W1 & W2 & W3); [apply I|].
  exists (mkenc (S (e_pos se)) out (e_lt se)). unfold e_var. rewrite (e_next_ok _ _ _ I N). cbn [bind e_out].
  rewrite W1. cbn [e_put bind e_pos e_lt]. split; auto. split; [eapply IE_give; eauto|]. split; [exact W2|].
  intros sd rest G J. unfold d_var. destruct (reads_ID _ _ _ _ _ _ R G J) as (inp & F1 & J1).
  rewrite F1. cbn [bind]. eexists. split; [reflexivity|]. unfold d_store, x_give.
  destruct J1 as (J1 & J2 & J3). unfold ID, x_tables, x_give, xfer_init. cbn [d_vars d_lt d_in x_got x_lt] in *. rewrite J1. auto.
Qed.

(** Replication factors and significances, which also return a number. *)
Lemma sim_number (f : cell -> res Z) i :
  simv (fun s => v <- x_take p vars i s ;; n <- f (v_cell v) ;; Ok (u32 n, x_give (v_cell v) [] s))
       (fun s => ' (v, s1) <- e_next vars s ;; s2 <- e_put s1 (append_var p i (v_cell v) (e_out s1)) ;;
                 n <- f (v_cell v) ;; Ok (u32 n, s2))
       (fun s => ' (c, inp) <- decode_value o i (d_in s) ;; n <- f c ;; Ok (u32 n, d_store c inp s)).
Proof.
  intros sa se x sa' I H. inv_bind H. inv_bind Hk. injection Hk0 as <- <-. rename a0 into n.
  destruct (take_spec _ _ _ Hb) as (N & E & K & bs & W & R). exists bs.
  destruct (W (e_out se)) as (out & W1 & W2 & W3); [apply I|].
  exists (mkenc (S (e_pos se)) out (e_lt se)). rewrite (e_next_ok _ _ _ I N). cbn [bind e_out].
  rewrite W1. cbn [e_put bind e_pos e_lt]. rewrite Hb0. cbn [bind]. split; auto.
  split; [eapply IE_give; eauto|]. split; [exact W2|].
  intros sd rest G J. destruct (reads_ID _ _ _ _ _ _ R G J) as (inp & F1 & J1).
  rewrite F1. cbn [bind]. rewrite Hb0. cbn [bind]. eexists. split; [reflexivity|]. unfold d_store, x_give.
  destruct J1 as (J1 & J2 & J3). unfold ID, x_tables, x_give, xfer_init. cbn [d_vars d_lt d_in x_got x_lt] in *. rewrite J1. auto.
Qed.

Lemma sim_factor i : simv (x_factor p vars i) (e_factor p vars i) (d_factor o i).
Proof. exact (sim_number enqi i). Qed.

Lemma sim_significance i : simv (x_significance p vars i) (e_significance p vars i) (d_significance o i).
Proof. exact (sim_number (fun c => if isset c then enqi c else Ok 63) i). Qed.

(** Associated fields. *)
Lemma pow_bounds b : 0 < b <= 32 -> 2 <= 2 ^ b <= 2 ^ 32.
Proof.
  intros H. split.
  - change 2 with (2 ^ 1) at 1. apply Z.pow_le_mono_r; lia.
  - apply Z.pow_le_mono_r; lia.
Qed.

Lemma missing_bits n : (1 <= n <= 32)%nat -> (2 ^ 32 - 1) mod 2 ^ Z.of_nat n = 2 ^ Z.of_nat n - 1.
Proof.
  intros Hn. symmetry. apply Z.mod_unique with (q := 2 ^ (32 - Z.of_nat n) - 1).
  - left. pose proof (Z.pow_pos_nonneg 2 (Z.of_nat n)). lia.
  - replace 32 with (Z.of_nat n + (32 - Z.of_nat n)) at 1 by lia. rewrite Z.pow_add_r by lia. ring.
Qed.

Lemma af_spec b g v attrs : 0 < b <= 32 -> x_af T skip b g v = Ok attrs ->
  exists bs a, writes bs (fun out => s <- e_af p b g v (mkenc 0 out empty_local) ;; Ok (e_out s)) /\
    reads bs (fun inp => ' (n, inp1) <- get_bits (Z.to_nat b) inp ;;
              a <- make_attribute o (tb_b T) skip (Z.to_nat b) g n ;; Ok (a, inp1)) a /\
    attrs = match a with Some x => seta x [] | None => [] end.
Proof.
  intros B H. unfold x_af in H. inv_bind H. rename a into oc, Hb into Hoc.
  set (n := Z.to_nat b) in *. assert (Hn : (1 <= n <= 32)%nat) by lia. assert (Hz : Z.of_nat n = b) by lia.
  pose proof (pow_bounds b B) as PB.
  assert (Hones : all_ones n = Ok (2 ^ b - 1)).
  { unfold all_ones. replace ((1 <=? n)%nat && (n <=? 32)%nat) with true by lia. rewrite Hz. reflexivity. }
  (* nothing to send *)
  assert (Miss : forall a, make_attribute o (tb_b T) skip n g (2 ^ b - 1) = Ok a ->
    (e_af p b g v = fun s => e_put s (append_missing p n (e_out s))) ->
    exists bs, writes bs (fun out => s <- e_af p b g v (mkenc 0 out empty_local) ;; Ok (e_out s)) /\
    reads bs (fun inp => ' (n0, inp1) <- get_bits n inp ;;
              a <- make_attribute o (tb_b T) skip n g n0 ;; Ok (a, inp1)) a).
  { intros a M E. exists (bits_of n (2 ^ 32 - 1)). split.
    - intros out W. rewrite E. destruct (append_missing_spec p n out Hn W) as (o' & A1 & A2 & A3).
      cbn [e_out]. rewrite A1. cbn [e_put bind e_out]. exists o'. rewrite bits_of_all_ones by lia. auto.
    - intros inp rest Hb W Hr Ei. destruct (get_bits_reads n _ ltac:(lia) inp rest Hb W Hr Ei) as (i' & G & R1 & R2 & R3).
      rewrite G. cbn [bind]. rewrite missing_bits by exact Hn. rewrite Hz, M. cbn [bind]. eauto. }
  assert (Send : forall k a c, 0 <= k < 2 ^ b - 1 -> make_attribute o (tb_b T) skip n g k = Ok a ->
    get_attribute g v = Ok (Some c) -> isset c = true -> enqi c = Ok k ->
    exists bs, writes bs (fun out => s <- e_af p b g v (mkenc 0 out empty_local) ;; Ok (e_out s)) /\
    reads bs (fun inp => ' (n0, inp1) <- get_bits n inp ;;
              a <- make_attribute o (tb_b T) skip n g n0 ;; Ok (a, inp1)) a).
  { intros k a c Hk0 M G1 G2 G3. exists (bits_of n k). split.
    - intros out W. unfold e_af. rewrite G1. cbn [bind]. rewrite G2, G3. cbn [bind e_out].
      fold n. destruct (add_bits_writes p k n Hn out W) as (o' & A1 & A2 & A3). rewrite A1. cbn [e_put bind e_out]. eauto.
    - intros inp rest Hb W Hr Ei. destruct (get_bits_reads n _ ltac:(lia) inp rest Hb W Hr Ei) as (i' & G & R1 & R2 & R3).
      rewrite G. cbn [bind]. rewrite Hz, Z.mod_small by lia. rewrite M. cbn [bind]. eauto. }
  destruct oc as [code|].
  2:{ injection Hk as <-. destruct (Miss None) as (bs & W & R).
      - unfold make_attribute. rewrite Hones. cbn [bind]. rewrite Hoc. reflexivity.
      - unfold e_af, get_attribute. rewrite Hoc. reflexivity.
      - exists bs, None. auto. }
  inv_bind Hk. rename a into i, Hb into Hq. pose proof (TOK _ _ Hq) as Ki.
  set (absent := if g =? 21 then _ else _) in Hk0.
  assert (Absent : absent = Ok attrs -> (e_af p b g v = fun s => e_put s (append_missing p n (e_out s))) ->
    exists bs a, writes bs (fun out => s <- e_af p b g v (mkenc 0 out empty_local) ;; Ok (e_out s)) /\
    reads bs (fun inp => ' (n0, inp1) <- get_bits n inp ;;
              a <- make_attribute o (tb_b T) skip n g n0 ;; Ok (a, inp1)) a /\
    attrs = match a with Some x => seta x [] | None => [] end).
  { unfold absent. intros A E.
    assert (M : exists a, make_attribute o (tb_b T) skip n g (2 ^ b - 1) = Ok a /\
                attrs = match a with Some x => seta x [] | None => [] end).
    { unfold make_attribute. rewrite Hones. cbn [bind]. rewrite Hoc. cbn [bind]. rewrite Z.eqb_refl. cbn [negb].
      rewrite orb_false_r. destruct (g =? 21).
      - destruct skip; cbn [negb].
        + injection A as <-. exists None. auto.
        + inv_bind A. injection Hk as <-. apply guard_ok in Hb. rewrite !andb_true_iff in Hb.
          destruct Hb as ((B1 & B2) & B3). rewrite Hq. cbn [bind].
          rewrite seti_in_range by (first [exact Ki | exact B1 | lia]). cbn [of_outcome bind]. eexists. split; [reflexivity|]. reflexivity.
      - injection A as <-. destruct (((g =? 6) || (g =? 8)) && skip).
        + exists None. auto.
        + rewrite Hq. cbn [bind]. eexists. split; [reflexivity|]. reflexivity. }
    destruct M as (a & M & Ea). destruct (Miss a M E) as (bs & W & R). exists bs, a. auto. }
  destruct (var_enqa v code) as [a|] eqn:Ha.
  2:{ apply Absent; auto. unfold e_af, get_attribute. rewrite Hoc. cbn [bind]. rewrite Ha. reflexivity. }
  destruct (c_val a) as [[k|s|s]|] eqn:Hv; try discriminate.
  - inv_bind Hk0. injection Hk as <-. apply guard_ok in Hb. rewrite !andb_true_iff in Hb.
    destruct Hb as (((((B1 & B2) & B3) & B4) & B5) & B6). destruct (info_ok_numeric i Ki B4) as (_ & M1 & M2 & _).
    destruct (Send k (Some (mkcell i (Some (VInt (if g =? 21 then 0 else k))))) a) as (bs & W & R).
    + lia.
    + unfold make_attribute. rewrite Hones. cbn [bind]. rewrite Hoc. cbn [bind].
      replace (k =? 2 ^ b - 1) with false by lia. cbn [negb]. rewrite orb_true_r, Hq. cbn [bind].
      destruct (g =? 21).
      * rewrite seti_in_range by (first [exact Ki | exact B4 | lia]). reflexivity.
      * rewrite wrap_int_id by lia. rewrite seti_in_range by (first [exact Ki | exact B4 | lia]). reflexivity.
    + unfold get_attribute. rewrite Hoc. cbn [bind]. rewrite Ha. reflexivity.
    + unfold isset. rewrite Hv. reflexivity.
    + unfold enqi. rewrite Hv. destruct (vi_type (c_info a)); first [reflexivity | discriminate].
    + eexists bs, _. split; [exact W|]. split; [exact R|]. reflexivity.
  - apply Absent; auto. unfold e_af, get_attribute. rewrite Hoc. cbn [bind]. rewrite Ha. unfold isset. rewrite Hv. reflexivity.
Qed.

Lemma e_af_out b g v s :
  e_af p b g v s =
  (out <- (s' <- e_af p b g v (mkenc 0 (e_out s) empty_local) ;; Ok (e_out s')) ;; Ok (mkenc (e_pos s) out (e_lt s))).
Proof.
  unfold e_af. destruct (get_attribute g v) as [[c|]| |]; cbn [bind]; auto.
  - destruct (isset c); cbn [e_out].
    + destruct (enqi c) as [n| |]; cbn [bind]; auto. destruct (add_bits p n (Z.to_nat b) (e_out s)); reflexivity.
    + destruct (append_missing p (Z.to_nat b) (e_out s)); reflexivity.
  - cbn [e_out]. destruct (append_missing p (Z.to_nat b) (e_out s)); reflexivity.
Qed.

Lemma sim_var_af b g i : 0 < b <= 32 -> simu (x_var_af p T skip vars b g i) (e_var_af p vars b g i) (d_var_af o T skip b g i).
Proof.
  intros B sa se sa' I H. unfold x_var_af in H. inv_bind H. inv_bind Hk. injection Hk0 as <-. rename a into v, a0 into attrs.
  destruct (take_spec _ _ _ Hb) as (N & E & K & bs & W & R).
  destruct (af_spec b g v attrs B Hb0) as (bs1 & a & Wa & Ra & Ea).
  exists (bs1 ++ bs).
  destruct (Wa (e_out se)) as (out1 & W1 & W2 & W3); [apply I|].
  destruct (W out1 W3) as (out & W4 & W5 & W6).
  exists (mkenc (S (e_pos se)) out (e_lt se)). unfold e_var_af. rewrite (e_next_ok _ _ _ I N). cbn [bind e_out].
  rewrite e_af_out. cbn [e_out e_pos e_lt]. rewrite W1. cbn [bind e_out]. rewrite W4. cbn [e_put bind e_pos e_lt].
  split; auto. split; [eapply IE_give; eauto|]. split; [unfold emitted; cbn [e_out]; rewrite W5, W2, app_assoc; reflexivity|].
  intros sd rest G J. rewrite <- app_assoc in J. unfold d_var_af.
  destruct (reads_ID _ _ _ _ _ _ Ra (good_app bs rest G) J) as (inp & F1 & J1).
  destruct (reads_ID _ _ _ _ _ _ R G J1) as (inp2 & F2 & J2). cbn [d_in d_vars d_lt] in F2, J2.
  inv_bind F1. destruct a0 as [n inp0]. inv_bind Hk. injection Hk0 as -> ->. rewrite Hb1. cbn [bind]. rewrite Hb2. cbn [bind].
  rewrite F2. cbn [bind]. eexists. split; [reflexivity|]. unfold x_give.
  destruct J2 as (J2 & J3 & J4). unfold ID, x_tables, x_give, xfer_init. cbn [d_vars d_lt d_in x_got x_lt] in *. rewrite J2, Ea. auto.
Qed.

Lemma sim_bitmap_factor i : (exists c, query (tb_b T) c = Ok i) ->
  simv (x_bitmap_factor p vars i) (e_bitmap_factor p o vars i) (d_bitmap_factor o i).
Proof.
  intros (code & Q) sa se x sa' I H. unfold x_bitmap_factor in H. inv_bind H. inv_bind Hk. injection Hk0 as <- <-.
  rename a into v. apply get_var_nth in Hb. apply guard_ok in Hb0. rewrite !andb_true_iff in Hb0.
  destruct Hb0 as ((B1 & B2) & B3). set (len := vi_len (c_info (v_cell v))) in *.
  pose proof (TOK _ _ Q) as K.
  assert (Hlen : 0 <= len < 2 ^ 32) by (apply (io_len _ (proj1 (var_info_ok _ _ Hb)))).
  assert (Hr : vi_imin i <= len <= vi_imax i).
  { clear - B1 B2. unfold field_ok, number_fits in B2. destruct (vi_type i); try discriminate; lia. }
  destruct (info_ok_numeric i K B1) as (_ & M1 & M2 & _).
  destruct (value_roundtrip p o i _ (or_intror K) B2) as (bs & W & R).
  exists bs. destruct (W (e_out se)) as (out & W1 & W2 & W3); [apply I|].
  exists (mkenc (e_pos se) out (e_lt se)). unfold e_bitmap_factor. pose proof I as (I1 & I2 & I3 & I4).
  unfold get_var. rewrite I1, Hb. cbn [bind]. fold len. rewrite wrap_int_id by lia. rewrite seti_in_range by auto.
  cbn [of_outcome bind]. rewrite W1. cbn [e_put bind]. rewrite I1. split; auto.
  split; [unfold IE; cbn [e_pos e_lt e_out]; auto|]. split; [exact W2|].
  intros sd rest G J. unfold d_bitmap_factor. destruct (reads_ID _ _ _ _ _ _ R G J) as (inp & F1 & J1).
  rewrite F1. cbn [bind]. unfold enqi. cbn [c_val c_info].
  assert (Hu : u32 len = len) by (unfold u32; apply Z.mod_small; lia).
  destruct (vi_type i); try discriminate; cbn [bind]; rewrite Hu; eauto.
Qed.

Lemma IE_got sa se out got lt asked fields : IE sa se -> wf_out out -> infos got = infos (x_got sa) -> lt_unknown lt = lt_unknown (x_lt sa) ->
  IE (mkxfer (x_pos sa) got lt asked fields) (mkenc (e_pos se) out (e_lt se)).
Proof.
  intros (I1 & I2 & I3 & I4) W E L. unfold IE, x_tables, x_give, xfer_init. cbn [x_pos x_got x_lt e_pos e_lt e_out]. rewrite E, L. auto.
Qed.

Lemma sim_attr i pos : simu (x_attr p vars i pos) (e_attr p vars i pos) (d_attr o i pos).
Proof.
  intros sa se sa' I H. unfold x_attr in H. inv_bind H. inv_bind Hk. rename a into v, a0 into got.
  apply get_var_nth in Hb, Hb0.
  assert (Step : forall c, c_info c = i -> c_val c = None \/ info_ok i -> field_ok p i (c_val c) = true ->
    e_attr p vars i pos se = e_put se (append_var p i c (e_out se)) ->
    sa' = mkxfer (x_pos sa) (if isset c then update (x_got sa) pos (mkvar (v_cell got) (seta c (v_attrs got))) else x_got sa)
            (x_lt sa) (x_asked sa ++ [(pos, vi_code i)]) (x_fields sa) ->
    exists bs se', e_attr p vars i pos se = Ok se' /\ IE sa' se' /\ emitted se' = emitted se ++ bs /\
    forall sd rest, good rest -> ID sa sd (bs ++ rest) ->
    exists sd', d_attr o i pos sd = Ok sd' /\ ID sa' sd' rest).
  { intros c Ec K Fc Ee Es. destruct (value_roundtrip p o i _ K Fc) as (bs & W & R).
    replace (mkcell i (c_val c)) with c in * by (destruct c; cbn in *; subst; reflexivity).
    destruct (W (e_out se)) as (out & W1 & W2 & W3); [apply I|].
    exists bs, (mkenc (e_pos se) out (e_lt se)). rewrite Ee, W1. cbn [e_put bind]. split; auto.
    split. { subst sa'. apply IE_got; auto. destruct (isset c); auto. eapply infos_update; [exact Hb0|reflexivity]. }
    split; [exact W2|]. intros sd rest G J. unfold d_attr.
    destruct (reads_ID _ _ _ _ _ _ R G J) as (inp & F1 & J1). rewrite F1. cbn [bind]. subst sa'.
    destruct (isset c); cbn [negb]; [|eauto].
    destruct J1 as (J1 & J2 & J3). cbn [d_vars d_lt d_in] in *. rewrite J1, Hb0.
    eexists. split; [reflexivity|]. unfold ID, x_tables, x_give, xfer_init. cbn [d_vars d_lt d_in x_got x_lt]. auto. }
  destruct (var_enqa v (vi_code i)) as [a|] eqn:Ha.
  - destruct (varinfo_eq_dec (c_info a) i) as [E|]; [|discriminate]. inv_bind Hk0. apply guard_ok in Hb1.
    assert (K : info_ok i).
    { rewrite <- E. destruct (var_info_ok _ _ Hb) as [_ A]. eapply Forall_forall in A; [exact A|]. eapply enqa_in; eauto. }
    apply (Step a E (or_intror K) Hb1).
    + unfold e_attr, e_attr_code, get_var. rewrite Hb. cbn [bind]. rewrite Ha. reflexivity.
    + congruence.
  - inv_bind Hk0. apply guard_ok in Hb1. apply (Step (fresh i)); auto.
    + unfold e_attr, e_attr_code, get_var. rewrite Hb. cbn [bind]. rewrite Ha. reflexivity.
    + cbn [isset fresh c_val]. congruence.
Qed.

Lemma sim_subst pos : simu (x_subst p vars pos) (e_subst p vars pos) (d_subst o pos).
Proof.
  intros sa se sa' I H. unfold x_subst in H. inv_bind H. rename a into v. apply get_var_nth in Hb.
  pose proof (proj1 (var_info_ok _ _ Hb)) as K. set (i := c_info (v_cell v)) in *.
  destruct (sim_attr i pos sa se sa' I Hk) as (bs & se' & E1 & I1 & M1 & D1).
  exists bs, se'. split; [|split; [exact I1|split; [exact M1|]]].
  - unfold e_subst. rewrite Hb. exact E1.
  - intros sd rest G J. destruct (D1 sd rest G J) as (sd' & F & J').
    exists sd'. split; auto. unfold d_subst.
    unfold x_attr in Hk. inv_bind Hk. inv_bind Hk0. apply get_var_nth in Hb1. rename a0 into got.
    destruct J as (J & _). rewrite J, Hb1.
    assert (Ei : c_info (v_cell got) = i).
    { destruct I as (_ & _ & _ & I). unfold infos in I.
      assert (X : nth_error (map (fun v => c_info (v_cell v)) (x_got sa)) pos = Some (c_info (v_cell got)))
        by (rewrite nth_error_map, Hb1; reflexivity).
      rewrite I in X. rewrite nth_error_map in X.
      assert (Lt : (pos < x_pos sa)%nat).
      { destruct (le_gt_dec (x_pos sa) pos) as [L|L]; [|exact L]. exfalso.
        rewrite (proj2 (nth_error_None _ _)) in X; [discriminate|]. rewrite firstn_length. lia. }
      assert (Y : nth_error (firstn (x_pos sa) vars) pos = nth_error vars pos).
      { clear -Lt. revert pos Lt. generalize (x_pos sa). intros n. revert vars. induction n as [|n IH]; intros l pos Lt; [lia|].
        destruct l as [|x l]; [destruct pos; reflexivity|]. destruct pos as [|pos]; cbn [firstn nth_error]; [reflexivity|].
        apply IH. lia. }
      rewrite Y, Hb in X. cbn in X. injection X as X. symmetry. exact X. }
    rewrite Ei. exact F.
Qed.

(** Character data. *)
Lemma read_bytes_reads cs : Forall is_byte cs -> reads (bits_of_bytes cs) (read_bytes (length cs)) cs.
Proof.
  induction 1 as [|c cs Hc F IH]; intros inp rest Hb W Hr E; cbn [read_bytes length].
  - exists inp. auto.
  - cbn [bits_of_bytes flat_map] in E. rewrite <- app_assoc in E.
    destruct (get_bits_reads 8 c ltac:(lia) inp (bits_of_bytes cs ++ rest) Hb W) as (i1 & G1 & R1 & R2 & R3); auto.
    { rewrite app_length. lia. }
    rewrite G1. cbn [bind]. destruct (IH i1 rest) as (i2 & G2 & S1 & S2 & S3); auto; [rewrite R3; auto|].
    rewrite G2. cbn [bind]. exists i2. split; [|split; [auto|split; [auto|congruence]]].
    change (2 ^ Z.of_nat 8) with 256. rewrite Z.mod_small by exact Hc. reflexivity.
Qed.

Lemma cstr_app_nul s : cstr (s ++ [0]) = cstr s.
Proof. induction s as [|c s IH]; cbn [cstr app]; [reflexivity|]. destruct (c =? 0); [reflexivity|]. f_equal. exact IH. Qed.

Lemma cstr_bounds s : Forall (fun c => 1 <= c < 256) s -> Forall (fun c => 1 <= c < 256) (cstr s).
Proof. intros H. rewrite cstr_id; auto. Qed.

Lemma sim_raw code : simu (x_raw vars code) (e_raw p vars code) (d_raw o code).
Proof.
  intros sa se sa' I H. unfold x_raw in H. inv_bind H. rename a into v. inv_bind Hk. destruct a as [i lt].
  apply get_var_nth in Hb. destruct (varinfo_eq_dec (c_info (v_cell v)) i) as [E|]; [|discriminate].
  inv_bind Hk0. rename a into str. inv_bind Hk. injection Hk0 as <-. apply guard_ok in Hb2. apply andb_prop in Hb2 as [B1 B2].
  assert (N : vi_type i = TString) by (destruct (vi_type i); try discriminate; reflexivity).
  assert (P : printable_str str).
  { destruct (c_val (v_cell v)) as [[?|s|?]|]; try discriminate.
    - inv_bind Hb1. injection Hk as <-. apply guard_ok in Hb2.
      eapply forallb_Forall; [|exact Hb2]. cbv beta. intros; lia.
    - injection Hb1 as <-. constructor. }
  pose proof (var_y code) as Y0.
  assert (Y : 0 <= var_y code < 256).
  { unfold var_y. change 255 with (Z.ones 8). rewrite Z.land_ones by lia. apply (Z.mod_pos_bound code (2 ^ 8)). lia. }
  set (k := Z.to_nat (var_y code)) in *.
  assert (Ebuf : (if isset (v_cell v) then enqc (v_cell v) else Ok [0]) = Ok (str ++ [0])).
  { unfold isset, enqc. rewrite E, N. destruct (c_val (v_cell v)) as [[?|s|?]|]; try discriminate.
    - inv_bind Hb1. injection Hk as <-. reflexivity.
    - injection Hb1 as <-. reflexivity. }
  assert (Pp : printable_str (pad_field k str)).
  { unfold printable_str, pad_field. apply Forall_firstn. apply Forall_app. split.
    - apply cstr_bounds. exact P.
    - apply Forall_repeat. lia. }
  exists (bits_of_bytes (pad_field k str)).
  destruct (append_string_spec p (str ++ [0]) (Z.to_nat (var_y code * 8)) (e_out se)) as (out & A1 & A2 & A3); [apply I|].
  assert (E8 : Z.to_nat (var_y code * 8) = (k * 8)%nat) by lia. rewrite E8 in A1, A2.
  rewrite Nat.div_mul, Nat.mod_mul in A2 by lia. cbn [repeat] in A2. rewrite app_nil_r in A2.
  assert (Ep : pad_field k (str ++ [0]) = pad_field k str) by (unfold pad_field; rewrite cstr_app_nul; reflexivity).
  rewrite Ep in A2.
  exists (mkenc (S (e_pos se)) out (e_lt se)). unfold e_raw. rewrite (e_next_ok _ _ _ I Hb). cbn [bind e_out].
  rewrite Ebuf. cbn [bind]. rewrite E8. unfold append_chars. rewrite existsb_app. cbn [existsb].
  rewrite Z.eqb_refl, orb_true_r. cbn [negb andb]. rewrite A1. cbn [e_put bind e_pos e_lt].
  split; auto. split.
  { destruct I as (I1 & I2 & I3 & I4). unfold IE, x_tables, x_give, xfer_init. cbn [e_pos x_pos e_lt x_lt e_out x_got]. split; [lia|].
    split; [rewrite I2; symmetry; eapply get_chardata_local; eauto|]. split; auto.
    rewrite (firstn_S_nth _ _ _ Hb). unfold infos in *. rewrite !map_app, I4. cbn [map v_cell c_info]. rewrite E. reflexivity. }
  split; [exact A2|]. intros sd rest G J. unfold d_raw. pose proof J as (J1 & J2 & _). rewrite J2, Hb0. cbn [bind].
  assert (Hb' : Forall is_byte (pad_field k str)) by (eapply Forall_impl; [|exact Pp]; unfold is_byte; cbv beta; intros; lia).
  pose proof (read_bytes_reads _ Hb') as R. rewrite pad_field_length in R.
  replace (ilen i) with k by (unfold ilen; lia).
  destruct (reads_ID _ _ _ _ _ _ R G J) as (inp & F1 & K1). rewrite F1. cbn [bind].
  rewrite sets_string by exact N. cbn [of_outcome bind]. eexists. split; [reflexivity|].
  destruct K1 as (K1 & K2 & K3). unfold ID, x_tables, x_give, xfer_init. cbn [d_vars d_lt d_in x_got x_lt] in *. rewrite K1.
  split; [|auto]. f_equal. f_equal. unfold with_val, fresh. cbn [c_info]. do 4 f_equal.
  rewrite cstr_id by exact Pp. apply firstn_all2. rewrite pad_field_length. unfold ilen. lia.
Qed.

(** Redefined reference values. *)
Lemma land_top_0 m n : 0 <= n -> 0 <= m < 2 ^ n -> Z.land m (2 ^ n) = 0.
Proof.
  intros Hn H. apply Z.bits_inj'. intros k Hk. rewrite Z.land_spec, Z.bits_0.
  destruct (Z.eq_dec k n) as [->|N].
  - replace (Z.testbit m n) with false; [reflexivity|]. symmetry.
    rewrite Z.testbit_false by lia. rewrite Z.div_small by lia. reflexivity.
  - rewrite Z.pow2_bits_false by lia. apply andb_false_r.
Qed.

Lemma lor_top m n : 0 <= n -> 0 <= m < 2 ^ n -> Z.lor m (2 ^ n) = m + 2 ^ n.
Proof. intros Hn H. rewrite <- Z.lxor_lor by (apply land_top_0; auto). symmetry. apply Z.add_nocarry_lxor. apply land_top_0; auto. Qed.

Lemma land_top_self m n : 0 <= n -> 0 <= m < 2 ^ n -> Z.land (Z.lor m (2 ^ n)) (2 ^ n) = 2 ^ n.
Proof. intros Hn H. rewrite Z.land_lor_distr_l, land_top_0, Z.land_diag by auto. apply Z.lor_0_l. Qed.

Lemma land_drop_top m n : 0 <= n < 32 -> 0 <= m < 2 ^ n -> Z.land (Z.lor m (2 ^ n)) (2 ^ 32 - 1 - 2 ^ n) = m.
Proof.
  intros Hn H. apply Z.bits_inj'. intros k Hk.
  assert (E : 2 ^ 32 - 1 - 2 ^ n = Z.lxor (Z.ones 32) (2 ^ n)).
  { rewrite (Z.sub_nocarry_ldiff (2 ^ 32 - 1) (2 ^ n)).
    - change (2 ^ 32 - 1) with (Z.ones 32). apply Z.bits_inj'. intros j Hj. rewrite Z.ldiff_spec, Z.lxor_spec.
      destruct (Z.eq_dec j n) as [->|N].
      + rewrite Z.pow2_bits_true, Z.ones_spec_low by lia. reflexivity.
      + rewrite Z.pow2_bits_false by lia. cbn. rewrite andb_true_r, xorb_false_r. reflexivity.
    - change (2 ^ 32 - 1) with (Z.ones 32). apply Z.bits_inj'. intros j Hj. rewrite Z.ldiff_spec, Z.bits_0.
      destruct (Z.eq_dec j n) as [->|N].
      + rewrite Z.pow2_bits_true, Z.ones_spec_low by lia. reflexivity.
      + rewrite Z.pow2_bits_false by lia. reflexivity. }
  rewrite E, Z.land_spec, Z.lor_spec, Z.lxor_spec.
  destruct (Z.eq_dec k n) as [->|N].
  - rewrite Z.pow2_bits_true, Z.ones_spec_low by lia. cbn. rewrite andb_false_r. symmetry.
    rewrite Z.testbit_false by lia. rewrite Z.div_small by lia. reflexivity.
  - rewrite Z.pow2_bits_false, orb_false_r, xorb_false_r by lia.
    destruct (Z_lt_le_dec k 32).
    + rewrite Z.ones_spec_low by lia. apply andb_true_r.
    + rewrite Z.ones_spec_high, andb_false_r by lia. symmetry.
      rewrite Z.testbit_false by lia. rewrite Z.div_small; [reflexivity|]. split; [lia|].
      apply Z.lt_le_trans with (2 ^ n); [lia|]. apply Z.pow_le_mono_r; lia.
Qed.

Lemma sim_refval b c : 0 < b < 255 -> simv (x_refval T vars b c) (e_refval p T vars b c) (d_refval b c).
Proof.
  intros B sa se x sa' I H. unfold x_refval in H. inv_bind H. inv_bind Hk. injection Hk0 as <- <-. rename a into ref.
  apply guard_ok in Hb0. rewrite !andb_true_iff in Hb0. destruct Hb0 as ((B1 & B2) & B3).
  assert (P31 : 2 ^ (b - 1) <= 2 ^ 31) by (apply Z.pow_le_mono_r; lia).
  assert (Hbits : Z.abs ref < 2 ^ (b - 1)) by lia.
  assert (Hlog : Z.log2 (Z.abs ref) < b - 1) by (apply Z.log2_lt_pow2; lia).
  assert (Hs : shl1 p (b - 1) = Ok (2 ^ (b - 1))).
  { unfold shl1. replace ((0 <=? b - 1) && (b - 1 <? 32)) with true by lia. reflexivity. }
  assert (Hs2 : shl1 Strict (b - 1) = Ok (2 ^ (b - 1))).
  { unfold shl1. replace ((0 <=? b - 1) && (b - 1 <? 32)) with true by lia. reflexivity. }
  set (enc := if ref <? 0 then Z.lor (- ref) (2 ^ (b - 1)) else ref).
  assert (Pb : 2 ^ b = 2 * 2 ^ (b - 1)) by (rewrite <- Z.pow_succ_r by lia; f_equal; lia).
  assert (Henc : 0 <= enc < 2 ^ b).
  { unfold enc. destruct (Z.ltb_spec ref 0); [rewrite lor_top by lia|]; lia. }
  exists (bits_of (Z.to_nat b) enc).
  destruct (add_bits_writes p enc (Z.to_nat b) ltac:(lia) (e_out se)) as (out & W1 & W2 & W3); [apply I|].
  exists (mkenc (e_pos se) out (e_lt se)). split; [|split; [|split]].
  - unfold e_refval. rewrite Hb. cbn [bind].
    assert (Ee : (if ref <? 0 then m <- int_checked (- ref);; w <- bit_width m;; sign <- shl1 p (b - 1);; Ok (Z.lor m sign, w)
                  else w <- bit_width ref;; Ok (ref, w)) = Ok (enc, Z.log2 (Z.abs ref) + 1)).
    { unfold enc, bit_width, int_checked, in_int, int_min, int_max. destruct (Z.ltb_spec ref 0).
      - replace ((- 2 ^ 31 <=? - ref) && (- ref <=? 2 ^ 31 - 1)) with true by lia. cbn [bind].
        replace (- ref =? 0) with false by lia. cbn [bind]. rewrite Hs. cbn [bind]. rewrite Z.abs_neq by lia. reflexivity.
      - replace (ref =? 0) with false by lia. cbn [bind]. rewrite Z.abs_eq by lia. reflexivity. }
    rewrite Ee. cbn [bind]. replace (b <? Z.log2 (Z.abs ref) + 1 + 1) with false by lia. rewrite W1. reflexivity.
  - destruct I as (I1 & I2 & I3 & I4). unfold IE, x_tables, x_give, xfer_init. cbn [e_pos e_lt e_out]. auto.
  - exact W2.
  - intros sd rest G J. unfold d_refval.
    destruct (reads_ID _ _ _ _ _ _ (get_bits_reads (Z.to_nat b) enc ltac:(lia)) G J) as (inp & F1 & J1).
    rewrite F1. cbn [bind]. rewrite Hs2. cbn [bind]. rewrite Z2Nat.id by lia. rewrite (Z.mod_small enc) by lia.
    eexists. split; [|exact J1]. do 2 f_equal. unfold enc. destruct (Z.ltb_spec ref 0).
    + rewrite land_top_self by lia. replace (2 ^ (b - 1) =? 0) with false by lia.
      rewrite land_drop_top by lia. rewrite wrap_int_id; unfold int_min, int_max; lia.
    + rewrite land_top_0 by lia. cbn [Z.eqb]. rewrite wrap_int_id; unfold int_min, int_max; lia.
Qed.

(** Bitmaps. *)
Lemma firstn_exact {A} (l m : list A) : firstn (length l) (l ++ m) = l.
Proof. rewrite firstn_app, Nat.sub_diag, firstn_all. cbn [firstn]. apply app_nil_r. Qed.

Definition bitmap_bits (chars : list Z) : list bool := map (fun ch => negb (ch =? 43)) chars.

Lemma put_bitmap_writes chars : writes (bitmap_bits chars) (put_bitmap p chars).
Proof.
  induction chars as [|ch chars IH]; intros out W; cbn [put_bitmap bitmap_bits map].
  - exists out. rewrite app_nil_r. auto.
  - destruct (add_bits_writes p (if ch =? 43 then 0 else 1) 1 ltac:(lia) out W) as (o1 & A1 & A2 & A3).
    rewrite A1. cbn [bind]. destruct (IH o1 A3) as (o2 & C1 & C2 & C3). exists o2. split; auto. split; auto.
    rewrite C2, A2, <- app_assoc. f_equal. unfold bitmap_bits. destruct (ch =? 43); reflexivity.
Qed.

Lemma read_bitmap_reads chars : Forall (fun ch => ch = 43 \/ ch = 45) chars ->
  reads (bitmap_bits chars) (read_bitmap (length chars)) chars.
Proof.
  induction 1 as [|ch chars Hc F IH]; intros inp rest Hb W Hr E; cbn [read_bitmap length].
  - exists inp. auto.
  - cbn [bitmap_bits map] in E. change (map _ chars) with (bitmap_bits chars) in E.
    set (v := if ch =? 43 then 0 else 1).
    destruct (get_bits_reads 1 v ltac:(lia) inp (bitmap_bits chars ++ rest) Hb W) as (i1 & G1 & R1 & R2 & R3); auto.
    { rewrite app_length. lia. }
    { rewrite E. unfold v. destruct (ch =? 43); reflexivity. }
    rewrite G1. cbn [bind]. destruct (IH i1 rest) as (i2 & G2 & S1 & S2 & S3); auto; [rewrite R3; auto|].
    rewrite G2. cbn [bind]. exists i2. split; [|split; [auto|split; [auto|congruence]]].
    do 3 f_equal. unfold v. destruct Hc as [-> | ->]; reflexivity.
Qed.

Lemma sim_bitmap c n : simv (x_bitmap vars c n) (e_bitmap p vars c n) (d_bitmap o c n).
Proof.
  intros sa se x sa' I H. unfold x_bitmap in H. inv_bind H. rename a into v. apply get_var_nth in Hb.
  destruct (c_val (v_cell v)) as [[?|chars|?]|] eqn:Hv; try discriminate.
  inv_bind Hk. destruct a as [i lt]. destruct (varinfo_eq_dec (c_info (v_cell v)) i) as [E|]; [|discriminate].
  inv_bind Hk0. apply guard_ok in Hb1. rewrite !andb_true_iff in Hb1. destruct Hb1 as (((((B1 & B2) & B2') & B3) & B4) & B5).
  injection Hk as <- <-.
  change (x_got (x_tables lt (x_give (v_cell v) [] sa))) with (x_got sa ++ [mkvar (v_cell v) []]).
  assert (N : vi_type i = TString) by (destruct (vi_type i); try discriminate; reflexivity).
  assert (Hc : Forall (fun ch => ch = 43 \/ ch = 45) chars) by (eapply forallb_Forall; [|exact B1]; cbv beta; intros; lia).
  assert (Pc : printable_str chars) by (eapply Forall_impl; [|exact Hc]; cbv beta; intros; lia).
  assert (Li : ilen i = length chars) by (unfold ilen; lia).
  assert (Ecell : v_cell v = mkcell i (Some (VStr chars))) by (destruct (v_cell v) as [ci cv]; cbn in *; subst; reflexivity).
  assert (Hn : n <> 0) by lia.
  exists (bitmap_bits chars).
  destruct (put_bitmap_writes chars (e_out se)) as (out & W1 & W2 & W3); [apply I|].
  exists (mkenc (S (e_pos se)) out (e_lt se)). split; [|split; [|split]].
  - unfold e_bitmap. rewrite (e_next_ok _ _ _ I Hb). cbn [bind e_out e_pos]. rewrite Ecell. unfold c_code. cbn [c_info].
    rewrite B4, B3. cbn [negb]. replace (n =? 0) with false by lia.
    unfold bitmap_chars, enqc. cbn [c_val c_info]. rewrite N. cbn [bind]. rewrite app_length, Li. cbn [length].
    replace (length chars + 1 <? length chars)%nat with false by lia. rewrite firstn_exact. cbn [bind]. rewrite W1. cbn [e_put bind e_pos e_lt].
    assert (Ec : codes_of (firstn (S (e_pos se)) vars) = codes_of (x_got sa ++ [mkvar (v_cell v) []])).
    { pose proof I as (I1 & _ & _ & I4). rewrite !codes_infos. rewrite I1, (firstn_S_nth _ _ _ Hb).
      unfold infos in *. rewrite !map_app, I4. reflexivity. }
    rewrite Ec, Ecell. reflexivity.
  - destruct I as (I1 & I2 & I3 & I4). unfold IE, x_tables, x_give, xfer_init. cbn [e_pos x_pos e_lt x_lt e_out x_got]. split; [lia|].
    split; [rewrite I2; symmetry; eapply get_bitmap_local; eauto|]. split; auto.
    rewrite (firstn_S_nth _ _ _ Hb). unfold infos in *. rewrite !map_app, I4. reflexivity.
  - exact W2.
  - intros sd rest G J. unfold d_bitmap. replace (Z.to_nat n) with (length chars) by lia.
    destruct (reads_ID _ _ _ _ _ _ (read_bitmap_reads chars Hc) G J) as (inp & F1 & J1). rewrite F1. cbn [bind].
    pose proof J as (K1 & K2 & _). rewrite K2, Hb0. cbn [bind]. rewrite sets_string by exact N. cbn [of_outcome bind].
    unfold with_val, fresh. cbn [c_info]. rewrite cstr_id, Li, firstn_all by exact Pc.
    replace (vi_len i =? 0) with false by lia. unfold bitmap_chars, enqc. cbn [c_val c_info]. rewrite N. cbn [bind].
    rewrite app_length, Li. cbn [length]. replace (length chars + 1 <? length chars)%nat with false by lia.
    rewrite firstn_exact. cbn [bind].
    rewrite Ecell. rewrite K1. eexists. split; [reflexivity|].
    destruct J1 as (J1 & J2 & J3). unfold ID, x_tables, x_give, xfer_init. cbn [d_vars d_lt d_in x_got x_lt] in *. auto.
Qed.

Lemma sim_unknown c b : simv (x_unknown c b) (e_unknown c b) (d_unknown c b).
Proof.
  intros sa se x sa' I H. unfold x_unknown in H. inv_bind H. destruct a as [i lt]. injection Hk as <- <-.
  pose proof I as (I1 & I2 & I3 & I4).
  destruct (get_unknown_local _ (e_lt se) _ _ _ _ I2 Hb) as (lt2 & E & L).
  exists [], (mkenc (e_pos se) (e_out se) lt2). unfold e_unknown. rewrite E. cbn [bind]. split; auto.
  split. { unfold IE, x_tables, x_give, xfer_init. cbn [e_pos x_pos e_lt x_lt e_out x_got]. auto. }
  split; [unfold emitted; cbn [e_out]; rewrite app_nil_r; reflexivity|].
  intros sd rest G (J1 & J2 & J3). unfold d_unknown. rewrite J2, Hb. cbn [bind]. eexists. split; [reflexivity|].
  unfold ID, x_tables, x_give, xfer_init. cbn [d_vars d_lt d_in x_got x_lt]. auto.
Qed.

Theorem codec_callbacks : callbacks IE emitted ID good (transmitter p T skip vars) (encoder p o T vars) (decoder o T skip) T.
Proof.
  constructor; cbn [on_var on_var_af on_factor on_bitmap_factor on_significance on_subst on_attr on_raw on_refval on_bitmap
    on_unknown transmitter encoder decoder].
  - exact sim_var.
  - exact sim_var_af.
  - intros i _. apply sim_factor.
  - exact sim_bitmap_factor.
  - intros i _. apply sim_significance.
  - exact sim_subst.
  - exact sim_attr.
  - intros c _ _. apply sim_raw.
  - exact sim_refval.
  - exact sim_bitmap.
  - exact sim_unknown.
Qed.

Theorem codec_run fuel ops lt lte out st sx : lt_unknown lte = lt_unknown lt -> wf_out out ->
  run (transmitter p T skip vars) T fuel ops (ist_init, xfer_init lt) = Ok (st, sx) ->
  exists bs se, run (encoder p o T vars) T fuel ops (ist_init, mkenc 0 out lte) = Ok (st, se) /\
    e_pos se = x_pos sx /\ lt_unknown (e_lt se) = lt_unknown (x_lt sx) /\ wf_out (e_out se) /\
    out_bits (e_out se) = out_bits out ++ bs /\
    forall inp rest, Forall is_byte (idata inp) -> wf_in inp -> (8 <= length rest)%nat -> in_bits inp = bs ++ rest ->
    exists sd, run (decoder o T skip) T fuel ops (ist_init, mkdec inp [] lt) = Ok (st, sd) /\
      d_vars sd = x_got sx /\ d_lt sd = x_lt sx /\ Forall is_byte (idata (d_in sd)) /\ wf_in (d_in sd) /\
      in_bits (d_in sd) = rest.
Proof.
  intros L W R.
  destruct (run_sim IE emitted ID good good_app _ _ _ T codec_callbacks fuel ops ist_init ist_ok_init
    (xfer_init lt) (mkenc 0 out lte) st sx) as (bs & se & E1 & (I1 & I2 & I3 & I4) & E3 & E4).
  - unfold IE, x_tables, x_give, xfer_init. cbn [e_pos x_pos e_lt x_lt e_out x_got firstn]. auto.
  - exact R.
  - exists bs, se. repeat (split; auto). intros inp rest H1 H2 H3 H4.
    destruct (E4 (mkdec inp [] lt) rest H3) as (sd & F & (J1 & J2 & J3 & J4 & J5)).
    + unfold ID. cbn. auto 10.
    + exists sd. auto 10.
Qed.
End Codec.

(** The decoder with checked reads has no undefined behaviour on tame templates. *)
From Coq Require Import ZArith Lia ZifyBool ZifyNat Reals.
From Flocq Require Import BinarySingleNaN.
From Verif Require Import Base Bits.Model Bits.Spec Bits.Proofs Num.Float Num.FloatProofs Varcode.Model Varinfo.Model Varinfo.Proofs
  Varinfo.RangeProofs Tables.Model Tables.Spec Tables.Proofs Tables.AlterProofs Tables.LoadProofs Var.Model Var.Spec Var.Proofs Var.CodecProofs
  Interp.Model Interp.Appears Interp.SureProofs Codec.Model Codec.Proofs Codec.Checked Codec.StepProofs.
Local Open Scope Z_scope.

(** ** Reads *)
Definition fine (i : input) : Prop :=
  Forall is_byte (idata i) /\ (wf_in i \/ iplen i = 0%nat /\ (length (idata i) <= icur i)%nat).

Lemma in_bits_unread i : wf_in i -> length (in_bits i) = unread_bits i.
Proof.
  intros (L & _ & C). unfold in_bits, unread_bits. rewrite app_length, firstn_length, bits_of_length, bits_of_bytes_length, skipn_length. lia.
Qed.

Lemma take_bits_sure n i : fine i ->
  sure (take_bits n i) (fun r => fine (snd r) /\ 0 <= fst r < 2 ^ 32 /\ fst r < 2 ^ Z.of_nat n).
Proof.
  intros [B [W|[W1 W2]]]; unfold take_bits; (destruct (Nat.ltb (unread_bits i) n) eqn:L; [exact I|]); apply Nat.ltb_ge in L.
  2: { unfold unread_bits in L. assert (n = 0)%nat as -> by lia. unfold get_bits. destruct (Nat.eqb _ _); [exact I|]. cbn [get_bits_loop sure fst snd].
       split; [split; [exact B|right; auto]|cbn; lia]. }
  destruct (Nat.eq_dec (icur i) (length (idata i))) as [E|E].
  { unfold get_bits. rewrite E, Nat.eqb_refl. exact I. }
  pose proof (in_bits_unread i W) as Hu. rewrite <- Hu in L.
  pose proof (firstn_skipn n (in_bits i)) as Sp. assert (Ln : length (firstn n (in_bits i)) = n) by (rewrite firstn_length; lia).
  destruct (get_bits_spec (firstn n (in_bits i)) i (skipn n (in_bits i)) B W (eq_sym Sp)) as (i' & G & R1 & R2 & R3).
  { rewrite Sp, Hu. destruct W as (? & ? & ?). unfold unread_bits. lia. }
  rewrite Ln in G. rewrite G. cbn [sure fst snd].
  pose proof (val_of_range (firstn n (in_bits i))) as V. rewrite Ln in V.
  split; [split; [rewrite R3; exact B|left; exact R2]|]. split; [apply u32_range|]. eapply Z.le_lt_trans; [|apply V].
  unfold u32. apply Z.mod_le; lia.
Qed.

Lemma chars_sure : forall fuel n i, (n <= fuel)%nat -> fine i ->
  sure (ck_read_chars fuel n i) (fun r => fine (snd r) /\ Z.of_nat (length (fst r)) = (Z.of_nat n + 7) / 8).
Proof.
  induction fuel as [|k IH]; intros n i L F; cbn [ck_read_chars].
  - destruct (Nat.eqb_spec n 0) as [->|]; [|lia]. split; [exact F|reflexivity].
  - destruct (Nat.eqb_spec n 0) as [->|N]; [split; [exact F|reflexivity]|]. cbv zeta.
    eapply sure_bind; [apply take_bits_sure; exact F|]. intros [c i1] (F1 & _). cbn [fst snd] in *.
    eapply sure_bind; [apply IH; [|exact F1]; destruct (Nat.ltb_spec 8 n); lia|]. intros [cs i2] (F2 & L2). cbn [fst snd] in *.
    split; [exact F2|]. cbn [fst length]. rewrite Nat2Z.inj_succ, L2. destruct (Nat.ltb_spec 8 n); lia.
Qed.

Lemma bytes_sure : forall n i, fine i -> sure (ck_read_bytes n i) (fun r => fine (snd r)).
Proof.
  induction n as [|n IH]; intros i F; cbn [ck_read_bytes]; [exact F|].
  eapply sure_bind; [apply take_bits_sure; exact F|]. intros [c i1] (F1 & _). cbn [snd] in *.
  eapply sure_bind; [apply IH; exact F1|]. intros [cs i2] F2. exact F2.
Qed.

(** ** Values *)
Definition kept (c c' : cell) : Prop := shaped c' /\ c_info c' = c_info c.

Lemma hook_kept o c v e : hook_safe o ->
  sure (of_outcome (match o_hook o with Some h => h c v | None => Thrown e (unset c) end)) (kept c).
Proof. unfold hook_safe. destruct (o_hook o) as [h|]; intros H; [|exact I]. specialize (H c v). destruct (h c v); cbn; auto. Qed.

Lemma assign_i_sure o c v : hook_safe o -> is_numeric (vi_type (c_info c)) = true -> sure (of_outcome (assign_i_checked o c v)) (kept c).
Proof.
  intros H N. unfold assign_i_checked. cbv zeta.
  assert (U : kept c (unset c)) by (split; [exact I|reflexivity]). assert (V : forall k, kept c (with_val c (VInt k))) by (intros k; split; [exact I|reflexivity]).
  match goal with |- context [if ?b then _ else _] => destruct b end; [|apply V].
  destruct (o_silent o); [exact U|]. destruct (o_clamp o); [apply V|]. apply hook_kept. exact H.
Qed.

Lemma seti_sure o c v : hook_safe o -> sure (of_outcome (seti o c v)) (kept c).
Proof. intros H. unfold seti. destruct (is_numeric (vi_type (c_info c))) eqn:N; [apply assign_i_sure; auto|exact I]. Qed.

Lemma setd_sure o i k (d : f64) : hook_safe o -> info_ok i -> is_numeric (vi_type i) = true -> Z.abs k <= 2 ^ 34 ->
  is_finite d = true -> B2R d = scaled (vi_scale i) k -> sure (of_outcome (setd o (fresh i) d)) (kept (fresh i)).
Proof.
  intros H Hi Ht Hk F E. pose proof Hi as [_ _ _ _ _ Hint]. unfold setd. cbn [fresh c_info].
  destruct (vi_type i) eqn:T; try discriminate.
  - rewrite (Hint eq_refl), scaled_0 in E. rewrite (lround_scaled0 k) by auto. apply assign_i_sure; [exact H|]. cbn [fresh c_info]. rewrite T. reflexivity.
  - assert (Hn : is_numeric (vi_type i) = true) by (rewrite T; reflexivity).
    destruct (info_ok_numeric _ Hi Hn) as (Hs & I1 & I2 & _ & _ & _ & [F1 R1] & [F2 R2]).
    assert (U : kept (fresh i) (unset (fresh i))) by (split; [exact I|reflexivity]).
    assert (V : forall n, kept (fresh i) (with_val (fresh i) (VInt n))) by (intros n; split; [exact I|reflexivity]).
    unfold assign_d_checked. cbn [fresh c_info]. rewrite (finite_not_nan d F).
    destruct (flt d (vi_dmin i)) eqn:L; cbn [orb].
    { destruct (o_silent o); [exact U|]. destruct (o_clamp o); [|apply hook_kept; exact H].
      unfold store_d. cbn [fresh c_info]. rewrite (encode_scaled _ (vi_imin i)) by auto. apply V. }
    destruct (flt (vi_dmax i) d) eqn:U'.
    { destruct (o_silent o); [exact U|]. destruct (o_clamp o); [|apply hook_kept; exact H].
      unfold store_d. cbn [fresh c_info]. rewrite (encode_scaled _ (vi_imax i)) by auto. apply V. }
    destruct (store_d_ok (fresh i) d) as (n & -> & _); auto.
    + split; cbn; auto.
    + apply finite_not_nan; exact F.
Qed.

Lemma all_ones_sure n : (1 <= n <= 32)%nat -> sure (all_ones n) (fun _ => True).
Proof. intros L. unfold all_ones. replace (Nat.leb 1 n && Nat.leb n 32)%bool with true by lia. exact I. Qed.

Lemma kept_fresh i : kept (fresh i) (fresh i).
Proof. split; [exact I|reflexivity]. Qed.

Lemma number_sure o i inp : hook_safe o -> info_ok i -> is_numeric (vi_type i) = true -> 1 <= vi_bit_len i <= 32 -> fine inp ->
  sure (ck_decode_number o i inp) (fun r => kept (fresh i) (fst r) /\ fine (snd r)).
Proof.
  intros H Hi Ht Hb F. unfold ck_decode_number.
  eapply sure_bind; [apply take_bits_sure; exact F|]. intros [v inp1] (F1 & Hv & _). cbn [fst snd] in *.
  apply sure_bind with (P := fun _ => True).
  { destruct (no_missing (vi_code i)); [exact I|]. eapply sure_bind; [apply all_ones_sure; unfold bit_len_nat; lia|]. intros m _. exact I. }
  intros missing _. destruct missing; [split; [apply kept_fresh|exact F1]|].
  destruct (info_ok_numeric _ Hi Ht) as (Hs & _). pose proof Hi as [_ Hr _ _ _ _].
  destruct (decode_binary_ok i v) as (d & -> & Fd & Ed); auto; try lia. cbn [bind].
  eapply sure_bind; [eapply setd_sure; eauto|intros c Sc; split; [exact Sc|exact F1]].
  unfold int_min, int_max in Hr. lia.
Qed.

Lemma text_sure o i s : vi_type i = TString -> sure (of_outcome (setc o (fresh i) (s ++ [0]))) (kept (fresh i)).
Proof.
  intros T. rewrite setc_string by exact T. split; [cbn; rewrite T; reflexivity|reflexivity].
Qed.

Lemma value_sure o i inp : hook_safe o -> readable i -> fine inp ->
  sure (ck_decode_value o i inp) (fun r => kept (fresh i) (fst r) /\ fine (snd r)).
Proof.
  intros H R F. unfold ck_decode_value, readable in *. destruct (vi_type i) eqn:T.
  - destruct R as [R1 R2]. apply number_sure; auto. rewrite T. reflexivity.
  - destruct R as [R1 R2]. apply number_sure; auto. rewrite T. reflexivity.
  - unfold ck_decode_string_raw. eapply sure_bind.
    { eapply sure_bind; [apply chars_sure; [apply le_n|exact F]|]. intros [cs i1] (F1 & _). cbn [snd] in F1.
      instantiate (1 := fun r => fine (snd r)). match goal with |- context [if ?b then _ else _] => destruct b end; exact F1. }
    intros [r i1] F1. cbn [snd] in F1. destruct r as [s|]; [|split; [apply kept_fresh|exact F1]].
    eapply sure_bind; [apply text_sure; exact T|]. intros c Sc. split; [exact Sc|exact F1].
  - destruct R as [R1 R2]. unfold ck_decode_binary_raw. eapply sure_bind.
    { eapply sure_bind; [apply chars_sure; [apply le_n|exact F]|]. intros [cs i1] (F1 & Lc). cbn [fst snd] in *.
      instantiate (1 := fun r => fine (snd r) /\ forall b, fst r = Some b -> Z.of_nat (length b) = (Z.of_nat (bit_len_nat i) + 7) / 8).
      match goal with |- context [if ?b then _ else _] => destruct b end; split; cbn; auto; [discriminate|]. intros b [= <-]. exact Lc. }
    intros [r i1] [F1 Lb]. cbn [fst snd] in *. destruct r as [b|]; [|split; [apply kept_fresh|exact F1]].
    specialize (Lb b eq_refl). eapply sure_bind; [|intros c Sc; split; [exact Sc|exact F1]].
    unfold setc. cbn [fresh c_info]. rewrite T. unfold assign_b_checked. cbn [fresh c_info]. rewrite Nat.ltb_irrefl.
    unfold bit_len_nat, ilen in *. rewrite R2.
    replace (Nat.ltb (length b) (Z.to_nat ((vi_bit_len i + 7) / 8))) with false by (symmetry; apply Nat.ltb_ge; lia).
    replace (Nat.eqb (Z.to_nat ((vi_bit_len i + 7) / 8)) 0) with false by (symmetry; apply Nat.eqb_neq; lia).
    rewrite andb_false_r. split; [cbn; rewrite T; reflexivity|reflexivity].
Qed.

(** ** The visitor *)
Definition local_fine (l : localtables) : Prop :=
  Forall (fun p => vi_type (snd p) = TString /\ vi_len (snd p) = Z.of_nat (length (fst p))) (lt_bitmaps l) /\
  Forall (fun p => vi_type (snd p) = TString) (lt_chardata l) /\ Forall (fun p => 1 <= fst p -> readable (snd p)) (lt_unknown l).
Definition vars_fine (l : list var) : Prop := Forall (fun v => readable (c_info (v_cell v))) l.
Definition dec_fine (s : dec) : Prop := fine (d_in s) /\ local_fine (d_lt s) /\ vars_fine (d_vars s).
Definition dec_size (s : dec) : nat := length (d_vars s).
Local Notation grown := (StepProofs.grown dec_fine dec_size).

Section Subset.
Context (o : options) (HO : hook_safe o) (T : tables) (skip : bool).

(** *** Methods *)
Ltac value R F := eapply sure_bind; [apply value_sure; [exact HO|exact R|exact F]|].

Lemma store_fine i c inp s : readable i -> kept (fresh i) c -> fine inp -> dec_fine s -> grown s (d_store c inp s).
Proof.
  intros R [_ K] F (F0 & L & Vs). split; [split; [exact F|split; [exact L|]]|]; cbn [d_store d_vars].
  - apply Forall_app. split; [exact Vs|]. constructor; [|constructor]. cbn [v_cell]. rewrite K. exact R.
  - unfold dec_size. cbn [d_store d_vars]. rewrite app_length. lia.
Qed.

Lemma var_sure i s : readable i -> dec_fine s -> sure (ck_var o i s) (grown s).
Proof. intros R D. unfold ck_var. value R (proj1 D). intros [c inp] [K F1]. eapply store_fine; eauto. Qed.

Lemma enqi_sure c : shaped c -> sure (enqi c) (fun _ => True).
Proof. unfold shaped, enqi. destruct (c_val c) as [[]|]; destruct (vi_type (c_info c)); cbn; auto; discriminate. Qed.

Lemma factor_sure i s : readable i -> dec_fine s -> sure (ck_factor o i s) (fun r => grown s (snd r)).
Proof.
  intros R D. unfold ck_factor. value R (proj1 D). intros [c inp] [K F1]. cbn [fst snd] in *.
  eapply sure_bind; [apply enqi_sure; apply K|]. intros n _. eapply store_fine; eauto.
Qed.

Lemma significance_sure i s : readable i -> dec_fine s -> sure (ck_significance o i s) (fun r => grown s (snd r)).
Proof.
  intros R D. unfold ck_significance. value R (proj1 D). intros [c inp] [K F1]. cbn [fst snd] in *.
  apply sure_bind with (P := fun _ => True); [destruct (isset c); [apply enqi_sure; apply K|exact I]|]. intros n _. eapply store_fine; eauto.
Qed.

Lemma bitmap_factor_sure i s : readable i -> dec_fine s -> sure (ck_bitmap_factor o i s) (fun r => grown s (snd r)).
Proof.
  intros R (F & L & Vs). unfold ck_bitmap_factor. value R F. intros [c inp] [K F1]. cbn [fst snd] in *.
  eapply sure_bind; [apply enqi_sure; apply K|]. intros n _. split; [split; auto|apply le_n].
Qed.

Lemma attribute_sure bits sig v : 1 <= bits <= 32 -> sure (make_attribute o (tb_b T) skip (Z.to_nat bits) sig v) (fun _ => True).
Proof.
  intros B. unfold make_attribute. eapply sure_bind; [apply all_ones_sure; lia|]. intros ones _. cbv zeta.
  apply sure_bind with (P := fun _ => True).
  { unfold af_code. repeat match goal with |- context [if ?b then _ else _] => destruct b end; exact I. }
  intros [code|] _; [|exact I].
  assert (Q : forall k : varinfo -> res (option cell), (forall i, sure (k i) (fun _ => True)) -> sure (i <- query (tb_b T) code ;; k i) (fun _ => True)).
  { intros k K. eapply sure_bind; [apply query_sure|]. intros i _. apply K. }
  assert (Sx : forall i x, sure (c <- of_outcome (seti o (fresh i) x) ;; Ok (Some c)) (fun _ => True)).
  { intros i x. eapply sure_bind; [apply seti_sure; exact HO|]. intros c _. exact I. }
  repeat match goal with |- context [if ?b then _ else _] => destruct b end; try exact I; apply Q; intros i; first [apply Sx|exact I].
Qed.

Lemma var_af_sure bits sig i s : 1 <= bits <= 32 -> readable i -> dec_fine s -> sure (ck_var_af o T skip bits sig i s) (grown s).
Proof.
  intros B R (F & L & Vs). unfold ck_var_af. eapply sure_bind; [apply take_bits_sure; exact F|]. intros [v inp1] (F1 & _). cbn [snd] in F1.
  eapply sure_bind; [apply attribute_sure; exact B|]. intros a _. value R F1. intros [c inp2] [K F2].
  split; [split; [exact F2|split; [exact L|]]|]; cbn [d_vars snd].
  - apply Forall_app. split; [exact Vs|]. constructor; [|constructor]. cbn [v_cell]. destruct K as [_ Ke]. cbn [fst fresh c_info] in Ke. rewrite Ke. exact R.
  - unfold dec_size. cbn [d_store d_vars]. rewrite app_length. lia.
Qed.

Lemma update_length {A} (l : list A) p x : length (update l p x) = length l.
Proof. revert p. induction l as [|a l IH]; intros [|p]; cbn; auto. Qed.
Lemma update_forall {A} (P : A -> Prop) (l : list A) p x : Forall P l -> P x -> Forall P (update l p x).
Proof. intros F X. revert p. induction F as [|a l Pa F IH]; intros [|p]; cbn; auto. Qed.

Lemma attr_sure i p s : readable i -> (p < length (d_vars s))%nat -> dec_fine s -> sure (ck_attr o i p s) (grown s).
Proof.
  intros R P (F & L & Vs). unfold ck_attr. value R F. intros [c inp] [K F1]. cbn [fst snd] in *.
  destruct (negb (isset c)); [split; [split; auto|apply le_n]|].
  destruct (nth_error (d_vars s) p) as [v|] eqn:N; [|apply nth_error_None in N; lia].
  apply nth_error_In in N. pose proof (proj1 (Forall_forall _ _) Vs v N) as Rv.
  split; [split; [exact F1|split; [exact L|]]|]; cbn [d_vars].
  - apply update_forall; [exact Vs|exact Rv].
  - unfold dec_size. cbn [d_store d_vars]. rewrite update_length. apply le_n.
Qed.

Lemma subst_sure p s : (p < length (d_vars s))%nat -> dec_fine s -> sure (ck_subst o p s) (grown s).
Proof.
  intros P D. unfold ck_subst. destruct (nth_error (d_vars s) p) as [v|] eqn:N; [|apply nth_error_None in N; lia].
  apply nth_error_In in N. apply attr_sure; auto. apply (proj1 (Forall_forall _ _) (proj2 (proj2 D)) v N).
Qed.

Lemma assoc_in {A} code (l : list (Z * A)) x : assoc Z.eqb code l = Some x -> In (code, x) l.
Proof. induction l as [|[a b] l IH]; cbn [assoc]; [discriminate|]. destruct (Z.eqb_spec code a) as [<-|]; [intros [= ->]; left; reflexivity|right; auto]. Qed.

Lemma unknown_sure code bits s : 1 <= bits -> dec_fine s -> sure (d_unknown code bits s) (fun r => readable (fst r) /\ grown s (snd r)).
Proof.
  intros B (F & (L0 & L1 & L2) & Vs). unfold d_unknown, get_unknown. destruct (assoc Z.eqb bits (lt_unknown (d_lt s))) as [i|] eqn:E.
  - destruct (negb (vi_code i =? code)); [exact I|]. apply assoc_in in E. rewrite Forall_forall in L2. pose proof (L2 _ E B) as R. cbn [snd] in R.
    rewrite <- Forall_forall in L2. split; [exact R|]. split; [split; [exact F|split; [split; [|split]; assumption|exact Vs]]|apply le_n].
  - destruct (set_binary code bits) as [i|e|] eqn:Sb; cbn [bind sure]; [|exact I|discriminate].
    assert (R : readable i).
    { pose proof (compute_range_fields _ _ _ _ _ _ _ _ Sb) as (_ & E2 & _ & _ & E5 & _ & E7). unfold readable. rewrite E2, E5, E7. split; [exact B|reflexivity]. }
    split; [exact R|]. split; [split; [exact F|split; [split; [exact L0|split; [exact L1|]]|exact Vs]]|apply le_n].
    constructor; [intros _; exact R|exact L2].
Qed.

Lemma string_info code len i : set_string code len = Ok i -> vi_type i = TString /\ vi_len i = len.
Proof. intros Sb. pose proof (compute_range_fields _ _ _ _ _ _ _ _ Sb) as (_ & E2 & _ & _ & E5 & _). auto. Qed.

Lemma raw_sure code s : dec_fine s -> sure (ck_raw o code s) (grown s).
Proof.
  intros (F & (L0 & L1 & L2) & Vs). unfold ck_raw. apply sure_bind with (P := fun r => vi_type (fst r) = TString /\ local_fine (snd r)).
  { unfold get_chardata. destruct (assoc Z.eqb code (lt_chardata (d_lt s))) as [i|] eqn:E.
    - destruct (negb (vi_code i =? code)); [exact I|]. split; [|split; [|split]; assumption].
      apply assoc_in in E. rewrite Forall_forall in L1. apply (L1 _ E).
    - destruct (set_string code (var_y code)) as [i|e|] eqn:Sb; cbn [bind sure]; [|exact I|discriminate]. apply string_info in Sb as [Ti _].
      split; [exact Ti|]. split; [exact L0|]. split; [constructor; [exact Ti|exact L1]|exact L2]. }
  intros [i lt] [Ti Lt]. cbn [fst snd] in *. eapply sure_bind; [apply bytes_sure; exact F|]. intros [buf inp] F1. cbn [snd] in F1.
  rewrite sets_string by exact Ti. cbn [of_outcome bind sure]. split; [split; [exact F1|split; [exact Lt|]]|]; cbn [d_vars].
  - apply Forall_app. split; [exact Vs|]. constructor; [|constructor]. cbn. unfold readable. rewrite Ti. exact I.
  - unfold dec_size. cbn [d_store d_vars]. rewrite app_length. lia.
Qed.

Lemma refval_sure bits code s : 1 <= bits <= 31 -> dec_fine s ->
  sure (ck_refval bits code s) (fun r => - 2 ^ 30 <= fst r <= 2 ^ 30 /\ grown s (snd r)).
Proof.
  intros B (F & L & Vs). unfold ck_refval. eapply sure_bind; [apply take_bits_sure; exact F|]. intros [v inp] (F1 & Hv & Hn). cbn [fst snd] in *.
  unfold shl1. replace ((0 <=? bits - 1) && (bits - 1 <? 32)) with true by lia. cbn [bind sure fst snd].
  split; [|split; [split; auto|apply le_n]]. rewrite Z2Nat.id in Hn by lia.
  assert (P : 1 <= 2 ^ (bits - 1) <= 2 ^ 30) by (split; [pose proof (Z.pow_pos_nonneg 2 (bits - 1)); lia|apply Z.pow_le_mono_r; lia]).
  assert (Hw2 : 2 ^ bits = 2 * 2 ^ (bits - 1)) by (rewrite <- Z.pow_succ_r by lia; f_equal; lia).
  assert (W : forall z, - 2 ^ 30 <= z <= 2 ^ 30 -> - 2 ^ 30 <= wrap_int z <= 2 ^ 30).
  { intros z Hz. rewrite wrap_int_id; [exact Hz|]. unfold int_min, int_max. lia. }
  apply W. clear W. set (n := bits - 1) in *. assert (Hn0 : 0 <= n < 32) by lia.
  destruct (Z.lt_ge_cases v (2 ^ n)) as [Lt|Ge].
  - rewrite land_top_0 by lia. cbn. lia.
  - assert (E : v = Z.lor (v - 2 ^ n) (2 ^ n)).
    { rewrite lor_top by lia. lia. }
    rewrite E, land_top_self, land_drop_top by lia. destruct (Z.eqb_spec (2 ^ n) 0); lia.
Qed.

(** Bitmaps *)
Lemma bitmap_bits_sure : forall n i, fine i ->
  sure (ck_read_bitmap n i) (fun r => fine (snd r) /\ length (fst r) = n /\ Forall (fun c => c <> 0) (fst r)).
Proof.
  induction n as [|n IH]; intros i F; cbn [ck_read_bitmap]; [split; [exact F|split; [reflexivity|constructor]]|].
  eapply sure_bind; [apply take_bits_sure; exact F|]. intros [c i1] (F1 & _). cbn [snd] in *.
  eapply sure_bind; [apply IH; exact F1|]. intros [cs i2] (F2 & L2 & N2). cbn [fst snd] in *.
  split; [exact F2|]. split; [cbn; lia|]. constructor; [destruct (c =? 0); lia|exact N2].
Qed.

Lemma cstr_whole s : Forall (fun c => c <> 0) s -> cstr s = s.
Proof. intros F. induction F as [|c s Hc F IH]; cbn [cstr]; [reflexivity|]. destruct (Z.eqb_spec c 0); [lia|]. rewrite IH. reflexivity. Qed.

Lemma zlist_eqb_eq : forall a b, zlist_eqb a b = true -> a = b.
Proof. induction a as [|x a IH]; intros [|y b]; cbn; try discriminate; [reflexivity|]. intros H. apply andb_prop in H as [H1 H2]. f_equal; [lia|auto]. Qed.
Lemma assoc_bits {A} k (l : list (list Z * A)) x : assoc zlist_eqb k l = Some x -> In (k, x) l.
Proof.
  induction l as [|[a b] l IH]; cbn [assoc]; [discriminate|]. destruct (zlist_eqb k a) eqn:E; [|right; auto].
  apply zlist_eqb_eq in E as ->. intros [= ->]. left. reflexivity.
Qed.

Lemma bitmap_sure pending size s : dec_fine s -> sure (ck_bitmap o pending size s)
  (fun r => grown s (snd r) /\ usable_bitmap (fst (fst r)) (snd (fst r)) = true /\ length (fst (fst r)) = length (d_vars (snd r))).
Proof.
  intros (F & (L0 & L1 & L2) & Vs). unfold ck_bitmap. eapply sure_bind; [apply bitmap_bits_sure; exact F|]. intros [chars inp] (F1 & Lc & Nc). cbn [fst snd] in *.
  apply sure_bind with (P := fun r => (vi_type (fst r) = TString /\ vi_len (fst r) = Z.of_nat (length chars)) /\ local_fine (snd r)).
  { unfold get_bitmap. destruct (assoc zlist_eqb chars (lt_bitmaps (d_lt s))) as [i|] eqn:E.
    - destruct (negb (vi_code i =? pending)); [exact I|]. split; [|split; [|split]; assumption].
      apply assoc_bits in E. rewrite Forall_forall in L0. apply (L0 _ E).
    - destruct (set_string pending (Z.of_nat (length chars))) as [i|e|] eqn:Sb; cbn [bind sure]; [|exact I|discriminate]. apply string_info in Sb as [Ti Tl].
      split; [auto|]. split; [constructor; [auto|exact L0]|]. split; assumption. }
  intros [i lt] [[Ti Tl] Lt]. cbn [fst snd] in *. rewrite sets_string by exact Ti. cbn [of_outcome bind]. cbv zeta.
  cbn [fresh c_info]. assert (Ei : ilen i = length chars) by (unfold ilen; rewrite Tl; lia).
  rewrite Ei, cstr_whole, firstn_all by exact Nc.
  apply sure_bind with (P := fun _ => True).
  { destruct (vi_len i =? 0); [exact I|]. unfold bitmap_chars, enqc. cbn [with_val fresh c_val c_info]. rewrite Ti. cbn [bind].
    rewrite Ei, app_length. replace (Nat.ltb (length chars + length [0%Z]) (length chars)) with false by (symmetry; apply Nat.ltb_ge; lia). exact I. }
  intros bits _. destruct (usable_bitmap _ bits) eqn:U; [|exact I]. split; [|split; [exact U|unfold codes_of; apply map_length]].
  split; [split; [exact F1|split; [exact Lt|]]|]; cbn [snd d_vars].
  - apply Forall_app. split; [exact Vs|]. constructor; [|constructor]. cbn. unfold readable. rewrite Ti. exact I.
  - unfold dec_size. cbn [d_store d_vars]. rewrite app_length. lia.
Qed.

Lemma subset_sure fuel ops s : tame T ops -> dec_fine s -> sure (run (ck_decoder o T skip) T fuel ops (ist_init, s)) (fun x => dec_fine (snd x)).
Proof.
  intros (w & Hw & HW & H12 & H21) D. apply sure_weaken with (P := run_fine dec_fine dec_size w); [|intros x [_ X]; exact X].
  apply template_sure with (good := dec_fine) (size := dec_size) (w := w); auto; unfold dec_size;
    cbn [ck_decoder on_var on_var_af on_factor on_bitmap_factor on_significance on_subst on_attr on_raw on_refval on_bitmap on_unknown]; intros.
  - apply var_sure; auto.
  - apply var_af_sure; auto.
  - apply factor_sure; auto.
  - apply bitmap_factor_sure; auto.
  - apply significance_sure; auto.
  - apply subst_sure; auto.
  - apply attr_sure; auto.
  - apply raw_sure; auto.
  - apply refval_sure; auto.
  - apply bitmap_sure; auto.
  - apply unknown_sure; auto.
Qed.
End Subset.

Lemma subsets_sure o T skip fuel ops : hook_safe o -> tame T ops -> forall n lt inp,
  fine inp -> local_fine lt -> sure (ck_subsets o T skip fuel ops n lt inp) (fun _ => True).
Proof.
  intros HO Ht. induction n as [|n IH]; intros lt inp F L; [exact I|]. cbn [ck_subsets].
  eapply sure_bind; [eapply subset_sure; eauto; split; [exact F|split; [exact L|constructor]]|].
  intros [st s] (D1 & D2 & _). cbn [fst snd] in *. eapply sure_bind; [apply IH; auto|]. intros [[rest lt'] inp'] _. exact I.
Qed.

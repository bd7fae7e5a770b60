(** Each step of the decoder has its counterpart in the transmission of the decoded subset. *)
From Coq Require Import ZArith Lia ZifyBool ZifyNat.
From Verif Require Import Base Bits.Model Bits.Spec Bits.Proofs Bits.StringProofs Num.Float
  Varcode.Model Varinfo.Model Varinfo.RangeProofs Tables.Model Tables.Spec Tables.AlterProofs Tables.LoadProofs Var.Model Var.Spec
  Var.Proofs Var.AttrProofs Var.CodecProofs Interp.Model Interp.Sim Interp.Follow Codec.Model Codec.Spec
  Codec.ValueProofs Codec.Proofs Codec.TransferProofs Codec.Checked Codec.StepProofs Codec.CheckedSafe Codec.ColumnProofs Codec.Again Codec.AgainValue Codec.AgainProofs.
From Verif Require Subset.Proofs.
Local Open Scope Z_scope.

(** The definitions of a table, with room for the operators. *)
Definition defs_ok (t : btable) : Prop :=
  Forall (fun e => info_ok (be_info e) /\ -2000000000 <= vi_scale (be_info e) <= 2000000000) t.

Definition locals_ok (l : localtables) : Prop :=
  Forall (fun q => vi_type (snd q) = TString /\ vi_len (snd q) = Z.of_nat (length (fst q)) /\ info_ok (snd q)) (lt_bitmaps l) /\
  Forall (fun q => vi_type (snd q) = TString /\ vi_len (snd q) = var_y (fst q) /\ info_ok (snd q)) (lt_chardata l) /\
  Forall (fun q => info_ok (snd q)) (lt_unknown l).

Lemma set_string_ok code len i : 0 <= len < 2 ^ 32 -> set_string code len = Ok i ->
  vi_type i = TString /\ vi_len i = len /\ vi_code i = code /\ info_ok i.
Proof.
  unfold set_string. intros L E. pose proof (compute_range_fields _ _ _ _ _ _ _ _ E) as (E1 & E2 & E3 & E4 & E5 & E6 & E7).
  split; [exact E2|]. split; [exact E5|]. split; [exact E1|]. constructor; rewrite ?E2, ?E4, ?E5, ?E6, ?E7; try (unfold int_min, int_max; lia); try discriminate.
  - eapply compute_range_built; eauto.
  - apply u32_range.
Qed.
Lemma set_binary_ok code bits i : 0 <= bits < 256 -> set_binary code bits = Ok i -> info_ok i.
Proof.
  unfold set_binary. intros L E. pose proof (compute_range_fields _ _ _ _ _ _ _ _ E) as (E1 & E2 & E3 & E4 & E5 & E6 & E7).
  constructor; rewrite ?E2, ?E4, ?E5, ?E6, ?E7; try (unfold int_min, int_max; lia); try discriminate.
  eapply compute_range_built; eauto.
Qed.

Lemma value_info o i inp c inp' : strict_options o -> decode_value o i inp = Ok (c, inp') -> c_info c = i.
Proof.
  intros (Os & Oc & Oh). unfold decode_value.
  assert (Num : forall b, is_numeric (vi_type i) = b -> decode_number o i inp = Ok (c, inp') -> c_info c = i).
  { intros b Hn E. unfold decode_number in E. inv_bind E. destruct a. inv_bind Hk. destruct a; [injection Hk0 as <- _; reflexivity|].
    inv_bind Hk0. inv_bind Hk. injection Hk0 as <- _. unfold setd in Hb2. cbn [fresh c_info] in Hb2.
    destruct (vi_type i); try discriminate.
    - destruct (f_lround a) as [n| |]; try discriminate. unfold assign_i_checked in Hb2. rewrite Os, Oc, Oh in Hb2.
      match type of Hb2 with context [if ?b then _ else _] => destruct b end; [discriminate|]. injection Hb2 as <-. reflexivity.
    - unfold assign_d_checked in Hb2. rewrite Os, Oc, Oh in Hb2. destruct (fisnan a); [discriminate|].
      match type of Hb2 with context [if ?b then _ else _] => destruct b end; [discriminate|]. unfold store_d in Hb2.
      match type of Hb2 with context [encode_decimal ?x ?y] => destruct (encode_decimal x y) end; try discriminate. injection Hb2 as <-. reflexivity. }
  destruct (vi_type i) eqn:T; [apply (Num true); reflexivity|apply (Num true); reflexivity| |]; intros E; inv_bind E; destruct a as [r i1].
  - destruct r as [s|]; [|injection Hk as <- _; reflexivity]. rewrite setc_string in Hk by exact T. cbn [of_outcome bind] in Hk. injection Hk as <- _. reflexivity.
  - destruct r as [s|]; [|injection Hk as <- _; reflexivity]. inv_bind Hk. injection Hk0 as <- _. unfold setc in Hb0. cbn [fresh c_info] in Hb0. rewrite T in Hb0.
    unfold assign_b_checked in Hb0. repeat match type of Hb0 with context [if ?b then _ else _] => destruct b end; try discriminate; injection Hb0 as <-; reflexivity.
Qed.

Lemma keys_app a b : keys (a ++ b) = keys a ++ keys b.
Proof. unfold keys. apply flat_map_app. Qed.
Lemma nodup_app {A} (a b : list A) : NoDup (a ++ b) -> NoDup a /\ forall x, In x a -> ~ In x b.
Proof.
  induction a as [|x a IH]; cbn [app]; [intros; split; [constructor|intros ? []]|]. intros N. inversion N as [|? ? Nx Na]; subst.
  destruct (IH Na) as [I1 I2]. split; [constructor; [intros Ix; apply Nx, in_or_app; auto|exact I1]|].
  intros y [<-|Iy] Hb; [apply Nx, in_or_app; auto|exact (I2 y Iy Hb)].
Qed.

Section Steps.
Context (o : options) (HO : strict_options o) (T : tables) (skip : bool) (p : shift_policy) (F : list var).
Context (HT : table_ok (tb_b T)) (HD : defs_ok (tb_b T)).

Definition good (x : recording) : Prop :=
  Forall (fun v => var_infos_ok v /\ sorted (v_attrs v)) (d_vars (fst x)) /\ locals_ok (d_lt (fst x)) /\
  forall pos v code a, nth_error (d_vars (fst x)) pos = Some v -> var_enqa v code = Some a -> In (pos, code) (keys (snd x)).

Definition le (x y : recording) : Prop :=
  (length (d_vars (fst x)) <= length (d_vars (fst y)))%nat /\ exists added, snd y = snd x ++ added /\
  forall pos v, nth_error (d_vars (fst x)) pos = Some v -> exists w, nth_error (d_vars (fst y)) pos = Some w /\ v_cell w = v_cell v /\
    forall code, ~ In (pos, code) (keys added) -> var_enqa w code = var_enqa v code.

Definition seen (x : recording) : Prop :=
  NoDup (keys (snd x)) /\ Forall (request_ok p T F) (snd x) /\
  forall pos v, nth_error (d_vars (fst x)) pos = Some v -> exists f, nth_error F pos = Some f /\ v_cell f = v_cell v /\
    forall code, In (pos, code) (keys (snd x)) -> var_enqa f code = var_enqa v code.

Definition tracks (x : recording) (y : xfer) : Prop :=
  x_pos y = length (d_vars (fst x)) /\ x_got y = d_vars (fst x) /\ x_lt y = d_lt (fst x).

Definition fine (st : istate) (x : recording) : Prop :=
  ist_ok st /\ (is_pending st = 0 \/ var_f (is_pending st) = 2) /\ Forall (fun q => int_min <= snd q <= int_max) (is_refs st) /\
  0 <= is_srw st <= 255 /\ -128 <= is_scale st <= 127 /\
  (forall b, is_cur st = Some b -> Forall (fun n => n < length (d_vars (fst x)))%nat (bm_refs b) /\ Forall (fun n => n < length (d_vars (fst x)))%nat (bm_rest b)) /\
  (forall l, is_last st = Some l -> Forall (fun n => n < length (d_vars (fst x)))%nat l).
Definition pointed (n : nat) (x : recording) : Prop := (n < length (d_vars (fst x)))%nat.

Lemma le_refl x : le x x.
Proof. split; [lia|]. exists []. rewrite app_nil_r. split; [reflexivity|]. intros pos v N. exists v. auto. Qed.
Lemma le_trans a b c : le a b -> le b c -> le a c.
Proof.
  intros [L1 (k1 & E1 & H1)] [L2 (k2 & E2 & H2)]. split; [lia|]. exists (k1 ++ k2). split; [rewrite E2, E1, app_assoc; reflexivity|].
  intros pos v N. destruct (H1 pos v N) as (w & N1 & C1 & A1). destruct (H2 pos w N1) as (u & N2 & C2 & A2). exists u. split; [exact N2|]. split; [congruence|].
  intros code Hc. rewrite keys_app in Hc. rewrite A2, A1; auto; intros I; apply Hc, in_or_app; auto.
Qed.
Lemma seen_back x y : good x -> le x y -> seen y -> seen x.
Proof.
  intros _ [_ (k & E & H)] (S1 & S2 & S3). rewrite E in S1, S2, S3. rewrite keys_app in S1. apply nodup_app in S1 as [N1 N2]. apply Forall_app in S2 as [R1 _].
  split; [exact N1|]. split; [exact R1|]. intros pos v N. destruct (H pos v N) as (w & Nw & Cw & Aw). destruct (S3 pos w Nw) as (f & Nf & Cf & Af).
  exists f. split; [exact Nf|]. split; [congruence|]. intros code I. rewrite Af by (rewrite keys_app; apply in_or_app; auto). apply Aw. apply N2. exact I.
Qed.
Lemma fine_later st x y : fine st x -> le x y -> fine st y.
Proof.
  intros (A1 & A2 & A3 & A4 & A5 & A6 & A7) [L _].
  assert (Up : forall l, Forall (fun n => n < length (d_vars (fst x)))%nat l -> Forall (fun n => n < length (d_vars (fst y)))%nat l)
    by (intros l Fl; eapply Forall_impl; [|exact Fl]; cbv beta; lia).
  repeat (split; [assumption|]). split.
  - intros b Eb. destruct (A6 b Eb) as [B1 B2]. auto.
  - intros l El. apply Up, A7. exact El.
Qed.

(** *** State of the interpreter *)
Lemma fine_next st x n st' : fine st x -> bitmaps_next st = Ok (n, st') -> fine st' x /\ pointed n x.
Proof.
  intros (A1 & A2 & A3 & A4 & A5 & A6 & A7). unfold bitmaps_next. destruct (is_cur st) as [b|] eqn:Eb; [|discriminate].
  destruct (A6 b eq_refl) as [B1 B2]. destruct (bm_rest b) as [|q r] eqn:Er; [discriminate|]. intros E. injection E as <- <-.
  inversion B2 as [|? ? Bq Br]; subst. split; [|exact Bq]. destruct r as [|q2 r]; unfold fine; cbn.
  - repeat (split; [assumption|]). split; [discriminate|]. intros l [= <-]. exact B1.
  - repeat (split; [assumption|]). split; [|exact A7]. intros b' [= <-]. cbn. auto.
Qed.

Lemma y_range code : 0 <= var_y code < 256.
Proof. unfold var_y. change 255 with (Z.ones 8). rewrite Z.land_ones by lia. apply (Z.mod_pos_bound code (2 ^ 8)). lia. Qed.

Lemma fine_op st x code : fine st x -> var_f code = 2 ->
  let y := var_y code in
  fine (with_width st (if y =? 0 then 0 else y - 128)) x /\ fine (with_scale st (if y =? 0 then 0 else y - 128)) x /\
  fine (with_refbits st (if y =? 255 then 0 else y)) x /\ (forall sig, y <= 32 -> fine (with_af st y sig) x) /\
  fine (with_srw st y) x /\ fine (with_strlen st y) x /\ fine (with_pending st code) x /\ fine (with_pending (bitmaps_reuse st) 0) x /\
  fine (bitmaps_discard st) x.
Proof.
  intros (A1 & A2 & A3 & A4 & A5 & A6 & A7) Fc. cbv zeta. pose proof (y_range code) as Y. unfold fine, ist_ok in *. cbn.
  split; [do 6 (split; [assumption|]); assumption|].
  split; [do 4 (split; [assumption|]); split; [destruct (Z.eqb_spec (var_y code) 0); lia|]; split; assumption|].
  split; [split; [destruct (Z.eqb_spec (var_y code) 255); lia|]; do 5 (split; [assumption|]); assumption|].
  split; [intros sig L; split; [lia|]; do 5 (split; [assumption|]); assumption|].
  split; [do 3 (split; [assumption|]); split; [lia|]; do 2 (split; [assumption|]); assumption|].
  split; [do 6 (split; [assumption|]); assumption|].
  split; [split; [assumption|]; split; [right; exact Fc|]; do 4 (split; [assumption|]); assumption|].
  split.
  - split; [assumption|]; split; [left; reflexivity|]. do 3 (split; [assumption|]). split; [|discriminate].
    intros b Eb. destruct (is_last st) as [l|] eqn:El; [|discriminate]. injection Eb as <-. cbn. specialize (A7 l eq_refl). auto.
  - do 5 (split; [assumption|]). split; [assumption|discriminate].
Qed.

Lemma fine_refs st x code r : fine st x -> is_refbits st <> 0 -> int_min <= r <= int_max -> fine (with_refs st ((code, r) :: is_refs st)) x.
Proof.
  intros (A1 & A2 & A3 & A4 & A5 & A6 & A7) _ R. unfold fine. cbn. do 2 (split; [assumption|]). split; [constructor; [exact R|exact A3]|].
  do 3 (split; [assumption|]). assumption.
Qed.

(** *** Definitions *)
Lemma varinfo_known st x code i : fine st x -> get_varinfo (tb_b T) st code = Ok i -> info_ok i.
Proof.
  intros (_ & _ & A3 & A4 & A5 & _) E. unfold get_varinfo in E. inv_bind E. rename a into peek.
  match type of Hk with context [if ?b then Ok _ else _] => destruct b end; [injection Hk as <-; eapply HT; eauto|]. cbv zeta in Hk.
  pose proof Hb as Hq. apply HT in Hb.
  assert (Sp : -2000000000 <= vi_scale peek <= 2000000000).
  { unfold query, query_entry in Hq. inv_bind Hq. destruct a as [n|]; [|discriminate]. unfold entry_at in Hk0. destruct (nth_error (tb_b T) n) as [e|] eqn:N; [|discriminate].
    cbn in Hk0. injection Hk0 as <-. unfold defs_ok in HD. rewrite Forall_forall in HD. apply nth_error_In in N. apply (HD e N). }
  inv_bind Hk. destruct a as [[sc bl] rf].
  assert (Q : -2000000000 - 128 <= sc <= 2000000000 + 127 + 255 /\ int_min <= rf <= int_max).
  { destruct (is_srw st =? 0); [injection Hb0 as <- _ <-; split; [lia|]; apply Hb|]. destruct (9 <? is_srw st); [discriminate|]. inv_bind Hb0. injection Hk as <- _ <-.
    split; [lia|]. unfold int_checked in Hb1. destruct (in_int (vi_bit_ref peek * 10 ^ is_srw st)) eqn:Ei; [|discriminate]. injection Hb1 as <-. unfold in_int in Ei. lia. }
  destruct Q as [Q1 Q2].
  assert (Q3 : int_min <= match assoc Z.eqb code (is_refs st) with Some r => r | None => rf end <= int_max) by (apply (assoc_bound code _ (fun r => int_min <= r <= int_max)); auto).
  revert Hk0 Q3. generalize (match assoc Z.eqb code (is_refs st) with Some r => r | None => rf end). intros ref E Q3. unfold expected in E. cbn [r_code r_scale r_bits r_ref] in E.
  destruct (List.find (fun e => be_code e =? code) (tb_b T)) as [e|] eqn:Fe; [|discriminate]. apply find_some in Fe as [Ie _].
  unfold defs_ok in HD. rewrite Forall_forall in HD. destruct (HD e Ie) as [Ke _].
  match type of E with context [if ?b then Ok _ else _] => destruct b end; [injection E as <-; exact Ke|].
  eapply alter_info_ok; [exact Ke| | | |exact E]; [unfold int_min, int_max; lia|exact Q3|apply u32_range].
Qed.

(** *** Variables *)
Lemma nth_snoc_last {A} (l : list A) x : nth_error (l ++ [x]) (length l) = Some x.
Proof. rewrite nth_error_app2, Nat.sub_diag by lia. reflexivity. Qed.
Lemma nth_snoc_before {A} (l : list A) x n y : nth_error l n = Some y -> nth_error (l ++ [x]) n = Some y.
Proof. intros E. rewrite nth_error_app1; [exact E|]. apply nth_error_Some. congruence. Qed.

Lemma le_push s l inp v lt added : le (s, l) (mkdec inp (d_vars s ++ [v]) lt, l ++ added).
Proof.
  split; [cbn; rewrite app_length; lia|]. exists added. split; [reflexivity|]. cbn [fst d_vars]. intros pos w N. exists w. split; [apply nth_snoc_before; exact N|]. auto.
Qed.
Lemma le_keep s l inp lt added : le (s, l) (mkdec inp (d_vars s) lt, l ++ added).
Proof. split; [cbn; lia|]. exists added. split; [reflexivity|]. cbn [fst d_vars]. intros pos w N. exists w. auto. Qed.

Lemma good_push s l inp c attrs lt added : good (s, l) -> info_ok (c_info c) -> Forall (fun a => info_ok (c_info a)) attrs -> sorted attrs -> locals_ok lt ->
  (forall code a, enqa code attrs = Some a -> In (length (d_vars s), code) (keys added)) ->
  good (mkdec inp (d_vars s ++ [mkvar c attrs]) lt, l ++ added).
Proof.
  intros (G1 & G2 & G3) Ic Ia Sa Lt Hk. split; [|split].
  - cbn [fst d_vars]. apply Forall_app. split; [exact G1|]. constructor; [|constructor]. split; [split; assumption|exact Sa].
  - exact Lt.
  - cbn [fst snd d_vars]. intros pos v code a N E. rewrite keys_app. apply in_or_app. apply nth_error_snoc in N as [[L N]|[-> ->]].
    + left. eapply G3; eauto.
    + right. eapply Hk. exact E.
Qed.
Lemma good_keep s l inp lt added : good (s, l) -> locals_ok lt -> good (mkdec inp (d_vars s) lt, l ++ added).
Proof.
  intros (G1 & _ & G3) Lt. split; [exact G1|]. split; [exact Lt|]. cbn [fst snd d_vars]. intros pos v code a N E. rewrite keys_app. apply in_or_app. left. eapply G3; eauto.
Qed.

(** The last variable, and the last request, are at the end as they are now. *)
Lemma seen_last s l inp c attrs lt r : seen (mkdec inp (d_vars s ++ [mkvar c attrs]) lt, l ++ [r]) ->
  request_ok p T F r /\ exists f, nth_error F (length (d_vars s)) = Some f /\ v_cell f = c /\
    forall code, In (length (d_vars s), code) (keys_of r) -> var_enqa f code = enqa code attrs.
Proof.
  intros (_ & S2 & S3). apply Forall_app in S2 as [_ S2]. inversion S2 as [|? ? R1 _]; subst. split; [exact R1|].
  destruct (S3 (length (d_vars s)) (mkvar c attrs)) as (f & N & C & A); [apply nth_snoc_last|]. exists f. split; [exact N|]. split; [exact C|].
  intros code I. rewrite A; [reflexivity|]. cbn [snd]. rewrite keys_app. apply in_or_app. right. cbn. rewrite app_nil_r. exact I.
Qed.

Lemma take_ok i x f c : nth_error F (x_pos x) = Some f -> v_cell f = c -> c_info c = i -> field_ok p i (c_val c) = true -> x_take p F i x = Ok f.
Proof.
  intros N C I H. unfold x_take, get_var. rewrite N. cbn [bind]. rewrite C, I. destruct (varinfo_eq_dec i i); [|contradiction]. rewrite H. reflexivity.
Qed.

(** A value that is stored without attributes. *)
Lemma field_step i s l c inp : info_ok i -> good (s, l) -> decode_value o i (d_in s) = Ok (c, inp) ->
  let y := (d_store c inp s, l ++ [RField (length (d_vars s)) i]) in
  good y /\ le (s, l) y /\ (seen y -> forall x, tracks (s, l) x -> exists f, x_take p F i x = Ok f /\ v_cell f = c /\ tracks y (x_give c [] x)).
Proof.
  intros K G E. cbv zeta. pose proof (value_info o i _ _ _ HO E) as Ci. unfold d_store.
  split; [|split; [apply le_push|]].
  - apply good_push; auto; [rewrite Ci; exact K|constructor|apply G|discriminate].
  - intros Sn x (T1 & T2 & T3). apply seen_last in Sn as (R & f & N & Cf & _). cbn [request_ok] in R. destruct R as [R1 R2]. specialize (R2 f N). rewrite Cf in R2.
    destruct (value_again o HO p i _ _ _ K R1 E R2) as [_ Fo]. exists f. split; [apply take_ok with (c := c); auto; rewrite T1; exact N|]. split; [exact Cf|].
    cbn [fst] in *. split; [cbn; rewrite app_length, T1; cbn [length]; lia|]. split; [cbn; rewrite T2; reflexivity|exact T3].
Qed.

Lemma var_follows i : info_ok i -> follows good le seen tracks (fun _ => True) (on_var (recorder o T skip) i) (on_var (transmitter p T skip F) i).
Proof.
  intros K [s l] y _ G E. cbn [on_var recorder] in E. apply note_inv in E as (s' & E & ->). cbn [fst snd] in *. unfold d_var in E. inv_bind E. destruct a as [c inp]. apply ok_inj in Hk. subst s'.
  destruct (field_step i s l c inp K G Hb) as (G1 & L1 & K1). split; [exact G1|]. split; [exact L1|]. intros Sn x Tx.
  destruct (K1 Sn x Tx) as (f & E1 & Cf & Tr). cbn [on_var transmitter]. unfold x_var. rewrite E1. cbn [bind]. rewrite Cf. eexists. split; [reflexivity|exact Tr].
Qed.

Lemma factor_follows i : info_ok i -> follows_with good le seen tracks (fun _ => True) (on_factor (recorder o T skip) i) (on_factor (transmitter p T skip F) i).
Proof.
  intros K [s l] n y G E. cbn [on_factor recorder] in E. apply note_with_inv in E as (s' & E & ->). cbn [fst snd] in *. unfold d_factor in E. inv_bind E. destruct a as [c inp]. inv_bind Hk.
  apply ok_inj in Hk0. injection Hk0 as <- <-. destruct (field_step i s l c inp K G Hb) as (G1 & L1 & K1). split; [exact Logic.I|]. split; [exact G1|]. split; [exact L1|]. intros Sn x Tx.
  destruct (K1 Sn x Tx) as (f & E1 & Cf & Tr). cbn [on_factor transmitter]. unfold x_factor. rewrite E1. cbn [bind]. rewrite Cf, Hb0. cbn [bind]. eexists. split; [reflexivity|exact Tr].
Qed.

Lemma significance_follows i : info_ok i -> follows_with good le seen tracks (fun _ => True) (on_significance (recorder o T skip) i) (on_significance (transmitter p T skip F) i).
Proof.
  intros K [s l] n y G E. cbn [on_significance recorder] in E. apply note_with_inv in E as (s' & E & ->). cbn [fst snd] in *. unfold d_significance in E. inv_bind E. destruct a as [c inp]. inv_bind Hk.
  apply ok_inj in Hk0. injection Hk0 as <- <-. destruct (field_step i s l c inp K G Hb) as (G1 & L1 & K1). split; [exact Logic.I|]. split; [exact G1|]. split; [exact L1|]. intros Sn x Tx.
  destruct (K1 Sn x Tx) as (f & E1 & Cf & Tr). cbn [on_significance transmitter]. unfold x_significance. rewrite E1. cbn [bind]. rewrite Cf, Hb0. cbn [bind]. eexists. split; [reflexivity|exact Tr].
Qed.

(** *** Attributes *)
Lemma nth_update {A} (l : list A) k a n : nth_error (update l k a) n = if Nat.eqb n k then (match nth_error l n with Some _ => Some a | None => None end) else nth_error l n.
Proof.
  revert k n. induction l as [|x l IH]; intros [|k] [|n]; cbn; try reflexivity.
  - destruct (Nat.eqb n k); reflexivity.
  - apply IH.
Qed.

Lemma attr_step i pos s l s' : info_ok i -> pointed pos (s, l) -> good (s, l) -> d_attr o i pos s = Ok s' ->
  let y := (s', l ++ [RAttr pos i]) in
  good y /\ le (s, l) y /\ (seen y -> forall x, tracks (s, l) x -> exists x', x_attr p F i pos x = Ok x' /\ tracks y x').
Proof.
  intros K P G E. cbv zeta. unfold d_attr in E. inv_bind E. destruct a as [c inp]. pose proof (value_info o i _ _ _ HO Hb) as Ci.
  unfold pointed in P. cbn [fst] in P. destruct (nth_error (d_vars s) pos) as [v|] eqn:Nv; [|apply nth_error_None in Nv; lia].
  destruct (isset c) eqn:Hs; cbn [negb] in Hk; apply ok_inj in Hk; subst s'.
  - destruct G as (G1 & G2 & G3). pose proof G1 as G1'. rewrite Forall_forall in G1'. pose proof (nth_error_In _ _ Nv) as Iv. destruct (G1' v Iv) as [[V1 V2] V3].
    split; [split; [|split]|split].
    + cbn [fst d_vars]. apply Forall_forall. intros w Iw. apply In_nth_error in Iw as [n Nn]. rewrite nth_update in Nn. destruct (Nat.eqb_spec n pos) as [Hn|Hn]; [subst n|].
      * rewrite Nv in Nn. injection Nn as <-. split; [split; [exact V1|]|apply seta_sorted; exact V3]. cbn [v_attrs]. apply Forall_forall. intros a Ia.
        apply seta_in in Ia as [->|Ia]; [rewrite Ci; exact K|]. rewrite Forall_forall in V2. auto.
      * apply nth_error_In in Nn. auto.
    + exact G2.
    + cbn [fst snd d_vars]. intros n w code a Nn Ea. rewrite keys_app. apply in_or_app. rewrite nth_update in Nn. destruct (Nat.eqb_spec n pos) as [Hn|Hn]; [subst n|].
      * rewrite Nv in Nn. injection Nn as <-. unfold var_enqa in Ea. cbn [v_attrs] in Ea. rewrite enqa_seta in Ea by exact V3.
        destruct (Z.eqb_spec (c_code c) code) as [Hc|Hc]; [right|left; eapply G3; [exact Nv|exact Ea]]. cbn. left. unfold c_code in Hc. rewrite <- Hc, Ci. reflexivity.
      * left. eapply G3; eauto.
    + split; [cbn [fst d_vars]; rewrite update_length; lia|]. exists [RAttr pos i]. split; [reflexivity|]. cbn [fst d_vars]. intros n w Nn. rewrite nth_update, Nn.
      destruct (Nat.eqb_spec n pos) as [Hn|Hn]; [subst n|exists w; auto]. rewrite Nv in Nn. injection Nn as <-. eexists. split; [reflexivity|]. split; [reflexivity|].
      intros code Hc. unfold var_enqa. cbn [v_attrs]. rewrite enqa_seta by exact V3. destruct (Z.eqb_spec (c_code c) code) as [He|He]; [|reflexivity].
      destruct Hc. cbn. left. unfold c_code in He. rewrite <- He, Ci. reflexivity.
    + intros (S1 & S2 & S3) x (T1 & T2 & T3). apply Forall_app in S2 as [_ S2]. inversion S2 as [|? ? R1 _]; subst. cbn [request_ok] in R1. destruct R1 as [R1 R2].
      destruct (S3 pos (mkvar (v_cell v) (seta c (v_attrs v)))) as (f & Nf & Cf & Af). { cbn [fst d_vars]. rewrite nth_update, Nat.eqb_refl, Nv. reflexivity. }
      assert (Ef : var_enqa f (vi_code (c_info c)) = Some c).
      { rewrite Af; [|cbn [snd]; rewrite keys_app; apply in_or_app; right; cbn; auto]. unfold var_enqa. cbn [v_attrs]. rewrite enqa_seta by exact V3. unfold c_code. rewrite Z.eqb_refl. reflexivity. }
      specialize (R2 f Nf). rewrite Ef in R2. destruct (value_again o HO p _ _ _ _ K R1 Hb R2) as [_ Fo].
      unfold x_attr, get_var. rewrite Nf. cbn [bind]. cbn [fst] in T2. rewrite T2, Nv. cbn [bind]. rewrite Ef. destruct (varinfo_eq_dec (c_info c) (c_info c)); [|contradiction].
      rewrite Fo. cbn [guard bind]. rewrite Hs. eexists. split; [reflexivity|]. split; [cbn; rewrite update_length; exact T1|]. split; [reflexivity|exact T3].
  - pose proof G as G0. destruct G0 as (G1 & G2 & G3). split; [apply good_keep; [exact G|exact G2]|]. split; [apply le_keep|].
    intros (S1 & S2 & S3) x (T1 & T2 & T3). apply Forall_app in S2 as [_ S2]. inversion S2 as [|? ? R1 _]; subst. cbn [request_ok] in R1. destruct R1 as [R1 R2].
    destruct (S3 pos v Nv) as (f & Nf & Cf & Af).
    assert (Ef : var_enqa f (vi_code (c_info c)) = None).
    { rewrite Af; [|cbn [snd]; rewrite keys_app; apply in_or_app; right; cbn; auto]. destruct (var_enqa v (vi_code (c_info c))) as [a|] eqn:Ea; [|reflexivity]. exfalso.
      cbn [snd] in S1. rewrite keys_app in S1. apply nodup_app in S1 as [_ S1]. apply (S1 (pos, vi_code (c_info c))); [eapply G3; [exact Nv|exact Ea]|cbn; auto]. }
    specialize (R2 f Nf). rewrite Ef in R2. assert (Vn : c_val c = None) by (unfold isset in Hs; destruct (c_val c); [discriminate|reflexivity]). rewrite <- Vn in R2.
    destruct (value_again o HO p _ _ _ _ K R1 Hb R2) as [_ Fo]. rewrite Vn in Fo.
    unfold x_attr, get_var. rewrite Nf. cbn [bind]. cbn [fst] in T2. rewrite T2, Nv. cbn [bind]. rewrite Ef, Fo. cbn [guard bind]. eexists. split; [reflexivity|].
    split; [exact T1|]. split; [reflexivity|exact T3].
Qed.

Lemma attr_follows i pos : info_ok i -> follows good le seen tracks (pointed pos) (on_attr (recorder o T skip) i pos) (on_attr (transmitter p T skip F) i pos).
Proof.
  intros K [s l] y P G E. cbn [on_attr recorder] in E. apply note_inv in E as (s' & E & ->). cbn [fst snd] in *. exact (attr_step i pos s l s' K P G E).
Qed.

Lemma subst_follows pos : follows good le seen tracks (pointed pos) (on_subst (recorder o T skip) pos) (on_subst (transmitter p T skip F) pos).
Proof.
  intros [s l] y P G E. cbn [on_subst recorder fst] in E. destruct (nth_error (d_vars s) pos) as [v|] eqn:Nv; [|discriminate]. apply note_inv in E as (s' & E & ->). cbn [fst snd] in *.
  unfold d_subst in E. rewrite Nv in E. assert (K : info_ok (c_info (v_cell v))) by (destruct G as (G1 & _); rewrite Forall_forall in G1; apply (G1 v), (nth_error_In _ _ Nv)).
  destruct (attr_step _ pos s l s' K P G E) as (G' & L' & K'). split; [exact G'|]. split; [exact L'|]. intros Sn x Tx. destruct (K' Sn x Tx) as (x' & E' & T').
  exists x'. split; [|exact T']. cbn [on_subst transmitter]. unfold x_subst, get_var. destruct (seen_back _ _ G L' Sn) as (_ & _ & S3). destruct (S3 pos v Nv) as (f & Nf & Cf & _).
  rewrite Nf. cbn [bind]. rewrite Cf. exact E'.
Qed.

(** *** Associated fields *)
Lemma af_follows st i : is_afbits st <> 0 -> info_ok i ->
  follows good le seen tracks (fine st) (on_var_af (recorder o T skip) (is_afbits st) (is_afsig st) i) (on_var_af (transmitter p T skip F) (is_afbits st) (is_afsig st) i).
Proof.
  intros Nb K [s l] y Fi G E. destruct Fi as ([Bb _] & _). revert Nb Bb E. generalize (is_afbits st) (is_afsig st). intros bits sig Nb Bb E.
  cbn [on_var_af recorder] in E. apply note_inv in E as (s' & E & ->). unfold next_pos. cbn [fst snd] in *. unfold d_var_af in E. inv_bind E. destruct a as [v inp1]. inv_bind Hk. rename a into oa. inv_bind Hk0.
  destruct a as [c inp2]. apply ok_inj in Hk. subst s'. pose proof (value_info o i _ _ _ HO Hb1) as Ci. apply get_bits_range in Hb as [V1 V2]. rewrite Z2Nat.id in V1 by lia.
  unfold make_attribute in Hb0. assert (Ao : all_ones (Z.to_nat bits) = Ok (2 ^ bits - 1)).
  { unfold all_ones. replace (Nat.leb 1 (Z.to_nat bits) && Nat.leb (Z.to_nat bits) 32)%bool with true by lia. rewrite Z2Nat.id by lia. reflexivity. }
  rewrite Ao in Hb0. cbn [bind] in Hb0. cbv zeta in Hb0. inv_bind Hb0. rename a into oc. rename Hb into Eoc. rename Hk into Em.
  set (attrs := match oa with Some x => seta x [] | None => [] end).
  (* the attribute, if there is one, has the code of the significance *)
  assert (Sh : match oa with Some a => info_ok (c_info a) /\ oc = Some (c_code a) /\ query (tb_b T) (c_code a) = Ok (c_info a) | None => True end).
  { destruct oa as [a|]; [|exact Logic.I]. destruct oc as [code|]; [|discriminate]. destruct HO as (Os & Oc & Oh).
    assert (Q : forall k i0, query (tb_b T) code = Ok i0 -> of_outcome (seti o (fresh i0) k) = Ok a -> info_ok (c_info a) /\ Some code = Some (c_code a) /\ query (tb_b T) (c_code a) = Ok (c_info a)).
    { intros k i0 Q0 S0. unfold seti in S0. destruct (is_numeric _); [|discriminate]. unfold assign_i_checked in S0. rewrite Os, Oc, Oh in S0. cbn [fresh c_info] in S0.
      match type of S0 with context [if ?b then _ else _] => destruct b end; [discriminate|]. injection S0 as <-. unfold c_code. cbn [with_val fresh c_info]. pose proof (query_code _ _ _ Q0) as ->.
      split; [eapply HT; eauto|]. split; [reflexivity|exact Q0]. }
    destruct (sig =? 21); [|destruct (v =? 2 ^ bits - 1)].
    - destruct (negb skip || negb (v =? 2 ^ bits - 1)); [|discriminate]. inv_bind Em. inv_bind Hk. injection Hk0 as <-. eapply Q; eauto.
    - destruct (((sig =? 6) || (sig =? 8)) && skip); [discriminate|]. inv_bind Em. injection Hk as <-. unfold c_code. cbn [fresh c_info]. pose proof (query_code _ _ _ Hb) as ->. split; [eapply HT; eauto|]. split; [reflexivity|exact Hb].
    - inv_bind Em. inv_bind Hk. injection Hk0 as <-. eapply Q; eauto. }
  assert (At : forall code, enqa code attrs = match oa with Some a => if c_code a =? code then Some a else None | None => None end).
  { intros code. unfold attrs. destruct oa as [a|]; [|reflexivity]. cbn. destruct (Z.leb_spec (c_code a) code); [reflexivity|]. destruct (Z.eqb_spec (c_code a) code); [lia|reflexivity]. }
  split; [|split].
  - apply good_push; auto; [rewrite Ci; exact K| | |apply G|].
    + unfold attrs. destruct oa as [a|]; [|constructor]. cbn. constructor; [apply Sh|constructor].
    + unfold attrs. destruct oa as [a|]; [|constructor]. cbn. repeat constructor.
    + intros code a Ea. rewrite At in Ea. destruct oa as [b|]; [|discriminate]. destruct Sh as (_ & -> & _). cbn. rewrite Eoc. cbn.
      destruct (Z.eqb_spec (c_code b) code) as [->|]; [auto|discriminate].
  - apply le_push.
  - intros Sn x (T1 & T2 & T3). apply seen_last in Sn as (R & f & N & Cf & Af). cbn [request_ok] in R. destruct R as (R1 & R2 & R3). specialize (R2 f N). rewrite Cf in R2.
    destruct (value_again o HO p i _ _ _ K R1 Hb1 R2) as [_ Fo]. cbn [on_var_af transmitter]. unfold x_var_af.
    rewrite (take_ok i x f c); auto; [|rewrite T1; exact N]. cbn [bind].
    assert (Xa : x_af T skip bits sig f = Ok attrs).
    { unfold x_af. rewrite Eoc. cbn [bind]. destruct oc as [code|].
      2: { injection Em as <-. reflexivity. }
      specialize (R3 code). assert (Ef : var_enqa f code = enqa code attrs) by (apply Af; cbn; rewrite Eoc; cbn; auto). rewrite Ef, At.
      destruct HO as (Os & Oc & Oh).
      assert (Q : forall k i0 a, query (tb_b T) code = Ok i0 -> of_outcome (seti o (fresh i0) k) = Ok a -> a = mkcell i0 (Some (VInt k)) /\ is_numeric (vi_type i0) = true /\ vi_imin i0 <= k <= vi_imax i0).
      { intros k i0 a Q0 S0. unfold seti in S0. destruct (is_numeric _) eqn:Hn; [|discriminate]. unfold assign_i_checked in S0. rewrite Os, Oc, Oh in S0. cbn [fresh c_info] in S0, Hn.
        destruct ((k <? vi_imin i0) || (vi_imax i0 <? k)) eqn:Hr; [discriminate|]. injection S0 as <-. split; [reflexivity|]. split; [first [exact Hn|reflexivity]|lia]. }
      unfold attrs. destruct oa as [a|].
      - destruct Sh as (_ & [= Hc] & Qa). rewrite <- Hc in Qa. rewrite Qa. cbn [bind]. rewrite <- Hc, Z.eqb_refl.
        destruct (Z.eqb_spec sig 21) as [S21|S21]; [|destruct (Z.eqb_spec v (2 ^ bits - 1)) as [Vm|Vm]].
        + destruct (negb skip || negb (v =? 2 ^ bits - 1)); [|discriminate]. inv_bind Em. inv_bind Hk. injection Hk0 as ->. destruct (Q _ _ _ Hb Hb0) as (-> & Hn & Hr). cbn [c_val c_info].
          rewrite Hn. assert (2 <= 2 ^ bits) by (change 2 with (2 ^ 1) at 1; apply Z.pow_le_mono_r; lia).
          replace (true && (0 <=? 0) && (0 <? 2 ^ bits - 1) && true && (vi_imin a0 <=? 0) && (0 <=? vi_imax a0)) with true by lia. reflexivity.
        + destruct (((sig =? 6) || (sig =? 8)) && skip); [discriminate|]. inv_bind Em. injection Hk as <-. reflexivity.
        + inv_bind Em. inv_bind Hk. injection Hk0 as ->. destruct (Q _ _ _ Hb Hb0) as (-> & Hn & Hr). cbn [c_val c_info] in *. destruct (R3 Eoc) as (j & Qj & _ & Hi). rewrite Hb in Qj. injection Qj as <-.
          assert (Hv : wrap_int v = v). { unfold wrap_int in *. assert (2 ^ bits <= 2 ^ 32) by (apply Z.pow_le_mono_r; lia). destruct (Z_lt_dec v (2 ^ 31)).
            - rewrite Z.mod_small; lia.
            - exfalso. replace (v + 2 ^ 31) with (v - 2 ^ 31 + 1 * 2 ^ 32) in Hr by lia. rewrite Z_mod_plus_full, Z.mod_small in Hr; lia. }
          rewrite Hv in *. rewrite Hn. replace (true && (0 <=? v) && (v <? 2 ^ bits - 1) && true && (vi_imin a0 <=? v) && (v <=? vi_imax a0)) with true by lia. reflexivity.
      - (* no attribute *)
        destruct (R3 Eoc) as (j & Qj & _). rewrite Qj in *. cbn [bind] in *.
        destruct (Z.eqb_spec sig 21) as [S21|S21]; [|destruct (Z.eqb_spec v (2 ^ bits - 1)) as [Vm|Vm]].
        + destruct skip; cbn [negb orb] in Em; [reflexivity|]. inv_bind Em. discriminate.
        + destruct (((sig =? 6) || (sig =? 8)) && skip); [reflexivity|discriminate].
        + inv_bind Em. discriminate. }
    rewrite Xa. cbn [bind]. rewrite Cf. eexists. split; [reflexivity|]. cbn [fst] in *. split; [cbn; rewrite app_length, T1; cbn [length]; lia|]. split; [cbn; rewrite T2; reflexivity|exact T3].
Qed.

(** *** Character data *)
Lemma read_bytes_range : forall n inp buf inp', read_bytes n inp = Ok (buf, inp') -> length buf = n /\ Forall (fun c => 0 <= c < 256) buf.
Proof.
  induction n as [|n IH]; intros inp buf inp' E; cbn [read_bytes] in E.
  - apply ok_inj, (f_equal fst) in E. cbn [fst] in E. subst buf. split; [reflexivity|constructor].
  - inv_bind E. destruct a as [c i1]. inv_bind Hk. destruct a as [cs i2]. apply ok_inj, (f_equal fst) in Hk0. cbn [fst] in Hk0. subst buf.
    destruct (IH _ _ _ Hb0) as [I1 I2]. apply get_bits_range in Hb as [Hb _]. cbn [length]. split; [lia|]. constructor; [exact Hb|exact I2].
Qed.

Lemma chardata_step lt code i lt' : locals_ok lt -> get_chardata lt code (var_y code) = Ok (i, lt') ->
  vi_type i = TString /\ vi_len i = var_y code /\ info_ok i /\ locals_ok lt'.
Proof.
  intros (L1 & L2 & L3) E. unfold get_chardata in E. destruct (assoc Z.eqb code (lt_chardata lt)) as [j|] eqn:Ea.
  - destruct (negb _); [discriminate|]. injection E as <- <-. apply assoc_in in Ea. rewrite Forall_forall in L2. destruct (L2 _ Ea) as (A1 & A2 & A3).
    cbn [fst snd] in *. split; [exact A1|]. split; [exact A2|]. split; [exact A3|]. split; [exact L1|]. split; [apply Forall_forall; exact L2|exact L3].
  - inv_bind E. injection Hk as <- <-. pose proof (y_range code). apply set_string_ok in Hb as (A1 & A2 & A3 & A4); [|lia].
    split; [exact A1|]. split; [exact A2|]. split; [exact A4|]. split; [exact L1|]. split; [constructor; [cbn; auto|exact L2]|exact L3].
Qed.

Lemma pad_field_exact n s : length s = n -> Forall (fun c => c <> 0) s -> pad_field n s = s.
Proof.
  intros L Nz. unfold pad_field. replace (cstr s) with s; [rewrite firstn_app, firstn_all2 by lia; replace (n - length s)%nat with O by lia; apply app_nil_r|].
  clear L. induction Nz as [|c s Hc _ IH]; [reflexivity|]. cbn [cstr]. destruct (Z.eqb_spec c 0); [contradiction|]. rewrite <- IH. reflexivity.
Qed.

Lemma raw_follows code : follows good le seen tracks (fun _ => True) (on_raw (recorder o T skip) code) (on_raw (transmitter p T skip F) code).
Proof.
  intros [s l] y _ G E. cbn [on_raw recorder] in E. apply note_inv in E as (s' & E & ->). unfold next_pos. cbn [fst snd] in *. unfold d_raw in E. inv_bind E. destruct a as [i lt']. inv_bind Hk. destruct a as [buf inp].
  inv_bind Hk0. apply ok_inj in Hk. subst s'. destruct G as (G1 & G2 & G3). cbn [fst] in G2. destruct (chardata_step _ _ _ _ G2 Hb) as (C1 & C2 & C3 & C4).
  rewrite sets_string in Hb1 by exact C1. cbn [of_outcome fresh c_info] in Hb1. apply ok_inj in Hb1. subst a. apply read_bytes_range in Hb0 as [B1 B2].
  set (str := firstn (ilen i) (cstr buf)).
  assert (Fs : Forall (fun c => 1 <= c < 256) str).
  { destruct (cstr_prefix buf) as [t1 E1]. destruct (firstn_prefix (ilen i) (cstr buf)) as [t2 E2]. rewrite E1 in B2. apply Forall_app in B2 as [B2 _]. pose proof (cstr_nonzero buf) as Nz.
    rewrite E2 in B2, Nz. apply Forall_app in B2 as [B2 _]. apply Forall_app in Nz as [Nz _]. fold str in B2, Nz. rewrite Forall_forall in *. intros c Ic. specialize (B2 c Ic). specialize (Nz c Ic). lia. }
  split; [|split; [apply le_push|]].
  - apply good_push; [split; [exact G1|]; split; [exact G2|exact G3]|exact C3|constructor|constructor|exact C4|discriminate].
  - intros Sn x (T1 & T2 & T3). apply seen_last in Sn as (R & f & N & Cf & _). cbn [request_ok] in R. specialize (R f N). rewrite Cf in R. cbn in R. specialize (R str eq_refl).
    cbn [on_raw transmitter]. unfold x_raw, get_var. rewrite T1. cbn [fst]. rewrite N. cbn [bind]. rewrite T3. cbn [fst]. rewrite Hb. cbn [bind]. rewrite Cf. cbn [with_val fresh c_info c_val].
    destruct (varinfo_eq_dec i i); [|contradiction]. fold str. replace (forallb (fun ch => (1 <=? ch) && (ch <? 256)) str) with true.
    2: { symmetry. apply forallb_forall. intros c Ic. rewrite Forall_forall in Fs. specialize (Fs c Ic). lia. }
    cbn [guard bind]. rewrite C1, C2, Z.eqb_refl. cbn [is_string andb guard bind]. rewrite pad_field_exact.
    + eexists. split; [reflexivity|]. cbn [fst] in *. split; [cbn; rewrite app_length, T1; cbn [length]; lia|]. split; [cbn; rewrite T2; reflexivity|reflexivity].
    + lia.
    + eapply Forall_impl; [|exact Fs]. cbv beta. lia.
Qed.

(** *** Reference values *)
Lemma land_bound v m k : 0 <= k -> 0 <= v < 2 ^ k -> 0 <= Z.land v m < 2 ^ k.
Proof.
  intros Hk Hv. assert (E : v = Z.land v (Z.ones k)) by (rewrite Z.land_ones, Z.mod_small; lia).
  rewrite E, <- Z.land_assoc, (Z.land_comm (Z.ones k)), Z.land_assoc, Z.land_ones by lia. apply Z.mod_pos_bound. lia.
Qed.
Lemma low_half x k : 0 <= k -> 0 <= x < 2 ^ (k + 1) -> Z.testbit x k = false -> x < 2 ^ k.
Proof.
  intros Hk Hx Tb. destruct (Z_lt_dec x (2 ^ k)) as [|N]; [assumption|]. exfalso. rewrite Z.pow_add_r in Hx by lia.
  assert (Q : x / 2 ^ k = 1) by (symmetry; apply (Z.div_unique x (2 ^ k) 1 (x - 2 ^ k)); lia).
  pose proof (Z.testbit_spec' x k Hk) as Sp. rewrite Q, Tb in Sp. discriminate Sp.
Qed.
Lemma land_pow2_zero v k : 0 <= k -> Z.land v (2 ^ k) = 0 -> Z.testbit v k = false.
Proof.
  intros Hk E. destruct (Z.testbit v k) eqn:Tb; [|reflexivity]. assert (X : Z.testbit (Z.land v (2 ^ k)) k = true) by (rewrite Z.land_spec, Tb, Z.pow2_bits_true by lia; reflexivity).
  rewrite E, Z.bits_0 in X. discriminate.
Qed.

Lemma refval_size bits v : 0 < bits <= 32 -> 0 <= v < 2 ^ bits ->
  Z.abs (wrap_int (if Z.land v (2 ^ (bits - 1)) =? 0 then v else - Z.land v (2 ^ 32 - 1 - 2 ^ (bits - 1)))) < 2 ^ (bits - 1).
Proof.
  intros Hb Hv. set (k := bits - 1). assert (Hk : 0 <= k <= 31) by lia. replace bits with (k + 1) in Hv by lia.
  assert (P : 0 < 2 ^ k <= 2 ^ 31) by (split; [lia|apply Z.pow_le_mono_r; lia]).
  assert (W : forall z, Z.abs z < 2 ^ k -> Z.abs (wrap_int z) < 2 ^ k) by (intros z Hz; unfold wrap_int; rewrite Z.mod_small; lia).
  apply W. destruct (Z.eqb_spec (Z.land v (2 ^ k)) 0) as [E|E].
  - apply land_pow2_zero in E; [|lia]. apply low_half in E; lia.
  - pose proof (land_bound v (2 ^ 32 - 1 - 2 ^ k) (k + 1) ltac:(lia) Hv) as B.
    assert (Tb : Z.testbit (Z.land v (2 ^ 32 - 1 - 2 ^ k)) k = false).
    { rewrite Z.land_spec. replace (Z.testbit (2 ^ 32 - 1 - 2 ^ k) k) with false; [apply andb_false_r|]. symmetry.
      replace (2 ^ 32 - 1 - 2 ^ k) with (Z.ldiff (Z.ones 32) (2 ^ k)); [rewrite Z.ldiff_spec, Z.pow2_bits_true by lia; apply andb_false_r|].
      symmetry. rewrite <- Z.sub_nocarry_ldiff; [rewrite Z.ones_equiv; lia|]. apply Z.bits_inj'. intros n Hn. rewrite Z.ldiff_spec, Z.bits_0, Z.pow2_bits_eqb by lia.
      destruct (Z.eqb_spec k n) as [<-|]; [|reflexivity]. rewrite Z.ones_spec_low by lia. reflexivity. }
    apply low_half in Tb; lia.
Qed.

Lemma refval_follows st s0 code : fine st s0 -> is_refbits st <> 0 ->
  follows_with good le seen tracks (fun r => int_min <= r <= int_max) (on_refval (recorder o T skip) (is_refbits st) code) (on_refval (transmitter p T skip F) (is_refbits st) code).
Proof.
  intros Fi Nb [s l] r y G E. destruct Fi as ([_ Bb] & _). revert Nb Bb E. generalize (is_refbits st). intros bits Nb Bb E.
  cbn [on_refval recorder] in E. apply note_with_inv in E as (s' & E & ->). cbn [fst snd] in *. pose proof (refval_int _ _ _ _ _ E) as Ri. unfold d_refval in E. inv_bind E. destruct a as [v inp]. inv_bind Hk.
  apply get_bits_range in Hb as [V1 _]. rewrite Z2Nat.id in V1 by lia. assert (B : 0 < bits <= 32 /\ a = 2 ^ (bits - 1)).
  { unfold shl1 in Hb0. destruct ((0 <=? bits - 1) && (bits - 1 <? 32)) eqn:Hc; [|discriminate]. injection Hb0 as <-. split; [lia|reflexivity]. }
  destruct B as [B ->]. pose proof (refval_size bits v B V1) as Rs. apply ok_inj in Hk0.
  pose proof (f_equal fst Hk0) as E1. pose proof (f_equal snd Hk0) as E2. cbn [fst snd] in E1, E2. clear Hk0. rewrite E1 in Rs. subst s'.
  split; [exact Ri|]. split; [apply good_keep; [exact G|apply G]|]. split; [apply le_keep|].
  intros (_ & S2 & _) x (T1 & T2 & T3). apply Forall_app in S2 as [_ S2]. inversion S2 as [|? ? R1 _]; subst. cbn [request_ok] in R1. destruct R1 as [R1 R2].
  cbn [on_refval transmitter]. unfold x_refval. rewrite R2. cbn [bind].
  match goal with |- context [guard ?b] => replace b with true by lia end. cbn [guard bind]. exists x. split; [reflexivity|]. split; [exact T1|]. split; [exact T2|exact T3].
Qed.

(** *** Unknown elements *)
Lemma unknown_follows code op : var_y op <> 0 ->
  follows_with good le seen tracks info_ok (on_unknown (recorder o T skip) code (var_y op)) (on_unknown (transmitter p T skip F) code (var_y op)).
Proof.
  intros _ [s l] i y G E. cbn [on_unknown recorder] in E. inv_bind E. destruct a as [i0 s1]. apply ok_inj in Hk. injection Hk as -> <-. cbn [fst snd] in *. unfold d_unknown in Hb. inv_bind Hb. destruct a as [i1 lt'].
  apply ok_inj in Hk. injection Hk as -> <-. destruct G as (G1 & (L1 & L2 & L3) & G3). cbn [fst] in *.
  assert (Q : info_ok i /\ locals_ok lt').
  { unfold get_unknown in Hb0. destruct (assoc Z.eqb (var_y op) (lt_unknown (d_lt s))) as [j|] eqn:Ea.
    - destruct (negb _); [discriminate|]. injection Hb0 as <- <-. apply assoc_in in Ea. pose proof L3 as L3'. rewrite Forall_forall in L3'. split; [apply (L3' _ Ea)|]. split; [exact L1|]. split; [exact L2|exact L3].
    - inv_bind Hb0. injection Hk as <- <-. pose proof (y_range op). apply set_binary_ok in Hb; [|lia]. split; [exact Hb|]. split; [exact L1|]. split; [exact L2|]. constructor; [exact Hb|exact L3]. }
  destruct Q as [Q1 Q2]. split; [exact Q1|]. split; [split; [exact G1|]; split; [exact Q2|exact G3]|].
  split; [pose proof (le_keep s l (d_in s) lt' []) as L; rewrite app_nil_r in L; exact L|].
  intros _ x (T1 & T2 & T3). cbn [on_unknown transmitter]. unfold x_unknown. rewrite T3. cbn [fst]. rewrite Hb0. cbn [bind]. eexists. split; [reflexivity|]. split; [exact T1|]. split; [exact T2|reflexivity].
Qed.

(** *** Bitmaps *)
Lemma read_bitmap_range : forall n inp chars inp', read_bitmap n inp = Ok (chars, inp') -> length chars = n /\ Forall (fun c => c = 43 \/ c = 45) chars.
Proof.
  induction n as [|n IH]; intros inp chars inp' E; cbn [read_bitmap] in E.
  - apply ok_inj, (f_equal fst) in E. cbn [fst] in E. subst chars. split; [reflexivity|constructor].
  - inv_bind E. destruct a as [c i1]. inv_bind Hk. destruct a as [cs i2]. apply ok_inj, (f_equal fst) in Hk0. cbn [fst] in Hk0. subst chars.
    destruct (IH _ _ _ Hb0) as [I1 I2]. cbn [length]. split; [lia|]. constructor; [destruct (c =? 0); auto|exact I2].
Qed.

Lemma bitmap_info lt pending chars i lt' : locals_ok lt -> Z.of_nat (length chars) < 2 ^ 32 -> get_bitmap lt pending chars = Ok (i, lt') ->
  vi_type i = TString /\ vi_len i = Z.of_nat (length chars) /\ vi_code i = pending /\ info_ok i /\ locals_ok lt'.
Proof.
  intros (L1 & L2 & L3) L E. unfold get_bitmap in E. destruct (assoc zlist_eqb chars (lt_bitmaps lt)) as [j|] eqn:Ea.
  - destruct (Z.eqb_spec (vi_code j) pending) as [Ec|]; [|discriminate]. cbn [negb] in E. injection E as <- <-. apply Subset.Proofs.assoc_in in Ea.
    pose proof L1 as L1'. rewrite Forall_forall in L1'. destruct (L1' _ Ea) as (A1 & A2 & A3). cbn [fst snd] in *.
    split; [exact A1|]. split; [exact A2|]. split; [exact Ec|]. split; [exact A3|]. split; [exact L1|]. split; [exact L2|exact L3].
  - inv_bind E. injection Hk as <- <-. apply set_string_ok in Hb as (A1 & A2 & A3 & A4); [|lia].
    split; [exact A1|]. split; [exact A2|]. split; [exact A3|]. split; [exact A4|]. split; [constructor; [cbn; auto|exact L1]|]. split; [exact L2|exact L3].
Qed.

Lemma cstr_same s : Forall (fun c => c <> 0) s -> cstr s = s.
Proof. induction 1 as [|c s Hc _ IH]; [reflexivity|]. cbn [cstr]. destruct (Z.eqb_spec c 0); [contradiction|]. rewrite IH. reflexivity. Qed.

Lemma define_fine st x codes bits st' : fine st x -> length codes = length (d_vars (fst x)) -> bitmaps_define st codes bits = Ok st' ->
  bits <> [] /\ fine (with_pending st' 0) x.
Proof.
  intros (A1 & A2 & A3 & A4 & A5 & A6 & A7) Lc E. unfold bitmaps_define in E. destruct (make_bitmap codes bits) as [refs|e|] eqn:Em; [|destruct (is_cur st); discriminate|discriminate].
  injection E as <-. unfold make_bitmap in Em. destruct bits as [|b bits]; [discriminate|]. split; [discriminate|]. apply walk_lt in Em. rewrite Lc in Em.
  unfold fine. cbn. split; [exact A1|]. split; [left; reflexivity|]. split; [exact A3|]. split; [exact A4|]. split; [exact A5|]. split; [|exact A7]. intros b0 [= <-]. cbn. auto.
Qed.

(** The bitmap itself, of a known length. *)
Lemma bitmap_step pending size s l codes bits s' : good (s, l) -> 0 <= size < 2 ^ 32 -> d_bitmap o pending size s = Ok (codes, bits, s') -> bits <> [] -> var_f pending = 2 ->
  good (s', l) /\ le (s, l) (s', l) /\ length codes = length (d_vars s') /\
  (seen (s', l) -> forall x, tracks (s, l) x ->
     (exists f, nth_error F (x_pos x) = Some f /\ vi_len (c_info (v_cell f)) = size) /\
     exists x', x_bitmap F pending size x = Ok (codes, bits, x') /\ tracks (s', l) x').
Proof.
  intros G Sz E Nb Fp. unfold d_bitmap in E. inv_bind E. destruct a as [chars inp]. inv_bind Hk. destruct a as [i lt']. inv_bind Hk0. cbv zeta in Hk. inv_bind Hk. apply ok_inj in Hk0.
  apply read_bitmap_range in Hb as [R1 R2]. destruct G as (G1 & G2 & G3). cbn [fst] in G2. assert (Lc0 : Z.of_nat (length chars) < 2 ^ 32) by lia. destruct (bitmap_info _ _ _ _ _ G2 Lc0 Hb0) as (B1 & B2 & B3 & B4 & B5).
  rewrite sets_string in Hb1 by exact B1. cbn [of_outcome fresh c_info] in Hb1. apply ok_inj in Hb1. rewrite cstr_same in Hb1 by (eapply Forall_impl; [|exact R2]; cbv beta; lia).
  assert (Li : ilen i = length chars) by (unfold ilen; lia). rewrite Li, firstn_all in Hb1. subst a.
  assert (Ebits : a0 = chars).
  { destruct (Z.eqb_spec (vi_len i) 0) as [E0|E0]; [exfalso; apply Nb; injection Hk0 as _ <- _; injection Hb2 as <-; reflexivity|].
    unfold bitmap_chars, enqc in Hb2. cbn [with_val fresh c_val c_info] in Hb2. rewrite B1 in Hb2. cbn [bind] in Hb2.
    match type of Hb2 with context [if ?b then _ else _] => destruct b end; [discriminate|]. apply ok_inj in Hb2. rewrite Li in Hb2. rewrite <- Hb2. rewrite firstn_app, firstn_all, Nat.sub_diag. apply app_nil_r. }
  subst a0. injection Hk0 as <- <- <-.
  assert (Gd : good (mkdec inp (d_vars s ++ [mkvar (mkcell i (Some (VStr chars))) []]) lt', l)).
  { rewrite <- (app_nil_r l). apply good_push; [split; [exact G1|]; split; [exact G2|exact G3]|exact B4|constructor|constructor|exact B5|discriminate]. }
  split; [exact Gd|]. split; [pose proof (le_push s l inp (mkvar (mkcell i (Some (VStr chars))) []) lt' []) as L; rewrite app_nil_r in L; exact L|].
  split; [unfold codes_of; rewrite map_length; reflexivity|].
  intros (S1 & S2 & S3) x (T1 & T2 & T3). cbn [fst] in *. destruct (S3 (length (d_vars s)) (mkvar (mkcell i (Some (VStr chars))) [])) as (f & N & Cf & _); [apply nth_snoc_last|]. cbn [v_cell] in Cf.
  split; [exists f; rewrite T1; split; [exact N|]; rewrite Cf; cbn [c_info]; lia|].
  unfold x_bitmap, get_var. rewrite T1, N. cbn [bind]. rewrite Cf. cbn [c_val c_info]. rewrite T3, Hb0. cbn [bind]. destruct (varinfo_eq_dec i i); [|contradiction].
  rewrite B1, B2, B3, Fp. replace (forallb (fun ch => (ch =? 43) || (ch =? 45)) chars) with true.
  2: { symmetry. apply forallb_forall. intros c Ic. rewrite Forall_forall in R2. specialize (R2 c Ic). lia. }
  assert (1 <= Z.of_nat (length chars)) by (destruct chars; [contradiction|cbn [length]; lia]).
  replace (Z.of_nat (length chars) =? size) with true by lia. replace (1 <=? size) with true by lia. cbn [andb is_string Z.eqb guard bind].
  change (2 =? 2) with true. cbn [andb guard bind].
  eexists. split; [cbn [x_tables x_give x_got]; rewrite T2; reflexivity|]. split; [cbn; rewrite app_length, T1; cbn [length]; lia|]. split; [cbn; rewrite T2; reflexivity|reflexivity].
Qed.

Lemma bitmap_follows code delayed ops st s st' s' : fine st s -> is_pending st <> 0 -> good s ->
  r_bitmap (recorder o T skip) T code delayed ops (st, s) = Ok (st', s') ->
  fine st' s' /\ good s' /\ le s s' /\
  (seen s' -> forall x, tracks s x -> exists x', r_bitmap (transmitter p T skip F) T code delayed ops (st, x) = Ok (st', x') /\ tracks s' x').
Proof.
  destruct s as [s l]. intros Fi Np G E. assert (Fp : var_f (is_pending st) = 2) by (destruct Fi as (_ & [?|?] & _); [contradiction|assumption]).
  unfold r_bitmap in *. destruct (negb (var_x code =? 1)); [discriminate|]. destruct (negb (hd 0 ops =? var_B31031)); [discriminate|].
  inv_bind E. destruct a as [count s1]. inv_bind Hk. destruct a as [[codes bits] s2]. inv_bind Hk0. apply ok_inj in Hk. injection Hk as <- <-. rename a into st1.
  cbn [on_bitmap recorder] in Hb0. inv_bind Hb0. destruct a as [[codes' bits'] s3]. apply ok_inj in Hk. injection Hk as -> -> <-.
  destruct (var_y code =? 0).
  - inv_bind Hb. rename a into info. cbn [on_bitmap_factor recorder] in Hk. apply note_with_inv in Hk as (s0 & Ef & ->). cbn [fst snd] in *. unfold d_bitmap_factor in Ef. inv_bind Ef. destruct a as [c inp]. inv_bind Hk.
    apply ok_inj in Hk0. injection Hk0 as <- <-. pose proof (HT _ _ Hb0) as Ki.
    assert (G1 : good (mkdec inp (d_vars s) (d_lt s), l ++ [RCount info])) by (apply good_keep; [exact G|apply G]).
    pose proof (le_keep s l inp (d_lt s) [RCount info]) as L1. pose proof (u32_range a) as Ru.
    assert (Q : bits <> [] /\ fine (with_pending st1 0) (s3, l ++ [RCount info]) /\ good (s3, l ++ [RCount info]) /\ le (mkdec inp (d_vars s) (d_lt s), l ++ [RCount info]) (s3, l ++ [RCount info])).
    { assert (Nb : bits <> []) by (intros ->; unfold bitmaps_define, make_bitmap in Hb1; destruct (is_cur st); discriminate).
      destruct (bitmap_step _ _ _ _ _ _ _ G1 Ru Hb2 Nb Fp) as (G2 & L2 & Lc & _). split; [exact Nb|].
      destruct (define_fine st (s3, l ++ [RCount info]) codes bits st1) as [_ Fd]; auto. eapply fine_later; [|exact L2]. eapply fine_later; [exact Fi|exact L1]. }
    destruct Q as (Nb & Fd & G2 & L2). destruct (bitmap_step _ _ _ _ _ _ _ G1 Ru Hb2 Nb Fp) as (_ & _ & _ & Kb).
    split; [exact Fd|]. split; [exact G2|]. split; [eapply le_trans; eauto|]. intros Sn x Tx.
    destruct (Kb Sn x) as ((f & Nf & Lf) & x' & Ex & Tx'). { destruct Tx as (T1 & T2 & T3). split; [exact T1|]. split; [exact T2|exact T3]. }
    destruct Sn as (_ & S2 & _). cbn [snd] in S2. apply Forall_app in S2 as [_ S2]. inversion S2 as [|? ? R1 _]; subst. cbn [request_ok] in R1. destruct R1 as (R1 & R2 & R3).
    assert (Nt : neat p info (c_val c)).
    { unfold neat. unfold enqi in Hb3. pose proof (value_info o info _ _ _ HO Hb) as Ci. rewrite Ci in Hb3. destruct (c_val c) as [[k|t|b]|]; try exact Logic.I; [|discriminate]. destruct (vi_type info); discriminate. }
    destruct (value_again o HO p info _ _ _ Ki R2 Hb Nt) as [Ci Fo].
    assert (Ev : c_val c = Some (VInt a) /\ 0 <= a < 2 ^ 31).
    { unfold enqi in Hb3. rewrite Ci in Hb3. unfold field_ok, roomy in *. destruct (c_val c) as [[k|t|b]|]; destruct (vi_type info); try discriminate;
        apply ok_inj in Hb3; subst k; apply andb_prop in Fo as [_ Fo]; unfold number_fits in Fo; (split; [reflexivity|]); destruct (no_missing (vi_code info)); lia. }
    destruct Ev as [Ev Ra]. assert (Eu : u32 a = a) by (unfold u32; apply Z.mod_small; lia). rewrite Eu in *.
    rewrite Hb0. cbn [bind]. cbn [on_bitmap_factor transmitter]. unfold x_bitmap_factor, get_var. rewrite Nf. cbn [bind]. rewrite Lf, R1. rewrite Ev in Fo. rewrite Fo.
    replace (0 <=? a) with true by lia. cbn [andb guard bind]. cbn [on_bitmap transmitter]. rewrite Ex. cbn [bind]. rewrite Hb1. cbn [bind]. exists x'. split; [reflexivity|exact Tx'].
  - apply ok_inj in Hb. injection Hb as <- <-. cbn [fst snd] in *. pose proof (y_range code) as Ry. assert (Ry2 : 0 <= var_y code < 2 ^ 32) by lia.
    assert (Nb : bits <> []) by (intros ->; unfold bitmaps_define, make_bitmap in Hb1; destruct (is_cur st); discriminate).
    destruct (bitmap_step _ _ _ _ _ _ _ G Ry2 Hb2 Nb Fp) as (G2 & L2 & Lc & Kb).
    destruct (define_fine st (s3, l) codes bits st1) as [_ Fd]; auto; [eapply fine_later; [exact Fi|exact L2]|].
    split; [exact Fd|]. split; [exact G2|]. split; [exact L2|]. intros Sn x Tx.
    destruct (Kb Sn x Tx) as (_ & x' & Ex & Tx'). cbn [bind on_bitmap transmitter]. rewrite Ex. cbn [bind]. rewrite Hb1. cbn [bind]. exists x'. split; [reflexivity|exact Tx'].
Qed.

(** ** The whole subset *)
Lemma transmission fuel ops st s' inp lt : run (recorder o T skip) T fuel ops (ist_init, (mkdec inp [] lt, [])) = Ok (st, s') -> locals_ok lt ->
  good s' /\ (F = d_vars (fst s') -> faithful p T F (snd s') ->
    exists x, transfer_state p T skip F fuel ops lt = Ok x /\ x_got x = F /\ x_lt x = d_lt (fst s')).
Proof.
  intros E Lt.
  assert (G0 : good (mkdec inp [] lt, [])). { split; [constructor|]. split; [exact Lt|]. intros pos v code a N. cbn in N. destruct pos; discriminate. }
  assert (F0 : fine ist_init (mkdec inp [] lt, [])).
  { split; [apply ist_ok_init|]. split; [left; reflexivity|]. split; [constructor|]. cbn. split; [lia|]. split; [lia|]. split; discriminate. }
  destruct (run_follows (recorder o T skip) (transmitter p T skip F) T good le seen tracks fine info_ok pointed le_refl le_trans fine_later seen_back
    varinfo_known (fun code i H => HT code i H) fine_refs fine_next fine_op var_follows af_follows (fun i K _ => factor_follows i K) significance_follows subst_follows attr_follows raw_follows refval_follows
    unknown_follows bitmap_follows fuel ops ist_init _ st s' F0 G0 E) as (_ & G' & _ & K).
  split; [exact G'|]. intros EF [Fa1 Fa2].
  assert (Sn : seen s').
  { split; [exact Fa1|]. split; [exact Fa2|]. intros pos v N. exists v. rewrite EF. auto. }
  destruct (K Sn (xfer_init lt)) as (x & Ex & T1 & T2 & T3). { split; [reflexivity|]. split; reflexivity. }
  exists x. unfold transfer_state. rewrite Ex. cbn [bind]. rewrite T1, EF, Nat.eqb_refl. cbn [guard bind]. split; [reflexivity|]. split; [exact T2|exact T3].
Qed.
End Steps.

(** One step of the interpreter on a tame template, for decoders whose methods have no undefined behaviour. *)
From Coq Require Import ZArith Lia ZifyBool ZifyNat.
From Verif Require Import Base Bits.Model Num.Float Varcode.Model Varinfo.Model Varinfo.Proofs
  Varinfo.RangeProofs Tables.Model Tables.Spec Tables.Proofs Tables.AlterProofs Tables.LoadProofs Var.Model
  Interp.Model Interp.Appears Interp.SureProofs Codec.Model Codec.Checked.
Local Open Scope Z_scope.

(** ** Definitions *)
Definition plain_info (i : varinfo) : Prop := readable i /\ vi_type i <> TBinary.

Lemma alter_readable i scale bits ref j : vi_type i <> TBinary -> 0 <= bits < 2 ^ 32 -> - 2 ^ 30 <= ref <= 2 ^ 30 ->
  alter_checked i scale bits ref = Ok j -> plain_info j.
Proof.
  intros Nb B R. unfold alter_checked, alter_info.
  destruct (is_numeric (vi_type i) && ((scale <? -16) || (16 <? scale) || (32 <? bits))) eqn:E; [discriminate|].
  intros H. inv_bind H.
  remember (match vi_type i with TString => TString | TBinary => TBinary | _ => if scale =? 0 then TInteger else TDecimal end) as t eqn:Ht.
  pose proof (compute_range_fields _ _ _ _ _ _ _ _ Hk) as (E1 & E2 & E3 & E4 & E5 & E6 & E7).
  pose proof (compute_range_built _ _ _ _ _ _ _ _ Hk) as Bu.
  assert (Num : is_numeric (vi_type i) = true -> is_numeric t = true -> (t = TInteger -> scale = 0) -> plain_info j).
  { intros Ni Nt Ts. rewrite Ni in E. cbn [andb] in E.
    assert (Hd : 1 <= bits <= 32 /\ 1 <= a <= 10).
    { assert (Hd : digits_per_bits bits = Ok a) by (destruct (vi_type i); try discriminate; exact Hb). revert Hd. unfold digits_per_bits.
      destruct ((bits <=? 0) || (32 <? bits)) eqn:Eb; [discriminate|]. intros Hd. split; [lia|].
      repeat match type of Hd with context [?x <=? ?y] => destruct (x <=? y) end; injection Hd as <-; lia. }
    assert (Ok_j : info_ok j).
    { constructor; rewrite ?E2, ?E4, ?E5, ?E6, ?E7; auto; unfold int_min, int_max; lia. }
    unfold plain_info, readable. rewrite E2, E7. destruct t; try discriminate; (split; [split; [exact Ok_j|lia]|discriminate]). }
  destruct (vi_type i) eqn:Et; subst t.
  - apply Num; [reflexivity|destruct (scale =? 0); reflexivity|destruct (Z.eqb_spec scale 0); [auto|discriminate]].
  - apply Num; [reflexivity|destruct (scale =? 0); reflexivity|destruct (Z.eqb_spec scale 0); [auto|discriminate]].
  - unfold plain_info, readable. rewrite E2. split; [exact I|discriminate].
  - congruence.
Qed.

Lemma query_plain t w code : element_ok t w code ->
  sure (query t code) (fun i => plain_info i /\ Z.abs (vi_bit_ref i) * 10 ^ w <= 2 ^ 30).
Proof.
  intros H. destruct (find_code_spec (map be_code t) code) as (r & Fr & Fn & _).
  unfold query, query_entry, entry_at. rewrite Fr. cbn [bind]. destruct r as [n|]; [|exact I]. specialize (Fn n eq_refl).
  rewrite nth_error_map in Fn. destruct (nth_error t n) as [e|] eqn:N; [|discriminate]. cbn. injection Fn as Ec.
  apply nth_error_In in N. destruct (H e N Ec) as (R & B & Q). split; [split; assumption|exact Q].
Qed.

Lemma expected_plain t w r : element_ok t w (r_code r) -> 0 <= r_bits r < 2 ^ 32 -> - 2 ^ 30 <= r_ref r <= 2 ^ 30 ->
  sure (expected t r) plain_info.
Proof.
  intros H B R. pose proof (expected_sure t r ltac:(lia) R) as E. revert E. unfold expected.
  destruct (List.find (fun e => be_code e =? r_code r) t) as [e|] eqn:Fe; [|intros; exact I].
  apply find_some in Fe as [Ie Ec]. destruct (H e Ie ltac:(lia)) as (Re & Be & _).
  destruct ((vi_scale (be_info e) =? r_scale r) && (vi_bit_len (be_info e) =? r_bits r) && (vi_bit_ref (be_info e) =? r_ref r)); [intros _; split; assumption|].
  destruct (alter_checked (be_info e) (r_scale r) (r_bits r) (r_ref r)) eqn:A; cbn; auto. intros _. eapply alter_readable; eauto.
Qed.

(** ** Bitmaps *)
Definition points (n : nat) (l : list nat) : Prop := l <> [] /\ Forall (fun p => p < n)%nat l.

Lemma skip_back_lt codes : forall n m, skip_back codes n = Some m -> (m < n)%nat.
Proof. induction n as [|n IH]; cbn [skip_back]; [discriminate|]. intros m. destruct (_ =? 0); [intros [= <-]; lia|]. intros H. apply IH in H. lia. Qed.
Lemma walk_lt codes : forall r n l, bitmap_walk codes r n = Ok l -> Forall (fun p => p < n)%nat l.
Proof.
  induction r as [|b r IH]; intros n l; cbn [bitmap_walk]; [intros [= <-]; constructor|].
  destruct (skip_back codes n) as [m|] eqn:E; [|discriminate]. apply skip_back_lt in E. intros H. inv_bind H. injection Hk as <-.
  specialize (IH _ _ Hb). assert (Fm : Forall (fun p => p < n)%nat a) by (eapply Forall_impl; [|exact IH]; cbv beta; lia).
  destruct (b =? 43); [|exact Fm]. apply Forall_app. split; [exact Fm|]. constructor; [exact E|constructor].
Qed.
Lemma usable_points codes bits : usable_bitmap codes bits = true -> exists l, make_bitmap codes bits = Ok l /\ points (length codes) l.
Proof.
  unfold usable_bitmap. destruct (make_bitmap codes bits) as [[|p l]| |] eqn:E; try discriminate. intros _. exists (p :: l). split; [reflexivity|].
  split; [discriminate|]. unfold make_bitmap in E. destruct bits; [discriminate|]. apply walk_lt in E. exact E.
Qed.

Section Steps.
Context {S : Type} (V : visitor S) (T : tables) (good : S -> Prop) (size : S -> nat).
(** A step: variables are never taken away. *)
Definition grown (s s' : S) : Prop := good s' /\ (size s <= size s')%nat.
Context (Hvar : forall i s, readable i -> good s -> sure (on_var V i s) (grown s)).
Context (Haf : forall bits sig i s, 1 <= bits <= 32 -> readable i -> good s -> sure (on_var_af V bits sig i s) (grown s)).
Context (Hfactor : forall i s, readable i -> good s -> sure (on_factor V i s) (fun r => grown s (snd r))).
Context (Hbfactor : forall i s, readable i -> good s -> sure (on_bitmap_factor V i s) (fun r => grown s (snd r))).
Context (Hsig : forall i s, readable i -> good s -> sure (on_significance V i s) (fun r => grown s (snd r))).
Context (Hsubst : forall p s, (p < size s)%nat -> good s -> sure (on_subst V p s) (grown s)).
Context (Hattr : forall i p s, readable i -> (p < size s)%nat -> good s -> sure (on_attr V i p s) (grown s)).
Context (Hraw : forall code s, good s -> sure (on_raw V code s) (grown s)).
Context (Href : forall bits code s, 1 <= bits <= 31 -> good s ->
  sure (on_refval V bits code s) (fun r => - 2 ^ 30 <= fst r <= 2 ^ 30 /\ grown s (snd r))).
Context (Hbitmap : forall pending n s, good s -> sure (on_bitmap V pending n s)
  (fun r => grown s (snd r) /\ usable_bitmap (fst (fst r)) (snd (fst r)) = true /\ length (fst (fst r)) = size (snd r))).
Context (Hunknown : forall code bits s, 1 <= bits -> good s -> sure (on_unknown V code bits s) (fun r => readable (fst r) /\ grown s (snd r))).
Context (ops : list Z) (w : Z) (Hw : 0 <= w <= 9) (HW : forall code, appears T ops code -> operator_ok w code /\ element_ok (tb_b T) w code).
Context (H12 : element_ok (tb_b T) w var_B31012) (H21 : element_ok (tb_b T) w var_B31021).

(** The state of the interpreter: the bitmaps point to variables, and there is something left to
    visit in the current one. *)
Definition state_fine (st : istate) (n : nat) : Prop :=
  0 <= is_srw st <= w /\ Forall (fun p => - 2 ^ 30 <= snd p <= 2 ^ 30) (is_refs st) /\ 0 <= is_refbits st <= 31 /\
  0 <= is_afbits st <= 32 /\
  (forall b, is_cur st = Some b -> points n (bm_refs b) /\ points n (bm_rest b)) /\
  (forall l, is_last st = Some l -> points n l).
Definition run_fine (x : istate * S) : Prop := state_fine (fst x) (size (snd x)) /\ good (snd x).

Lemma assoc_bound code (l : list (Z * Z)) (P : Z -> Prop) : Forall (fun p => P (snd p)) l -> forall d, P d ->
  P (match assoc Z.eqb code l with Some r => r | None => d end).
Proof. intros F. induction F as [|[a b] l Pb F IH]; intros d D; cbn [assoc]; [exact D|]. cbn [snd] in Pb. destruct (Z.eqb code a); [exact Pb|apply IH; exact D]. Qed.

Lemma varinfo_plain st m code : state_fine st m -> element_ok (tb_b T) w code -> sure (get_varinfo (tb_b T) st code) plain_info.
Proof.
  intros (S1 & S2 & _) C. unfold get_varinfo. pose proof (query_plain _ _ _ C) as Q.
  eapply sure_bind; [exact Q|]. cbv beta. intros i [Pi Bi].
  match goal with |- context [if ?b then Ok _ else _] => destruct b end; [exact Pi|]. cbv zeta.
  assert (P10 : 1 <= 10 ^ w) by (pose proof (Z.pow_pos_nonneg 10 w); lia).
  assert (Ri : - 2 ^ 30 <= vi_bit_ref i <= 2 ^ 30) by nia.
  apply sure_bind with (P := fun y => - 2 ^ 30 <= snd y <= 2 ^ 30).
  { destruct (Z.eqb_spec (is_srw st) 0); [exact Ri|]. replace (9 <? is_srw st) with false by lia.
    assert (Pm : 1 <= 10 ^ is_srw st <= 10 ^ w).
    { split; [pose proof (Z.pow_pos_nonneg 10 (is_srw st)); lia|apply Z.pow_le_mono_r; lia]. }
    assert (Rm : - 2 ^ 30 <= vi_bit_ref i * 10 ^ is_srw st <= 2 ^ 30).
    { assert (Z.abs (vi_bit_ref i * 10 ^ is_srw st) <= 2 ^ 30); [|lia]. rewrite Z.abs_mul, (Z.abs_eq (10 ^ is_srw st)) by lia. nia. }
    unfold int_checked, in_int. replace ((int_min <=? vi_bit_ref i * 10 ^ is_srw st) && (vi_bit_ref i * 10 ^ is_srw st <=? int_max)) with true.
    - exact Rm.
    - unfold int_min, int_max. lia. }
  intros [[sc bl] rf] Hr. cbn [snd] in Hr. apply expected_plain with (w := w); auto.
  - cbn [r_bits]. apply u32_range.
  - cbn [r_ref]. apply (assoc_bound code (is_refs st) (fun r => - 2 ^ 30 <= r <= 2 ^ 30)); auto.
Qed.

(** *** Steps *)
Lemma state_grown st n m : (n <= m)%nat -> state_fine st n -> state_fine st m.
Proof.
  intros L (S1 & S2 & S3 & S4 & S5 & S6). assert (P : forall l, points n l -> points m l).
  { intros l [N F]. split; [exact N|]. eapply Forall_impl; [|exact F]. cbv beta. lia. }
  repeat (split; [assumption|]). split; [|auto]. intros b Hb. destruct (S5 b Hb). auto.
Qed.

Lemma next_sure st n : state_fine st n -> sure (bitmaps_next st) (fun r => (fst r < n)%nat /\ state_fine (snd r) n).
Proof.
  intros (S1 & S2 & S3 & S4 & S5 & S6). unfold bitmaps_next. destruct (is_cur st) as [b|] eqn:C; [|exact I].
  destruct (S5 b eq_refl) as [P1 [N2 P2]]. destruct (bm_rest b) as [|p rest] eqn:R; [congruence|]. cbn [sure fst snd].
  inversion P2 as [|? ? Pp Pr]; subst. split; [exact Pp|].
  destruct rest as [|q rest].
  - unfold state_fine. cbn. repeat (split; [assumption|]). split; [discriminate|]. intros l [= <-]. exact P1.
  - unfold state_fine. cbn. repeat (split; [assumption|]). split; [|exact S6]. intros b' [= <-]. cbn. split; [exact P1|split; [discriminate|exact Pr]].
Qed.

Lemma grown_fine st s s' : state_fine st (size s) -> grown s s' -> run_fine (st, s').
Proof. intros Hs [D L]. split; [eapply state_grown; eauto|exact D]. Qed.

Lemma step_b code x : appears T ops code -> run_fine x -> sure (b_variable V T code x) run_fine.
Proof.
  destruct x as [st s]. intros A [Hs D]. cbn [fst snd] in *. unfold b_variable. pose proof Hs as (S1 & S2 & S3 & S4 & S5 & S6).
  destruct (Z.eqb_spec (is_refbits st) 0) as [E|E]; cbn [negb].
  - eapply sure_bind; [apply (varinfo_plain st _ code Hs); apply HW; exact A|]. intros i [R _].
    destruct ((var_f code =? 0) && (var_x code =? 33) && (match is_cur st with Some _ => true | None => false end)).
    { eapply sure_bind; [apply next_sure; exact Hs|]. intros [p st'] [Hp Hs']. cbn [fst snd] in *.
      eapply sure_bind; [apply Hattr; eauto|]. intros s' G. eapply grown_fine; eauto. }
    destruct (Z.eqb_spec (is_afbits st) 0); cbn [negb].
    + eapply sure_bind; [apply Hvar; eauto|]. intros s' G. eapply grown_fine; eauto.
    + eapply sure_bind; [apply Haf; eauto; lia|]. intros s' G. eapply grown_fine; eauto.
  - eapply sure_bind; [apply Href; eauto; lia|]. intros [r s'] [Br G]. cbn [fst snd] in *.
    eapply grown_fine; [|exact G]. unfold state_fine. cbn. repeat (split; [assumption|]). split; [constructor; assumption|]. auto.
Qed.

Lemma step_c code next x : var_f code = 2 -> appears T ops code -> Forall (appears T ops) next -> run_fine x ->
  sure (c_modifier V T code next x) (fun y => run_fine (snd (fst y), snd y) /\ (fst (fst y) = next \/ exists c, next = c :: fst (fst y))).
Proof.
  destruct x as [st s]. intros F A An [Hs D]. cbn [fst snd] in *. pose proof Hs as (S1 & S2 & S3 & S4 & S5 & S6). unfold c_modifier.
  destruct (HW code A) as [Op _]. destruct (Op F) as [C3 C7].
  assert (Y : 0 <= var_y code) by (unfold var_y; apply Z.land_nonneg; lia).
  assert (Pl : forall st', state_fine st' (size s) ->
    sure (Ok (next, st', s)) (fun y => run_fine (snd (fst y), snd y) /\ (fst (fst y) = next \/ exists c, next = c :: fst (fst y)))).
  { intros st' H. split; [split; assumption|left; reflexivity]. }
  assert (Gr : forall st' s' r, state_fine st' (size s) -> grown s s' -> (r = next \/ exists c, next = c :: r) ->
    sure (Ok (r, st', s')) (fun y => run_fine (snd (fst y), snd y) /\ (fst (fst y) = next \/ exists c, next = c :: fst (fst y)))).
  { intros st' s' r H1 H2 H3. split; [eapply grown_fine; eauto|exact H3]. }
  destruct (Z.eqb_spec (var_x code) 1); [apply Pl; unfold state_fine; cbn; auto 10|].
  destruct (Z.eqb_spec (var_x code) 2); [apply Pl; unfold state_fine; cbn; auto 10|].
  destruct (Z.eqb_spec (var_x code) 3).
  { apply Pl. unfold state_fine. cbn. repeat (split; [assumption|]). split; [|auto]. destruct (Z.eqb_spec (var_y code) 255); [lia|]. destruct (C3 e); lia. }
  destruct (Z.eqb_spec (var_x code) 4).
  { destruct (negb (var_y code =? 0) && negb (is_afbits st =? 0)); [exact I|]. destruct (Z.ltb_spec 32 (var_y code)); [exact I|].
    destruct (Z.eqb_spec (var_y code) 0); [apply Pl; unfold state_fine; cbn; repeat (split; [first [assumption|lia]|]); auto|].
    destruct next as [|c next]; [exact I|]. cbn [pop_left bind].
    destruct (negb (c =? var_B31021)); [exact I|]. eapply sure_bind; [apply query_plain; exact H21|]. intros i [[R _] _].
    eapply sure_bind; [apply Hsig; eauto|]. intros [sig s'] G. cbn [fst snd] in *. apply Gr; eauto.
    unfold state_fine. cbn. repeat (split; [first [assumption|lia]|]). auto. }
  destruct (Z.eqb_spec (var_x code) 5).
  { eapply sure_bind; [apply Hraw; exact D|]. intros s' G. apply Gr; auto. }
  destruct (Z.eqb_spec (var_x code) 6).
  { destruct next as [|c next]; [exact I|]. cbn [pop_left bind]. inversion An as [|? ? Ac _]; subst.
    destruct (Z.eqb_spec (var_y code) 0); [apply Gr; eauto; split; [exact D|apply le_n]|].
    eapply sure_bind; [apply contains_sure|]. intros known _.
    apply sure_bind with (P := fun oi => match oi with Some i => readable i | None => True end).
    { destruct known; [|exact I]. eapply sure_bind; [apply (varinfo_plain st _ c Hs); apply HW; exact Ac|]. intros i [R _]. destruct (vi_bit_len i =? var_y code); [exact R|exact I]. }
    intros oi Ro. apply sure_bind with (P := fun r => readable (fst r) /\ grown s (snd r)).
    { destruct oi as [i|]; [split; [exact Ro|split; [exact D|apply le_n]]|]. apply Hunknown; [lia|exact D]. }
    intros [i s1] [R1 [D1 L1]]. cbn [fst snd] in *. eapply sure_bind; [apply Hvar; eauto|]. intros s2 [D2 L2]. apply Gr; eauto. split; [exact D2|lia]. }
  destruct (Z.eqb_spec (var_x code) 7).
  { apply Pl. unfold state_fine. cbn. split; [specialize (C7 e); lia|]. auto 10. }
  destruct (Z.eqb_spec (var_x code) 8); [apply Pl; unfold state_fine; cbn; auto 10|].
  destruct (Z.eqb_spec (var_x code) 22); [destruct (negb (var_y code =? 0)); [exact I|]; apply Pl; unfold state_fine; cbn; auto 10|].
  destruct (Z.eqb_spec (var_x code) 23).
  { destruct (var_y code =? 0); [apply Pl; unfold state_fine; cbn; auto 10|]. destruct (var_y code =? 255); [|exact I].
    eapply sure_bind; [apply next_sure; exact Hs|]. intros [p st'] [Hp Hs']. cbn [fst snd] in *.
    eapply sure_bind; [apply Hsubst; eauto|]. intros s' G. apply Gr; auto. }
  destruct (Z.eqb_spec (var_x code) 37); [|apply Pl; exact Hs].
  destruct (var_y code =? 0); [|destruct (var_y code =? 255); [|exact I]]; apply Pl; unfold state_fine; cbn; do 4 (split; [assumption|]).
  - split; [|discriminate]. destruct (is_last st) as [l|] eqn:La; [|discriminate]. intros b [= <-]. cbn. auto.
  - split; [exact S5|discriminate].
Qed.

Lemma step_r code delayed body x : (var_y code = 0 -> delayed = var_B31012 \/ appears T ops delayed) -> run_fine x -> (forall y, run_fine y -> sure (body y) run_fine) ->
  sure (r_replication V T body code delayed x) run_fine.
Proof.
  destruct x as [st s]. intros Hd [Hs D] Hb. cbn [fst snd] in *. unfold r_replication. apply sure_bind with (P := fun r => grown s (snd r)).
  { destruct (Z.eqb_spec (var_y code) 0) as [Y|Y]; [|split; [exact D|apply le_n]]. eapply sure_bind; [apply query_plain with (w := w); destruct (Hd Y) as [->|Hd']; [exact H12|apply HW; exact Hd']|]. intros i [[R _] _]. apply Hfactor; auto. }
  intros [n s1] G. cbn [snd] in G. apply sure_repeat; [exact Hb|]. eapply grown_fine; eauto.
Qed.

Lemma step_m code delayed l x : (var_y code = 0 -> delayed = var_B31012 \/ appears T ops delayed) -> run_fine x -> sure (r_bitmap V T code delayed l x) run_fine.
Proof.
  destruct x as [st s]. intros Hd [Hs D]. cbn [fst snd] in *. unfold r_bitmap. destruct (negb (var_x code =? 1)); [exact I|]. destruct (negb (hd 0 l =? var_B31031)); [exact I|].
  apply sure_bind with (P := fun r => grown s (snd r)).
  { destruct (Z.eqb_spec (var_y code) 0) as [Y|Y]; [|split; [exact D|apply le_n]]. eapply sure_bind; [apply query_plain with (w := w); destruct (Hd Y) as [->|Hd']; [exact H12|apply HW; exact Hd']|]. intros i [[R _] _]. apply Hbfactor; auto. }
  intros [n s1] [D1 L1]. cbn [snd] in *. eapply sure_bind; [apply Hbitmap; exact D1|]. intros [[codes bits] s2] (G2 & U & Lc). cbn [fst snd] in *.
  apply usable_points in U as (r & Er & Pr). unfold bitmaps_define. rewrite Er. cbn [bind sure].
  apply grown_fine with (s := s2); [|split; [apply G2|apply le_n]].
  assert (Hs2 : state_fine st (size s2)) by (eapply state_grown; [|exact Hs]; destruct G2; lia).
  destruct Hs2 as (S1 & S2 & S3 & S4 & S5 & S6). unfold state_fine. cbn. repeat (split; [assumption|]). rewrite Lc in Pr.
  split; [|exact S6]. intros b [= <-]. cbn. auto.
Qed.

Lemma template_sure fuel s : good s -> sure (run V T fuel ops (ist_init, s)) run_fine.
Proof.
  intros D. apply run_sure with (allowed := appears T ops).
  - intros. apply step_b; auto.
  - intros. apply step_c; auto.
  - intros. apply step_r; auto.
  - intros. apply step_m; auto.
  - intros code body A F E. eapply appears_inside; eauto.
  - apply appears_here.
  - split; [|exact D]. unfold state_fine. cbn [fst ist_init is_srw is_refs is_refbits is_afbits is_cur is_last]. split; [lia|]. split; [constructor|]. do 2 (split; [lia|]). split; discriminate.
Qed.
End Steps.

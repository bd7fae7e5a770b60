(** The encoder with checks agrees with that of the library unless a check throws, and it has no
    undefined behaviour on tame templates. *)
From Coq Require Import ZArith Lia ZifyBool ZifyNat Reals.
From Flocq Require Import Core BinarySingleNaN.
From Verif Require Import Base Bits.Model Bits.Spec Bits.Proofs Num.Float Num.FloatProofs Varcode.Model Varinfo.Model Varinfo.Proofs
  Varinfo.RangeProofs Tables.Model Tables.Spec Tables.Proofs Tables.AlterProofs Tables.LoadProofs Var.Model Var.Spec Var.Proofs Var.TextProofs Var.CodecProofs
  Interp.Model Interp.Spec Interp.ExpandProofs Interp.FuelProofs Interp.Appears Interp.SureProofs Codec.Model Codec.Proofs Codec.EndProofs Codec.Checked
  Codec.StepProofs Codec.CheckedSafe Codec.CheckedEnc.
Local Open Scope Z_scope.

(** ** Agreement: the checks of EAlloc stop where the library has undefined behaviour *)
Definition agree {A} (m m' : res A) : Prop := m = m' \/ (m = UB /\ m' = Err EAlloc) \/ m' = Err EEof.

Lemma raised {A} : agree (A := A) UB (Err EAlloc).
Proof. right. left. auto. Qed.
Lemma unused {A} (m : res A) : agree m (Err EEof).
Proof. right. right. reflexivity. Qed.
Lemma agree_refl {A} (m : res A) : agree m m.
Proof. left. reflexivity. Qed.
Lemma agree_bind {A B} (m m' : res A) (k k' : A -> res B) : agree m m' -> (forall a, agree (k a) (k' a)) ->
  agree (bind m k) (bind m' k').
Proof. intros [->|[[-> ->]| ->]] K; [|apply raised|apply unused]. destruct m'; cbn [bind]; [apply K|apply agree_refl|apply agree_refl]. Qed.

#[local] Hint Resolve raised unused agree_refl : agree.

Ltac agree_step :=
  match goal with
  | |- agree ?m ?m => apply agree_refl
  | |- agree (bind _ _) (bind _ _) => apply agree_bind; [|intros ?]
  | |- agree (let (_, _) := ?x in _) _ => destruct x
  | |- agree (if ?b then _ else _) _ => destruct b
  | |- agree (match ?x with _ => _ end) _ => destruct x
  end.
Ltac ag := repeat (cbv zeta; first [solve [eauto with agree] | agree_step]).


Section Run.
Context {S : Type} (V W : visitor S) (T : tables).
Context (H1 : forall i s, agree (on_var V i s) (on_var W i s)).
Context (H2 : forall b g i s, agree (on_var_af V b g i s) (on_var_af W b g i s)).
Context (H3 : forall i s, agree (on_factor V i s) (on_factor W i s)).
Context (H4 : forall i s, agree (on_bitmap_factor V i s) (on_bitmap_factor W i s)).
Context (H5 : forall i s, agree (on_significance V i s) (on_significance W i s)).
Context (H6 : forall p s, agree (on_subst V p s) (on_subst W p s)).
Context (H7 : forall i p s, agree (on_attr V i p s) (on_attr W i p s)).
Context (H8 : forall c s, agree (on_raw V c s) (on_raw W c s)).
Context (H9 : forall b c s, agree (on_refval V b c s) (on_refval W b c s)).
Context (H10 : forall p n s, agree (on_bitmap V p n s) (on_bitmap W p n s)).
Context (H11 : forall c b s, agree (on_unknown V c b s) (on_unknown W c b s)).

Lemma repeat_agree {A} (f g : A -> res A) : (forall a, agree (f a) (g a)) -> forall n a, agree (repeat_m n f a) (repeat_m n g a).
Proof. intros F. induction n as [|n IH]; intros a; cbn [repeat_m]; [apply agree_refl|]. apply agree_bind; auto. Qed.

Lemma run_agree : forall fuel ops x, agree (run V T fuel ops x) (run W T fuel ops x).
Proof.
  induction fuel as [|k IH]; intros ops [st s]; [apply agree_refl|]. destruct ops as [|cur rest]; [apply agree_refl|]. cbn [run].
  destruct (var_f cur =? 0).
  { apply agree_bind; [unfold b_variable; ag|]. intros a. apply IH. }
  destruct (var_f cur =? 1).
  { destruct (delayed_code cur rest) as [d rest1]. cbv zeta. destruct (Nat.ltb _ _); [apply agree_refl|].
    apply agree_bind; [|intros a; apply IH]. cbn [fst]. destruct (is_pending st =? 0); [unfold r_replication|unfold r_bitmap].
    - apply agree_bind; [ag|]. intros [n s1]. apply repeat_agree. intros a. apply IH.
    - ag. }
  destruct (var_f cur =? 2).
  { apply agree_bind; [|intros [[r st'] s']; apply IH]. unfold c_modifier, pop_left. ag. }
  apply agree_bind; [apply agree_refl|]. intros body. apply agree_bind; [apply IH|]. intros a. apply IH.
Qed.
End Run.


Lemma add_bits_agree p v n o : agree (add_bits p v n o) (sf_add_bits p v n o).
Proof.
  unfold sf_add_bits. destruct (narrow p n) eqn:N; [apply agree_refl|]. destruct p; [|discriminate]. unfold narrow in N. unfold add_bits, shl1.
  replace ((0 <=? Z.of_nat n - 1) && (Z.of_nat n - 1 <? 32)) with false by lia. apply raised.
Qed.
Lemma missing_agree p n o : agree (append_missing p n o) (sf_missing p n o).
Proof. apply add_bits_agree. Qed.
#[local] Hint Resolve add_bits_agree missing_agree : agree.

Lemma to_unsigned_ub x : flt x fzero = false -> flt x (f_of_Z (2 ^ 32)) = false -> f_to_unsigned x = UB.
Proof.
  intros A B. unfold f_to_unsigned, f_to_Z_range. destruct (is_finite x) eqn:Fx; [|reflexivity]. cbv zeta.
  destruct (f_of_Z_ok (2 ^ 32)) as [F E]; [lia|]. rewrite flt_spec in A, B by auto. rewrite E in B.
  destruct (Rlt_bool_spec (B2R x) (B2R fzero)) as [?|G]; [discriminate|].
  destruct (Rlt_bool_spec (B2R x) (IZR (2 ^ 32))) as [?|L]; [discriminate|]. change (B2R fzero) with 0%R in G.
  assert (C : Btrunc x = Ztrunc (B2R x)).
  { apply eq_IZR. rewrite Btrunc_correct by exact eq_refl. rewrite round_FIX0. reflexivity. }
  rewrite C, Ztrunc_floor by exact G. assert (P : 2 ^ 32 <= Zfloor (B2R x)) by (apply Zfloor_lub; exact L).
  replace ((0 <=? Zfloor (B2R x)) && (Zfloor (B2R x) <=? 2 ^ 32 - 1)) with false by lia. reflexivity.
Qed.
Lemma number_agree i d : agree (encode_binary i d) (sf_binary i d).
Proof.
  unfold encode_binary, sf_binary. destruct (vi_bit_len i =? 0); [apply agree_refl|]. cbv zeta. apply agree_bind; [apply agree_refl|]. intros x.
  destruct (flt x fzero) eqn:A; [apply agree_refl|]. destruct (flt x (f_of_Z _)) eqn:B; [apply agree_refl|]. rewrite to_unsigned_ub by auto. apply raised.
Qed.
Lemma enqc_agree c : agree (enqc c) (sf_enqc c).
Proof. unfold sf_enqc. destruct (c_val c) as [[v| |]|] eqn:Ev; auto with agree. destruct (Z.eqb_spec v int_min) as [->|]; [|apply agree_refl].
  unfold enqc. rewrite Ev. destruct (vi_type (c_info c)); apply raised. Qed.
Lemma chars_agree p b n o : agree (append_chars p b n o) (sf_chars p b n o).
Proof. unfold sf_chars. destruct (_ && _) eqn:E; [|apply agree_refl]. unfold append_chars. rewrite E. apply raised. Qed.
Lemma short_bytes p : forall fuel n b o, (8 * length b < n <= fuel)%nat -> append_binary_loop p fuel n b o = UB.
Proof.
  induction fuel as [|f IH]; intros n b o L; [lia|]. cbn [append_binary_loop]. replace (Nat.eqb n 0) with false by lia.
  destruct b as [|c b]; [reflexivity|]. cbn [length] in L. replace (Nat.leb 8 n) with true by lia.
  unfold append_byte, add_bits, shl1. cbn -[append_binary_loop add_bits_loop Nat.sub]. apply IH. lia.
Qed.
Lemma bytes_agree p b n o : agree (append_binary p b n o) (sf_bytes p b n o).
Proof.
  unfold sf_bytes. destruct (Nat.ltb _ _) eqn:E; [|apply agree_refl]. unfold append_binary. rewrite short_bytes by lia. apply raised.
Qed.
#[local] Hint Resolve number_agree enqc_agree chars_agree bytes_agree : agree.

Lemma value_agree p i c o : agree (append_var p i c o) (sf_value p i c o).
Proof. unfold append_var, sf_value. destruct (negb (isset c)); [auto with agree|]. destruct (vi_type i); ag. Qed.
#[local] Hint Resolve value_agree : agree.
Lemma put_agree s m m' : agree m m' -> agree (e_put s m) (e_put s m').
Proof. intros H. unfold e_put. apply agree_bind; [exact H|]. intros. apply agree_refl. Qed.
#[local] Hint Resolve put_agree : agree.

Section Agree.
Context (p : shift_policy) (o : options) (T : tables) (vars : list var).

Lemma attr_code_agree i pos c s : agree (e_attr_code p vars i pos c s) (sf_attr_code p vars i pos c s).
Proof. unfold e_attr_code, sf_attr_code. ag. Qed.
#[local] Hint Resolve attr_code_agree : agree.
Lemma bitmap_chars_agree c : agree (bitmap_chars c) (sf_bitmap_chars c).
Proof. unfold bitmap_chars, sf_bitmap_chars. apply agree_bind; [auto with agree|]. intros b. destruct (Nat.ltb _ _); auto with agree. Qed.
#[local] Hint Resolve bitmap_chars_agree : agree.

Lemma encoder_agree fuel ops x : agree (run (encoder p o T vars) T fuel ops x) (run (sf_encoder p o T vars) T fuel ops x).
Proof.
  apply run_agree; intros; cbn [encoder sf_encoder on_var on_var_af on_factor on_bitmap_factor on_significance on_subst on_attr on_raw on_refval on_bitmap on_unknown].
  - unfold e_var, sf_var. ag.
  - unfold e_var_af, sf_var_af. ag.
  - unfold e_factor, sf_factor. ag.
  - unfold e_bitmap_factor, sf_bitmap_factor. ag.
  - unfold e_significance, sf_significance. ag.
  - unfold e_subst, sf_subst. ag.
  - unfold e_attr, sf_attr. ag.
  - unfold e_raw, sf_raw. ag.
  - unfold e_refval, sf_refval. apply agree_bind; [apply agree_refl|]. intros ref.
    destruct (Z.eqb_spec ref 0) as [->|N0]; [apply raised|]. destruct (Z.eqb_spec ref int_min) as [->|N1]; [apply raised|apply agree_refl].
  - unfold e_bitmap, sf_bitmap. apply agree_bind; [apply agree_refl|]. intros [v s1]. repeat match goal with |- agree (if ?b then _ else _) _ => destruct b; [apply agree_refl|] end.
    apply agree_bind; [ag|]. intros chars. apply agree_bind; [apply agree_refl|]. intros s2. cbv zeta.
    match goal with |- agree _ (if ?b then _ else _) => destruct b end; auto with agree.
  - apply agree_refl.
Qed.
End Agree.

Lemma subsets_agree p o T fuel ops : forall subsets lt out,
  agree (encode_subsets p o T fuel ops subsets lt out) (sf_subsets p o T fuel ops subsets lt out).
Proof.
  induction subsets as [|vars rest IH]; intros lt out; [apply agree_refl|]. cbn [encode_subsets sf_subsets].
  apply agree_bind; [apply encoder_agree|]. intros [st s]. apply IH.
Qed.

(** ** No undefined behaviour *)
Definition any {A} (_ : A) : Prop := True.
Arguments any {A} _ /.

Lemma add_bits_sure p v n o : (p = X86 \/ 1 <= n <= 32)%nat -> sure (add_bits p v n o) any.
Proof.
  intros H. unfold add_bits, shl1. destruct ((0 <=? Z.of_nat n - 1) && (Z.of_nat n - 1 <? 32)) eqn:E; [exact I|]. destruct H as [->|H]; [exact I|]. exfalso. apply andb_false_iff in E. lia.
Qed.
Lemma sf_add_bits_sure p v n o : sure (sf_add_bits p v n o) any.
Proof.
  unfold sf_add_bits. destruct (narrow p n) eqn:E; [|exact I]. apply add_bits_sure. destruct p; [|left; reflexivity]. right. unfold narrow in E. lia.
Qed.

Lemma below x y : flt x fzero = false -> is_finite y = true -> flt x y = true -> is_finite x = true /\ (0 <= B2R x < B2R y)%R.
Proof.
  intros A Fy L. assert (Fx : is_finite x = true).
  { destruct x as [sx|sx| |sx mx ex Bx]; try reflexivity; exfalso; destruct y; try discriminate; destruct sx; discriminate. }
  split; [exact Fx|]. rewrite flt_spec in A, L by auto.
  destruct (Rlt_bool_spec (B2R x) (B2R fzero)) as [?|G]; [discriminate|].
  destruct (Rlt_bool_spec (B2R x) (B2R y)) as [L2|?]; [|discriminate].
  split; [exact G|exact L2].
Qed.

Lemma to_unsigned_sure x : flt x fzero = false -> flt x (f_of_Z (2 ^ 32)) = true -> sure (f_to_unsigned x) any.
Proof.
  intros A B. destruct (f_of_Z_ok (2 ^ 32)) as [F E]; [lia|]. destruct (below x _ A F B) as [Fx [R1 R2]]. rewrite E in R2.
  unfold f_to_unsigned, f_to_Z_range. rewrite Fx. cbv zeta.
  assert (C : Btrunc x = Ztrunc (B2R x)).
  { apply eq_IZR. rewrite Btrunc_correct by exact eq_refl. rewrite round_FIX0. reflexivity. }
  rewrite C, Ztrunc_floor by exact R1. pose proof (Zfloor_lb (B2R x)) as L. pose proof (Zfloor_ub (B2R x)) as U.
  assert (P1 : 0 <= Zfloor (B2R x)) by (apply Zfloor_lub; exact R1).
  assert (P2 : Zfloor (B2R x) < 2 ^ 32) by (apply lt_IZR; eapply Rle_lt_trans; eauto).
  replace ((0 <=? Zfloor (B2R x)) && (Zfloor (B2R x) <=? 2 ^ 32 - 1)) with true by lia. exact I.
Qed.

Lemma scales_sure s : 0 <= s <= 16 -> sure (scales s) any.
Proof. intros H. unfold scales. replace ((0 <=? s) && (s <=? 16)) with true by lia. exact I. Qed.

Lemma sf_binary_sure i d : -16 <= vi_scale i <= 16 -> sure (sf_binary i d) any.
Proof.
  intros S. unfold sf_binary. destruct (vi_bit_len i =? 0); [exact I|]. cbv zeta. apply sure_bind with (P := any).
  { destruct (Z.ltb_spec 0 (vi_scale i)); [eapply sure_bind; [apply scales_sure; lia|]; intros; exact I|].
    destruct (Z.ltb_spec (vi_scale i) 0); [eapply sure_bind; [apply scales_sure; lia|]; intros; exact I|exact I]. }
  intros x _. destruct (flt x fzero) eqn:A; [exact I|]. destruct (flt x (f_of_Z (2 ^ 32))) eqn:B; [|exact I]. apply to_unsigned_sure; auto.
Qed.

Lemma append_byte_sure p v o : sure (append_byte p v o) any.
Proof. apply add_bits_sure. lia. Qed.

Lemma string_sure p : forall fuel n s o, (n <= fuel)%nat -> sure (append_string_loop p fuel n s o) any.
Proof.
  induction fuel as [|k IH]; intros n s o L; cbn [append_string_loop].
  - destruct (Nat.eqb_spec n 0); exact I.
  - destruct (Nat.eqb_spec n 0); [exact I|]. destruct (Nat.leb_spec 8 n).
    + destruct s as [|c s]; [|destruct (c =? 0)]; (eapply sure_bind; [apply append_byte_sure|]; intros o1 _; apply IH; lia).
    + apply add_bits_sure. lia.
Qed.
Lemma sf_chars_sure p b n o : sure (sf_chars p b n o) any.
Proof.
  unfold sf_chars, append_chars. destruct (_ && _); [exact I|]. apply string_sure. apply le_n.
Qed.
Lemma binary_sure p : forall fuel n s o, (n <= fuel)%nat -> (n <= 8 * length s)%nat -> sure (append_binary_loop p fuel n s o) any.
Proof.
  induction fuel as [|k IH]; intros n s o L Ls; cbn [append_binary_loop].
  - destruct (Nat.eqb_spec n 0); exact I.
  - destruct (Nat.eqb_spec n 0); [exact I|]. destruct s as [|c s]; [cbn in Ls; lia|]. cbn [length] in Ls. destruct (Nat.leb_spec 8 n).
    + eapply sure_bind; [apply append_byte_sure|]. intros o1 _. apply IH; lia.
    + apply add_bits_sure. lia.
Qed.
Lemma sf_bytes_sure p b n o : sure (sf_bytes p b n o) any.
Proof. unfold sf_bytes, append_binary. destruct (Nat.ltb_spec (8 * length b) n); [exact I|]. apply binary_sure; lia. Qed.

Lemma sf_enqc_sure c : made c -> sure (sf_enqc c) any.
Proof.
  intros (_ & _ & M). unfold sf_enqc, enqc. destruct (c_val c) as [[v|s|b]|]; [|rewrite M; exact I|rewrite M; exact I|exact I].
  destruct M as [N R]. destruct (Z.eqb_spec v int_min) as [|E]; [exact I|].
  destruct (int32_to_str_ok v ltac:(lia)) as (s & _ & _ & _ & ->). destruct (vi_type (c_info c)); try discriminate; exact I.
Qed.
Lemma enqd_sure c : made c -> sure (enqd c) any.
Proof.
  intros (S & _ & M). unfold enqd. destruct (c_val c) as [[v|s|b]|]; [|rewrite M; exact I|rewrite M; exact I|exact I].
  destruct M as [N _]. specialize (S N). destruct (vi_type (c_info c)); try discriminate; [exact I|]. apply decode_decimal_sure. exact S.
Qed.
Lemma enqi_made c : made c -> sure (enqi c) any.
Proof.
  intros (_ & _ & M). unfold enqi. destruct (c_val c) as [[v|s|b]|]; [|rewrite M; exact I|rewrite M; exact I|exact I].
  destruct M as [N _]. destruct (vi_type (c_info c)); try discriminate; exact I.
Qed.

(** Definitions with which a value can be written. *)
Definition scaled_info (i : varinfo) : Prop := is_numeric (vi_type i) = true -> -16 <= vi_scale i <= 16.
Lemma readable_scaled i : readable i -> scaled_info i.
Proof.
  unfold readable, scaled_info. intros R N. destruct (vi_type i) eqn:T; try discriminate; destruct R as [R _];
    (destruct (info_ok_numeric i R) as [S _]; [rewrite T; reflexivity|exact S]).
Qed.

Lemma sf_value_sure p i c o : scaled_info i -> made c -> sure (sf_value p i c o) any.
Proof.
  intros S M. unfold sf_value, sf_missing. destruct (negb (isset c)); [apply sf_add_bits_sure|]. unfold scaled_info in S.
  destruct (vi_type i).
  - eapply sure_bind; [apply enqd_sure; exact M|]. intros d _. eapply sure_bind; [apply sf_binary_sure; auto|]. intros. apply sf_add_bits_sure.
  - eapply sure_bind; [apply enqd_sure; exact M|]. intros d _. eapply sure_bind; [apply sf_binary_sure; auto|]. intros. apply sf_add_bits_sure.
  - eapply sure_bind; [apply sf_enqc_sure; exact M|]. intros. apply sf_chars_sure.
  - eapply sure_bind; [apply sf_enqc_sure; exact M|]. intros. apply sf_bytes_sure.
Qed.

Section Encoder.
Context (p : shift_policy) (o : options) (HO : hook_safe o) (T : tables) (vars : list var) (MV : Forall made_var vars).

Definition unknown_fine (l : localtables) : Prop := Forall (fun q => 1 <= fst q -> readable (snd q)) (lt_unknown l).
Definition enc_fine (s : enc) : Prop := (e_pos s <= length vars)%nat /\ unknown_fine (e_lt s).
Local Notation grown := (StepProofs.grown enc_fine e_pos).

Lemma made_at n v : nth_error vars n = Some v -> made_var v.
Proof. intros N. apply nth_error_In in N. rewrite Forall_forall in MV. auto. Qed.

Lemma next_sure s : enc_fine s -> sure (e_next vars s) (fun r => made_var (fst r) /\ grown s (snd r)).
Proof.
  intros [P U]. unfold e_next, get_var. destruct (nth_error vars (e_pos s)) as [v|] eqn:N; [|exact I]. cbn [bind sure fst snd].
  split; [eapply made_at; eauto|]. assert (e_pos s < length vars)%nat by (apply nth_error_Some; congruence).
  split; [split; [cbn [e_pos]; lia|exact U]|cbn [e_pos]; lia].
Qed.

Lemma put_sure s m : enc_fine s -> sure m any -> sure (e_put s m) (grown s).
Proof. intros E M. unfold e_put. eapply sure_bind; [exact M|]. intros out _. split; [exact E|apply le_n]. Qed.

Lemma grown_trans s s1 s2 : grown s s1 -> grown s1 s2 -> grown s s2.
Proof. intros [_ L1] [G L2]. split; [exact G|lia]. Qed.

Lemma sf_var_sure i s : readable i -> enc_fine s -> sure (sf_var p vars i s) (grown s).
Proof.
  intros R E. unfold sf_var. eapply sure_bind; [apply next_sure; exact E|]. intros [v s1] [M G]. cbn [fst snd] in *.
  eapply sure_weaken; [apply put_sure; [apply G|apply sf_value_sure; [apply readable_scaled; exact R|apply M]]|].
  intros s2. apply grown_trans. exact G.
Qed.

Lemma enqa_made v c code : made_var v -> var_enqa v code = Some c -> made c.
Proof.
  intros [_ F]. unfold var_enqa. induction F as [|a l Ma F IH]; cbn [enqa]; [discriminate|].
  repeat match goal with |- context [if ?b then _ else _] => destruct b end; try discriminate; auto. intros [= <-]. exact Ma.
Qed.

Lemma af_sure bits sig v s : 1 <= bits <= 32 -> made_var v -> enc_fine s -> sure (e_af p bits sig v s) (grown s).
Proof.
  intros B M E. unfold e_af, get_attribute. apply sure_bind with (P := fun r => forall c, r = Some c -> made c).
  { apply sure_bind with (P := any).
    - unfold af_code. repeat match goal with |- context [if ?b then _ else _] => destruct b end; exact I.
    - intros [code|] _; [|discriminate]. cbn. intros c. apply enqa_made. exact M. }
  assert (Bn : (p = X86 \/ 1 <= Z.to_nat bits <= 32)%nat) by (right; lia).
  intros [c|] Mc; [|apply put_sure; [exact E|apply add_bits_sure; exact Bn]].
  destruct (isset c); [|apply put_sure; [exact E|apply add_bits_sure; exact Bn]].
  eapply sure_bind; [apply enqi_made; apply Mc; reflexivity|]. intros n _. apply put_sure; [exact E|apply add_bits_sure; exact Bn].
Qed.

Lemma sf_var_af_sure bits sig i s : 1 <= bits <= 32 -> readable i -> enc_fine s -> sure (sf_var_af p vars bits sig i s) (grown s).
Proof.
  intros B R E. unfold sf_var_af. eapply sure_bind; [apply next_sure; exact E|]. intros [v s1] [M G]. cbn [fst snd] in *.
  eapply sure_bind; [apply af_sure; [exact B|exact M|apply G]|]. intros s2 G2.
  eapply sure_weaken; [apply put_sure; [apply G2|apply sf_value_sure; [apply readable_scaled; exact R|apply M]]|].
  intros s3 G3. eapply grown_trans; [exact G|]. eapply grown_trans; eauto.
Qed.

Lemma sf_factor_sure i s : readable i -> enc_fine s -> sure (sf_factor p vars i s) (fun r => grown s (snd r)).
Proof.
  intros R E. unfold sf_factor. eapply sure_bind; [apply next_sure; exact E|]. intros [v s1] [M G]. cbn [fst snd] in *.
  eapply sure_bind; [apply put_sure; [apply G|apply sf_value_sure; [apply readable_scaled; exact R|apply M]]|]. intros s2 G2.
  eapply sure_bind; [apply enqi_made; apply M|]. intros n _. eapply grown_trans; eauto.
Qed.

Lemma sf_significance_sure i s : readable i -> enc_fine s -> sure (sf_significance p vars i s) (fun r => grown s (snd r)).
Proof.
  intros R E. unfold sf_significance. eapply sure_bind; [apply next_sure; exact E|]. intros [v s1] [M G]. cbn [fst snd] in *.
  eapply sure_bind; [apply put_sure; [apply G|apply sf_value_sure; [apply readable_scaled; exact R|apply M]]|]. intros s2 G2.
  apply sure_bind with (P := any); [destruct (isset (v_cell v)); [apply enqi_made; apply M|exact I]|]. intros n _. eapply grown_trans; eauto.
Qed.

(** The variable made for the length of a bitmap: a number of the definition asked for. *)
Lemma number_of_hook i c q : readable i -> is_numeric (vi_type i) = true -> kept (fresh i) c -> sure (sf_value p i c q) any.
Proof.
  intros R N [Sh K]. cbn [fresh c_info] in K. pose proof (readable_scaled i R N) as Si. unfold sf_value, sf_missing. destruct (negb (isset c)); [apply sf_add_bits_sure|].
  assert (Q : sure (d <- enqd c;; n <- sf_binary i d;; sf_add_bits p n (bit_len_nat i) q) any).
  { eapply sure_bind; [|intros d _; eapply sure_bind; [apply sf_binary_sure; exact Si|]; intros; apply sf_add_bits_sure].
    instantiate (1 := any). unfold enqd, shaped in *. rewrite K in *. destruct (c_val c) as [[v|s|b]|]; try (rewrite N in Sh; discriminate); [|exact I].
    destruct (vi_type i); try discriminate; [exact I|]. apply decode_decimal_sure. exact Si. }
  destruct (vi_type i); try discriminate; exact Q.
Qed.

Lemma sf_bitmap_factor_sure i s : readable i -> enc_fine s -> sure (sf_bitmap_factor p o vars i s) (fun r => grown s (snd r)).
Proof.
  intros R E. unfold sf_bitmap_factor, get_var. destruct (nth_error vars (e_pos s)) as [v|]; [|exact I]. cbn [bind]. cbv zeta.
  destruct (is_numeric (vi_type i)) eqn:N.
  - eapply sure_bind; [apply seti_sure; exact HO|]. intros c K.
    eapply sure_bind; [apply put_sure; [exact E|apply number_of_hook; eauto]|]. intros s1 G. exact G.
  - unfold seti. cbn [fresh c_info]. rewrite N. exact I.
Qed.

Lemma attr_code_sure i pos code s : scaled_info i -> enc_fine s -> sure (sf_attr_code p vars i pos code s) (grown s).
Proof.
  intros R E. unfold sf_attr_code, get_var. destruct (nth_error vars pos) as [v|] eqn:N; [|exact I]. cbn [bind]. apply made_at in N.
  destruct (var_enqa v code) as [a|] eqn:A.
  - apply put_sure; [exact E|apply sf_value_sure; [exact R|eapply enqa_made; eauto]].
  - apply put_sure; [exact E|apply sf_add_bits_sure].
Qed.

Lemma sf_subst_sure pos s : (pos < e_pos s)%nat -> enc_fine s -> sure (sf_subst p vars pos s) (grown s).
Proof.
  intros L E. unfold sf_subst. destruct (nth_error vars pos) as [v|] eqn:N.
  - apply attr_code_sure; [|exact E]. apply made_at in N. exact (proj1 (proj1 N)).
  - apply nth_error_None in N. destruct E as [E _]. lia.
Qed.

Lemma sf_raw_sure code s : enc_fine s -> sure (sf_raw p vars code s) (grown s).
Proof.
  intros E. unfold sf_raw. eapply sure_bind; [apply next_sure; exact E|]. intros [v s1] [M G]. cbn [fst snd] in *.
  apply sure_bind with (P := any); [destruct (isset (v_cell v)); [apply sf_enqc_sure; apply M|exact I]|]. intros buf _.
  eapply sure_weaken; [apply put_sure; [apply G|apply sf_chars_sure]|]. intros s2. apply grown_trans. exact G.
Qed.

(** Reference values: tables have them between -2^30 and 2^30, and the width in the template bounds the others. *)
Lemma find_ref_sure code : (forall e, In e (tb_b T) -> int_min <= vi_bit_ref (be_info e) <= int_max) ->
  sure (find_ref T vars code) (fun r => int_min <= r <= int_max).
Proof.
  intros HT. unfold find_ref. destruct (List.find _ vars) as [v|] eqn:F.
  - apply find_some in F as [Iv _]. rewrite Forall_forall in MV. apply (proj1 (proj2 (proj1 (MV v Iv)))).
  - eapply sure_bind; [apply query_sure|]. intros i (e & Ie & <-). apply HT. exact Ie.
Qed.

Lemma width_bound r bits : 0 < r -> bits <= 31 -> Z.log2 r + 1 + 1 <= bits -> r <= 2 ^ 30.
Proof.
  intros R B L. destruct (Z.log2_spec r R) as [_ U]. eapply Z.le_trans; [apply Z.lt_le_incl; exact U|]. apply Z.pow_le_mono_r; lia.
Qed.

Lemma sf_refval_sure bits code s : (forall e, In e (tb_b T) -> int_min <= vi_bit_ref (be_info e) <= int_max) -> 1 <= bits <= 31 -> enc_fine s ->
  sure (sf_refval p T vars bits code s) (fun r => - 2 ^ 30 <= fst r <= 2 ^ 30 /\ grown s (snd r)).
Proof.
  intros HT B E. unfold sf_refval. eapply sure_bind; [apply find_ref_sure; exact HT|]. cbv beta. intros ref R.
  destruct ((ref =? 0) || (ref =? int_min)) eqn:Z0; [exact I|]. apply orb_false_iff in Z0 as [Z0 Z1].
  apply sure_bind with (P := fun r => snd r = Z.log2 (Z.abs ref) + 1).
  { destruct (Z.ltb_spec ref 0).
    - unfold int_checked, in_int. replace ((int_min <=? - ref) && (- ref <=? int_max)) with true by (unfold int_min, int_max in *; lia). cbn [bind].
      unfold bit_width. replace (- ref =? 0) with false by lia. cbn [bind]. unfold shl1. replace ((0 <=? bits - 1) && (bits - 1 <? 32)) with true by lia.
      cbn [bind sure snd]. rewrite Z.abs_neq by lia. reflexivity.
    - unfold bit_width. replace (ref =? 0) with false by lia. cbn [bind sure snd]. rewrite Z.abs_eq by lia. reflexivity. }
  intros [encoded nbits] Hn. cbn [snd] in Hn. destruct (Z.ltb_spec bits (nbits + 1)) as [|L]; [exact I|]. subst nbits.
  eapply sure_bind; [apply put_sure; [exact E|apply add_bits_sure; right; lia]|]. intros s1 G. cbn [fst snd sure].
  split; [|exact G]. assert (Z.abs ref <= 2 ^ 30) by (apply (width_bound _ bits); lia). lia.
Qed.

Lemma put_bitmap_sure : forall chars out, sure (put_bitmap p chars out) any.
Proof.
  induction chars as [|c r IH]; intros out; cbn [put_bitmap]; [exact I|]. eapply sure_bind; [apply add_bits_sure; lia|]. intros. apply IH.
Qed.

Lemma sf_bitmap_sure pending size s : enc_fine s -> sure (sf_bitmap p vars pending size s)
  (fun r => grown s (snd r) /\ usable_bitmap (fst (fst r)) (snd (fst r)) = true /\ length (fst (fst r)) = e_pos (snd r)).
Proof.
  intros E. unfold sf_bitmap. eapply sure_bind; [apply next_sure; exact E|]. intros [v s1] [M G]. cbn [fst snd] in *.
  destruct (negb _); [exact I|]. destruct (negb _); [exact I|]. apply sure_bind with (P := any).
  { destruct (size =? 0); [exact I|]. unfold sf_bitmap_chars. eapply sure_bind; [apply sf_enqc_sure; apply M|]. intros buf _. destruct (Nat.ltb _ _); exact I. }
  intros chars _. pose proof (put_bitmap_sure chars (e_out s1)) as P. unfold e_put. destruct (put_bitmap p chars (e_out s1)) as [out|e|]; [|exact I|exact P]. cbn [bind]. cbv zeta.
  destruct (usable_bitmap _ chars) eqn:U; [|exact I]. cbn [sure fst snd]. split; [|split; [exact U|]].
  - split; [apply G|]. cbn [e_pos]. apply G.
  - unfold codes_of. rewrite map_length, firstn_length. destruct G as [[L _] _]. cbn [e_pos]. lia.
Qed.

Lemma sf_unknown_sure code bits s : 1 <= bits -> enc_fine s -> sure (e_unknown code bits s) (fun r => readable (fst r) /\ grown s (snd r)).
Proof.
  intros B [P U]. unfold e_unknown, get_unknown. destruct (assoc Z.eqb bits (lt_unknown (e_lt s))) as [i|] eqn:E.
  - destruct (negb (vi_code i =? code)); [exact I|]. apply assoc_in in E. pose proof (proj1 (Forall_forall _ _) U _ E B) as R. cbn [snd] in R.
    split; [exact R|]. split; [split; [exact P|exact U]|apply le_n].
  - destruct (set_binary code bits) as [i|e|] eqn:Sb; cbn [bind sure]; [|exact I|discriminate].
    assert (R : readable i).
    { pose proof (compute_range_fields _ _ _ _ _ _ _ _ Sb) as (_ & E2 & _ & _ & E5 & _ & E7). unfold readable. rewrite E2, E5, E7. split; [exact B|reflexivity]. }
    split; [exact R|]. split; [split; [exact P|]|apply le_n]. constructor; [intros _; exact R|exact U].
Qed.

Lemma subset_sure fuel ops s : (forall e, In e (tb_b T) -> int_min <= vi_bit_ref (be_info e) <= int_max) -> tame T ops -> enc_fine s ->
  sure (run (sf_encoder p o T vars) T fuel ops (ist_init, s)) (fun x => enc_fine (snd x)).
Proof.
  intros HT (w & Hw & HW & H12 & H21) D. apply sure_weaken with (P := run_fine enc_fine e_pos w); [|intros x [_ X]; exact X].
  apply template_sure with (good := enc_fine) (size := e_pos) (w := w); auto;
    cbn [sf_encoder on_var on_var_af on_factor on_bitmap_factor on_significance on_subst on_attr on_raw on_refval on_bitmap on_unknown]; intros.
  - apply sf_var_sure; auto.
  - apply sf_var_af_sure; auto.
  - apply sf_factor_sure; auto.
  - apply sf_bitmap_factor_sure; auto.
  - apply sf_significance_sure; auto.
  - apply sf_subst_sure; auto.
  - unfold sf_attr. apply attr_code_sure; auto. apply readable_scaled; auto.
  - apply sf_raw_sure; auto.
  - apply sf_refval_sure; auto.
  - apply sf_bitmap_sure; auto.
  - apply sf_unknown_sure; auto.
Qed.
End Encoder.

Lemma subsets_sure p o T fuel ops : hook_safe o -> (forall e, In e (tb_b T) -> int_min <= vi_bit_ref (be_info e) <= int_max) -> tame T ops ->
  forall subsets lt out, Forall (Forall made_var) subsets -> unknown_fine lt -> sure (sf_subsets p o T fuel ops subsets lt out) any.
Proof.
  intros HO HT Ht. induction subsets as [|vars rest IH]; intros lt out F U; cbn [sf_subsets]; [exact I|]. inversion F as [|? ? F1 F2]; subst.
  eapply sure_bind; [apply (subset_sure p o HO T vars F1); [exact HT|exact Ht|split; [cbn; lia|exact U]]|].
  intros [st s] [_ U']. cbn [snd] in U'. apply IH; auto.
Qed.

(** ** Encoding ends *)
Lemma add_bits_ended p v n o : ended (add_bits p v n o).
Proof. unfold add_bits. en. Qed.
#[local] Hint Resolve add_bits_ended : ended.
Lemma string_loop_ended p : forall fuel n s o, (n <= fuel)%nat -> ended (append_string_loop p fuel n s o).
Proof.
  induction fuel as [|k IH]; intros n s o L; cbn [append_string_loop].
  - replace n with 0%nat by lia. discriminate.
  - destruct (Nat.eqb_spec n 0); [discriminate|]. destruct (Nat.leb_spec 8 n); [|apply add_bits_ended].
    destruct s as [|c s]; [|destruct (c =? 0)]; (apply ended_bind; [apply add_bits_ended|intros o1 _; apply IH; lia]).
Qed.
Lemma append_chars_ended p b n o : ended (append_chars p b n o).
Proof. unfold append_chars. destruct (_ && _); [discriminate|]. apply string_loop_ended. apply le_n. Qed.
Lemma binary_loop_ended p : forall fuel n s o, (n <= fuel)%nat -> ended (append_binary_loop p fuel n s o).
Proof.
  induction fuel as [|k IH]; intros n s o L; cbn [append_binary_loop].
  - replace n with 0%nat by lia. discriminate.
  - destruct (Nat.eqb_spec n 0); [discriminate|]. destruct s as [|c s]; [discriminate|]. destruct (Nat.leb_spec 8 n); [|apply add_bits_ended].
    apply ended_bind; [apply add_bits_ended|intros o1 _; apply IH; lia].
Qed.
Lemma append_binary_ended p b n o : ended (append_binary p b n o).
Proof. apply binary_loop_ended. apply le_n. Qed.
Lemma enqd_ended c : ended (enqd c).
Proof. unfold enqd. en. Qed.
Lemma encode_binary_ended i d : ended (encode_binary i d).
Proof. unfold encode_binary, f_to_unsigned, f_to_Z_range. en. Qed.
#[local] Hint Resolve append_chars_ended append_binary_ended enqd_ended encode_binary_ended enqc_ended enqi_ended : ended.
Lemma append_var_ended p i c o : ended (append_var p i c o).
Proof. unfold append_var, append_missing. en. Qed.
#[local] Hint Resolve append_var_ended : ended.
Lemma put_bitmap_ended p : forall chars out, ended (put_bitmap p chars out).
Proof. induction chars as [|c r IH]; intros out; cbn [put_bitmap]; en. Qed.
#[local] Hint Resolve put_bitmap_ended : ended.
Lemma put_ended s m : ended m -> ended (e_put s m).
Proof. intros H. unfold e_put. en. Qed.

Lemma encoder_ends p o T vars : options_end o -> visitor_ends (encoder p o T vars).
Proof.
  intros O. pose proof (fun c v => seti_ended o O c v) as S1.
  assert (G : forall n, ended (get_var vars n)) by (intros; unfold get_var; en).
  assert (N : forall s, ended (e_next vars s)) by (intros; unfold e_next; en).
  assert (A : forall i n c s, ended (e_attr_code p vars i n c s)) by (intros; unfold e_attr_code, append_missing, e_put; en).
  constructor; intros; cbn [encoder on_var on_var_af on_factor on_bitmap_factor on_significance on_subst on_attr on_raw on_refval
    on_bitmap on_unknown]; unfold e_var, e_var_af, e_af, get_attribute, af_code, e_factor, e_bitmap_factor, e_significance, e_subst, e_attr, e_raw, e_refval, find_ref,
    bit_width, e_bitmap, bitmap_chars, e_unknown, e_put, append_missing; en.
Qed.

Theorem encoding_ends p o T ops : options_end o -> well_founded (within T) ->
  exists N, forall fuel subsets lt out, (N <= fuel)%nat ->
    encode_subsets p o T fuel ops subsets lt out = encode_subsets p o T N ops subsets lt out /\
    ended (encode_subsets p o T fuel ops subsets lt out).
Proof.
  intros O W. destruct (template_done T ops W) as (N1 & D). destruct (template_settles T ops W) as (N2 & P).
  exists (N1 + N2)%nat. intros fuel subsets lt out L.
  assert (R1 : forall S (V : visitor S) x, run V T fuel ops x = run V T (N1 + N2) ops x)
    by (intros S V x; rewrite (P S V fuel), (P S V (N1 + N2)%nat) by lia; reflexivity).
  assert (R2 : forall S (V : visitor S) x, visitor_ends V -> ended (run V T fuel ops x)) by (intros S V x E; apply D; auto; lia).
  revert lt out. induction subsets as [|vars rest IH]; intros lt out; cbn [encode_subsets]; [split; [auto|discriminate]|].
  rewrite <- R1. pose proof (R2 _ (encoder p o T vars) (ist_init, mkenc 0 out lt) (encoder_ends p o T vars O)) as E.
  destruct (run (encoder p o T vars) T fuel ops (ist_init, mkenc 0 out lt)) as [[st s]|e|]; cbn [bind];
    [|split; [auto|unfold ended in *; congruence]|split; [auto|discriminate]].
  apply IH.
Qed.

(** ** The library's encoder throws no EAlloc, if the hook does not *)
Definition quiet {A} (m : res A) : Prop := m <> Err EAlloc.
Definition not_alloc (e : err) : bool := match e with EAlloc => false | _ => true end.
Definition outcome_quiet {A} (r : outcome A) : Prop := match r with Thrown e _ => not_alloc e = true | _ => True end.
Definition hook_quiet (o : options) : Prop := match o_hook o with None => True | Some h => forall c v, outcome_quiet (h c v) end.
Lemma quiet_bind {A B} (m : res A) (k : A -> res B) : quiet m -> (forall a, quiet (k a)) -> quiet (bind m k).
Proof. unfold quiet. destruct m; cbn [bind]; intros H1 H2; auto; congruence. Qed.
Lemma of_outcome_quiet {A} (r : outcome A) : outcome_quiet r -> quiet (of_outcome r).
Proof. destruct r as [a|e c|]; unfold quiet; cbn [of_outcome outcome_quiet]; intros H; try discriminate. intros [= ->]. discriminate. Qed.
Ltac qt_step :=
  match goal with
  | |- quiet (Ok _) => discriminate
  | |- quiet UB => discriminate
  | |- quiet (Err _) => discriminate
  | |- quiet (bind _ _) => apply quiet_bind; [|intros ?]
  | |- quiet (of_outcome _) => apply of_outcome_quiet
  | |- quiet (let (_, _) := ?x in _) => destruct x
  | |- quiet (if ?b then _ else _) => destruct b
  | |- quiet (match ?x with _ => _ end) => destruct x
  | |- outcome_quiet (Done _) => exact I
  | |- outcome_quiet Undef => exact I
  | |- outcome_quiet (Thrown _ _) => reflexivity
  | |- outcome_quiet (let (_, _) := ?x in _) => destruct x
  | |- outcome_quiet (if ?b then _ else _) => destruct b
  | |- outcome_quiet (match ?x with _ => _ end) => destruct x
  end.
Ltac qt := repeat (cbv zeta; qt_step || (solve [eauto with quiet])).

Lemma query_quiet t code : quiet (query t code).
Proof. unfold query, query_entry. destruct (find_code_spec (map be_code t) code) as (r & -> & _). unfold entry_at. qt. Qed.
Lemma contains_quiet t code : quiet (contains t code).
Proof. unfold contains, query_entry. destruct (find_code_spec (map be_code t) code) as (r & -> & _). unfold entry_at. qt. Qed.
Lemma dexpand_quiet d code : quiet (dexpand d code).
Proof. unfold dexpand, dquery. match goal with |- context [find_code ?l code] => destruct (find_code_spec l code) as (r & -> & _) end. qt. Qed.
Lemma scales_quiet i : quiet (scales i).
Proof. unfold scales. qt. Qed.
Lemma int_checked_quiet z : quiet (int_checked z).
Proof. unfold int_checked. qt. Qed.
Lemma intexp10_quiet z : quiet (intexp10 z).
Proof. unfold intexp10. qt. Qed.
#[local] Hint Resolve query_quiet contains_quiet dexpand_quiet scales_quiet int_checked_quiet intexp10_quiet : quiet.
Lemma decode_decimal_quiet s v : quiet (decode_decimal s v).
Proof. unfold decode_decimal. qt. Qed.
#[local] Hint Resolve decode_decimal_quiet : quiet.
Lemma compute_range_quiet c t u s l r b : quiet (compute_range c t u s l r b).
Proof. unfold compute_range, compute_irange. qt. Qed.
#[local] Hint Resolve compute_range_quiet : quiet.
Lemma alter_checked_quiet i s b r : quiet (alter_checked i s b r).
Proof. unfold alter_checked, alter_info, digits_per_bits. qt. Qed.
#[local] Hint Resolve alter_checked_quiet : quiet.
Lemma expected_quiet t r : quiet (expected t r).
Proof. unfold expected. qt. Qed.
#[local] Hint Resolve alter_checked_quiet expected_quiet : quiet.
Lemma get_varinfo_quiet t st code : quiet (get_varinfo t st code).
Proof. unfold get_varinfo. qt. Qed.
Lemma get_unknown_quiet l c b : quiet (get_unknown l c b).
Proof. unfold get_unknown, set_binary. qt. Qed.
Lemma shl1_quiet p k : quiet (shl1 p k).
Proof. unfold shl1. qt. Qed.
#[local] Hint Resolve get_varinfo_quiet get_unknown_quiet shl1_quiet : quiet.
Lemma add_bits_quiet p v n o : quiet (add_bits p v n o).
Proof. unfold add_bits. qt. Qed.
#[local] Hint Resolve add_bits_quiet : quiet.
Lemma string_loop_quiet p : forall fuel n s o, quiet (append_string_loop p fuel n s o).
Proof. induction fuel as [|k IH]; intros n s o; cbn [append_string_loop]; unfold append_byte; qt. Qed.
Lemma binary_loop_quiet p : forall fuel n s o, quiet (append_binary_loop p fuel n s o).
Proof. induction fuel as [|k IH]; intros n s o; cbn [append_binary_loop]; unfold append_byte; qt. Qed.
#[local] Hint Resolve string_loop_quiet binary_loop_quiet : quiet.
Lemma append_chars_quiet p b n o : quiet (append_chars p b n o).
Proof. unfold append_chars, append_string. qt. Qed.
Lemma append_binary_quiet p b n o : quiet (append_binary p b n o).
Proof. unfold append_binary. qt. Qed.
Lemma enqd_quiet c : quiet (enqd c).
Proof. unfold enqd. qt. Qed.
Lemma enqi_quiet c : quiet (enqi c).
Proof. unfold enqi. qt. Qed.
Lemma enqc_quiet c : quiet (enqc c).
Proof. unfold enqc, int32_to_str, uint32_to_str. qt. Qed.
Lemma encode_binary_quiet i d : quiet (encode_binary i d).
Proof. unfold encode_binary, f_to_unsigned, f_to_Z_range. qt. Qed.
#[local] Hint Resolve append_chars_quiet append_binary_quiet enqd_quiet enqi_quiet enqc_quiet encode_binary_quiet : quiet.
Lemma append_var_quiet p i c o : quiet (append_var p i c o).
Proof. unfold append_var, append_missing. qt. Qed.
#[local] Hint Resolve append_var_quiet : quiet.
Lemma put_bitmap_quiet p : forall chars out, quiet (put_bitmap p chars out).
Proof. induction chars as [|c r IH]; intros out; cbn [put_bitmap]; qt. Qed.
#[local] Hint Resolve put_bitmap_quiet : quiet.
Lemma seti_quiet o c v : hook_quiet o -> outcome_quiet (seti o c v).
Proof.
  unfold hook_quiet, seti, assign_i_checked. intros H. destruct (o_hook o) as [h|]; qt. all: apply H.
Qed.

Lemma next_quiet st : quiet (bitmaps_next st).
Proof. unfold bitmaps_next. qt. Qed.
Lemma walk_quiet codes r : forall n, quiet (bitmap_walk codes r n).
Proof. induction r as [|b r IH]; intros n; cbn [bitmap_walk]; qt. Qed.
#[local] Hint Resolve next_quiet walk_quiet : quiet.
Lemma define_quiet st codes bits : quiet (bitmaps_define st codes bits).
Proof.
  unfold bitmaps_define. assert (M : quiet (make_bitmap codes bits)) by (unfold make_bitmap; qt).
  destruct (make_bitmap codes bits); try discriminate. destruct (is_cur st); [discriminate|]. unfold quiet in *. congruence.
Qed.
#[local] Hint Resolve define_quiet : quiet.
Section Quiet.
Context {S : Type} (V : visitor S) (T : tables).
Context (H1 : forall i s, quiet (on_var V i s)).
Context (H2 : forall b g i s, quiet (on_var_af V b g i s)).
Context (H3 : forall i s, quiet (on_factor V i s)).
Context (H4 : forall i s, quiet (on_bitmap_factor V i s)).
Context (H5 : forall i s, quiet (on_significance V i s)).
Context (H6 : forall p s, quiet (on_subst V p s)).
Context (H7 : forall i p s, quiet (on_attr V i p s)).
Context (H8 : forall c s, quiet (on_raw V c s)).
Context (H9 : forall b c s, quiet (on_refval V b c s)).
Context (H10 : forall p n s, quiet (on_bitmap V p n s)).
Context (H11 : forall c b s, quiet (on_unknown V c b s)).
Lemma repeat_quiet {A} (f : A -> res A) : (forall a, quiet (f a)) -> forall n a, quiet (repeat_m n f a).
Proof. intros F. induction n as [|n IH]; intros a; cbn [repeat_m]; [discriminate|]. apply quiet_bind; auto. Qed.
Lemma run_quiet : forall fuel ops x, quiet (run V T fuel ops x).
Proof.
  induction fuel as [|k IH]; intros ops [st s]; [discriminate|]. destruct ops as [|cur rest]; [discriminate|]. cbn [run].
  destruct (var_f cur =? 0).
  { apply quiet_bind; [unfold b_variable; qt|]. intros a. apply IH. }
  destruct (var_f cur =? 1).
  { destruct (delayed_code cur rest) as [d rest1]. cbv zeta. destruct (Nat.ltb _ _); [discriminate|].
    apply quiet_bind; [|intros a; apply IH]. cbn [fst]. destruct (is_pending st =? 0); [unfold r_replication|unfold r_bitmap].
    - apply quiet_bind; [qt|]. intros [n s1]. apply repeat_quiet. intros a. apply IH.
    - qt. }
  destruct (var_f cur =? 2).
  { apply quiet_bind; [|intros [[r st'] s']; apply IH]. unfold c_modifier, pop_left. qt. }
  apply quiet_bind; [qt|]. intros body. apply quiet_bind; [apply IH|]. intros a. apply IH.
Qed.
End Quiet.

Lemma encoder_quiet p o T vars fuel ops x : hook_quiet o -> quiet (run (encoder p o T vars) T fuel ops x).
Proof.
  intros Hq. pose proof (fun c v => seti_quiet o c v Hq) as S1.
  assert (G : forall n, quiet (get_var vars n)) by (intros; unfold get_var; qt).
  assert (N : forall s, quiet (e_next vars s)) by (intros; unfold e_next; qt).
  assert (A : forall i n c s, quiet (e_attr_code p vars i n c s)) by (intros; unfold e_attr_code, append_missing, e_put; qt).
  apply run_quiet; intros; cbn [encoder on_var on_var_af on_factor on_bitmap_factor on_significance on_subst on_attr on_raw on_refval
    on_bitmap on_unknown]; unfold e_var, e_var_af, e_af, get_attribute, af_code, e_factor, e_bitmap_factor, e_significance, e_subst, e_attr, e_raw, e_refval, find_ref,
    bit_width, e_bitmap, bitmap_chars, e_unknown, e_put, append_missing; qt.
Qed.
Lemma subsets_quiet p o T fuel ops : hook_quiet o -> forall subsets lt out, quiet (encode_subsets p o T fuel ops subsets lt out).
Proof.
  intros Hq. induction subsets as [|vars rest IH]; intros lt out; cbn [encode_subsets]; [discriminate|].
  apply quiet_bind; [apply encoder_quiet; exact Hq|]. intros [st s]. apply IH.
Qed.

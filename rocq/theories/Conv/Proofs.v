(** Conversion of units. *)
From Coq Require Import String QArith Qreals Reals Lra Psatz ZifyBool ZifyNat Permutation Sorting.Sorted Ascii.
From Flocq Require Import Core BinarySingleNaN.
From Verif Require Import Base Num.Float Num.FloatProofs Conv.Model Conv.Spec.
Local Open Scope Z_scope.

(** ** Order of strings *)
Lemma code_inj c d : code c = code d -> c = d.
Proof. unfold code. intros H. apply N2Z.inj in H. rewrite <- (ascii_N_embedding c), <- (ascii_N_embedding d), H. reflexivity. Qed.
Lemma strcmp_antisym a : forall b, strcmp b a = - strcmp a b.
Proof.
  induction a as [|c a IH]; intros [|d b]; cbn [strcmp]; try reflexivity.
  destruct (code c <? code d) eqn:E1, (code d <? code c) eqn:E2; try reflexivity; [lia|apply IH].
Qed.
Lemma strcmp_eq a : forall b, strcmp a b = 0 <-> a = b.
Proof.
  induction a as [|c a IH]; intros [|d b]; cbn [strcmp]; split; intros H; try reflexivity; try discriminate.
  - destruct (code c <? code d) eqn:E1; [discriminate|]. destruct (code d <? code c) eqn:E2; [discriminate|].
    apply IH in H. subst. f_equal. apply code_inj. lia.
  - injection H as -> ->. rewrite Z.ltb_irrefl. apply IH. reflexivity.
Qed.
Lemma strcmp_trans a : forall b c, strcmp a b < 0 -> strcmp b c < 0 -> strcmp a c < 0.
Proof.
  induction a as [|x a IH]; intros [|y b] [|z c]; cbn [strcmp]; try lia.
  destruct (code x <? code y) eqn:E1.
  - destruct (code y <? code z) eqn:E2; [replace (code x <? code z) with true by lia; lia|].
    destruct (code z <? code y) eqn:E3; [lia|]. replace (code x <? code z) with true by lia. lia.
  - destruct (code y <? code x) eqn:E2; [lia|]. assert (E : code x = code y) by lia. rewrite E.
    destruct (code y <? code z); [lia|]. destruct (code z <? code y); [lia|]. apply IH.
Qed.

(** Order of pairs of names. *)
Definition pair_cmp (a b : string * string) : Z :=
  if negb (strcmp (fst a) (fst b) =? 0) then strcmp (fst a) (fst b)
  else if negb (strcmp (snd a) (snd b) =? 0) then strcmp (snd a) (snd b) else 0.
Definition names (c : conv) : string * string := (cv_from c, cv_to c).
Lemma conv_compare_pair c from to : conv_compare c from to = pair_cmp (names c) (from, to).
Proof. reflexivity. Qed.

Lemma pair_antisym a b : pair_cmp b a = - pair_cmp a b.
Proof.
  unfold pair_cmp. rewrite (strcmp_antisym (fst a)), (strcmp_antisym (snd a)).
  destruct (strcmp (fst a) (fst b) =? 0) eqn:E1; replace (- strcmp (fst a) (fst b) =? 0) with (strcmp (fst a) (fst b) =? 0) by lia; rewrite E1; cbn [negb];
    [|reflexivity].
  destruct (strcmp (snd a) (snd b) =? 0) eqn:E2; replace (- strcmp (snd a) (snd b) =? 0) with (strcmp (snd a) (snd b) =? 0) by lia; rewrite E2; reflexivity.
Qed.
Lemma pair_eq a b : pair_cmp a b = 0 <-> a = b.
Proof.
  unfold pair_cmp. destruct a as [a1 a2], b as [b1 b2]. cbn [fst snd]. split.
  - destruct (strcmp a1 b1 =? 0) eqn:E1; cbn [negb]; [|lia]. destruct (strcmp a2 b2 =? 0) eqn:E2; cbn [negb]; [|lia]. intros _.
    f_equal; apply strcmp_eq; lia.
  - intros H. injection H as -> ->. replace (strcmp b1 b1) with 0 by (symmetry; apply strcmp_eq; reflexivity).
    replace (strcmp b2 b2) with 0 by (symmetry; apply strcmp_eq; reflexivity). reflexivity.
Qed.
Lemma pair_trans a b c : pair_cmp a b < 0 -> pair_cmp b c < 0 -> pair_cmp a c < 0.
Proof.
  unfold pair_cmp. destruct a as [a1 a2], b as [b1 b2], c as [c1 c2]. cbn [fst snd].
  pose proof (strcmp_trans a1 b1 c1) as T1. pose proof (strcmp_trans a2 b2 c2) as T2.
  destruct (strcmp a1 b1 =? 0) eqn:E1; cbn [negb].
  - assert (a1 = b1) by (apply strcmp_eq; lia). subst b1. destruct (strcmp a1 c1 =? 0) eqn:E2; cbn [negb]; [|auto].
    destruct (strcmp a2 b2 =? 0) eqn:E3; cbn [negb]; [lia|]. destruct (strcmp b2 c2 =? 0) eqn:E4; cbn [negb]; [lia|].
    intros. destruct (strcmp a2 c2 =? 0) eqn:E5; cbn [negb]; lia.
  - destruct (strcmp b1 c1 =? 0) eqn:E2; cbn [negb].
    + assert (b1 = c1) by (apply strcmp_eq; lia). subst c1. rewrite E1. cbn [negb]. auto.
    + intros. destruct (strcmp a1 c1 =? 0) eqn:E5; cbn [negb]; lia.
Qed.
Lemma pair_le_trans a b c : pair_cmp a b <= 0 -> pair_cmp b c <= 0 -> pair_cmp a c <= 0.
Proof.
  intros H1 H2. destruct (Z.eq_dec (pair_cmp a b) 0) as [E1|]; [apply pair_eq in E1; subst; auto|].
  destruct (Z.eq_dec (pair_cmp b c) 0) as [E2|]; [apply pair_eq in E2; subst; auto|].
  pose proof (pair_trans a b c). lia.
Qed.

(** ** Binary search *)
Section Find.
Context (repo : list conv).
Hypothesis sorted : Sorted (fun a b => conv_lt b a = false) repo.

Lemma repo_nth i j a b : (i <= j)%nat -> nth_error repo i = Some a -> nth_error repo j = Some b -> pair_cmp (names a) (names b) <= 0.
Proof.
  assert (S1 : StronglySorted (fun a b => pair_cmp (names a) (names b) <= 0) repo).
  { apply Sorted_StronglySorted.
    - intros x y z. apply pair_le_trans.
    - eapply Sorted_ind with (P := Sorted (fun a b => pair_cmp (names a) (names b) <= 0)); [constructor| |exact sorted].
      intros x l _ IH H. constructor; [exact IH|]. destruct H as [|y l H]; constructor. unfold conv_lt in H.
      rewrite conv_compare_pair in H. change (cv_from x, cv_to x) with (names x) in H. pose proof (pair_antisym (names x) (names y)). lia. }
  clear sorted. revert i j. induction S1 as [|x l S1 IH F]; intros i j L H1 H2; [destruct i; discriminate|].
  destruct i as [|i].
  - cbn in H1. injection H1 as ->. destruct j as [|j]; cbn in H2.
    + injection H2 as ->. replace (pair_cmp (names b) (names b)) with 0 by (symmetry; apply pair_eq; reflexivity). lia.
    + apply nth_error_In in H2. rewrite Forall_forall in F. auto.
  - destruct j as [|j]; [lia|]. cbn in H1, H2. eapply IH; [|exact H1|exact H2]. lia.
Qed.

Definition below (k : string * string) (b : Z) : Prop :=
  forall i c, nth_error repo i = Some c -> Z.of_nat i <= b -> pair_cmp (names c) k <= 0.
Definition above (k : string * string) (e : Z) : Prop :=
  forall i c, nth_error repo i = Some c -> e <= Z.of_nat i -> 0 < pair_cmp (names c) k.

Lemma find_loop_ok from to fuel : forall b e, -1 <= b -> b < e <= Z.of_nat (length repo) -> (Z.to_nat (e - b) <= fuel)%nat ->
  below (from, to) b -> above (from, to) e ->
  let r := find_loop repo fuel from to b e in
  -1 <= r < Z.of_nat (length repo) /\ below (from, to) r /\ above (from, to) (r + 1).
Proof.
  induction fuel as [|k IH]; intros b e Hb He Hf B A; [lia|]. cbn [find_loop].
  destruct (e - b >? 1) eqn:E; [|split; [lia|split; [exact B|replace (b + 1) with e by lia; exact A]]].
  assert (Q : Z.quot (e + b) 2 = (e + b) / 2) by (apply Z.quot_div_nonneg; lia). rewrite Q. clear Q.
  set (cur := (e + b) / 2). assert (Hc : b < cur < e) by (unfold cur; pose proof (Z.div_mod (e + b) 2 ltac:(lia)); pose proof (Z.mod_pos_bound (e + b) 2 ltac:(lia)); lia).
  destruct (nth_error repo (Z.to_nat cur)) as [c|] eqn:N.
  2:{ apply nth_error_None in N. lia. }
  rewrite conv_compare_pair. destruct (pair_cmp (names c) (from, to) >? 0) eqn:C.
  - apply IH; [lia|lia|lia|exact B|]. intros i d Hi Li. assert (L : (Z.to_nat cur <= i)%nat) by lia.
    pose proof (repo_nth _ _ _ _ L N Hi) as R. destruct (Z_lt_le_dec 0 (pair_cmp (names d) (from, to))); [auto|].
    pose proof (pair_le_trans _ _ _ R l). lia.
  - apply IH; [lia|lia|lia| |exact A]. intros i d Hi Li. assert (L : (i <= Z.to_nat cur)%nat) by lia.
    pose proof (repo_nth _ _ _ _ L Hi N) as R. eapply pair_le_trans; [exact R|lia].
Qed.

Lemma repo_find_ok from to :
  match repo_find repo from to with
  | Some c => In (mkconv from to c) repo
  | None => forall c, ~ In (mkconv from to c) repo
  end.
Proof.
  unfold repo_find.
  destruct (find_loop_ok from to (S (S (length repo))) (-1) (Z.of_nat (length repo))) as (R & B & A); [lia|lia|lia| | |].
  { intros i c _ H. lia. }
  { intros i c H L. apply nth_error_Some_length in H || (assert (nth_error repo i <> None) by congruence; apply nth_error_Some in H0; lia). }
  set (r := find_loop _ _ _ _ _ _) in *.
  destruct (r =? -1) eqn:E.
  - intros c I. apply In_nth_error in I as [i I]. specialize (A i _ I ltac:(lia)).
    replace (pair_cmp (names (mkconv from to c)) (from, to)) with 0 in A by (symmetry; apply pair_eq; reflexivity). lia.
  - destruct (nth_error repo (Z.to_nat r)) as [d|] eqn:N; [|apply nth_error_None in N; lia].
    rewrite conv_compare_pair. destruct (pair_cmp (names d) (from, to) =? 0) eqn:C; cbn [negb].
    + assert (P : names d = (from, to)) by (apply pair_eq; lia). destruct d as [f t cv]. cbn in *. injection P as -> ->.
      eapply nth_error_In; eauto.
    + intros c I. apply In_nth_error in I as [i I].
      assert (Z0 : pair_cmp (names (mkconv from to c)) (from, to) = 0) by (apply pair_eq; reflexivity).
      destruct (Z_le_gt_dec (Z.of_nat i) r) as [L|L].
      * assert (L' : (i <= Z.to_nat r)%nat) by lia. pose proof (repo_nth _ _ _ _ L' I N) as H.
        assert (E0 : names (mkconv from to c) = (from, to)) by reflexivity. rewrite E0 in H.
        pose proof (pair_antisym (names d) (from, to)). specialize (B (Z.to_nat r) d N ltac:(lia)). lia.
      * specialize (A i _ I ltac:(lia)). lia.
Qed.
End Find.

Lemma lookup repo from to : sorted_repo repo ->
  match repo_find repo from to with
  | Some c => In (mkconv from to c) repo0
  | None => forall c, ~ In (mkconv from to c) repo0
  end.
Proof.
  intros [P S1]. pose proof (repo_find_ok repo S1 from to) as H. destruct (repo_find repo from to).
  - eapply Permutation_in; [apply Permutation_sym, P|exact H].
  - intros c I. apply (H c). eapply Permutation_in; eauto.
Qed.

(** ** A sort *)
Fixpoint insert (c : conv) (l : list conv) : list conv :=
  match l with
  | [] => [c]
  | d :: r => if conv_lt d c then d :: insert c r else c :: l
  end.
Definition sort_repo (l : list conv) : list conv := fold_right insert [] l.
Lemma insert_perm c l : Permutation (c :: l) (insert c l).
Proof.
  induction l as [|d l IH]; cbn [insert]; [auto|]. destruct (conv_lt d c); [|auto].
  eapply perm_trans; [apply perm_swap|]. constructor. exact IH.
Qed.
Lemma sort_perm l : Permutation l (sort_repo l).
Proof. induction l as [|c l IH]; cbn [sort_repo fold_right]; [auto|]. eapply perm_trans; [constructor; exact IH|apply insert_perm]. Qed.
Lemma lt_asym a b : conv_lt a b = true -> conv_lt b a = false.
Proof.
  unfold conv_lt. rewrite !conv_compare_pair. change (cv_from b, cv_to b) with (names b). change (cv_from a, cv_to a) with (names a).
  pose proof (pair_antisym (names a) (names b)). lia.
Qed.
Lemma insert_sorted c l : Sorted (fun a b => conv_lt b a = false) l -> Sorted (fun a b => conv_lt b a = false) (insert c l).
Proof.
  induction 1 as [|d l S1 IH H]; cbn [insert]; [repeat constructor|]. destruct (conv_lt d c) eqn:E.
  - constructor; [exact IH|]. destruct l as [|e l]; cbn [insert]; [constructor; apply lt_asym, E|]. apply HdRel_inv in H.
    destruct (conv_lt e c); constructor; [exact H|apply lt_asym, E].
  - constructor; [constructor; auto|]. constructor. exact E.
Qed.
Lemma sort_sorted l : Sorted (fun a b => conv_lt b a = false) (sort_repo l).
Proof. induction l as [|c l IH]; cbn [sort_repo fold_right]; [constructor|]. apply insert_sorted, IH. Qed.
Lemma sort_is_sorted : sorted_repo (sort_repo repo0).
Proof. split; [apply sort_perm|apply sort_sorted]. Qed.

(** ** Values of doubles *)
Lemma f2q_ok x : is_finite x = true -> B2R x = Q2R (f2q x).
Proof.
  destruct x as [s|s| |s m e p]; intros F; try discriminate; cbn [B2R f2q].
  - unfold Q2R. cbn. lra.
  - unfold F2R. cbn [Fnum Fexp]. replace (SpecFloat.cond_Zopp s (Z.pos m)) with (if s then Z.neg m else Z.pos m) by (destruct s; reflexivity).
    set (z := if s then Z.neg m else Z.pos m). destruct (0 <=? e) eqn:E.
    + unfold Q2R, inject_Z. cbn [Qnum Qden]. rewrite mult_IZR. change (2 ^ e) with (radix2 ^ e). rewrite IZR_Zpower by lia. lra.
    + unfold Q2R. cbn [Qnum Qden]. f_equal.
      replace e with (- (- e)) at 1 by lia. rewrite bpow_opp, <- (IZR_Zpower radix2 (- e)) by lia. f_equal. f_equal.
      change (Z.pos (2 ^ Z.to_pos (- e))) with (Z.pos (Pos.pow 2 (Z.to_pos (- e)))). rewrite Pos2Z.inj_pow, Z2Pos.id by lia. reflexivity.
Qed.

Local Open Scope R_scope.

Definition small : R := / 1e40.

(** A conversion that multiplies by [m]. *)
Definition scales (c : convert) (m : R) : Prop :=
  forall x, is_finite x = true -> Rabs (B2R x) <= 1e60 ->
  exists y, do_convert c x = Ok y /\ is_finite y = true /\ Rabs (B2R y - B2R x * m) <= uu * Rabs (B2R x * m) + eta.

Definition zero (a : f64) : bool := match a with B754_zero _ => true | _ => false end.

Lemma linear_scales mul add : is_finite mul = true -> Rabs (B2R mul) <= 1e20 -> zero add = true -> scales (CLinear mul add) (B2R mul).
Proof.
  intros Fm Bm Z0 x Fx Bx. cbn [do_convert]. eexists. split; [reflexivity|].
  assert (B : Rabs (B2R x * B2R mul) <= 1e80).
  { rewrite Rabs_mult. pose proof (Rabs_pos (B2R x)). pose proof (Rabs_pos (B2R mul)). nra. }
  assert (B' : Rabs (B2R x * B2R mul) <= big) by (pose proof big_ge; lra).
  destruct (fmul_ok x mul Fx Fm B') as [Fp Ep].
  destruct add as [s|s| |s m e p]; try discriminate.
  assert (E0 : B2R (B754_zero s : f64) = 0) by reflexivity.
  pose proof (rnd_err (B2R x * B2R mul)) as RE.
  assert (Bs : Rabs (B2R (fmul x mul) + B2R (B754_zero s : f64)) <= big).
  { rewrite E0, Rplus_0_r, Ep. pose proof big_ge.
    replace (rnd (B2R x * B2R mul)) with ((rnd (B2R x * B2R mul) - B2R x * B2R mul) + B2R x * B2R mul) by ring.
    eapply Rle_trans; [apply Rabs_triang|]. unfold uu, eta in RE. lra. }
  destruct (fadd_ok (fmul x mul) (B754_zero s) Fp eq_refl Bs) as [Fa Ea]. split; [exact Fa|]. rewrite Ea, E0, Rplus_0_r, rnd_generic, Ep; [exact RE|].
  rewrite <- fexp_eq. apply generic_format_B2R.
Qed.
Lemma ident_scales : scales CIdent 1.
Proof.
  intros x Fx Bx. exists x. split; [reflexivity|]. split; [exact Fx|]. rewrite Rmult_1_r, Rminus_diag_eq by reflexivity. rewrite Rabs_R0.
  pose proof (Rabs_pos (B2R x)). unfold uu, eta. lra.
Qed.

Lemma scales_back c1 c2 m1 m2 d x : scales c1 m1 -> scales c2 m2 -> Rabs m1 <= 1e12 -> Rabs m2 <= 1e12 ->
  Rabs (m1 * m2 - 1) <= d -> d <= / 10000 ->
  is_finite x = true -> Rabs (B2R x) <= 1e40 ->
  exists y z, do_convert c1 x = Ok y /\ do_convert c2 y = Ok z /\ is_finite z = true /\
    Rabs (B2R z - B2R x) <= (d + 3 * uu) * Rabs (B2R x) + small.
Proof.
  intros H1 H2 B1 B2 D Dd Fx Bx. destruct (H1 x Fx ltac:(lra)) as (y & E1 & F1 & R1).
  set (X := B2R x) in *. set (Y := B2R y) in *.
  assert (BX : Rabs (X * m1) <= 1e52). { rewrite Rabs_mult. pose proof (Rabs_pos X). pose proof (Rabs_pos m1). nra. }
  assert (BY : Rabs Y <= 1e53).
  { replace Y with ((Y - X * m1) + X * m1) by ring. eapply Rle_trans; [apply Rabs_triang|]. unfold uu, eta in R1. lra. }
  destruct (H2 y F1 ltac:(fold Y; lra)) as (z & E2 & F2 & R2). fold Y in R2. exists y, z. split; [exact E1|]. split; [exact E2|]. split; [exact F2|].
  set (W := B2R z) in *.
  replace (W - X) with ((W - Y * m2) + ((Y - X * m1) * m2 + X * (m1 * m2 - 1))) by ring.
  assert (P : Rabs ((Y - X * m1) * m2) <= (uu * Rabs (X * m1) + eta) * Rabs m2).
  { rewrite Rabs_mult. apply Rmult_le_compat_r; [apply Rabs_pos|exact R1]. }
  assert (M : Rabs (X * m1) * Rabs m2 <= Rabs X * (1 + d)).
  { rewrite <- Rabs_mult, Rmult_assoc, Rabs_mult. apply Rmult_le_compat_l; [apply Rabs_pos|].
    replace (m1 * m2) with ((m1 * m2 - 1) + 1) by ring. eapply Rle_trans; [apply Rabs_triang|]. rewrite Rabs_R1. lra. }
  assert (N : Rabs (Y * m2) <= Rabs X * (1 + d) * (1 + uu) + eta * 1e12).
  { replace (Y * m2) with ((Y - X * m1) * m2 + X * m1 * m2) by ring. eapply Rle_trans; [apply Rabs_triang|].
    rewrite (Rabs_mult (X * m1)). pose proof (Rabs_pos m2). unfold uu, eta in *. nra. }
  assert (Q : Rabs (X * (m1 * m2 - 1)) <= Rabs X * d).
  { rewrite Rabs_mult. apply Rmult_le_compat_l; [apply Rabs_pos|exact D]. }
  eapply Rle_trans; [apply Rabs_triang|]. eapply Rle_trans; [apply Rplus_le_compat_l, Rabs_triang|].
  pose proof (Rabs_pos X) as PX. pose proof (Rabs_pos m2) as Pm.
  assert (P' : Rabs ((Y - X * m1) * m2) <= uu * (Rabs X * (1 + d)) + eta * 1e12).
  { eapply Rle_trans; [exact P|]. rewrite Rmult_plus_distr_r, Rmult_assoc. apply Rplus_le_compat.
    - apply Rmult_le_compat_l; [unfold uu; lra|exact M].
    - apply Rmult_le_compat_l; [unfold eta; lra|exact B2]. }
  assert (PD : Rabs X * d <= Rabs X * / 10000) by (apply Rmult_le_compat_l; auto).
  unfold uu, eta, small in *. nra.
Qed.

(** ** Checks of all the entries *)
Definition mul_of (c : convert) : option Q :=
  match c with
  | CIdent => Some 1%Q
  | CLinear mul add => if zero add && is_finite mul then Some (f2q mul) else None
  | CFunction _ => None
  end.
Definition qabs (q : Q) : Q := if Qle_bool 0 q then q else (- q)%Q.
Lemma qabs_ok q : Q2R (qabs q) = Rabs (Q2R q).
Proof.
  unfold qabs. destruct (Qle_bool 0 q) eqn:E.
  - apply Qle_bool_iff in E. apply Qle_Rle in E. rewrite RMicromega.Q2R_0 in E. rewrite Rabs_pos_eq; auto.
  - rewrite Q2R_opp. rewrite Rabs_left1; [reflexivity|]. apply Rnot_lt_le. intros H.
    assert (H' : Qle_bool 0 q = true) by (apply Qle_bool_iff, Rle_Qle; rewrite RMicromega.Q2R_0; lra). congruence.
Qed.

Lemma mul_scales c m : mul_of c = Some m -> Qle_bool (qabs m) 1000000000000 = true -> scales c (Q2R m).
Proof.
  intros H B. destruct c as [|mul add|f]; cbn [mul_of] in H.
  - injection H as <-. replace (Q2R 1) with 1 by (unfold Q2R; cbn; lra). apply ident_scales.
  - destruct (zero add) eqn:Z0; [|discriminate]. destruct (is_finite mul) eqn:F; [|discriminate]. injection H as <-.
    rewrite <- f2q_ok by auto. apply linear_scales; auto. apply Qle_bool_iff, Qle_Rle in B. rewrite qabs_ok, <- f2q_ok in B by auto.
    unfold Q2R in B. cbn in B. lra.
  - discriminate.
Qed.

(** [m1 m2] is 1 within [d]. *)
Definition inverse_mul (d : Q) (c1 c2 : convert) : bool :=
  match mul_of c1, mul_of c2 with
  | Some m1, Some m2 => Qle_bool (qabs m1) 1000000000000 && Qle_bool (qabs m2) 1000000000000 && Qle_bool (qabs (m1 * m2 - 1)) d
  | _, _ => false
  end.
Definition swapped (a b : conv) : bool := String.eqb (cv_from a) (cv_to b) && String.eqb (cv_to a) (cv_from b).
Definition check_back (d : Q) (except : string -> string -> bool) : bool :=
  forallb (fun a => except (cv_from a) (cv_to a) || forallb (fun b => negb (swapped a b) || inverse_mul d (cv_conv a) (cv_conv b)) repo0) repo0.

Lemma check_back_ok d except repo from to x : check_back d except = true -> Qle_bool d (1 # 10000) = true ->
  sorted_repo repo -> except from to = false ->
  (exists c, In (mkconv from to c) repo0) -> (exists c, In (mkconv to from c) repo0) -> from <> to ->
  is_finite x = true -> Rabs (B2R x) <= 1e40 ->
  exists y z, convert_units repo from to x = Ok y /\ convert_units repo to from y = Ok z /\ is_finite z = true /\
    Rabs (B2R z - B2R x) <= (Q2R d + 3 * uu) * Rabs (B2R x) + small.
Proof.
  intros C Dd S1 Ex (c0 & I0) (c0' & I0') Ne Fx Bx.
  pose proof (lookup repo from to S1) as L1. pose proof (lookup repo to from S1) as L2.
  unfold convert_units.
  replace (strcmp from to =? 0)%Z with false by (symmetry; apply Z.eqb_neq; intros H; apply strcmp_eq in H; auto).
  replace (strcmp to from =? 0)%Z with false by (symmetry; apply Z.eqb_neq; intros H; apply strcmp_eq in H; auto).
  destruct (repo_find repo from to) as [c1|]; [|exfalso; exact (L1 c0 I0)].
  destruct (repo_find repo to from) as [c2|]; [|exfalso; exact (L2 c0' I0')].
  unfold check_back in C. rewrite forallb_forall in C. specialize (C _ L1). cbn [cv_from cv_to cv_conv] in C. rewrite Ex in C. cbn [orb] in C.
  rewrite forallb_forall in C. specialize (C _ L2). unfold swapped in C. cbn [cv_from cv_to cv_conv] in C. rewrite !String.eqb_refl in C. cbn [andb negb orb] in C.
  unfold inverse_mul in C. destruct (mul_of c1) as [m1|] eqn:M1; [|discriminate]. destruct (mul_of c2) as [m2|] eqn:M2; [|discriminate].
  apply andb_true_iff in C as [C C3]. apply andb_true_iff in C as [C1 C2].
  pose proof (mul_scales c1 m1 M1 C1) as H1. pose proof (mul_scales c2 m2 M2 C2) as H2.
  apply Qle_bool_iff, Qle_Rle in C1, C2, C3, Dd. rewrite qabs_ok in C1, C2, C3. rewrite Q2R_minus, Q2R_mult in C3.
  assert (K : Q2R 1000000000000 = 1e12) by (unfold Q2R; cbn; lra). assert (K1 : Q2R 1 = 1) by (unfold Q2R; cbn; lra).
  assert (K2 : Q2R (1 # 10000) = / 10000) by (unfold Q2R; cbn; lra).
  rewrite K in C1, C2. rewrite K1 in C3. rewrite K2 in Dd.
  destruct (scales_back c1 c2 (Q2R m1) (Q2R m2) (Q2R d) x H1 H2 C1 C2 C3 Dd Fx Bx) as (y & z & E1 & E2 & F2 & R2).
  exists y, z. rewrite E1, E2. auto.
Qed.

(** [m] is [a] / [b] within [d]. *)
Definition check_si (d : Q) (except : string -> string -> bool) : bool :=
  forallb (fun c => except (cv_from c) (cv_to c) ||
    existsb (fun q => match unit_of (snd q) (cv_from c), unit_of (snd q) (cv_to c), mul_of (cv_conv c) with
      | Some a, Some b, Some m => Qle_bool (1 # 10000000000) a && Qle_bool a 1000000000 && Qle_bool (1 # 10000000000) b && Qle_bool b 1000000000 &&
                                  Qle_bool (qabs m) 1000000000000 && Qle_bool (qabs (m - a / b)) (d * (a / b))
      | _, _, _ => false end) si_units) repo0.
Lemma check_si_ok d except repo from to x y : check_si d except = true -> 0 <= Q2R d <= 1 -> sorted_repo repo -> except from to = false -> from <> to ->
  convert_units repo from to x = Ok y -> is_finite x = true -> Rabs (B2R x) <= 1e40 ->
  exists quantity units a b, In (quantity, units) si_units /\ unit_of units from = Some a /\ unit_of units to = Some b /\
    is_finite y = true /\ Rabs (B2R y - B2R x * Q2R (a / b)) <= (Q2R d + 2 * uu) * Rabs (B2R x * Q2R (a / b)) + small.
Proof.
  intros C Dd S1 Ex Ne E Fx Bx. pose proof (lookup repo from to S1) as L1. unfold convert_units in E.
  replace (strcmp from to =? 0)%Z with false in E by (symmetry; apply Z.eqb_neq; intros H; apply strcmp_eq in H; auto).
  destruct (repo_find repo from to) as [c|]; [|discriminate].
  unfold check_si in C. rewrite forallb_forall in C. specialize (C _ L1). cbn [cv_from cv_to cv_conv] in C. rewrite Ex in C. cbn [orb] in C.
  apply existsb_exists in C as ([quantity units] & I & C). cbn [snd] in C.
  destruct (unit_of units from) as [a|] eqn:Ea; [|discriminate]. destruct (unit_of units to) as [b|] eqn:Eb; [|discriminate].
  destruct (mul_of c) as [m|] eqn:M; [|discriminate].
  repeat (apply andb_true_iff in C as [C ?H]).
  exists quantity, units, a, b. split; [exact I|]. split; [exact Ea|]. split; [exact Eb|].
  pose proof (mul_scales c m M H0) as Sc. destruct (Sc x Fx ltac:(lra)) as (y' & E' & F' & R'). rewrite E in E'. injection E' as <-. split; [exact F'|].
  apply Qle_bool_iff, Qle_Rle in H. rewrite qabs_ok, Q2R_minus, Q2R_mult in H.
  apply Qle_bool_iff, Qle_Rle in C, H3, H2, H1.
  assert (Pb : ~ (b == 0)%Q). { intros Z0. apply Qeq_eqR in Z0. unfold Q2R in H2, Z0. cbn in H2, Z0. lra. }
  assert (AB : 0 <= Q2R (a / b)).
  { rewrite Q2R_div by exact Pb. unfold Rdiv. apply Rmult_le_pos; [unfold Q2R in C |- *; cbn in C; lra|].
    apply Rlt_le, Rinv_0_lt_compat. unfold Q2R in H2 |- *. cbn in H2. lra. }
  set (r := Q2R (a / b)) in *. set (X := B2R x) in *. set (mm := Q2R m) in *.
  replace (B2R y - X * r) with ((B2R y - X * mm) + X * (mm - r)) by ring. eapply Rle_trans; [apply Rabs_triang|].
  assert (T1 : Rabs (X * (mm - r)) <= Rabs X * (Q2R d * r)) by (rewrite Rabs_mult; apply Rmult_le_compat_l; [apply Rabs_pos|exact H]).
  assert (T2 : Rabs (X * mm) <= Rabs X * r * (1 + Q2R d)).
  { rewrite Rabs_mult, Rmult_assoc. apply Rmult_le_compat_l; [apply Rabs_pos|]. replace mm with ((mm - r) + r) by ring.
    eapply Rle_trans; [apply Rabs_triang|]. rewrite (Rabs_pos_eq r) by auto. lra. }
  rewrite (Rabs_mult X r), (Rabs_pos_eq r) by auto. pose proof (Rabs_pos X) as PX.
  assert (PXr : 0 <= Rabs X * r) by (apply Rmult_le_pos; auto).
  unfold uu, eta, small in *. nra.
Qed.

(** C31, C32, C44: conversion of units and of code tables. *)
From Coq Require Import String QArith Qreals Reals Lra Psatz ZifyBool Permutation Sorting.Sorted.
From Flocq Require Import Core BinarySingleNaN.
From Verif Require Import Base Num.Float Num.FloatProofs Conv.Model Conv.Spec Conv.Proofs.
Local Open Scope string_scope.
Local Open Scope Z_scope.

(** The library converts between [from] and [to]. *)
Definition known (from to : string) : Prop := exists c, In (mkconv from to c) repo0.

(** ** Which conversion is used *)

(** The binary search finds a conversion between the two units if the source has one, and only
    those; otherwise the error says that there is none.  This holds for any order that std::sort
    may leave. *)
Theorem C31_lookup repo from to x : sorted_repo repo -> from <> to ->
  (exists c, In (mkconv from to c) repo0 /\ convert_units repo from to x = do_convert c x) \/
  ((forall c, ~ In (mkconv from to c) repo0) /\ convert_units repo from to x = Err EUnimpl).
Proof.
  intros S1 Ne. pose proof (lookup repo from to S1) as L. unfold convert_units.
  replace (strcmp from to =? 0) with false by (symmetry; apply Z.eqb_neq; intros H; apply strcmp_eq in H; auto).
  destruct (repo_find repo from to) as [c|]; [left; exists c; auto|right; auto].
Qed.

(** A value in the same unit is left alone, known unit or not. *)
Theorem C31_same_unit repo u x : convert_units repo u u x = Ok x.
Proof. unfold convert_units. replace (strcmp u u) with 0 by (symmetry; apply strcmp_eq; reflexivity). reflexivity. Qed.

(** Every conversion has one for the way back. *)
Theorem C31_both_ways from to : known from to -> known to from.
Proof.
  intros [c I]. assert (H : forallb (fun a => existsb (swapped a) repo0) repo0 = true) by (vm_compute; reflexivity).
  rewrite forallb_forall in H. specialize (H _ I). apply existsb_exists in H as ([f t c'] & I' & E). unfold swapped in E.
  cbn [cv_from cv_to] in E. apply andb_true_iff in E as [E1 E2]. apply String.eqb_eq in E1, E2. subst. exists c'. exact I'.
Qed.

(** ** There and back *)

(** Pairs of units where the conversion is not a multiplication. *)
Definition not_scaling (from to : string) : bool :=
  existsb (fun p => (String.eqb (fst p) from && String.eqb (snd p) to) || (String.eqb (fst p) to && String.eqb (snd p) from))
    [("K", "C"); ("K", "C/10"); ("octants", "DEGREE TRUE")].
(** Pairs of units with two entries, whose factors are not the inverse of each other. *)
Definition twice_listed (from to : string) : bool :=
  existsb (fun p => (String.eqb (fst p) from && String.eqb (snd p) to) || (String.eqb (fst p) to && String.eqb (snd p) from))
    [("M", "FT"); ("cal/cm**2", "J/M**2"); ("nodi", "M/S"); ("GPM", "m**2/s**2"); ("GPM", "M**2/S**2"); ("MGP", "m**2/s**2"); ("MGP", "M**2/S**2")].

Local Open Scope R_scope.

Lemma check_all : check_back (172 # 10000000) not_scaling = true.
Proof. vm_cast_no_check (eq_refl true). Qed.
Lemma check_once : check_back (23 # 100000000000000000) (fun f t => not_scaling f t || twice_listed f t) = true.
Proof. vm_cast_no_check (eq_refl true). Qed.

(** For any other pair and any order of the table, there and back gives the value up to 2e-5. *)
Theorem C31_round_trip repo from to x : sorted_repo repo -> known from to -> from <> to -> not_scaling from to = false ->
  is_finite x = true -> Rabs (B2R x) <= 1e40 ->
  exists y z, convert_units repo from to x = Ok y /\ convert_units repo to from y = Ok z /\ is_finite z = true /\
    Rabs (B2R z - B2R x) <= 2e-5 * Rabs (B2R x) + / 1e40.
Proof.
  intros S1 K Ne Ex Fx Bx.
  destruct (check_back_ok (172 # 10000000) not_scaling repo from to x check_all eq_refl S1 Ex K (C31_both_ways _ _ K) Ne Fx Bx) as (y & z & E1 & E2 & F & R).
  exists y, z. split; [exact E1|]. split; [exact E2|]. split; [exact F|]. eapply Rle_trans; [exact R|]. unfold Q2R, uu, small. cbn [Qnum Qden].
  apply Rplus_le_compat_r. apply Rmult_le_compat_r; [apply Rabs_pos|]. lra.
Qed.

(** It is exact, but for the rounding of doubles, if the pair is listed once. *)
Theorem C31_round_trip_exact repo from to x : sorted_repo repo -> known from to -> from <> to ->
  not_scaling from to = false -> twice_listed from to = false ->
  is_finite x = true -> Rabs (B2R x) <= 1e40 ->
  exists y z, convert_units repo from to x = Ok y /\ convert_units repo to from y = Ok z /\ is_finite z = true /\
    Rabs (B2R z - B2R x) <= 1e-15 * Rabs (B2R x) + / 1e40.
Proof.
  intros S1 K Ne Ex1 Ex2 Fx Bx.
  destruct (check_back_ok (23 # 100000000000000000) (fun f t => not_scaling f t || twice_listed f t) repo from to x check_once eq_refl S1 ltac:(cbv beta; rewrite Ex1, Ex2; reflexivity) K (C31_both_ways _ _ K) Ne Fx Bx) as (y & z & E1 & E2 & F & R).
  exists y, z. split; [exact E1|]. split; [exact E2|]. split; [exact F|]. eapply Rle_trans; [exact R|]. unfold Q2R, uu, small. cbn [Qnum Qden].
  apply Rplus_le_compat_r. apply Rmult_le_compat_r; [apply Rabs_pos|]. lra.
Qed.

(** Entries with given names. *)
Definition entries (from to : string) : list convert :=
  map cv_conv (filter (fun c => String.eqb (cv_from c) from && String.eqb (cv_to c) to) repo0).
Lemma convert_entry repo from to : sorted_repo repo -> from <> to -> entries from to <> [] ->
  exists c, In c (entries from to) /\ forall x, convert_units repo from to x = do_convert c x.
Proof.
  intros S1 Ne H. pose proof (lookup repo from to S1) as L. unfold convert_units.
  replace (strcmp from to =? 0)%Z with false by (symmetry; apply Z.eqb_neq; intros E; apply strcmp_eq in E; auto).
  destruct (repo_find repo from to) as [c|].
  - exists c. split; [|auto]. unfold entries. apply in_map_iff. exists (mkconv from to c). split; [reflexivity|]. apply filter_In. split; [exact L|].
    cbn. rewrite !String.eqb_refl. reflexivity.
  - exfalso. unfold entries in H. destruct (filter _ repo0) as [|[f t c] l] eqn:E; [apply H; reflexivity|].
    assert (I : In (mkconv f t c) (filter (fun c => String.eqb (cv_from c) from && String.eqb (cv_to c) to) repo0)) by (rewrite E; left; reflexivity).
    apply filter_In in I as [I N]. cbn in N. apply andb_true_iff in N as [N1 N2]. apply String.eqb_eq in N1, N2. subst. exact (L c I).
Qed.

(** The value of a constant, by computation. *)
Lemma const_near (c : f64) (q d : Q) : is_finite c = true -> Qle_bool (qabs (f2q c - q)) d = true -> Rabs (B2R c - Q2R q) <= Q2R d.
Proof.
  intros F H. apply Qle_bool_iff, Qle_Rle in H. rewrite qabs_ok, Q2R_minus, <- f2q_ok in H by auto. exact H.
Qed.
Lemma const_is (c : f64) (q : Q) : is_finite c = true -> Qeq_bool (f2q c) q = true -> B2R c = Q2R q.
Proof. intros F H. apply Qeq_bool_iff, Qeq_eqR in H. rewrite f2q_ok by auto. exact H. Qed.

Lemma affine m a x : is_finite m = true -> Rabs (B2R m) <= 100 -> is_finite a = true -> Rabs (B2R a) <= 3000 ->
  is_finite x = true -> Rabs (B2R x) <= 1e40 ->
  is_finite (fadd (fmul x m) a) = true /\
  Rabs (B2R (fadd (fmul x m) a) - (B2R x * B2R m + B2R a)) <= 3 * uu * (Rabs (B2R x * B2R m) + 3000) + / 1e50.
Proof.
  intros Fm Bm Fa Ba Fx Bx.
  assert (B : Rabs (B2R x * B2R m) <= 1e42). { rewrite Rabs_mult. pose proof (Rabs_pos (B2R x)). pose proof (Rabs_pos (B2R m)). nra. }
  destruct (fmul_ok x m Fx Fm) as [Fp Ep]; [pose proof big_ge; lra|].
  set (P := B2R x * B2R m) in *. pose proof (rnd_err P) as R1. rewrite <- Ep in R1. set (p := B2R (fmul x m)) in *.
  assert (Bp : Rabs p <= Rabs P * (1 + uu) + eta).
  { replace p with ((p - P) + P) by ring. eapply Rle_trans; [apply Rabs_triang|]. lra. }
  assert (Bs : Rabs (p + B2R a) <= Rabs P * (1 + uu) + eta + 3000) by (eapply Rle_trans; [apply Rabs_triang|]; lra).
  destruct (fadd_ok (fmul x m) a Fp Fa) as [Fy Ey].
  { fold p. pose proof big_ge. unfold uu, eta in *. lra. }
  fold p in Ey. split; [exact Fy|]. rewrite Ey. pose proof (rnd_err (p + B2R a)) as R2.
  replace (rnd (p + B2R a) - (P + B2R a)) with ((rnd (p + B2R a) - (p + B2R a)) + (p - P)) by ring.
  eapply Rle_trans; [apply Rabs_triang|]. pose proof (Rabs_pos P). unfold uu, eta in *. lra.
Qed.

Definition inv (m : f64) : f64 := fdiv (f_of_Z 1) m.
Definition k_add : f64 := dec (-27315001) 5.
Definition k10_add : f64 := dec (-27315001) 4.
Lemma k_entries : entries "K" "C" = [CLinear (dec 1 0) k_add].
Proof. cbv -[dec fdiv Bopp f_of_Z octants_to_degrees_f degrees_to_octants_f]. reflexivity. Qed.
Lemma c_entries : entries "C" "K" = [CLinear (inv (dec 1 0)) (Bopp k_add)].
Proof. cbv -[dec fdiv Bopp f_of_Z octants_to_degrees_f degrees_to_octants_f]. reflexivity. Qed.
Lemma k10_entries : entries "K" "C/10" = [CLinear (dec 10 0) k10_add].
Proof. cbv -[dec fdiv Bopp f_of_Z octants_to_degrees_f degrees_to_octants_f]. reflexivity. Qed.
Lemma c10_entries : entries "C/10" "K" = [CLinear (inv (dec 10 0)) (Bopp k10_add)].
Proof. cbv -[dec fdiv Bopp f_of_Z octants_to_degrees_f degrees_to_octants_f]. reflexivity. Qed.
Lemma the_entry repo from to c : sorted_repo repo -> from <> to -> entries from to = [c] ->
  forall x, convert_units repo from to x = do_convert c x.
Proof. intros S1 Ne E. destruct (convert_entry repo from to S1 Ne) as (c' & I & H); [rewrite E; discriminate|]. rewrite E in I. destruct I as [<-|[]]. exact H. Qed.

Lemma conv_k repo x : sorted_repo repo -> convert_units repo "K" "C" x = Ok (fadd (fmul x (dec 1 0)) k_add).
Proof. intros S1. refine (the_entry repo "K" "C" _ S1 _ k_entries x). discriminate. Qed.
Lemma conv_c repo x : sorted_repo repo -> convert_units repo "C" "K" x = Ok (fadd (fmul x (inv (dec 1 0))) (Bopp k_add)).
Proof. intros S1. refine (the_entry repo "C" "K" _ S1 _ c_entries x). discriminate. Qed.
Lemma conv_k10 repo x : sorted_repo repo -> convert_units repo "K" "C/10" x = Ok (fadd (fmul x (dec 10 0)) k10_add).
Proof. intros S1. refine (the_entry repo "K" "C/10" _ S1 _ k10_entries x). discriminate. Qed.
Lemma conv_c10 repo x : sorted_repo repo -> convert_units repo "C/10" "K" x = Ok (fadd (fmul x (inv (dec 10 0))) (Bopp k10_add)).
Proof. intros S1. refine (the_entry repo "C/10" "K" _ S1 _ c10_entries x). discriminate. Qed.

Lemma fin_opp (a : f64) : is_finite (Bopp a) = is_finite a.
Proof. destruct a; reflexivity. Qed.
Lemma k_mul : is_finite (dec 1 0) = true /\ B2R (dec 1 0) = 1 /\ is_finite (inv (dec 1 0)) = true /\ B2R (inv (dec 1 0)) = 1.
Proof.
  assert (Q1 : Q2R 1 = 1) by (unfold Q2R; cbn; lra). rewrite <- Q1.
  split; [vm_compute; reflexivity|]. split; [apply const_is; vm_compute; reflexivity|]. split; [vm_compute; reflexivity|apply const_is; vm_compute; reflexivity].
Qed.
Lemma k_add_near : is_finite k_add = true /\ Rabs (B2R k_add + 273.15) <= 2e-5.
Proof.
  split; [vm_compute; reflexivity|]. assert (H : Rabs (B2R k_add - Q2R (-27315 # 100)) <= Q2R (2 # 100000)) by (apply const_near; vm_compute; reflexivity).
  unfold Q2R in H. cbn [Qnum Qden] in H. replace (B2R k_add + 273.15) with (B2R k_add - IZR (-27315) * / IZR 100) by lra. lra.
Qed.

(** Kelvin to Celsius takes away 273.15, within 2e-5 and the rounding; Celsius to Kelvin adds it. *)
Theorem C44_kelvin repo x : sorted_repo repo -> is_finite x = true -> Rabs (B2R x) <= 1e8 ->
  (exists y, convert_units repo "K" "C" x = Ok y /\ is_finite y = true /\ Rabs (B2R y - (B2R x - 273.15)) <= 3e-5) /\
  (exists y, convert_units repo "C" "K" x = Ok y /\ is_finite y = true /\ Rabs (B2R y - (B2R x + 273.15)) <= 3e-5).
Proof.
  intros S1 Fx Bx. destruct k_mul as (F1 & E1 & F2 & E2). destruct k_add_near as (F3 & N3).
  assert (B3 : Rabs (B2R k_add) <= 3000) by (apply Rabs_le; apply Rabs_le_inv in N3; lra).
  rewrite (conv_k repo x S1), (conv_c repo x S1).
  split; eexists; (split; [reflexivity|]).
  - destruct (affine (dec 1 0) k_add x) as [F R]; auto; try lra; [rewrite E1, Rabs_R1; lra|]. split; [exact F|].
    rewrite E1, Rmult_1_r in R.
    replace (B2R _ - (B2R x - 273.15)) with ((B2R (fadd (fmul x (dec 1 0)) k_add) - (B2R x + B2R k_add)) + (B2R k_add + 273.15)) by ring.
    eapply Rle_trans; [apply Rabs_triang|]. unfold uu in R. lra.
  - destruct (affine (inv (dec 1 0)) (Bopp k_add) x) as [F R]; auto; rewrite ?fin_opp, ?B2R_Bopp, ?Rabs_Ropp; auto; try lra; [rewrite E2, Rabs_R1; lra|]. split; [exact F|].
    rewrite E2, Rmult_1_r, B2R_Bopp in R.
    replace (B2R _ - (B2R x + 273.15)) with ((B2R (fadd (fmul x (inv (dec 1 0))) (Bopp k_add)) - (B2R x + - B2R k_add)) + - (B2R k_add + 273.15)) by ring.
    eapply Rle_trans; [apply Rabs_triang|]. rewrite Rabs_Ropp. unfold uu in R. lra.
Qed.

(** Kelvin to Celsius and back, or the other way round, is exact but for the rounding. *)
Theorem C31_round_trip_kelvin repo x : sorted_repo repo -> is_finite x = true -> Rabs (B2R x) <= 1e30 ->
  forall from to, (from = "K" /\ to = "C") \/ (from = "C" /\ to = "K") ->
  exists y z, convert_units repo from to x = Ok y /\ convert_units repo to from y = Ok z /\ is_finite z = true /\
    Rabs (B2R z - B2R x) <= 1e-15 * (Rabs (B2R x) + 10000).
Proof.
  intros S1 Fx Bx. destruct k_mul as (F1 & E1 & F2 & E2). destruct k_add_near as (F3 & N3).
  assert (B3 : Rabs (B2R k_add) <= 300) by (apply Rabs_le; apply Rabs_le_inv in N3; lra).
  assert (G : forall m1 m2 a1 a2, is_finite m1 = true -> B2R m1 = 1 -> is_finite m2 = true -> B2R m2 = 1 -> is_finite a1 = true -> is_finite a2 = true ->
    Rabs (B2R a1) <= 300 -> B2R a2 = - B2R a1 ->
    exists y z, do_convert (CLinear m1 a1) x = Ok y /\ do_convert (CLinear m2 a2) y = Ok z /\ is_finite z = true /\ Rabs (B2R z - B2R x) <= 1e-15 * (Rabs (B2R x) + 10000)).
  { intros m1 m2 a1 a2 Fm1 Em1 Fm2 Em2 Fa1 Fa2 Ba Ea.
    destruct (affine m1 a1 x) as [Fy Ry]; auto; try lra; [rewrite Em1, Rabs_R1; lra|]. rewrite Em1, Rmult_1_r in Ry.
    set (y := fadd (fmul x m1) a1) in *.
    assert (By : Rabs (B2R y) <= Rabs (B2R x) * (1 + 3 * uu) + 301).
    { replace (B2R y) with ((B2R y - (B2R x + B2R a1)) + (B2R x + B2R a1)) by ring. eapply Rle_trans; [apply Rabs_triang|].
      pose proof (Rabs_triang (B2R x) (B2R a1)). unfold uu in *. lra. }
    destruct (affine m2 a2 y) as [Fz Rz]; auto; try (rewrite Ea, Rabs_Ropp; lra); [rewrite Em2, Rabs_R1; lra|unfold uu in By; lra|].
    rewrite Em2, Rmult_1_r, Ea in Rz. exists y. eexists. split; [reflexivity|]. split; [reflexivity|]. split; [exact Fz|].
    set (z := fadd (fmul y m2) a2) in *.
    replace (B2R z - B2R x) with ((B2R z - (B2R y + - B2R a1)) + (B2R y - (B2R x + B2R a1))) by ring.
    eapply Rle_trans; [apply Rabs_triang|]. pose proof (Rabs_pos (B2R x)). unfold uu in *. lra. }
  intros from to [[-> ->]|[-> ->]]; clear Bx.
  - destruct (G (dec 1 0) (inv (dec 1 0)) k_add (Bopp k_add)) as (y & z & H1 & H2 & H); auto; rewrite ?fin_opp, ?B2R_Bopp; auto.
    exists y, z. rewrite (conv_k repo _ S1), (conv_c repo _ S1). split; [exact H1|]. split; [exact H2|exact H].
  - destruct (G (inv (dec 1 0)) (dec 1 0) (Bopp k_add) k_add) as (y & z & H1 & H2 & H); auto; rewrite ?fin_opp, ?B2R_Bopp, ?Rabs_Ropp, ?Ropp_involutive; auto.
    exists y, z. rewrite (conv_k repo _ S1), (conv_c repo _ S1). split; [exact H1|]. split; [exact H2|exact H].
Qed.

(** Octants to degrees and back. *)
Lemma oct_entries : entries "octants" "DEGREE TRUE" = [CFunction octants_to_degrees_f] /\ entries "DEGREE TRUE" "octants" = [CFunction degrees_to_octants_f].
Proof. split; cbv -[dec fdiv Bopp f_of_Z octants_to_degrees_f degrees_to_octants_f]; reflexivity. Qed.
Theorem C31_round_trip_octants repo n : sorted_repo repo -> (0 <= n <= 8)%Z ->
  exists y, convert_units repo "octants" "DEGREE TRUE" (f_of_Z n) = Ok y /\ convert_units repo "DEGREE TRUE" "octants" y = Ok (f_of_Z n).
Proof.
  intros S1 H. destruct oct_entries as [E1 E2].
  assert (C : (n = 0 \/ n = 1 \/ n = 2 \/ n = 3 \/ n = 4 \/ n = 5 \/ n = 6 \/ n = 7 \/ n = 8)%Z) by lia.
  exists (fmul (f_of_Z n) (f_of_Z 45)).
  rewrite (the_entry repo "octants" "DEGREE TRUE" _ S1 ltac:(discriminate) E1), (the_entry repo "DEGREE TRUE" "octants" _ S1 ltac:(discriminate) E2). cbn [do_convert].
  assert (G : (match f_to_int (f_of_Z n) with Ok i => (i =? n)%Z | _ => false end && match degrees_to_octants (fmul (f_of_Z n) (f_of_Z 45)) with Ok i => (i =? n)%Z | _ => false end)%bool = true)
    by (repeat (destruct C as [->|C]; [vm_compute; reflexivity|]); subst n; vm_compute; reflexivity).
  apply andb_true_iff in G as [G1 G2]. unfold octants_to_degrees_f, degrees_to_octants_f. split.
  - destruct (f_to_int (f_of_Z n)) as [i|e|]; try discriminate. apply Z.eqb_eq in G1. subst i. cbn [bind]. unfold octants_to_degrees.
    replace ((n <? 0) || (n >? 8))%Z with false by lia. reflexivity.
  - destruct (degrees_to_octants _) as [i|e|]; try discriminate. apply Z.eqb_eq in G2. subst i. reflexivity.
Qed.

Lemma flt_true (x y : f64) : is_finite x = true -> is_finite y = true -> flt x y = true <-> B2R x < B2R y.
Proof. intros Fx Fy. rewrite flt_spec by auto. destruct (Rlt_bool_spec (B2R x) (B2R y)); split; intros; try discriminate; try reflexivity; lra. Qed.
Lemma fle_true (x y : f64) : is_finite x = true -> is_finite y = true -> fle x y = true <-> B2R x <= B2R y.
Proof. intros Fx Fy. rewrite fle_spec by auto. destruct (Rle_bool_spec (B2R x) (B2R y)); split; intros; try discriminate; try reflexivity; lra. Qed.
Lemma feq_true (x y : f64) : is_finite x = true -> is_finite y = true -> feq x y = true <-> B2R x = B2R y.
Proof. intros Fx Fy. unfold feq. rewrite Beqb_correct by auto. destruct (Req_bool_spec (B2R x) (B2R y)); split; intros; try discriminate; try reflexivity; lra. Qed.
Lemma octant_bound (deg : f64) m : is_finite deg = true -> In m [225; 675; 1125; 1575; 2025; 2475; 2925; 3375]%Z ->
  exists b, flt (dec m 1) deg = b /\ fle deg (dec m 1) = negb b /\ if b then IZR m / 10 < B2R deg else B2R deg <= IZR m / 10.
Proof.
  intros F I.
  assert (Fm : is_finite (dec m 1) = true) by (cbn [In] in I; repeat (destruct I as [<-|I]; [vm_compute; reflexivity|]); destruct I).
  assert (Em : B2R (dec m 1) = IZR m / 10).
  { replace (IZR m / 10) with (Q2R (m # 10)) by reflexivity. apply const_is; [exact Fm|].
    cbn [In] in I; repeat (destruct I as [<-|I]; [vm_compute; reflexivity|]); destruct I. }
  rewrite <- Em. exists (flt (dec m 1) deg). split; [reflexivity|]. pose proof (flt_true (dec m 1) deg Fm F) as A. pose proof (fle_true deg (dec m 1) F Fm) as B.
  destruct (flt (dec m 1) deg); cbn [negb]; (split; [|destruct A as [A1 A2]]).
  - destruct (fle deg (dec m 1)); [|reflexivity]. exfalso. destruct A as [A _], B as [B _]. specialize (A eq_refl). specialize (B eq_refl). lra.
  - auto.
  - apply B. destruct A as [_ A]. apply Rnot_lt_le. intros H. specialize (A H). discriminate.
  - apply Rnot_lt_le. intros H. specialize (A2 H). discriminate.
Qed.
Ltac octant deg F m := let b := fresh "b" in let A := fresh "A" in let B := fresh "B" in let C := fresh "C" in
  destruct (octant_bound deg m F ltac:(cbn; tauto)) as (b & A & B & C); rewrite ?A, ?B; clear A B; destruct b; cbn [orb andb negb].

(** Every angle above zero has one of the octants 1 to 8, the closest one. *)
Theorem C44_octants (deg : f64) : is_finite deg = true -> 0 < B2R deg <= 360 ->
  exists o, degrees_to_octants deg = Ok o /\ (1 <= o <= 8)%Z /\ (Rabs (B2R deg - 45 * IZR o) <= 22.5 \/ (o = 8%Z /\ B2R deg <= 22.5)).
Proof.
  intros F [H1 H2]. unfold degrees_to_octants.
  assert (K : forall m, (Z.abs m <= 10000)%Z -> is_finite (f_of_Z m) = true /\ B2R (f_of_Z m) = IZR m) by (intros m Hm; apply f_of_Z_ok; lia).
  assert (G1 : flt deg fzero = false). { destruct (flt deg fzero) eqn:E; [|reflexivity]. apply flt_true in E; auto. cbn in E. lra. }
  assert (G2 : flt (f_of_Z 360) deg = false).
  { destruct (K 360%Z ltac:(lia)) as [Fk Ek]. destruct (flt (f_of_Z 360) deg) eqn:E; [|reflexivity]. apply flt_true in E; auto. lra. }
  assert (G3 : feq deg fzero = false). { destruct (feq deg fzero) eqn:E; [|reflexivity]. apply feq_true in E; auto. cbn in E. lra. }
  rewrite G1, G2, G3. cbn [orb].
  clear K G1 G2 G3.
  octant deg F 3375%Z; [eexists; split; [reflexivity|]; split; [lia|left; unfold Rabs; destruct (Rcase_abs _); lra]|].
  octant deg F 225%Z; [|eexists; split; [reflexivity|]; split; [lia|right; split; [reflexivity|lra]]].
  octant deg F 675%Z; [|eexists; split; [reflexivity|]; split; [lia|left; unfold Rabs; destruct (Rcase_abs _); lra]].
  octant deg F 1125%Z; [|eexists; split; [reflexivity|]; split; [lia|left; unfold Rabs; destruct (Rcase_abs _); lra]].
  octant deg F 1575%Z; [|eexists; split; [reflexivity|]; split; [lia|left; unfold Rabs; destruct (Rcase_abs _); lra]].
  octant deg F 2025%Z; [|eexists; split; [reflexivity|]; split; [lia|left; unfold Rabs; destruct (Rcase_abs _); lra]].
  octant deg F 2475%Z; [|eexists; split; [reflexivity|]; split; [lia|left; unfold Rabs; destruct (Rcase_abs _); lra]].
  octant deg F 2925%Z; eexists; split; try reflexivity; (split; [lia|left; unfold Rabs; destruct (Rcase_abs _); lra]).
Qed.

(** ** Where the value is lost *)

Lemma near_refute (c : f64) (q d : Q) (r : R) : is_finite c = true -> Qle_bool (qabs (f2q c - q)) d = true -> Q2R q - Q2R d > r -> B2R c > r.
Proof. intros F H L. pose proof (const_near c q d F H) as N. apply Rabs_le_inv in N. lra. Qed.

(** 300 kelvin are 268 tenths of a degree Celsius, which are 2758 kelvin: the way back divides by
    ten, and then adds what was taken away after the multiplication. *)
Theorem C31_round_trip_refuted repo : sorted_repo repo ->
  let x := f_of_Z 300 in
  exists y z, convert_units repo "K" "C/10" x = Ok y /\ convert_units repo "C/10" "K" y = Ok z /\ B2R z > 2758.
Proof.
  intros S1 x. do 2 eexists. split; [apply conv_k10, S1|]. split; [apply conv_c10, S1|].
  apply (near_refute _ (275835 # 100) (1 # 100)); [vm_compute; reflexivity|vm_compute; reflexivity|]. unfold Q2R. cbn [Qnum Qden]. lra.
Qed.

(** The error of C31_round_trip is there: a calorie on a square centimetre, converted and back with
    the entries that a sort may put first. *)
Definition swap_twice : list conv :=
  sort_repo (filter (fun c => negb (String.eqb (cv_from c) "cal/cm**2" && String.eqb (cv_to c) "J/M**2")) repo0 ++
             rev (filter (fun c => String.eqb (cv_from c) "cal/cm**2" && String.eqb (cv_to c) "J/M**2") repo0))%list.
Lemma filter_perm {A} (f : A -> bool) l : Permutation l (filter (fun c => negb (f c)) l ++ filter f l).
Proof.
  induction l as [|a l IH]; cbn [filter]; [constructor|]. destruct (f a); cbn [negb].
  - eapply perm_trans; [constructor; exact IH|]. apply Permutation_middle.
  - cbn [app]. constructor. exact IH.
Qed.
Lemma swap_twice_sorted : sorted_repo swap_twice.
Proof.
  split; [|apply sort_sorted]. eapply perm_trans; [|apply sort_perm].
  eapply perm_trans; [apply (filter_perm (fun c => String.eqb (cv_from c) "cal/cm**2" && String.eqb (cv_to c) "J/M**2"))|].
  apply Permutation_app_head, Permutation_rev.
Qed.
Definition out (r : res f64) : f64 := get_ok fzero r.
Lemma order_checks :
  (is_finite (out (convert_units (sort_repo repo0) "cal/cm**2" "J/M**2" (f_of_Z 1000))) &&
   is_finite (out (convert_units swap_twice "cal/cm**2" "J/M**2" (f_of_Z 1000))) &&
   is_ok (convert_units (sort_repo repo0) "cal/cm**2" "J/M**2" (f_of_Z 1000)) && is_ok (convert_units swap_twice "cal/cm**2" "J/M**2" (f_of_Z 1000)) &&
   Qle_bool 700 (qabs (f2q (out (convert_units (sort_repo repo0) "cal/cm**2" "J/M**2" (f_of_Z 1000))) - f2q (out (convert_units swap_twice "cal/cm**2" "J/M**2" (f_of_Z 1000))))))%bool = true.
Proof. vm_cast_no_check (eq_refl true). Qed.
Lemma ok_out m : is_ok m = true -> m = Ok (out m).
Proof. destruct m; cbn; congruence. Qed.

(** The value of a conversion depends on the order that the sort leaves. *)
Theorem C31_order_refuted :
  sorted_repo (sort_repo repo0) /\ sorted_repo swap_twice /\
  exists y z, convert_units (sort_repo repo0) "cal/cm**2" "J/M**2" (f_of_Z 1000) = Ok y /\
              convert_units swap_twice "cal/cm**2" "J/M**2" (f_of_Z 1000) = Ok z /\ Rabs (B2R y - B2R z) >= 700.
Proof.
  split; [apply sort_is_sorted|]. split; [apply swap_twice_sorted|]. pose proof order_checks as C.
  set (y := convert_units (sort_repo repo0) _ _ _) in *. set (z := convert_units swap_twice _ _ _) in *. clearbody y z.
  repeat (apply andb_true_iff in C as [C ?H]). exists (out y), (out z). split; [apply ok_out; auto|]. split; [apply ok_out; auto|].
  apply Qle_bool_iff, Qle_Rle in H. rewrite qabs_ok, Q2R_minus, <- !f2q_ok in H by auto. unfold Q2R in H at 1. cbn in H. lra.
Qed.

(** ** Agreement with the definition of the units *)

(** Units that do not agree, and those that are not a multiplication. *)
Definition not_si (from to : string) : bool :=
  existsb (fun p => (String.eqb (fst p) from && String.eqb (snd p) to) || (String.eqb (fst p) to && String.eqb (snd p) from))
    [("K", "C"); ("K", "C/10"); ("octants", "DEGREE TRUE"); ("PA", "NBAR"); ("NTU", "LM")].
Lemma check_units : check_si (2 # 100000) not_si = true.
Proof. vm_cast_no_check (eq_refl true). Qed.

(** Any other conversion is the one of the SI, up to 2e-5. *)
Theorem C44_units repo from to x y : sorted_repo repo -> not_si from to = false -> from <> to ->
  convert_units repo from to x = Ok y -> is_finite x = true -> Rabs (B2R x) <= 1e40 ->
  exists quantity units a b, In (quantity, units) si_units /\ unit_of units from = Some a /\ unit_of units to = Some b /\
    is_finite y = true /\ Rabs (B2R y - B2R x * Q2R (a / b)) <= 2.1e-5 * Rabs (B2R x * Q2R (a / b)) + / 1e40.
Proof.
  intros S1 Ex Ne E Fx Bx.
  destruct (check_si_ok (2 # 100000) not_si repo from to x y check_units) as (q & u & a & b & I & Ea & Eb & F & R);
    [unfold Q2R; cbn [Qnum Qden]; lra|exact S1|exact Ex|exact Ne|exact E|exact Fx|exact Bx|].
  exists q, u, a, b. split; [exact I|]. split; [exact Ea|]. split; [exact Eb|]. split; [exact F|]. eapply Rle_trans; [exact R|].
  unfold small, uu. apply Rplus_le_compat_r. apply Rmult_le_compat_r; [apply Rabs_pos|]. unfold Q2R. cbn [Qnum Qden]. lra.
Qed.

(** A pascal is 10000 nanobars; the conversion gives 0.0001. *)
Theorem C44_nanobar_refuted repo : sorted_repo repo ->
  exists units, In ("pressure", units) si_units /\ unit_of units "PA" = Some 1%Q /\ unit_of units "NBAR" = Some (1 # 10000)%Q /\
  exists y, convert_units repo "PA" "NBAR" (f_of_Z 1) = Ok y /\ B2R y <= 0.001.
Proof.
  intros S1. eexists. split; [unfold si_units; cbn [In]; right; right; right; left; reflexivity|]. split; [reflexivity|]. split; [reflexivity|].
  destruct (convert_entry repo "PA" "NBAR" S1) as (c & I & E); [discriminate|cbv -[dec fdiv Bopp f_of_Z octants_to_degrees_f degrees_to_octants_f]; discriminate|].
  rewrite E. assert (EE : entries "PA" "NBAR" = [CLinear (dec 1 4) (dec 0 0); CLinear (inv (dec 10000 0)) (Bopp (dec 0 0))]).
  { cbv -[dec fdiv Bopp f_of_Z octants_to_degrees_f degrees_to_octants_f]. reflexivity. }
  rewrite EE in I. assert (Q3 : forall c : f64, is_finite c = true -> Qle_bool (f2q c) (1 # 1000) = true -> B2R c <= 0.001).
  { intros c0 F H. apply Qle_bool_iff, Qle_Rle in H. rewrite f2q_ok by auto. unfold Q2R in H at 2. cbn [Qnum Qden] in H. lra. }
  clear E EE. destruct I as [<-|[<-|[]]]; (eexists; split; [reflexivity|]; apply Q3; vm_compute; reflexivity).
Qed.

(** Zero degrees Celsius are 2731.5 kelvin, if they come as tenths of a degree. *)
Theorem C44_tenths_refuted repo : sorted_repo repo -> exists y, convert_units repo "C/10" "K" (f_of_Z 0) = Ok y /\ B2R y > 2731.
Proof.
  intros S1. eexists. split; [apply conv_c10, S1|].
  apply (near_refute _ (27315 # 10) (1 # 100)); [vm_compute; reflexivity|vm_compute; reflexivity|]. unfold Q2R. cbn [Qnum Qden]. lra.
Qed.

Local Close Scope R_scope.

(** ** Code tables *)

(** Codes of clouds, of weather, of past weather: there and back, for any code that is accepted. *)
Theorem C32_cloud_types from to :
  (WMO0500_to_BUFR20012 from = Ok to -> BUFR20012_to_WMO0500 to = Ok from) /\
  (WMO0509_to_BUFR20012 from = Ok to -> BUFR20012_to_WMO0509 to = Ok from) /\
  (WMO0515_to_BUFR20012 from = Ok to -> BUFR20012_to_WMO0515 to = Ok from) /\
  (WMO0513_to_BUFR20012 from = Ok to -> BUFR20012_to_WMO0513 to = Ok from).
Proof.
  unfold WMO0500_to_BUFR20012, BUFR20012_to_WMO0500, WMO0509_to_BUFR20012, BUFR20012_to_WMO0509, WMO0515_to_BUFR20012, BUFR20012_to_WMO0515, WMO0513_to_BUFR20012, BUFR20012_to_WMO0513.
  repeat split; intros H;
    repeat match type of H with (if ?c then _ else _) = _ => destruct c eqn:? end; try discriminate; injection H as <-;
    repeat match goal with |- (if ?c then _ else _) = _ => destruct c eqn:? end; try (f_equal; lia); exfalso; lia.
Qed.
(** And from the value in the message to the code and back. *)
Theorem C32_cloud_types_back from to :
  (BUFR20012_to_WMO0500 from = Ok to -> WMO0500_to_BUFR20012 to = Ok from) /\
  (BUFR20012_to_WMO0509 from = Ok to -> WMO0509_to_BUFR20012 to = Ok from) /\
  (BUFR20012_to_WMO0515 from = Ok to -> WMO0515_to_BUFR20012 to = Ok from) /\
  (BUFR20012_to_WMO0513 from = Ok to -> WMO0513_to_BUFR20012 to = Ok from).
Proof.
  unfold WMO0500_to_BUFR20012, BUFR20012_to_WMO0500, WMO0509_to_BUFR20012, BUFR20012_to_WMO0509, WMO0515_to_BUFR20012, BUFR20012_to_WMO0515, WMO0513_to_BUFR20012, BUFR20012_to_WMO0513.
  repeat split; intros H;
    repeat match type of H with (if ?c then _ else _) = _ => destruct c eqn:? end; try discriminate; injection H as <-;
    repeat match goal with |- (if ?c then _ else _) = _ => destruct c eqn:? end; try (f_equal; lia); exfalso; lia.
Qed.
Theorem C32_weather from to :
  (WMO4677_to_BUFR20003 from = Ok to -> BUFR20003_to_WMO4677 to = Ok from) /\ (BUFR20003_to_WMO4677 from = Ok to -> WMO4677_to_BUFR20003 to = Ok from) /\
  (WMO4561_to_BUFR20004 from = Ok to -> BUFR20004_to_WMO4561 to = Ok from) /\ (BUFR20004_to_WMO4561 from = Ok to -> WMO4561_to_BUFR20004 to = Ok from).
Proof.
  unfold WMO4677_to_BUFR20003, BUFR20003_to_WMO4677, WMO4561_to_BUFR20004, BUFR20004_to_WMO4561.
  repeat split; intros H;
    repeat match type of H with (if ?c then _ else _) = _ => destruct c eqn:? end; try discriminate; injection H as <-;
    repeat match goal with |- (if ?c then _ else _) = _ => destruct c eqn:? end; try (f_equal; lia); exfalso; lia.
Qed.
(** The codes that are accepted, and the domains of the four types of cloud do not overlap. *)
Theorem C32_domains from :
  (is_ok (WMO0500_to_BUFR20012 from) = true <-> -1 <= from <= 9) /\ (is_ok (WMO0509_to_BUFR20012 from) = true <-> -1 <= from <= 9) /\
  (is_ok (WMO0515_to_BUFR20012 from) = true <-> -1 <= from <= 9) /\ (is_ok (WMO0513_to_BUFR20012 from) = true <-> -1 <= from <= 9).
Proof.
  unfold WMO0500_to_BUFR20012, WMO0509_to_BUFR20012, WMO0515_to_BUFR20012, WMO0513_to_BUFR20012.
  split; [|split; [|split]]; repeat match goal with |- context [if ?c then _ else _] => destruct c eqn:? end; cbn [is_ok]; split; intros; first [discriminate | reflexivity | lia].
Qed.
Theorem C32_cloud_types_apart a b c d x y z t :
  WMO0500_to_BUFR20012 a = Ok x -> WMO0509_to_BUFR20012 b = Ok y -> WMO0515_to_BUFR20012 c = Ok z -> WMO0513_to_BUFR20012 d = Ok t ->
  x <> y /\ x <> z /\ x <> t /\ y <> z /\ y <> t /\ z <> t.
Proof.
  unfold WMO0500_to_BUFR20012, WMO0509_to_BUFR20012, WMO0515_to_BUFR20012, WMO0513_to_BUFR20012. intros A B C D.
  repeat match goal with H : (if ?c then _ else _) = _ |- _ => destruct c eqn:?; try discriminate H end;
    injection A as <-; injection B as <-; injection C as <-; injection D as <-; lia.
Qed.

(** Significance of a level of a sounding: the old flags survive the new ones. *)
Theorem C32_significance v : 0 <= v < 128 -> Z.land v S1_MISSING = 0 -> BUFR08042_to_BUFR08001 (BUFR08001_to_BUFR08042 v) = v.
Proof.
  intros H M. assert (G : forallb (fun n => (negb (Z.land (Z.of_nat n) S1_MISSING =? 0)) || (BUFR08042_to_BUFR08001 (BUFR08001_to_BUFR08042 (Z.of_nat n)) =? Z.of_nat n)) (seq 0 128) = true)
    by (vm_compute; reflexivity).
  rewrite forallb_forall in G. specialize (G (Z.to_nat v) ltac:(apply in_seq; lia)). rewrite Z2Nat.id in G by lia. rewrite M in G. cbn in G. lia.
Qed.
Theorem C32_significance_missing v : Z.land v S1_MISSING <> 0 -> BUFR08042_to_BUFR08001 (BUFR08001_to_BUFR08042 v) = S1_ALL_MISSING.
Proof.
  intros M. unfold BUFR08001_to_BUFR08042. replace (Z.land v S1_MISSING =? 0) with false by lia. reflexivity.
Qed.

(** The other way round the flag of humidity alone becomes humidity and temperature. *)
Theorem C32_significance_refuted :
  BUFR08001_to_BUFR08042 (BUFR08042_to_BUFR08001 S42_SIGHUM) = Z.lor S42_SIGTEMP S42_SIGHUM.
Proof. vm_compute. reflexivity. Qed.

(** ** The hypotheses are met *)
Example C31_meet : sorted_repo (sort_repo repo0) /\ known "FT" "M" /\ not_scaling "FT" "M" = false /\ twice_listed "FT" "M" = true /\
  known "hPa" "PA" /\ not_scaling "hPa" "PA" = false /\ twice_listed "hPa" "PA" = false /\ not_si "hPa" "PA" = false.
Proof.
  assert (K : forall f t, entries f t <> [] -> known f t).
  { intros f t H. unfold entries in H. destruct (filter _ repo0) as [|[f' t' c] l] eqn:E; [exfalso; apply H; reflexivity|].
    assert (I : In (mkconv f' t' c) (filter (fun c => String.eqb (cv_from c) f && String.eqb (cv_to c) t) repo0)) by (rewrite E; left; reflexivity).
    apply filter_In in I as [I N]. cbn in N. apply andb_true_iff in N as [N1 N2]. apply String.eqb_eq in N1, N2. subst. exists c. exact I. }
  split; [apply sort_is_sorted|].
  split; [apply K; cbv -[dec fdiv Bopp f_of_Z octants_to_degrees_f degrees_to_octants_f]; discriminate|]. split; [reflexivity|]. split; [reflexivity|].
  split; [apply K; cbv -[dec fdiv Bopp f_of_Z octants_to_degrees_f degrees_to_octants_f]; discriminate|]. repeat split; reflexivity.
Qed.
Example C32_meet : WMO0509_to_BUFR20012 (-1) = Ok 60 /\ WMO0513_to_BUFR20012 9 = Ok 39 /\ BUFR08001_to_BUFR08042 (Z.lor S1_TROPO S1_SIGTH) = 45056.
Proof. vm_compute. auto. Qed.

Print Assumptions C31_lookup.
Print Assumptions C31_round_trip.
Print Assumptions C31_round_trip_exact.
Print Assumptions C31_round_trip_kelvin.
Print Assumptions C31_round_trip_octants.
Print Assumptions C44_units.
Print Assumptions C44_octants.
Print Assumptions C32_cloud_types.
Print Assumptions C32_significance.

(** Properties C13 and C41: when comparisons find nothing, for bulletins of either encoding. *)
From Coq Require Import String ZifyBool ZifyNat.
From Verif Require Import Base Num.Float Varcode.Model Varinfo.Model Tables.Model Var.Model Var.Spec Var.Proofs Var.AttrProofs Var.DiffProofs
  Subset.Model Subset.Proofs Subset.Properties Message.Model Message.Diff Message.DiffProperties Crex.Model Print.Model Message.Compare.
From Verif Require Var.Properties.
Local Open Scope Z_scope.

(** ** Variables and subsets *)

(** Comparing two variables finds nothing exactly when they have the same code and the same value and, where there is a value, the same
    type, the same attributes and (for binary data) the same number of bits. *)
Theorem C13_diff_zero : forall x y, diff_ready (chain x) (chain y) -> (var_diff x y = Ok 0 <-> alike_vars x y).
Proof. exact var_diff_zero. Qed.

(** The same from right to left also for values that have no text (INT_MIN). *)
Theorem C13_alike : forall x y, var_ok x -> var_ok y -> alike_vars x y -> var_diff x y = Ok 0.
Proof. exact var_diff_alike. Qed.

Lemma diff_vars_alike : forall a b, Forall var_ok a -> Forall var_ok b -> Forall2 alike_vars a b -> diff_vars a b = Ok 0.
Proof.
  intros a b Fa Fb F. revert Fa Fb. induction F as [|x y a b A F IH]; intros Fa Fb; [reflexivity|]. apply Forall_cons_iff in Fa as [Ha Fa]. apply Forall_cons_iff in Fb as [Hb Fb].
  cbn [diff_vars]. rewrite var_diff_alike by assumption. cbn [bind]. apply IH; assumption.
Qed.

Lemma diff_vars_zero : forall a b, length a = length b -> Forall2 (fun x y => diff_ready (chain x) (chain y)) a b ->
  diff_vars a b = Ok 0 -> Forall2 alike_vars a b.
Proof.
  intros a b L R. induction R as [|x y a b Rx R IH]; intros E; [constructor|]. cbn [diff_vars] in E. cbn [length] in L.
  destruct (Var.Properties.C13_diff x y Rx) as (n & N1 & _ & N3 & _). rewrite N1 in E. cbn [bind] in E. destruct (Z.ltb_spec 0 n) as [Hn|Hn].
  - apply ok_inj in E. lia.
  - assert (n = 0) by lia. subst n. constructor; [apply var_diff_zero; assumption|apply IH; [lia|exact E]].
Qed.

Theorem C13_subset_diff_zero : forall path1 path2 a b,
  (length a = length b -> Forall2 (fun x y => diff_ready (chain x) (chain y)) a b) ->
  (subset_diff path1 path2 a b = Ok 0 <-> path1 = path2 /\ Forall2 alike_vars a b).
Proof.
  intros path1 path2 a b R. unfold subset_diff. split.
  - intros E. destruct (String.eqb_spec path1 path2) as [P|]; cbn [negb] in E; [|discriminate]. destruct (Nat.eqb_spec (length a) (length b)) as [L|]; cbn [negb] in E; [|discriminate].
    split; [exact P|]. apply diff_vars_zero; auto.
  - intros [-> F]. rewrite String.eqb_refl, (same_length _ _ _ F), Nat.eqb_refl. cbn [negb]. specialize (R (same_length _ _ _ F)). apply diff_vars_alike; [| |exact F].
    + clear -R. induction R as [|x y a b (A & _) _ IH]; constructor; assumption.
    + clear -R. induction R as [|x y a b (_ & A & _) _ IH]; constructor; assumption.
Qed.

(** ** Bulletins *)

(** On two BUFR bulletins, this is the comparison of C41_bulletin_diff. *)
Theorem C41_both_bufr : forall s t, any_diff (BufrSheet s) (BufrSheet t) = bulletin_diff s t.
Proof.
  intros s t. unfold any_diff, bulletin_diff, diff_header. cbn [common_fields diff_codes btable_of dtable_of datadesc_of subsets_of].
  match goal with |- bind ?m _ = _ => destruct m; cbn [bind]; [|reflexivity|reflexivity] end. f_equal. lia.
Qed.

(** What is the same in two bulletins in which no differences are found. *)
Definition same_details (s t : any_sheet) : Prop :=
  match s, t with
  | BufrSheet a, BufrSheet b =>
    b_header (sh_bulletin a) = b_header (sh_bulletin b) /\ b_optional (sh_bulletin a) = b_optional (sh_bulletin b)
  | CrexSheet a, CrexSheet b =>
    let g := cb_header (cs_bulletin a) in let h := cb_header (cs_bulletin b) in
    h = mkcheader (ch_mtn g) (ch_edition g) (ch_mtv g) (ch_mtv_bufr h) (ch_mtv_local g) (ch_category g) (ch_subcategory g) (ch_subcategory_local g) (ch_check g) /\
    cs_others a = cs_others b
  | _, _ => False
  end.
Definition same_sheet (s t : any_sheet) : Prop :=
  same_details s t /\ btable_of s = btable_of t /\ dtable_of s = dtable_of t /\ datadesc_of s = datadesc_of t /\
  Forall2 (Forall2 alike_vars) (subsets_of s) (subsets_of t).

(** Bulletins whose variables can be compared; subsets only exist with loaded tables. *)
Definition any_comparable (s t : any_sheet) : Prop :=
  (forall a b, In a (subsets_of s) -> In b (subsets_of t) -> Forall (fun x => Forall (fun y => diff_ready (chain x) (chain y)) b) a) /\
  (subsets_of s <> [] -> btable_of s <> None) /\ (subsets_of t <> [] -> btable_of t <> None).

Definition details_count (s t : any_sheet) : Z :=
  match s, t with
  | BufrSheet a, BufrSheet b => diff_details (sh_bulletin a) (sh_bulletin b)
  | CrexSheet a, CrexSheet b => crex_diff_details (cb_header (cs_bulletin a)) (cb_header (cs_bulletin b))
  | _, _ => 1
  end.

Lemma details_sym s t : details_count s t = details_count t s.
Proof.
  destruct s as [s|s], t as [t|t]; cbn [details_count]; try reflexivity.
  - unfold diff_details. rewrite (Nat.eqb_sym (length (b_optional (sh_bulletin t)))), (zlist_eqb_sym (b_optional (sh_bulletin t))).
    repeat match goal with |- context [nez ?x ?y] => rewrite (nez_sym x y); generalize (nez y x); intros end. reflexivity.
  - unfold crex_diff_details. replace (Bool.eqb (ch_check (cb_header (cs_bulletin t))) (ch_check (cb_header (cs_bulletin s)))) with (Bool.eqb (ch_check (cb_header (cs_bulletin s))) (ch_check (cb_header (cs_bulletin t))))
      by (destruct (ch_check (cb_header (cs_bulletin s))), (ch_check (cb_header (cs_bulletin t))); reflexivity).
    repeat match goal with |- context [nez ?x ?y] => rewrite (nez_sym x y); generalize (nez y x); intros end. reflexivity.
Qed.

Lemma details_nonneg s t : 0 <= details_count s t.
Proof.
  destruct s as [s|s], t as [t|t]; cbn [details_count]; try lia; unfold diff_details, crex_diff_details;
    repeat match goal with |- context [nez ?x ?y] => let H := fresh in pose proof (nez_nonneg x y) as H; generalize dependent (nez x y); intros end;
    repeat match goal with |- context [differ ?x] => let H := fresh in pose proof (differ_nonneg x) as H; generalize dependent (differ x); intros end; lia.
Qed.

Lemma fields_length s t : length (common_fields s) = length (common_fields t).
Proof. destruct s, t; reflexivity. Qed.

Lemma nez_iff a b : nez a b = 0 <-> a = b.
Proof. split; [apply nez_zero|intros ->; apply nez_refl]. Qed.
Lemma codes_iff a b : length a = length b -> (diff_codes a b = 0 <-> a = b).
Proof. intros L. split; [apply diff_codes_zero; exact L|intros ->; apply diff_codes_refl]. Qed.
Lemma path_iff a b : diff_path a b = 0 <-> a = b.
Proof. split; [apply diff_path_zero|intros ->; apply diff_path_refl]. Qed.

Lemma details_zero s t : details_count s t = 0 /\ common_fields s = common_fields t <-> same_details s t.
Proof.
  destruct s as [[[h1 o1 c1 e1 s1] p1 q1]|[[h1 e1 s1] x1 p1 q1]], t as [[[h2 o2 c2 e2 s2] p2 q2]|[[h2 e2 s2] x2 p2 q2]]; cbn [details_count same_details]; try (split; [intros [E _]; discriminate E|intros []]).
  - unfold diff_details. cbn [common_fields sh_bulletin b_header b_optional].
    pose proof (differ_nonneg (negb (Nat.eqb (length o1) (length o2)))). pose proof (differ_nonneg (negb (zlist_eqb o1 o2))).
    pose proof (nez_nonneg (h_edition h1) (h_edition h2)). pose proof (nez_nonneg (h_version h1) (h_version h2)). pose proof (nez_nonneg (h_version_local h1) (h_version_local h2)).
    split.
    + intros [E F]. assert (A1 : nez (h_edition h1) (h_edition h2) = 0) by lia. assert (A2 : nez (h_version h1) (h_version h2) = 0) by lia.
      assert (A3 : nez (h_version_local h1) (h_version_local h2) = 0) by lia. assert (A4 : differ (negb (zlist_eqb o1 o2)) = 0) by lia. apply nez_zero in A1, A2, A3. split.
      * destruct h1, h2. cbn in *. injection F as ? ? ? ? ? ? ? ? ? ? ? ? ?. subst. reflexivity.
      * destruct (zlist_eqb o1 o2) eqn:Z; [apply zlist_eqb_true; exact Z|discriminate A4].
    + intros [-> ->]. rewrite !nez_refl, Nat.eqb_refl, zlist_eqb_refl. split; reflexivity.
  - unfold crex_diff_details. cbn [common_fields cs_bulletin cb_header cs_others].
    pose proof (differ_nonneg (negb (Bool.eqb (ch_check h1) (ch_check h2)))).
    pose proof (nez_nonneg (ch_edition h1) (ch_edition h2)). pose proof (nez_nonneg (ch_mtv h1) (ch_mtv h2)). pose proof (nez_nonneg (ch_mtv_local h1) (ch_mtv_local h2)).
    split.
    + intros [E F]. assert (A1 : nez (ch_edition h1) (ch_edition h2) = 0) by lia. assert (A2 : nez (ch_mtv h1) (ch_mtv h2) = 0) by lia.
      assert (A3 : nez (ch_mtv_local h1) (ch_mtv_local h2) = 0) by lia. assert (A4 : differ (negb (Bool.eqb (ch_check h1) (ch_check h2))) = 0) by lia. apply nez_zero in A1, A2, A3.
      assert (A5 : ch_check h1 = ch_check h2) by (destruct (ch_check h1), (ch_check h2); (reflexivity || discriminate A4)).
      destruct h1, h2, x1, x2. cbn in *. injection F as ? ? ? ? ? ? ? ? ? ? ? ? ?. subst. split; reflexivity.
    + cbv zeta. intros [A ->]. rewrite A. cbn. rewrite !nez_refl, Bool.eqb_reflx. split; reflexivity.
Qed.

Lemma subsets_zero p q : forall a b, length a = length b ->
  (forall x y, In x a -> In y b -> Forall (fun u => Forall (fun v => diff_ready (chain u) (chain v)) y) x) ->
  (a <> [] -> p <> None) -> p = q -> (diff_subsets p q a b = Ok 0 <-> Forall2 (Forall2 alike_vars) a b).
Proof.
  intros a b L R Hp <-. revert b L R Hp. induction a as [|x a IH]; intros [|y b] L R Hp; try discriminate; [split; [constructor|reflexivity]|].
  destruct p as [p|]; [|exfalso; apply Hp; [discriminate|reflexivity]]. cbn [diff_subsets]. cbn [length] in L.
  destruct (IH b ltac:(lia) ltac:(intros u v Hu Hv; apply R; right; assumption) ltac:(discriminate)) as [I1 I2].
  assert (Rx : length x = length y -> Forall2 (fun u v => diff_ready (chain u) (chain v)) x y) by (intros Lx; apply ready_pairs; [exact Lx|apply R; left; reflexivity]).
  destruct (C13_subset_diff p p x y Rx) as (n & N1 & _ & N3 & _). pose proof (C13_subset_diff_zero p p x y Rx) as Zx. rewrite N1 in *. cbn [bind].
  destruct (diff_subsets_spec (Some p) (Some p) a b) as (m & M1 & _ & M3 & _); [lia|intros u v Hu Hv; apply R; right; assumption|discriminate|discriminate|]. rewrite M1 in *. cbn [bind].
  split.
  - intros E. apply ok_inj in E. assert (n = 0) by lia. assert (m = 0) by lia. subst n m. constructor; [apply Zx; reflexivity|apply I1; reflexivity].
  - intros F. inversion F as [|? ? ? ? F1 F2]; subst. specialize (I2 F2). assert (Zn : Ok n = Ok 0) by (apply Zx; split; [reflexivity|exact F1]). apply ok_inj in I2, Zn. subst. reflexivity.
Qed.

(** Comparing any two bulletins gives the same count in either order, and finds nothing exactly when they have the same encoding, header,
    optional section, template and tables, and subsets with the same variables; but for the version of the BUFR tables of CREX bulletins,
    the compression, and what alike_vars leaves out. *)
Theorem C41_diff_zero : forall s t, any_comparable s t ->
  exists n, any_diff s t = Ok n /\ any_diff t s = Ok n /\ 0 <= n /\ (n = 0 <-> same_sheet s t).
Proof.
  intros s t (R & Hp & Hq). unfold any_diff. change (match s, t with BufrSheet a, BufrSheet b => _ | CrexSheet a, CrexSheet b => _ | _, _ => 1 end) with (details_count s t).
  change (match t, s with BufrSheet a, BufrSheet b => _ | CrexSheet a, CrexSheet b => _ | _, _ => 1 end) with (details_count t s).
  rewrite (details_sym t s), (diff_codes_sym (common_fields t)), (diff_path_sym (btable_of t)), (diff_path_sym (dtable_of t)), (Nat.eqb_sym (length (datadesc_of t))), (diff_codes_sym (datadesc_of t)), (Nat.eqb_sym (length (subsets_of t))).
  pose proof (details_nonneg s t) as P1. pose proof (diff_codes_nonneg (common_fields s) (common_fields t)) as P2. pose proof (diff_path_nonneg (btable_of s) (btable_of t)) as P3. pose proof (diff_path_nonneg (dtable_of s) (dtable_of t)) as P4.
  pose proof (details_zero s t) as Z1. pose proof (codes_iff (common_fields s) (common_fields t) (fields_length s t)) as Z2. pose proof (path_iff (btable_of s) (btable_of t)) as Z3. pose proof (path_iff (dtable_of s) (dtable_of t)) as Z4.
  assert (D : exists d, (if negb (Nat.eqb (length (datadesc_of s)) (length (datadesc_of t))) then 1 else diff_codes (datadesc_of s) (datadesc_of t)) = d /\ 0 <= d /\ (d = 0 <-> datadesc_of s = datadesc_of t)).
  { eexists. split; [reflexivity|]. destruct (Nat.eqb_spec (length (datadesc_of s)) (length (datadesc_of t))) as [L|L]; cbn [negb].
    - split; [apply diff_codes_nonneg|apply codes_iff; exact L].
    - split; [lia|]. split; [discriminate|]. intros E. rewrite E in L. congruence. }
  destruct D as (d & -> & P5 & Z5).
  assert (M : exists m, (if negb (Nat.eqb (length (subsets_of s)) (length (subsets_of t))) then Ok 1 else diff_subsets (btable_of s) (btable_of t) (subsets_of s) (subsets_of t)) = Ok m /\
    (if negb (Nat.eqb (length (subsets_of s)) (length (subsets_of t))) then Ok 1 else diff_subsets (btable_of t) (btable_of s) (subsets_of t) (subsets_of s)) = Ok m /\ 0 <= m /\
    (btable_of s = btable_of t -> (m = 0 <-> Forall2 (Forall2 alike_vars) (subsets_of s) (subsets_of t)))).
  { destruct (Nat.eqb_spec (length (subsets_of s)) (length (subsets_of t))) as [L|L]; cbn [negb].
    - destruct (diff_subsets_spec _ _ _ _ L R Hp Hq) as (m & M1 & M2 & M3 & _). exists m. split; [exact M1|]. split; [exact M2|]. split; [exact M3|]. intros Pq.
      rewrite <- (subsets_zero _ _ _ _ L R Hp Pq), M1. split; [intros ->; reflexivity|apply ok_inj].
    - exists 1. split; [reflexivity|]. split; [reflexivity|]. split; [lia|]. intros _. split; [discriminate|]. intros F. apply same_length in F. congruence. }
  destruct M as (m & M1 & M2 & P6 & Z6). rewrite M1, M2. cbn [bind]. eexists. split; [reflexivity|]. split; [reflexivity|]. split; [lia|]. unfold same_sheet.
  generalize dependent (details_count s t). intros n1 P1 Z1. generalize dependent (diff_codes (common_fields s) (common_fields t)). intros n2 P2 Z2.
  generalize dependent (diff_path (btable_of s) (btable_of t)). intros n3 P3 Z3. generalize dependent (diff_path (dtable_of s) (dtable_of t)). intros n4 P4 Z4.
  split.
  - intros E. assert (n1 = 0 /\ n2 = 0 /\ n3 = 0 /\ n4 = 0 /\ d = 0 /\ m = 0) as (E1 & E2 & E3 & E4 & E5 & E6) by (clear -E P1 P2 P3 P4 P5 P6; lia).
    apply Z3 in E3. split; [apply Z1; split; [exact E1|apply Z2; exact E2]|]. split; [exact E3|]. split; [apply Z4; exact E4|]. split; [apply Z5; exact E5|]. apply Z6; assumption.
  - intros (F1 & F3 & F4 & F5 & F6). apply Z1 in F1 as [F1 F2]. apply Z2 in F2. apply (Z6 F3) in F6. apply Z3 in F3. apply Z4 in F4. apply Z5 in F5. clear -F1 F2 F3 F4 F5 F6. lia.
Qed.

(** Bulletins that are the same are found to be the same also when their values have no text. *)
Definition well_made (s : any_sheet) : Prop := Forall (Forall var_ok) (subsets_of s) /\ (subsets_of s <> [] -> btable_of s <> None).

Theorem C41_same : forall s t, well_made s -> well_made t -> same_sheet s t -> any_diff s t = Ok 0.
Proof.
  intros s t [Ws Ps] [Wt _] (F1 & F3 & F4 & F5 & F6). unfold any_diff. change (match s, t with BufrSheet a, BufrSheet b => _ | CrexSheet a, CrexSheet b => _ | _, _ => 1 end) with (details_count s t).
  apply details_zero in F1 as [F1 F2]. rewrite F1, F2, diff_codes_refl, <- F3, F4, F5, !diff_path_refl, Nat.eqb_refl, diff_codes_refl, (same_length _ _ _ F6), Nat.eqb_refl. cbn [negb].
  enough (E : diff_subsets (btable_of s) (btable_of s) (subsets_of s) (subsets_of t) = Ok 0) by (rewrite E; reflexivity).
  destruct (btable_of s) as [p|]; [|destruct F6; [reflexivity|exfalso; apply Ps; [discriminate|reflexivity]]]. clear -F6 Ws Wt. revert Ws Wt.
  induction F6 as [|x y a b A F IH]; intros Wa Wb; [reflexivity|]. apply Forall_cons_iff in Wa as [Wx Wa]. apply Forall_cons_iff in Wb as [Wy Wb]. cbn [diff_subsets].
  assert (E1 : subset_diff p p x y = Ok 0) by (unfold subset_diff; rewrite String.eqb_refl, (same_length _ _ _ A), Nat.eqb_refl; apply diff_vars_alike; assumption).
  rewrite E1. cbn [bind]. rewrite (IH Wa Wb). reflexivity.
Qed.

Lemma same_subsets_refl (l : list (list var)) : Forall2 (Forall2 alike_vars) l l.
Proof. induction l as [|x l IH]; constructor; auto. induction x; constructor; auto using alike_vars_refl. Qed.

Lemma same_sheet_refl s : same_sheet s s.
Proof.
  repeat split; try apply same_subsets_refl. destruct s as [s|s]; cbn [same_details]; [split; reflexivity|]. cbv zeta. split; [|reflexivity]. destruct (cb_header (cs_bulletin s)). reflexivity.
Qed.

Theorem C41_any_self : forall s, well_made s -> any_diff s s = Ok 0.
Proof. intros s W. apply C41_same; auto using same_sheet_refl. Qed.

(** A BUFR and a CREX bulletin always differ, whatever they contain. *)
Theorem C41_encodings : forall s t, any_comparable (BufrSheet s) (CrexSheet t) ->
  exists n, any_diff (BufrSheet s) (CrexSheet t) = Ok n /\ any_diff (CrexSheet t) (BufrSheet s) = Ok n /\ 0 < n.
Proof.
  intros s t C. destruct (C41_diff_zero _ _ C) as (n & A & B & P & Q). exists n. split; [exact A|]. split; [exact B|].
  assert (n <> 0) by (intros E; apply Q in E as (E & _); exact E). lia.
Qed.

(** ** What is not compared in CREX bulletins *)
Definition with_versions (h : cheader) (version bufr : Z) : cheader :=
  mkcheader (ch_mtn h) (ch_edition h) version bufr (ch_mtv_local h) (ch_category h) (ch_subcategory h) (ch_subcategory_local h) (ch_check h).

(** Two bulletins that refer to different BUFR tables are found to be the same. *)
Theorem C41_crex_bufr_version_refuted : forall h ops subsets x p q version v w,
  well_made (CrexSheet (mkcsheet (mkcb h ops subsets) x p q)) ->
  any_diff (CrexSheet (mkcsheet (mkcb (with_versions h version v) ops subsets) x p q))
           (CrexSheet (mkcsheet (mkcb (with_versions h version w) ops subsets) x p q)) = Ok 0.
Proof. intros h ops subsets x p q version v w W. apply C41_same; auto. repeat split. apply same_subsets_refl. Qed.

(** Two bulletins that only differ for the version of the master table are said to have two differences. *)
Theorem C41_crex_counted_twice_refuted : forall h ops subsets x p q v w bufr, v <> w ->
  well_made (CrexSheet (mkcsheet (mkcb h ops subsets) x p q)) ->
  any_diff (CrexSheet (mkcsheet (mkcb (with_versions h v bufr) ops subsets) x p q))
           (CrexSheet (mkcsheet (mkcb (with_versions h w bufr) ops subsets) x p q)) = Ok 2.
Proof.
  intros h ops subsets x p q v w bufr N W.
  pose proof (C41_same (CrexSheet (mkcsheet (mkcb (with_versions h v bufr) ops subsets) x p q)) (CrexSheet (mkcsheet (mkcb (with_versions h v bufr) ops subsets) x p q)) W W (same_sheet_refl _)) as E.
  unfold any_diff in *. cbn [common_fields btable_of dtable_of datadesc_of subsets_of cs_bulletin cs_others cs_btable cs_dtable cb_header cb_datadesc cb_subsets ch_mtn ch_edition ch_mtv ch_mtv_bufr ch_mtv_local
    ch_category ch_subcategory ch_subcategory_local ch_check with_versions] in *. unfold crex_diff_details in *. cbn [ch_mtn ch_edition ch_mtv ch_mtv_bufr ch_mtv_local
    ch_category ch_subcategory ch_subcategory_local ch_check with_versions] in *.
  match type of E with bind ?w _ = _ => destruct w as [k| |]; cbn [bind] in *; [|discriminate|discriminate] end. apply ok_inj in E. f_equal.
  rewrite (nez_refl v) in E. assert (V : nez v w = 1) by (unfold nez; destruct (Z.eqb_spec v w); [contradiction|reflexivity]). rewrite V. lia.
Qed.

(** ** Examples *)
Definition ex_csheet (version bufr : Z) : csheet :=
  mkcsheet (mkcb (mkcheader 0 1 version bufr 0 1 255 0 false) [1] []) (mkothers 0 0 0 0 0 0 0 0 0) (Some "B"%string) (Some "D"%string).
Example C41_crex_example : any_comparable (CrexSheet (ex_csheet 3 0)) (CrexSheet (ex_csheet 2 0)) /\ well_made (CrexSheet (ex_csheet 3 0)) /\
  any_diff (CrexSheet (ex_csheet 3 0)) (CrexSheet (ex_csheet 2 0)) = Ok 2 /\ any_diff (CrexSheet (ex_csheet 3 18)) (CrexSheet (ex_csheet 3 25)) = Ok 0.
Proof.
  split; [|split; [|split; reflexivity]].
  - split; [intros a b []|]. split; intros H; exfalso; apply H; reflexivity.
  - split; [constructor|]. intros H. exfalso. apply H. reflexivity.
Qed.

Print Assumptions C13_diff_zero.
Print Assumptions C13_subset_diff_zero.
Print Assumptions C41_diff_zero.
Print Assumptions C41_same.
Print Assumptions C41_crex_counted_twice_refuted.

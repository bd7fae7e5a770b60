(** Property C41: comparison of bulletins. *)
From Coq Require Import String ZifyBool ZifyNat.
From Verif Require Import Base Num.Float Varcode.Model Varinfo.Model Tables.Model Var.Model Var.Spec Var.Proofs Var.AttrProofs
  Subset.Model Subset.Proofs Subset.Properties Message.Model Message.Diff.
Local Open Scope Z_scope.

(** The variables of two subsets have the same codes and values and, where they are set,
    the same attributes. *)
Definition same_vars (x y : var) : Prop :=
  same_cell (v_cell x) (v_cell y) /\ (isset (v_cell x) = true -> Forall2 same_cell (v_attrs x) (v_attrs y)).

(** Bulletins whose variables can be compared; subsets only exist with loaded tables. *)
Definition comparable (s t : sheet) : Prop :=
  (forall a b, In a (b_subsets (sh_bulletin s)) -> In b (b_subsets (sh_bulletin t)) ->
     Forall (fun x => Forall (fun y => diff_ready (chain x) (chain y)) b) a) /\
  (b_subsets (sh_bulletin s) <> [] -> sh_btable s <> None) /\ (b_subsets (sh_bulletin t) <> [] -> sh_btable t <> None).

(** An implication that lia does not look into. *)
Definition hide (P : Prop) : Prop := P.

Lemma nez_sym a b : nez a b = nez b a.
Proof. unfold nez. rewrite Z.eqb_sym. reflexivity. Qed.
Lemma nez_nonneg a b : 0 <= nez a b.
Proof. unfold nez, differ. destruct (negb (a =? b)); lia. Qed.
Lemma nez_zero a b : nez a b = 0 -> a = b.
Proof. unfold nez, differ. destruct (Z.eqb_spec a b); cbn [negb]; [auto|discriminate]. Qed.
Lemma nez_refl a : nez a a = 0.
Proof. unfold nez. rewrite Z.eqb_refl. reflexivity. Qed.
Lemma differ_nonneg b : 0 <= differ b.
Proof. destruct b; cbn; lia. Qed.

Lemma diff_codes_sym : forall a b, diff_codes a b = diff_codes b a.
Proof. induction a as [|x a IH]; intros [|y b]; cbn [diff_codes]; auto. rewrite nez_sym, IH. reflexivity. Qed.
Lemma diff_codes_nonneg : forall a b, 0 <= diff_codes a b.
Proof. induction a as [|x a IH]; intros [|y b]; cbn [diff_codes]; try lia. pose proof (nez_nonneg x y). pose proof (IH b). lia. Qed.
Lemma diff_codes_zero : forall a b, length a = length b -> diff_codes a b = 0 -> a = b.
Proof.
  induction a as [|x a IH]; intros [|y b] L H; try discriminate; auto. cbn [diff_codes] in H.
  pose proof (nez_nonneg x y). pose proof (diff_codes_nonneg a b). f_equal; [apply nez_zero; lia|apply IH; [cbn in L; lia|lia]].
Qed.
Lemma diff_codes_refl a : diff_codes a a = 0.
Proof. induction a as [|x a IH]; cbn [diff_codes]; auto. rewrite nez_refl, IH. reflexivity. Qed.

Lemma zlist_eqb_sym : forall a b, zlist_eqb a b = zlist_eqb b a.
Proof. induction a as [|x a IH]; intros [|y b]; cbn; auto. rewrite Z.eqb_sym, IH. reflexivity. Qed.

Lemma diff_path_sym a b : diff_path a b = diff_path b a.
Proof. destruct a, b; cbn; auto. rewrite String.eqb_sym. reflexivity. Qed.
Lemma diff_path_nonneg a b : 0 <= diff_path a b.
Proof. destruct a, b; cbn; try lia. apply differ_nonneg. Qed.
Lemma diff_path_zero a b : diff_path a b = 0 -> a = b.
Proof. destruct a as [p|], b as [q|]; cbn; try discriminate; auto. destruct (String.eqb_spec p q); cbn; [congruence|discriminate]. Qed.
Lemma diff_path_refl a : diff_path a a = 0.
Proof. destruct a; cbn; auto. rewrite String.eqb_refl. reflexivity. Qed.

Lemma ready_pairs : forall a b, length a = length b -> Forall (fun x => Forall (fun y => diff_ready (chain x) (chain y)) b) a ->
  Forall2 (fun x y => diff_ready (chain x) (chain y)) a b.
Proof.
  intros a b L F.
  assert (H : forall a b, length a = length b -> (forall x y, In x a -> In y b -> diff_ready (chain x) (chain y)) ->
    Forall2 (fun x y => diff_ready (chain x) (chain y)) a b).
  { clear. induction a as [|x a IH]; intros [|y b] L H; try discriminate; constructor.
    - apply H; left; reflexivity.
    - apply IH; [cbn in L; lia|]. intros. apply H; right; auto. }
  apply H; auto. intros x y Hx Hy. rewrite Forall_forall in F. specialize (F x Hx). rewrite Forall_forall in F. auto.
Qed.

Lemma diff_subsets_spec p q : forall a b, length a = length b ->
  (forall x y, In x a -> In y b -> Forall (fun u => Forall (fun v => diff_ready (chain u) (chain v)) y) x) ->
  (a <> [] -> p <> None) -> (b <> [] -> q <> None) ->
  exists n, diff_subsets p q a b = Ok n /\ diff_subsets q p b a = Ok n /\ 0 <= n /\
    (n = 0 -> Forall2 (Forall2 same_vars) a b).
Proof.
  induction a as [|x a IH]; intros [|y b] L R Hp Hq; try discriminate.
  - exists 0. cbn [diff_subsets]. repeat split; auto. lia.
  - destruct p as [p'|]; [|exfalso; apply Hp; [discriminate|reflexivity]].
    destruct q as [q'|]; [|exfalso; apply Hq; [discriminate|reflexivity]].
    destruct (IH b) as (m & M1 & M2 & M3 & M4); auto. { intros u v Hu Hv. apply R; right; auto. } { discriminate. } { discriminate. }
    destruct (C13_subset_diff p' q' x y) as (n & N1 & N2 & N3 & N4).
    { intros Lx. apply ready_pairs; auto. apply R; left; reflexivity. }
    exists (n + m). cbn [diff_subsets]. rewrite N1, N2. cbn [bind]. rewrite M1, M2. cbn [bind].
    split; [auto|]. split; [auto|]. split; [lia|]. intros E. constructor; [apply N4; lia|apply M4; lia].
Qed.

(** The comparison of two bulletins is total, gives the same count in either order, and
    0 means that they have the same header, optional section, descriptors and tables, and
    subsets with the same values. *)
Theorem C41_bulletin_diff : forall s t, comparable s t ->
  exists n, bulletin_diff s t = Ok n /\ bulletin_diff t s = Ok n /\ 0 <= n /\
    (n = 0 ->
      b_header (sh_bulletin s) = b_header (sh_bulletin t) /\
      b_optional (sh_bulletin s) = b_optional (sh_bulletin t) /\
      b_datadesc (sh_bulletin s) = b_datadesc (sh_bulletin t) /\
      sh_btable s = sh_btable t /\ sh_dtable s = sh_dtable t /\
      Forall2 (Forall2 same_vars) (b_subsets (sh_bulletin s)) (b_subsets (sh_bulletin t))).
Proof.
  intros [[g oa ca da sa] ba dta] [[h ob cb db sb] bb dtb] (R & Hp & Hq). unfold bulletin_diff, diff_details, diff_header.
  cbn [sh_bulletin sh_btable sh_dtable b_header b_optional b_datadesc b_subsets] in *.
  destruct g as [g0 g1 g2 g3 g4 g5 g6 g7 g8 g9 g10 g11 g12 g13 g14 g15], h as [k0 k1 k2 k3 k4 k5 k6 k7 k8 k9 k10 k11 k12 k13 k14 k15]. cbn [h_edition h_master_table h_centre h_subcentre h_update h_category h_subcategory h_local h_version
    h_version_local h_year h_month h_day h_hour h_minute h_second].
  assert (Sub : exists m,
    (if negb (Nat.eqb (length sa) (length sb)) then Ok 1 else diff_subsets ba bb sa sb) = Ok m /\
    (if negb (Nat.eqb (length sb) (length sa)) then Ok 1 else diff_subsets bb ba sb sa) = Ok m /\ 0 <= m /\
    (m = 0 -> Forall2 (Forall2 same_vars) sa sb)).
  { rewrite (Nat.eqb_sym (length sb)). destruct (Nat.eqb_spec (length sa) (length sb)) as [L|]; cbn [negb].
    - apply diff_subsets_spec; auto.
    - exists 1. split; [auto|]. split; [auto|]. split; [lia|discriminate]. }
  destruct Sub as (m & M1 & M2 & M3 & M4). rewrite M1, M2. cbn [bind].
  assert (Desc : exists d,
    (if negb (Nat.eqb (length da) (length db)) then 1 else diff_codes da db) = d /\
    (if negb (Nat.eqb (length db) (length da)) then 1 else diff_codes db da) = d /\ 0 <= d /\ (d = 0 -> da = db)).
  { rewrite (Nat.eqb_sym (length db)), (diff_codes_sym db). eexists. split; [reflexivity|]. split; [reflexivity|].
    destruct (Nat.eqb_spec (length da) (length db)) as [L|]; cbn [negb].
    - split; [apply diff_codes_nonneg|apply diff_codes_zero; auto].
    - split; [lia|discriminate]. }
  destruct Desc as (d & -> & -> & D3 & D4).
  eexists. split; [reflexivity|]. split.
  { rewrite (Nat.eqb_sym (length ob)), (zlist_eqb_sym ob), (diff_path_sym bb), (diff_path_sym dtb).
    repeat match goal with |- context [nez ?x ?y] => rewrite (nez_sym x y); generalize (nez y x); intros end. reflexivity. }
  pose proof (diff_path_nonneg ba bb) as P1. pose proof (diff_path_nonneg dta dtb) as P2.
  pose proof (differ_nonneg (negb (length oa =? length ob)%nat)) as P3.
  pose proof (differ_nonneg (negb (zlist_eqb oa ob))) as P4.
  assert (O : differ (negb (zlist_eqb oa ob)) = 0 -> oa = ob).
  { destruct (zlist_eqb oa ob) eqn:E; cbn; [intros _; apply zlist_eqb_true; exact E|discriminate]. }
  assert (B1 : diff_path ba bb = 0 -> ba = bb) by apply diff_path_zero.
  assert (B2 : diff_path dta dtb = 0 -> dta = dtb) by apply diff_path_zero.
  change (hide (differ (negb (zlist_eqb oa ob)) = 0 -> oa = ob)) in O. change (hide (diff_path ba bb = 0 -> ba = bb)) in B1.
  change (hide (diff_path dta dtb = 0 -> dta = dtb)) in B2. change (hide (m = 0 -> Forall2 (Forall2 same_vars) sa sb)) in M4.
  change (hide (d = 0 -> da = db)) in D4.
  revert P1 P2 P3 P4 O B1 B2 M3 M4 D3 D4.
  generalize (diff_path ba bb) (diff_path dta dtb) (differ (negb (length oa =? length ob)%nat)) (differ (negb (zlist_eqb oa ob))).
  intros z1 z2 z3 z4 P1 P2 P3 P4 O B1 B2 M3 M4 D3 D4.
  repeat match goal with |- context [nez ?x ?y] =>
    let H := fresh "N" in let G := fresh "G" in let z := fresh "z" in
    pose proof (nez_nonneg x y) as H; pose proof (nez_zero x y : hide (nez x y = 0 -> x = y)) as G;
    generalize dependent (nez x y); intros z H G end.
  split; [lia|]. intros E.
  assert (oa = ob) by (apply O; lia). assert (ba = bb) by (apply B1; lia). assert (dta = dtb) by (apply B2; lia).
  assert (da = db) by (apply D4; lia). assert (Forall2 (Forall2 same_vars) sa sb) by (apply M4; lia).
  clear O B1 B2 D4 M4.
  repeat match goal with G : hide (?z = 0 -> ?x = ?y) |- _ => let Q := fresh in assert (Q : x = y) by (apply G; lia); clear G end.
  clear E. subst. repeat (split; [reflexivity|]). assumption.
Qed.

(** A bulletin does not differ from itself. *)
Theorem C41_self : forall s, comparable s s -> bulletin_diff s s = Ok 0.
Proof.
  intros [[g oa ca da sa] ba dta] (R & Hp & _). unfold bulletin_diff, diff_details, diff_header.
  cbn [sh_bulletin sh_btable sh_dtable b_header b_optional b_datadesc b_subsets] in *.
  rewrite !nez_refl, !Nat.eqb_refl, zlist_eqb_refl, !diff_path_refl, diff_codes_refl. cbn [negb].
  assert (S : diff_subsets ba ba sa sa = Ok 0).
  { destruct sa as [|x0 sa0] eqn:E; [reflexivity|]. rewrite <- E in *. destruct ba as [p|]; [|exfalso; apply Hp; [subst; discriminate|reflexivity]].
    assert (F : forall x, In x sa -> Forall (fun v => diff_ready (chain v) (chain v)) x).
    { intros x Hx. specialize (R x x Hx Hx). apply Forall_forall. intros v Hv. rewrite Forall_forall in R. specialize (R v Hv).
      rewrite Forall_forall in R. auto. }
    clear -F. induction sa as [|x sa IH]; [reflexivity|]. cbn [diff_subsets].
    rewrite C13_subset_diff_self by (apply F; left; reflexivity). cbn [bind]. rewrite IH by (intros; apply F; right; auto).
    reflexivity. }
  rewrite S. reflexivity.
Qed.

(** Whether the data are compressed is not compared, and unset variables with different
    attributes are not told apart. *)
Theorem C41_compression_refuted : forall h opt ops subsets b d,
  comparable (mksheet (mkbulletin h opt true ops subsets) b d) (mksheet (mkbulletin h opt true ops subsets) b d) ->
  bulletin_diff (mksheet (mkbulletin h opt true ops subsets) b d) (mksheet (mkbulletin h opt false ops subsets) b d) = Ok 0.
Proof. intros h opt ops subsets b d C. apply (C41_self _ C). Qed.

Example C41_example : exists s t, comparable s t /\ bulletin_diff s t = Ok 2.
Proof.
  exists (mksheet (mkbulletin (mkheader 4 0 98 0 0 0 255 0 14 0 2010 1 2 3 4 5) [1; 2] false [1] []) (Some "B"%string) (Some "D"%string)).
  exists (mksheet (mkbulletin (mkheader 4 0 98 0 0 0 255 0 14 0 2010 1 3 3 4 5) [1; 2] false [2] []) (Some "B"%string) (Some "D"%string)).
  split; [|reflexivity]. split; [intros a b []|]. split; intros H; exfalso; apply H; reflexivity.
Qed.

Print Assumptions C41_bulletin_diff.
Print Assumptions C41_self.

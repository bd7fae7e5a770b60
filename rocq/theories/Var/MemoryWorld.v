(** Histories of operations on variables: the heap always represents the values. *)
From Coq Require Import String Permutation.
From Verif Require Import Base Num.Float Varcode.Model Varinfo.Model Var.Model Var.Memory Var.MemorySpec Var.MemoryProofs.
Local Open Scope Z_scope.

Definition inv (h : heap) (ns : names) (w : world) (owned : nat -> list addr) : Prop :=
  (forall k, var_at h (nth_error ns k) (nth_error w k) (owned k)) /\
  (forall k, NoDup (owned k)) /\
  (forall k l x, In x (owned k) -> In x (owned l) -> k = l) /\
  (forall x, live h x <-> exists k, In x (owned k)).

Definition chain (v : var) : list cell := v_cell v :: v_attrs v.

(** Blocks of the other variables. *)
Definition others (owned : nat -> list addr) (p : nat -> bool) : addr -> Prop :=
  fun x => exists l, p l = false /\ In x (owned l).

Lemma var_at_frame h h' n v fp : var_at h n v fp -> (forall x, In x fp -> lookup h' x = lookup h x) -> var_at h' n v fp.
Proof. destruct n as [[a|]|], v as [[v|]|]; cbn; auto. intros C F; eapply chain_frame; eauto. Qed.
Lemma var_at_live h n v fp : var_at h n v fp -> forall x, In x fp -> live h x.
Proof.
  destruct n as [[a|]|], v as [[v|]|]; cbn; try tauto; try (intros ->; intros x []; fail).
  intros C; eapply chain_live; eauto.
Qed.

Lemma inv_own1 h ns w owned k : inv h ns w owned -> own h (owned k) (others owned (Nat.eqb k)).
Proof.
  intros (V & N & D & L). split; [auto|]. split.
  - intros x I (l & E & J). apply Nat.eqb_neq in E. apply E. eapply D; eauto.
  - intros x. rewrite L. split.
    + intros (l & I). destruct (Nat.eq_dec k l) as [->|E]; auto. right; exists l; split; auto. apply Nat.eqb_neq; auto.
    + intros [I|(l & _ & I)]; eauto.
Qed.

Definition either (k l : nat) : nat -> bool := fun j => Nat.eqb k j || Nat.eqb l j.
Lemma inv_own2 h ns w owned k l : inv h ns w owned -> k <> l ->
  own h (owned k ++ owned l) (others owned (either k l)).
Proof.
  intros (V & N & D & L) Ne. split; [|split].
  - apply NoDup_app_inv. repeat split; auto. intros x I J. apply Ne; eapply D; eauto.
  - intros x I (j & E & J). apply orb_false_iff in E; destruct E as (E1 & E2). apply Nat.eqb_neq in E1, E2.
    apply in_app_or in I; destruct I as [I|I]; [apply E1|apply E2]; eapply D; eauto.
  - intros x. rewrite L, in_app_iff. split.
    + intros (j & I). destruct (Nat.eq_dec k j) as [->|E1]; auto. destruct (Nat.eq_dec l j) as [->|E2]; auto.
      right; exists j; split; auto. apply orb_false_iff; split; apply Nat.eqb_neq; auto.
    + intros [[I|I]|(j & _ & I)]; eauto.
Qed.

Lemma rep_change1 h ns w owned k h' ns' w' fp : inv h ns w owned ->
  (forall l, l <> k -> nth_error ns' l = nth_error ns l /\ nth_error w' l = nth_error w l) ->
  var_at h' (nth_error ns' k) (nth_error w' k) fp -> own h' fp (others owned (Nat.eqb k)) ->
  frame h h' (others owned (Nat.eqb k)) -> represents h' ns' w'.
Proof.
  intros (V & N & D & L) S C (ON & OD & OL) F.
  exists (fun l => if Nat.eqb l k then fp else owned l). split; [|split; [|split]].
  - intros l. destruct (Nat.eqb_spec l k) as [->|E]; auto. destruct (S l E) as (-> & ->).
    eapply var_at_frame; eauto. intros x I; apply F. exists l; split; auto. apply Nat.eqb_neq; auto.
  - intros l. destruct (Nat.eqb l k); auto.
  - intros l j x. destruct (Nat.eqb_spec l k) as [->|E], (Nat.eqb_spec j k) as [->|E']; auto.
    + intros I J. exfalso. apply (OD x I). exists j; split; auto. apply Nat.eqb_neq; auto.
    + intros I J. exfalso. apply (OD x J). exists l; split; auto. apply Nat.eqb_neq; auto.
    + apply D.
  - intros x. rewrite OL. split.
    + intros [I|(l & E & I)]; [exists k; rewrite Nat.eqb_refl; auto|exists l]. rewrite Nat.eqb_sym, E; auto.
    + intros (l & I). revert I; destruct (Nat.eqb_spec l k) as [->|E]; intros I; auto. right; exists l; split; auto. apply Nat.eqb_neq; auto.
Qed.

Lemma rep_change2 h ns w owned k l h' ns' w' fk fl : inv h ns w owned -> k <> l ->
  (forall j, j <> k -> j <> l -> nth_error ns' j = nth_error ns j /\ nth_error w' j = nth_error w j) ->
  var_at h' (nth_error ns' k) (nth_error w' k) fk -> var_at h' (nth_error ns' l) (nth_error w' l) fl ->
  own h' (fk ++ fl) (others owned (either k l)) ->
  frame h h' (others owned (either k l)) -> represents h' ns' w'.
Proof.
  intros (V & N & D & L) Ne S Ck Cl (ON & OD & OL) F. apply NoDup_app_inv in ON; destruct ON as (Nk & Nl & Nd).
  assert (EF : forall j, j <> k -> j <> l -> either k l j = false).
  { intros j A B; apply orb_false_iff; split; apply Nat.eqb_neq; auto. }
  exists (fun j => if Nat.eqb j k then fk else if Nat.eqb j l then fl else owned j). split; [|split; [|split]].
  - intros j. destruct (Nat.eqb_spec j k) as [->|E]; auto. destruct (Nat.eqb_spec j l) as [->|E']; auto.
    destruct (S j E E') as (-> & ->). eapply var_at_frame; eauto. intros x I; apply F. exists j; auto.
  - intros j. destruct (Nat.eqb j k); auto. destruct (Nat.eqb j l); auto.
  - assert (K : forall j x, j <> k -> j <> l -> In x (owned j) -> ~ In x fk /\ ~ In x fl).
    { intros j x A B I. split; intros J; apply (OD x); try (apply in_or_app; auto); exists j; auto. }
    intros i j x.
    destruct (Nat.eqb_spec i k) as [->|A1]; [|destruct (Nat.eqb_spec i l) as [->|A2]];
    (destruct (Nat.eqb_spec j k) as [->|B1]; [|destruct (Nat.eqb_spec j l) as [->|B2]]); intros I J; auto; try (exact (D i j x I J)); exfalso.
    + eapply Nd; eauto.
    + destruct (K j x B1 B2 J); auto.
    + eapply Nd; eauto.
    + destruct (K j x B1 B2 J); auto.
    + destruct (K i x A1 A2 I); auto.
    + destruct (K i x A1 A2 I); auto.
  - intros x. rewrite OL, in_app_iff. split.
    + intros [[I|I]|(j & E & I)].
      * exists k; rewrite Nat.eqb_refl; auto.
      * exists l. rewrite Nat.eqb_refl. destruct (Nat.eqb_spec l k); [congruence|auto].
      * exists j. apply orb_false_iff in E; destruct E as (E1 & E2). rewrite Nat.eqb_sym, E1, Nat.eqb_sym, E2; auto.
    + intros (j & I). revert I; destruct (Nat.eqb_spec j k) as [->|E]; [auto|]. destruct (Nat.eqb_spec j l) as [->|E']; intros I; auto.
      right; exists j; auto.
Qed.

(** ** Numbering *)
Lemma nth_put w : forall k v l,
  nth_error (put w k v) l = if Nat.eqb l k then match nth_error w l with Some _ => Some v | None => None end else nth_error w l.
Proof. induction w as [|x w IH]; intros [|k] v [|l]; cbn; auto. destruct (Nat.eqb l k); reflexivity. Qed.
Lemma nth_forget ns : forall k l,
  nth_error (forget ns k) l = if Nat.eqb l k then match nth_error ns l with Some _ => Some None | None => None end else nth_error ns l.
Proof. induction ns as [|x w IH]; intros [|k] [|l]; cbn; auto. destruct (Nat.eqb l k); reflexivity. Qed.
Lemma nth_put_same w k v x : the w k = Some x -> nth_error (put w k v) k = Some v.
Proof. unfold the; rewrite nth_put, Nat.eqb_refl. destruct (nth_error w k); congruence. Qed.
Lemma nth_put_other w k v l : l <> k -> nth_error (put w k v) l = nth_error w l.
Proof. intros E; rewrite nth_put. apply Nat.eqb_neq in E; rewrite E; auto. Qed.
Lemma put_length w : forall k v, length (put w k v) = length w.
Proof. induction w; intros [|k] v; cbn; auto. Qed.
Lemma the_nth w k v : the w k = Some v -> nth_error w k = Some (Some v).
Proof. unfold the; destruct (nth_error w k); congruence. Qed.

Lemma inv_length h ns w owned : inv h ns w owned -> length ns = length w.
Proof.
  intros (V & _). destruct (Nat.lt_trichotomy (length ns) (length w)) as [E|[E|E]]; auto.
  - specialize (V (length ns)). rewrite (proj2 (nth_error_None ns _)) in V by auto.
    destruct (nth_error w (length ns)) as [v|] eqn:Q; [destruct V|]. apply nth_error_None in Q; lia.
  - specialize (V (length w)). rewrite (proj2 (nth_error_None w _)) in V by auto.
    destruct (nth_error ns (length w)) as [[v|]|] eqn:Q; try destruct V. apply nth_error_None in Q; lia.
Qed.

Lemma inv_var h ns w owned k v : inv h ns w owned -> the w k = Some v ->
  exists a, nth_error ns k = Some (Some a) /\ name ns k = Some a /\ chain_at h (Some a) (chain v) (owned k).
Proof.
  intros (V & _) E. specialize (V k). rewrite (the_nth _ _ _ E) in V. unfold name.
  destruct (nth_error ns k) as [[a|]|]; cbn in V; try tauto. exists a; auto.
Qed.

Lemma inv_bound h ns w owned k v : inv h ns w owned -> the w k = Some v -> (length (chain v) <= length h)%nat.
Proof.
  intros I E. destruct (inv_var _ _ _ _ _ _ I E) as (a & _ & _ & C). eapply own_chain_bound; eauto. apply I.
Qed.

(** An operation that changes one variable. *)
Lemma rep_put h ns w owned k v a h' v' fp : inv h ns w owned -> the w k = Some v -> nth_error ns k = Some (Some a) ->
  chain_at h' (Some a) (chain v') fp -> own h' fp (others owned (Nat.eqb k)) -> frame h h' (others owned (Nat.eqb k)) ->
  represents h' ns (put w k (Some v')).
Proof.
  intros I E A C O F. eapply rep_change1 with (k := k); eauto.
  - intros l N; split; auto. apply nth_put_other; auto.
  - rewrite A, (nth_put_same _ _ _ _ E). exact C.
Qed.
Lemma put_same w : forall k v, the w k = Some v -> put w k (Some v) = w.
Proof. unfold the; induction w as [|x w IH]; intros [|k] v; cbn; try congruence. intros E; f_equal; auto. Qed.

(** The object of a variable and what is beside it. *)
Lemma own_head h a bufs fp R : own h (a :: bufs ++ fp) R ->
  own h (a :: fp) (also R bufs) /\ own h (a :: bufs) (also R fp) /\ own h fp (also R (a :: bufs)).
Proof.
  intros O. split; [|split].
  - apply (own_split h (a :: fp) bufs). eapply own_perm; [|exact O]. perm.
  - apply (own_split h (a :: bufs) fp). exact O.
  - apply (own_split h fp (a :: bufs)). eapply own_perm; [|exact O]. perm.
Qed.
Lemma own_rehead h0 h a bufs fp fp' R : own h0 (a :: bufs ++ fp) R -> own h (a :: fp') (also R bufs) -> own h (a :: bufs ++ fp') R.
Proof.
  intros (N & D & _) O. eapply own_perm with (fp := (a :: fp') ++ bufs); [perm|]. apply own_join; auto.
  - apply NoDup_cons_iff in N; destruct N as (_ & N); apply NoDup_app_inv in N; tauto.
  - intros x I; apply D; right; apply in_or_app; auto.
Qed.

Lemma rebuild h a o c bufs fp R h' p cs' fp' :
  own h (a :: bufs ++ fp) R -> c_info c = ob_info o -> storage_at h (ob_info o) (ob_word o) bufs ->
  value_at h (ob_info o) (ob_isset o) (ob_word o) (c_val c) ->
  lookup h' a = Some (BVar (with_next o p)) -> chain_at h' p cs' fp' -> own h' (a :: fp') (also R bufs) -> frame h h' (also R bufs) ->
  chain_at h' (Some a) (c :: cs') (a :: bufs ++ fp') /\ own h' (a :: bufs ++ fp') R /\ frame h h' R.
Proof.
  intros O I S V L C O' F. split; [|split].
  - econstructor; eauto; cbn.
    + eapply storage_frame; [exact S|]. intros x J; apply F; right; auto.
    + eapply value_frame; [exact S|exact V|]. intros x J; apply F; right; auto.
  - eapply own_rehead; eauto.
  - eapply frame_sub; [|exact F]. intros x r; left; auto.
Qed.

Lemma inv_fresh h ns w owned : inv h ns w owned -> owned (length w) = [].
Proof.
  intros I. pose proof (inv_length _ _ _ _ I) as L. destruct I as (V & _). specialize (V (length w)).
  rewrite (proj2 (nth_error_None w _)), (proj2 (nth_error_None ns _)) in V by lia. exact V.
Qed.

Lemma rep_add h ns w owned h' a v fp : inv h ns w owned ->
  chain_at h' (Some a) (chain v) fp -> own h' fp (others owned (Nat.eqb (length w))) ->
  frame h h' (others owned (Nat.eqb (length w))) -> represents h' (ns ++ [Some a]) (w ++ [Some v]).
Proof.
  intros I C O F. pose proof (inv_length _ _ _ _ I) as L. eapply rep_change1 with (k := length w); eauto.
  - intros l N. destruct (Nat.lt_ge_cases l (length w)).
    + rewrite !nth_error_app1 by lia; auto.
    + rewrite (proj2 (nth_error_None (ns ++ [Some a]) l)), (proj2 (nth_error_None (w ++ [Some v]) l)),
        (proj2 (nth_error_None ns l)), (proj2 (nth_error_None w l)); auto; rewrite ?app_length; cbn; lia.
  - rewrite <- L at 1. rewrite !nth_error_app2, !Nat.sub_diag by auto. exact C.
Qed.

Lemma others_in owned k l x : l <> k -> In x (owned l) -> others owned (Nat.eqb k) x.
Proof. intros N I; exists l; split; auto. apply Nat.eqb_neq; auto. Qed.

Lemma name_the h ns w owned k : inv h ns w owned -> forall a, name ns k = Some a -> exists v, the w k = Some v.
Proof.
  intros (V & _) a E. specialize (V k). unfold name in E. unfold the.
  destruct (nth_error ns k) as [[b|]|]; try discriminate. destruct (nth_error w k) as [[v|]|]; cbn in V; try tauto; eauto.
Qed.

Theorem act_refines op x h ns w e w' : hook_ok op -> represents h ns w -> meaning op x w = Some (e, w') ->
  exists ns' h', act op x ns h = Ok (e, ns', h') /\ represents h' ns' w'.
Proof.
  intros H (owned & I) M. change (inv h ns w owned) in I.
  assert (IV := fun k v => inv_var h ns w owned k v I). assert (IB := fun k v => inv_bound h ns w owned k v I).
  assert (IO := fun k => inv_own1 h ns w owned k I). pose proof (inv_fresh _ _ _ _ I) as FR.
  assert (EN : enough h = S (S (length h))) by reflexivity.
  destruct x as [i|k|k|k l|k l|k|k s|k l|k code|k|k l]; cbn [meaning] in M.
  - (* ANew *)
    injection M as <- <-. cbn [act m_new new bind]. eexists _, _; split; [reflexivity|].
    specialize (IO (length w)). rewrite FR in IO.
    destruct (own_new h (BVar (mkobj i false (WPtr None) None)) [] _ IO) as (O1 & X1 & L1).
    eapply rep_add with (fp := length h :: [] ++ []); eauto.
    + econstructor; [exact L1|reflexivity| |reflexivity|constructor].
      cbn [ob_info ob_word]. unfold storage_at; destruct (is_numeric _); auto.
    + intros x r; apply X1. eapply own_live_R; eauto.
  - (* ACopy *)
    destruct (the w k) as [v|] eqn:E; [|discriminate]. injection M as <- <-.
    destruct (IV k v E) as (a & A & Na & C). specialize (IO (length w)). rewrite FR in IO.
    destruct (m_copy_spec (v_attrs v) (v_cell v) (enough h) a h _ _ C IO) as (b & h' & fp & E1 & C1 & O1 & F1).
    { specialize (IB k v E). unfold chain in IB. lia. }
    cbn [act]. unfold with_name; rewrite Na, E1; cbn [bind]. eexists _, _; split; [reflexivity|]. eapply rep_add; eauto.
  - (* AMove *)
    destruct (the w k) as [v|] eqn:E; [|discriminate]. injection M as <- <-.
    destruct (IV k v E) as (a & A & Na & C).
    assert (Kw : (k < length w)%nat) by (apply nth_error_Some; rewrite (the_nth _ _ _ E); discriminate).
    assert (Ne : length w <> k) by lia.
    pose proof (inv_own2 h ns w owned (length w) k I Ne) as O. rewrite FR in O; cbn [app] in O.
    destruct (m_move_spec h a (v_cell v) (v_attrs v) _ _ C O) as (b & h' & fa & fs & E1 & Ca & Cs & O1 & F1).
    cbn [act]. unfold with_name; rewrite Na, E1; cbn [bind]. eexists _, _; split; [reflexivity|].
    pose proof (inv_length _ _ _ _ I) as L.
    eapply rep_change2 with (k := length w) (l := k); eauto.
    + intros j N1 N2. destruct (Nat.lt_ge_cases j (length w)).
      * rewrite !nth_error_app1 by (rewrite ?put_length; lia). rewrite nth_put_other; auto.
      * rewrite (proj2 (nth_error_None (ns ++ [Some b]) j)), (proj2 (nth_error_None (put w k _ ++ [Some v]) j)),
          (proj2 (nth_error_None ns j)), (proj2 (nth_error_None w j)); auto; rewrite ?app_length, ?put_length; cbn; lia.
    + rewrite <- L at 1. rewrite <- (put_length w k (Some (mkvar (unset (v_cell v)) []))) at 1.
      rewrite !nth_error_app2, !Nat.sub_diag by auto. exact Ca.
    + rewrite !nth_error_app1 by (rewrite ?put_length; lia). rewrite A, (nth_put_same _ _ _ _ E). exact Cs.
  - (* AAssign *)
    destruct (the w k) as [d|] eqn:E; [|discriminate]. destruct (the w l) as [s|] eqn:E'; [|discriminate].
    destruct (same_storage _ _) eqn:SS; [|discriminate]. injection M as <- <-.
    destruct (IV k d E) as (a & A & Na & C). destruct (IV l s E') as (b & B & Nb & C').
    cbn [act]. unfold with_name; rewrite Na, Nb. destruct (Nat.eq_dec k l) as [->|Ne].
    + assert (a = b) by congruence. assert (d = s) by congruence. subst b d.
      unfold m_assign; rewrite Nat.eqb_refl; cbn [bind]. rewrite put_same by auto.
      eexists _, _; split; [reflexivity|]. exists owned; exact I.
    + destruct (m_assign_spec h (enough h) a b _ _ _ _ _ _ _ C C' (IO k)) as (h' & fp & E1 & C1 & O1 & F1); auto.
      { intros x J; eapply others_in; eauto. }
      { specialize (IB k d E). cbn [chain length] in IB. lia. }
      { specialize (IB l s E'). cbn [chain length] in IB. lia. }
      rewrite E1; cbn [bind]. eexists _, _; split; [reflexivity|]. eapply rep_put; eauto.
  - (* AMoveAssign *)
    destruct (the w k) as [d|] eqn:E; [|discriminate]. destruct (the w l) as [s|] eqn:E'; [|discriminate].
    destruct (IV k d E) as (a & A & Na & C). destruct (IV l s E') as (b & B & Nb & C').
    cbn [act]. unfold with_name; rewrite Na, Nb. destruct (Nat.eqb_spec k l) as [->|Ne].
    + injection M as <- <-. assert (a = b) by congruence. subst b.
      unfold m_move_assign; rewrite Nat.eqb_refl; cbn [bind]. eexists _, _; split; [reflexivity|]. exists owned; exact I.
    + destruct (same_kind _ _) eqn:SS; [|discriminate]. injection M as <- <-.
      pose proof (inv_own2 h ns w owned k l I Ne) as O.
      destruct (m_move_assign_spec h (enough h) a b _ _ _ _ _ _ _ C C' O SS) as (h' & fa & fs & E1 & Ca & Cs & O1 & F1).
      { specialize (IB k d E). cbn [chain length] in IB. lia. }
      rewrite E1; cbn [bind]. eexists _, _; split; [reflexivity|].
      eapply rep_change2 with (k := k) (l := l); eauto.
      * intros j N1 N2. split; auto. rewrite !nth_put_other; auto.
      * rewrite A, nth_put_other, (nth_put_same _ _ _ _ E) by auto. exact Ca.
      * rewrite B. assert (E2 : the (put w k (Some (mkvar (mkcell (c_info (v_cell d)) (c_val (v_cell s))) (v_attrs s)))) l = Some s).
        { unfold the. rewrite nth_put_other by auto. exact E'. }
        rewrite (nth_put_same _ _ _ _ E2). exact Cs.
  - (* ADelete *)
    destruct (the w k) as [v|] eqn:E; [|discriminate]. injection M as <- <-.
    destruct (IV k v E) as (a & A & Na & C). pose proof (IB k v E) as B.
    destruct (m_delete_spec (v_attrs v) (v_cell v) (enough h) a h _ _ C (IO k)) as (h' & E1 & O1 & F1); [unfold chain in B; lia|].
    cbn [act]. unfold with_name; rewrite Na, E1; cbn [bind]. eexists _, _; split; [reflexivity|].
    eapply rep_change1 with (k := k); eauto.
    + intros l N. rewrite nth_put_other, nth_forget by auto. apply Nat.eqb_neq in N; rewrite N; auto.
    + rewrite nth_forget, Nat.eqb_refl, A, (nth_put_same _ _ _ _ E). reflexivity.
  - (* ASet *)
    destruct (the w k) as [v|] eqn:E; [|discriminate]. destruct (IV k v E) as (a & A & Na & C).
    pose proof (IO k) as O. pose proof C as C'. apply chain_split in C'.
    destruct C' as (o & c & bufs & cs & fp & Lo & Io & So & Vo & To & [= <- <-] & Ef). rewrite Ef in O.
    destruct (own_head _ _ _ _ _ O) as (_ & Ob & _).
    pose proof (m_set_spec h a o bufs (c_val (v_cell v)) _ op s H Lo So Vo Ob) as Q.
    replace (mkcell (ob_info o) (c_val (v_cell v))) with (v_cell v) in Q by (rewrite <- Io; destruct (v_cell v); reflexivity).
    assert (G : forall r c, sets_to h a o bufs (also (others owned (Nat.eqb k)) fp) (m_set op s a h) r c ->
      exists ns' h', act op (ASet k s) ns h = Ok (r, ns', h') /\ represents h' ns' (put w k (Some (mkvar c (v_attrs v))))).
    { intros r c (h' & o' & bufs' & E1 & L1 & I1 & N1 & Ic & S1 & V1 & O1 & F1).
      cbn [act]. unfold with_name; rewrite Na, E1; cbn [bind]. eexists _, _; split; [reflexivity|].
      eapply rep_put with (fp := a :: bufs' ++ fp); eauto.
      - econstructor; eauto; [cbn; congruence|]. rewrite N1. eapply chain_frame; [exact To|]. intros x J; apply F1; right; auto.
      - destruct O as (ON & OD & _). apply (own_join h' (a :: bufs') fp); auto.
        + apply NoDup_cons_iff in ON; destruct ON as (_ & ON); apply NoDup_app_inv in ON; tauto.
        + intros x J; apply OD; right; apply in_or_app; auto.
      - eapply frame_sub; [|exact F1]. intros x r'; left; auto. }
    destruct (run_setter op (v_cell v) s) as [c|er c|]; try discriminate; injection M as <- <-; apply G; auto.
  - (* ASeta *)
    destruct (the w k) as [v|] eqn:E; [|discriminate]. destruct (the w l) as [s|] eqn:E'; [|discriminate]. injection M as <- <-.
    destruct (IV k v E) as (a & A & Na & C). destruct (IV l s E') as (b & B & Nb & C').
    pose proof (IO k) as O.
    destruct (m_copy_spec (v_attrs s) (v_cell s) (enough h) b h _ _ C' (own_nil_also _ _ _ O)) as (t & h1 & tf & E1 & C1 & O1 & F1).
    { specialize (IB l s E'). unfold chain in IB. lia. }
    pose proof (own_back _ _ _ _ _ O O1) as O2.
    assert (C2 : chain_at h1 (Some a) (chain v) (owned k)).
    { eapply chain_frame; [exact C|]. intros x J; apply F1; right; auto. }
    apply chain_split in C2. destruct C2 as (o & c & bufs & cs & fp & Lo & Io & So & Vo & To & [= <- <-] & Ef). rewrite Ef in O2.
    assert (O3 : own h1 (a :: bufs ++ (fp ++ tf)) (others owned (Nat.eqb k))) by (eapply own_perm; [|exact O2]; perm).
    destruct (own_head _ _ _ _ _ O3) as (O4 & _ & _).
    destruct (m_seta_ptr_spec _ (enough h) a o fp t (v_cell s) (v_attrs s) tf h1 _ Lo To C1 O4)
      as (h2 & p & fp2 & E3 & L3 & C3 & O5 & F3).
    { specialize (IB k v E). cbn [chain length] in IB. lia. }
    { specialize (IB l s E'). cbn [chain length] in IB. lia. }
    { left; lia. }
    destruct (rebuild _ _ _ _ _ _ _ _ _ _ _ O3 Io So Vo L3 C3 O5 F3) as (C6 & O6 & F6).
    cbn [act]. unfold with_name; rewrite Na, Nb. unfold m_seta. rewrite E1; cbn [bind]. rewrite E3; cbn [bind].
    eexists _, _; split; [reflexivity|]. eapply rep_put with (v' := var_seta v s); eauto.
    eapply frame_trans; [|exact F6]. eapply frame_sub; [|exact F1]. intros x r; left; auto.
  - (* AUnseta *)
    destruct (the w k) as [v|] eqn:E; [|discriminate]. injection M as <- <-.
    destruct (IV k v E) as (a & A & Na & C). pose proof (IO k) as O. pose proof C as C'. apply chain_split in C'.
    destruct C' as (o & c & bufs & cs & fp & Lo & Io & So & Vo & To & [= <- <-] & Ef). rewrite Ef in O.
    destruct (own_head _ _ _ _ _ O) as (O4 & _ & _).
    destruct (m_unseta_spec _ (enough h) a o fp code h _ Lo To O4) as (h2 & p & fp2 & E3 & L3 & C3 & O5 & F3).
    { specialize (IB k v E). cbn [chain length] in IB. lia. }
    destruct (rebuild _ _ _ _ _ _ _ _ _ _ _ O Io So Vo L3 C3 O5 F3) as (C6 & O6 & F6).
    cbn [act]. unfold with_name; rewrite Na, E3; cbn [bind]. eexists _, _; split; [reflexivity|].
    eapply rep_put with (v' := var_unseta v code); eauto.
  - (* AClear *)
    destruct (the w k) as [v|] eqn:E; [|discriminate]. injection M as <- <-.
    destruct (IV k v E) as (a & A & Na & C). pose proof (IO k) as O. pose proof C as C'. apply chain_split in C'.
    destruct C' as (o & c & bufs & cs & fp & Lo & Io & So & Vo & To & [= <- <-] & Ef). rewrite Ef in O.
    destruct (own_head _ _ _ _ _ O) as (O4 & _ & _).
    destruct (m_clear_attrs_spec h (enough h) a o _ fp _ Lo To O4) as (h2 & E3 & L3 & O5 & F3).
    { specialize (IB k v E). cbn [chain length] in IB. lia. }
    destruct (rebuild _ _ _ _ _ _ _ _ None [] [] O Io So Vo L3 (chain_nil _) O5 F3) as (C6 & O6 & F6).
    cbn [act]. unfold with_name; rewrite Na, E3; cbn [bind]. eexists _, _; split; [reflexivity|].
    eapply rep_put with (v' := var_clear_attrs v); eauto.
  - (* ASetattrs *)
    destruct (the w k) as [v|] eqn:E; [|discriminate]. destruct (the w l) as [s|] eqn:E'; [|discriminate]. injection M as <- <-.
    destruct (IV k v E) as (a & A & Na & C). destruct (IV l s E') as (b & B & Nb & C').
    pose proof (IO k) as O. pose proof C as C1. apply chain_split in C1.
    destruct C1 as (o & c & bufs & cs & fp & Lo & Io & So & Vo & To & [= <- <-] & Ef). rewrite Ef in O.
    destruct (own_head _ _ _ _ _ O) as (O4 & _ & _).
    cbn [act]. unfold with_name; rewrite Na, Nb. destruct (Nat.eqb_spec k l) as [->|Ne].
    + assert (a = b) by congruence. subst b.
      destruct (m_setattrs_self h (enough h) a o _ fp _ Lo To O4) as (h2 & E3 & L3 & O5 & F3).
      { specialize (IB l v E). cbn [chain length] in IB. lia. }
      destruct (rebuild _ _ _ _ _ _ _ _ None [] [] O Io So Vo L3 (chain_nil _) O5 F3) as (C6 & O6 & F6).
      rewrite E3; cbn [bind]. eexists _, _; split; [reflexivity|]. eapply rep_put with (v' := mkvar (v_cell v) []); eauto.
    + apply chain_split in C'. destruct C' as (so & sc & sbufs & scs & sfp & Ls & Is & Ss & Vs & Ts & [= <- <-] & Es).
      assert (RS : forall x, In x (owned l) -> others owned (Nat.eqb k) x) by (intros x J; eapply others_in; eauto).
      rewrite Es in RS.
      destruct (m_setattrs_spec h (enough h) a o _ fp b so (v_attrs s) sfp _ Lo To O4 Ls Ts) as (h2 & p & fp2 & E3 & L3 & C3 & O5 & F3).
      { left; apply RS; left; auto. }
      { intros x J; left; apply RS; right; apply in_or_app; auto. }
      { specialize (IB k v E). cbn [chain length] in IB. lia. }
      { specialize (IB l s E'). cbn [chain length] in IB. lia. }
      destruct (rebuild _ _ _ _ _ _ _ _ _ _ _ O Io So Vo L3 C3 O5 F3) as (C6 & O6 & F6).
      rewrite E3; cbn [bind]. eexists _, _; split; [reflexivity|]. eapply rep_put with (v' := mkvar (v_cell v) (v_attrs s)); eauto.
Qed.

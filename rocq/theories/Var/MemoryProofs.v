(** Proofs about the memory of variables: every operation does on the heap what its meaning says,
    and keeps the blocks of the variables apart. *)
From Coq Require Import String Permutation.
From Verif Require Import Base Num.Float Bits.Spec Varcode.Model Varinfo.Model Var.Model Var.Memory Var.MemorySpec.
From Verif Require Var.Proofs.
Local Open Scope Z_scope.

(** ** Heaps *)
Lemma update_length h a b : length (update h a b) = length h.
Proof. revert a; induction h as [|x h IH]; intros [|a]; cbn; auto. Qed.

Lemma nth_update h a b x :
  nth_error (update h a b) x = if Nat.eqb x a then match nth_error h x with Some _ => Some b | None => None end
                               else nth_error h x.
Proof.
  revert a x; induction h as [|y h IH]; intros [|a] [|x]; cbn; auto.
  - destruct (Nat.eqb x a); reflexivity.
Qed.

Lemma lookup_update_same h a b : lookup h a <> None -> lookup (update h a b) a = b.
Proof.
  unfold lookup; rewrite nth_update, Nat.eqb_refl. destruct (nth_error h a) as [[y|]|]; try congruence.
  intros _; destruct b; reflexivity.
Qed.
Lemma lookup_update_other h a b x : x <> a -> lookup (update h a b) x = lookup h x.
Proof. intros N; unfold lookup; rewrite nth_update. apply Nat.eqb_neq in N; rewrite N; reflexivity. Qed.

Lemma lookup_lt h a : lookup h a <> None -> (a < length h)%nat.
Proof. unfold lookup; intros H. apply nth_error_Some. destruct (nth_error h a); congruence. Qed.
Lemma lookup_new_same h b : lookup (h ++ [Some b]) (length h) = Some b.
Proof. unfold lookup; rewrite nth_error_app2, Nat.sub_diag; auto. Qed.
Lemma lookup_new_other h b x : x <> length h -> lookup (h ++ [Some b]) x = lookup h x.
Proof.
  intros N; unfold lookup. destruct (Nat.lt_ge_cases x (length h)).
  - rewrite nth_error_app1; auto.
  - rewrite nth_error_app2 by auto. replace (nth_error h x) with (@None (option block)) by (symmetry; apply nth_error_None; auto).
    destruct (x - length h)%nat as [|k] eqn:E; [lia|]. destruct k; reflexivity.
Qed.
Lemma lookup_len h : lookup h (length h) = None.
Proof. unfold lookup. replace (nth_error h (length h)) with (@None (option block)); auto. symmetry; apply nth_error_None; auto. Qed.

(** ** Ownership *)
Definition own (h : heap) (fp : list addr) (R : addr -> Prop) : Prop :=
  NoDup fp /\ (forall x, In x fp -> ~ R x) /\ (forall x, live h x <-> In x fp \/ R x).
Definition frame (h h' : heap) (R : addr -> Prop) : Prop := forall x, R x -> lookup h' x = lookup h x.

Lemma frame_refl h R : frame h h R. Proof. intros x _; reflexivity. Qed.
Lemma frame_trans h1 h2 h3 R : frame h1 h2 R -> frame h2 h3 R -> frame h1 h3 R.
Proof. intros A B x r. rewrite B, A by auto; reflexivity. Qed.
Lemma frame_sub h h' (R R' : addr -> Prop) : (forall x, R' x -> R x) -> frame h h' R -> frame h h' R'.
Proof. intros S F x r; apply F, S, r. Qed.

Lemma own_perm h fp fp' R : Permutation fp fp' -> own h fp R -> own h fp' R.
Proof.
  intros P (N & D & L). pose proof (fun x => Permutation_in x P) as I1.
  pose proof (fun x => Permutation_in x (Permutation_sym P)) as I2. split; [|split].
  - exact (Permutation_NoDup P N).
  - intros x I; apply D; auto.
  - intros x; rewrite L. split; intros [I|I]; auto.
Qed.
Lemma own_R h fp (R R' : addr -> Prop) : (forall x, R x <-> R' x) -> own h fp R -> own h fp R'.
Proof.
  intros E (N & D & L); split; [auto|split].
  - intros x I; rewrite <- E; auto.
  - intros x; rewrite L, E; tauto.
Qed.

Definition also (R : addr -> Prop) (l : list addr) : addr -> Prop := fun x => R x \/ In x l.

Lemma NoDup_app_inv {A} (l l' : list A) :
  NoDup (l ++ l') <-> NoDup l /\ NoDup l' /\ (forall x, In x l -> ~ In x l').
Proof.
  induction l as [|a l IH]; cbn.
  - split; [intros N; repeat split; auto; constructor|tauto].
  - rewrite !NoDup_cons_iff, IH, in_app_iff. split.
    + intros (H & N & N' & D); repeat split; auto. intros x [->|I]; auto.
    + intros ((H & N) & N' & D); repeat split; auto. intros [I|I]; auto. eapply D; eauto.
Qed.

Lemma own_split h fp1 fp2 R : own h (fp1 ++ fp2) R ->
  own h fp1 (also R fp2) /\ NoDup fp2 /\ (forall x, In x fp2 -> ~ R x).
Proof.
  intros (N & D & L). apply NoDup_app_inv in N; destruct N as (N1 & N2 & X). split; [split; [auto|split]|split; auto].
  - intros x I [r|J]; [eapply D; [apply in_or_app; left; eauto|auto]|eapply X; eauto].
  - intros x; rewrite L, in_app_iff; unfold also; tauto.
  - intros x I; apply D, in_or_app; auto.
Qed.
Lemma own_join h fp1 fp2 R : own h fp1 (also R fp2) -> NoDup fp2 -> (forall x, In x fp2 -> ~ R x) ->
  own h (fp1 ++ fp2) R.
Proof.
  intros (N & D & L) N2 D2; split; [|split].
  - apply NoDup_app_inv; repeat split; auto. intros x I J; apply (D x I); right; auto.
  - intros x I r; apply in_app_or in I; destruct I as [I|I]; [apply (D x I); left; auto|eapply D2; eauto].
  - intros x; rewrite L, in_app_iff; unfold also; tauto.
Qed.

Ltac perm :=
  apply (proj2 (Permutation_count_occ Nat.eq_dec _ _)); intros;
  repeat (rewrite ?count_occ_app; cbn [count_occ app]);
  repeat match goal with |- context [Nat.eq_dec ?x ?y] => destruct (Nat.eq_dec x y) end; lia.

(** ** Allocation, release, writes *)
Lemma own_new h b fp R : own h fp R -> own (h ++ [Some b]) (length h :: fp) R /\
  (forall x, live h x -> lookup (h ++ [Some b]) x = lookup h x) /\ lookup (h ++ [Some b]) (length h) = Some b.
Proof.
  intros (N & D & L). assert (F : ~ live h (length h)) by (intros H; apply H, lookup_len).
  split; [split; [|split]|split].
  - constructor; auto. intros I; apply F, L; auto.
  - intros x [<-|I]; auto. intros r; apply F, L; auto.
  - intros x; cbn [In]. destruct (Nat.eq_dec x (length h)) as [->|E].
    + split; [intros; left; auto|]. intros _; unfold live; rewrite lookup_new_same; discriminate.
    + unfold live; rewrite lookup_new_other by auto. change (live h x <-> (length h = x \/ In x fp) \/ R x). rewrite L.
      split; [tauto|]. intros [[X|X]|X]; auto; congruence.
  - intros x H; apply lookup_new_other. intros ->; auto.
  - apply lookup_new_same.
Qed.

Lemma own_store h a b fp R : own h fp R -> live h a ->
  store h a b = Ok (update h a (Some b)) /\ own (update h a (Some b)) fp R /\
  lookup (update h a (Some b)) a = Some b /\ (forall x, x <> a -> lookup (update h a (Some b)) x = lookup h x).
Proof.
  intros (N & D & L) A. unfold store. destruct (lookup h a) eqn:E; [|exfalso; apply A; auto].
  split; [reflexivity|]. split; [split; [auto|split; [auto|]]|split].
  - intros x. rewrite <- L. unfold live. destruct (Nat.eq_dec x a) as [->|X].
    + rewrite lookup_update_same by congruence. split; intros _; [congruence|discriminate].
    + rewrite lookup_update_other by auto; tauto.
  - apply lookup_update_same; congruence.
  - intros x X; apply lookup_update_other; auto.
Qed.

Lemma own_free h a fp R : own h (a :: fp) R ->
  free h a = Ok (update h a None) /\ own (update h a None) fp R /\
  (forall x, x <> a -> lookup (update h a None) x = lookup h x).
Proof.
  intros (N & D & L). assert (A : live h a) by (apply L; left; left; auto).
  unfold free. destruct (lookup h a) eqn:E; [|exfalso; apply A; auto]. inversion_clear N as [|? ? NA N'].
  split; [reflexivity|]. split; [split; [auto|split]|].
  - intros x I; apply D; right; auto.
  - intros x. destruct (Nat.eq_dec x a) as [->|X].
    + unfold live; rewrite lookup_update_same by congruence. split; [congruence|]. intros [I|I]; [tauto|].
      exfalso; eapply D; eauto; left; auto.
    + unfold live; rewrite lookup_update_other by auto. change (live h x <-> In x fp \/ R x). rewrite L. cbn [In].
      split; [|tauto]. intros [[I|I]|I]; auto. congruence.
  - intros x X; apply lookup_update_other; auto.
Qed.

Lemma load_var_ok h a o : lookup h a = Some (BVar o) -> load_var h a = Ok o.
Proof. intros E; unfold load_var; rewrite E; reflexivity. Qed.
Lemma load_chars_ok h a o : lookup h a = Some (BChars o) -> load_chars h a = Ok o.
Proof. intros E; unfold load_chars; rewrite E; reflexivity. Qed.

(** ** Layout depends only on the blocks owned *)
Lemma storage_frame h h' i w bufs :
  storage_at h i w bufs -> (forall x, In x bufs -> lookup h' x = lookup h x) -> storage_at h' i w bufs.
Proof.
  unfold storage_at. destruct (is_numeric (vi_type i)); auto. destruct w as [|[b|]]; auto.
  intros (-> & s & L & N) F. split; auto. exists s; rewrite F; [auto|left; auto].
Qed.
Lemma value_frame h h' i s w v bufs : storage_at h i w bufs ->
  value_at h i s w v -> (forall x, In x bufs -> lookup h' x = lookup h x) -> value_at h' i s w v.
Proof.
  unfold storage_at, value_at. destruct s; auto. destruct w as [|[b|]]; auto.
  intros S (N & t & u & L & V) F. rewrite N in S; destruct S as (-> & _). split; auto.
  exists t, u; rewrite F; [auto|left; auto].
Qed.
Lemma chain_frame h h' p cs fp :
  chain_at h p cs fp -> (forall x, In x fp -> lookup h' x = lookup h x) -> chain_at h' p cs fp.
Proof.
  intros C; induction C as [|a o c bufs cs fp L I S V C IH]; intros F; [constructor|].
  econstructor; eauto.
  - rewrite F; [auto|left; auto].
  - eapply storage_frame; eauto. intros; apply F; right; apply in_or_app; auto.
  - eapply value_frame; eauto. intros; apply F; right; apply in_or_app; auto.
  - apply IH. intros; apply F; right; apply in_or_app; auto.
Qed.

Lemma chain_live h p cs fp : chain_at h p cs fp -> forall x, In x fp -> live h x.
Proof.
  intros C; induction C as [|a o c bufs cs fp L I S V C IH]; intros x; [intros []|].
  intros [<-|J]; [unfold live; congruence|]. apply in_app_or in J; destruct J as [J|J]; auto.
  unfold storage_at in S. destruct (is_numeric _); [destruct S as (-> & _); destruct J|].
  destruct (ob_word o) as [|[b|]]; [tauto| |subst; destruct J].
  destruct S as (-> & t & LB & _). destruct J as [<-|[]]. unfold live; congruence.
Qed.

Lemma chain_length h p cs fp : chain_at h p cs fp -> (length cs <= length fp)%nat.
Proof. induction 1; cbn; rewrite ?app_length; lia. Qed.

Lemma live_bound h fp : NoDup fp -> (forall x, In x fp -> live h x) -> (length fp <= length h)%nat.
Proof.
  intros N L. rewrite <- (seq_length (length h) 0). apply NoDup_incl_length; auto.
  intros x I. apply in_seq. split; [lia|]. apply lookup_lt, L, I.
Qed.
Lemma own_chain_bound h p cs fp : chain_at h p cs fp -> NoDup fp -> (length cs <= length h)%nat.
Proof.
  intros C N. etransitivity; [eapply chain_length; eauto|]. apply live_bound; auto. eapply chain_live; eauto.
Qed.

(** ** Destruction *)
Lemma delete_word h i w bufs fp R : storage_at h i w bufs -> is_numeric (vi_type i) = false -> own h (bufs ++ fp) R ->
  exists h1, (p <- word_ptr w ;; delete_chars p h) = Ok h1 /\ own h1 fp R /\
             (forall x, ~ In x bufs -> lookup h1 x = lookup h x).
Proof.
  unfold storage_at; intros S N O; rewrite N in S. destruct w as [n|[b|]]; [tauto| |].
  - destruct S as (-> & s & L & _). cbn [app] in O. destruct (own_free _ _ _ _ O) as (F & O1 & X).
    exists (update h b None); cbn. rewrite (load_chars_ok _ _ _ L); cbn. split; [auto|split; [auto|]].
    intros x H; apply X. intros ->; apply H; left; auto.
  - subst; cbn [app] in O. exists h; cbn; auto.
Qed.

Lemma free_value h o bufs fp R :
  storage_at h (ob_info o) (ob_word o) bufs -> own h (bufs ++ fp) R ->
  exists h1, (if is_numeric (vi_type (ob_info o)) then Ok h
              else p <- word_ptr (ob_word o) ;; delete_chars p h) = Ok h1 /\ own h1 fp R /\
             (forall x, ~ In x bufs -> lookup h1 x = lookup h x).
Proof.
  intros S O. destruct (is_numeric (vi_type (ob_info o))) eqn:N.
  - unfold storage_at in S; rewrite N in S; destruct S as (-> & _). exists h; auto.
  - eapply delete_word; eauto.
Qed.

Lemma perm_mid {A} (a : A) l r : Permutation (a :: l ++ r) (l ++ a :: r).
Proof. apply Permutation_middle. Qed.

Lemma m_delete_spec cs : forall c fuel a h fp R,
  chain_at h (Some a) (c :: cs) fp -> own h fp R -> (length (c :: cs) <= fuel)%nat ->
  exists h', m_delete fuel a h = Ok h' /\ own h' [] R /\ frame h h' R.
Proof.
  induction cs as [|d cs IH]; intros c [|k] a h fp R C O F; cbn [length] in F; try lia;
    inversion C as [|? o ? bufs ? fp1 L I S V T]; subst.
  - assert (ob_next o = None /\ fp1 = []) as (En & ->) by (inversion T; auto).
    destruct (free_value h o bufs [a] R S) as (h1 & E1 & O1 & X1).
    { eapply own_perm; [|exact O]. rewrite app_nil_r. apply (Permutation_cons_append bufs a). }
    cbn [m_delete]. rewrite (load_var_ok _ _ _ L). cbn [bind]. rewrite E1; cbn [bind]. rewrite En; cbn [bind].
    destruct (own_free _ _ _ _ O1) as (E2 & O2 & X2). exists (update h1 a None); rewrite E2; split; [auto|split; [auto|]].
    intros x r. destruct O as (ND & D & _). rewrite X2, X1; auto.
    + intros J; apply (D x); [right; apply in_or_app; auto|auto].
    + intros ->; apply (D a); [left; auto|auto].
  - inversion T as [|n on ? bn ? fn Ln In' Sn Vn Tn]; subst. rename H into En; symmetry in En.
    assert (T' : chain_at h (Some n) (d :: cs) (n :: bn ++ fn)) by (rewrite En in T; exact T).
    set (fp1 := n :: bn ++ fn) in *.
    destruct (free_value h o bufs (a :: fp1) R S) as (h1 & E1 & O1 & X1).
    { eapply own_perm; [|exact O]. apply perm_mid. }
    pose proof O as (ND & D & _). apply NoDup_cons_iff in ND; destruct ND as (Na & ND).
    apply NoDup_app_inv in ND; destruct ND as (Nb & Nf & Db).
    assert (T1 : chain_at h1 (Some n) (d :: cs) fp1).
    { eapply chain_frame; [exact T'|]. intros x J; apply X1. intros K; eapply Db; eauto. }
    destruct (own_split h1 fp1 [a] R) as (O2 & Na1 & Da1).
    { eapply own_perm; [|exact O1]. apply (Permutation_cons_append fp1 a). }
    destruct (IH d k n h1 fp1 (also R [a]) T1 O2) as (h2 & E2 & O3 & F2); [cbn; lia|].
    cbn [m_delete]. rewrite (load_var_ok _ _ _ L). cbn [bind]. rewrite E1; cbn [bind]. rewrite En; cbn [bind]. rewrite E2; cbn [bind].
    assert (O4 : own h2 [a] R) by (apply (own_join h2 [] [a] R O3 Na1 Da1)).
    destruct (own_free _ _ _ _ O4) as (E5 & O5 & X5). exists (update h2 a None); rewrite E5. split; [auto|split; [auto|]].
    intros x r. rewrite X5, F2, X1; auto.
    + intros J; apply (D x); [right; apply in_or_app; auto|auto].
    + left; auto.
    + intros ->; apply (D a); [left; auto|auto].
Qed.

(** The remaining chain of a variable: its attributes. *)
Lemma delete_next h fuel p cs fp R : chain_at h p cs fp -> own h fp R -> (length cs <= fuel)%nat ->
  exists h', (match p with None => Ok h | Some n => m_delete fuel n h end) = Ok h' /\ own h' [] R /\ frame h h' R.
Proof.
  intros C O F. destruct C as [|a o c bufs cs fp L I S V C].
  - exists h; repeat split; try apply O.
  - eapply m_delete_spec; eauto. econstructor; eauto.
Qed.

Lemma m_clear_attrs_spec h fuel a o cs fp R :
  lookup h a = Some (BVar o) -> chain_at h (ob_next o) cs fp -> own h (a :: fp) R -> (length cs <= fuel)%nat ->
  exists h', m_clear_attrs fuel a h = Ok h' /\ lookup h' a = Some (BVar (with_next o None)) /\ own h' [a] R /\ frame h h' R.
Proof.
  intros L C O F. destruct (own_split h fp [a] R) as (O1 & Na & Da).
  { eapply own_perm; [|exact O]. apply (Permutation_cons_append fp a). }
  destruct (delete_next h fuel (ob_next o) cs fp (also R [a]) C O1 F) as (h1 & E1 & O2 & F1).
  assert (L1 : lookup h1 a = Some (BVar o)) by (rewrite F1; [auto|right; left; auto]).
  assert (O3 : own h1 [a] R) by (apply (own_join h1 [] [a] R O2 Na Da)).
  destruct (own_store h1 a (BVar (with_next o None)) [a] R O3) as (E2 & O4 & L2 & X2); [unfold live; congruence|].
  unfold m_clear_attrs. rewrite (load_var_ok _ _ _ L); cbn [bind]. rewrite E1; cbn [bind]. rewrite (load_var_ok _ _ _ L1); cbn [bind].
  unfold store_var; rewrite E2. eexists; split; [reflexivity|]. split; [auto|split; [auto|]].
  intros x r. rewrite X2, F1; auto; [left; auto|]. intros ->. apply (Da a); [left; auto|auto].
Qed.

(** ** Values *)
Lemma m_allocate_spec h a o bufs R :
  lookup h a = Some (BVar o) -> storage_at h (ob_info o) (ob_word o) bufs -> is_numeric (vi_type (ob_info o)) = false ->
  own h (a :: bufs) R ->
  exists b h' s, m_allocate a h = Ok (b, h') /\ lookup h' a = Some (BVar (with_word o (WPtr (Some b)))) /\
    lookup h' b = Some (BChars s) /\ length s = S (ilen (ob_info o)) /\ own h' [a; b] R /\ frame h h' R.
Proof.
  intros L S N O. unfold m_allocate. rewrite (load_var_ok _ _ _ L); cbn [bind]. unfold storage_at in S; rewrite N in S.
  destruct (ob_word o) as [n|[b|]] eqn:W; [tauto| |]; cbn [word_ptr bind].
  - destruct S as (-> & s & Lb & Ls). exists b, h, s. split; [auto|split; [|split; [auto|split; [auto|split; [auto|apply frame_refl]]]]].
    rewrite L. do 2 f_equal. destruct o; cbn in *; subst; reflexivity.
  - subst bufs. unfold new; cbn [bind].
    destruct (own_new h (BChars (repeat None (Datatypes.S (ilen (ob_info o))))) [a] R O) as (O1 & X1 & L1).
    assert (La : live h a) by (unfold live; congruence).
    set (h1 := h ++ _) in *.
    destruct (own_store h1 a (BVar (with_word o (WPtr (Some (length h))))) _ _ O1) as (E2 & O2 & L2 & X2).
    { unfold live; rewrite X1 by auto; auto. }
    unfold store_var; rewrite E2; cbn [bind]. eexists _, _, _; split; [reflexivity|]. split; [auto|].
    assert (length h <> a) by (intros <-; apply La, lookup_len).
    split; [rewrite X2, L1 by auto; reflexivity|]. rewrite repeat_length. split; [auto|]. split.
    + eapply own_perm; [|exact O2]. apply perm_swap.
    + intros x r. destruct O as (_ & D & Lv). rewrite X2, X1; auto; [apply Lv; auto|]. intros ->; eapply D; [left; eauto|auto].
Qed.

Lemma write_chars_spec h b old s fp R :
  lookup h b = Some (BChars old) -> (length s <= length old)%nat -> own h fp R ->
  exists h', write_chars h b s = Ok h' /\ lookup h' b = Some (BChars (s ++ skipn (length s) old)) /\ own h' fp R /\
             (forall x, x <> b -> lookup h' x = lookup h x).
Proof.
  intros L N O. unfold write_chars. rewrite (load_chars_ok _ _ _ L); cbn [bind].
  replace (Nat.ltb (length old) (length s)) with false by (symmetry; apply Nat.ltb_ge; auto).
  destruct (own_store h b (BChars (s ++ skipn (length s) old)) fp R O) as (E & O1 & L1 & X1); [unfold live; congruence|].
  rewrite E. eexists; split; [reflexivity|]. auto.
Qed.

Lemma numeric_cases i : is_numeric (vi_type i) = true -> vi_type i = TInteger \/ vi_type i = TDecimal.
Proof. destruct (vi_type i); cbn; auto; discriminate. Qed.
Lemma textual_cases i : is_numeric (vi_type i) = false -> vi_type i = TString \/ vi_type i = TBinary.
Proof. destruct (vi_type i); cbn; auto; discriminate. Qed.

Lemma chars_length i s v : chars_of i s v -> (ilen i <= length s)%nat \/ vi_type i = TString.
Proof.
  unfold chars_of. destruct (vi_type i), v; try tauto. intros (L & r & ->). left. rewrite app_length, map_length; lia.
Qed.

(** What a copy of the buffer contains. *)
Lemma chars_copy i s v r :
  chars_of i s v -> length s = S (ilen i) ->
  chars_of i (firstn (match vi_type i with TString => S (ilen i) | _ => ilen i end) s ++ r) v.
Proof.
  unfold chars_of. destruct (vi_type i), v; try tauto.
  - intros (N & rest & ->) L. split; auto. rewrite firstn_all2 by lia. exists (rest ++ r).
    rewrite <- app_assoc; reflexivity.
  - intros (N & rest & ->) L. split; auto. exists r. f_equal. rewrite firstn_app, map_length, N, Nat.sub_diag; cbn [firstn].
    rewrite app_nil_r, firstn_all2; auto. rewrite map_length; lia.
Qed.

Lemma m_copy_value_spec h a o src so bufs sbufs val R :
  lookup h a = Some (BVar o) -> lookup h src = Some (BVar so) -> ob_info o = ob_info so ->
  storage_at h (ob_info o) (ob_word o) bufs -> storage_at h (ob_info so) (ob_word so) sbufs ->
  value_at h (ob_info so) (ob_isset so) (ob_word so) val ->
  own h (a :: bufs) R -> R src -> (forall x, In x sbufs -> R x) ->
  exists h' o' bufs', m_copy_value a src h = Ok h' /\ lookup h' a = Some (BVar o') /\ ob_info o' = ob_info o /\
    ob_next o' = ob_next o /\ storage_at h' (ob_info o') (ob_word o') bufs' /\
    value_at h' (ob_info o') (ob_isset o') (ob_word o') val /\ own h' (a :: bufs') R /\ frame h h' R.
Proof.
  intros L Ls I S Ss V O Rs Rb. unfold m_copy_value.
  rewrite (load_var_ok _ _ _ L), (load_var_ok _ _ _ Ls); cbn [bind].
  destruct (own_store h a (BVar (with_isset o (ob_isset so))) _ _ O) as (E1 & O1 & L1 & X1); [unfold live; congruence|].
  unfold store_var at 1; rewrite E1; cbn [bind]. set (h1 := update h a _) in *.
  pose proof O as (ND & D & Lv).
  assert (Ra : forall x, R x -> x <> a) by (intros x r ->; apply (D a); [left; auto|auto]).
  assert (F1 : frame h h1 R) by (intros x r; apply X1; auto).
  assert (S1 : storage_at h1 (ob_info o) (ob_word o) bufs).
  { eapply storage_frame; eauto. intros x J; apply X1. intros ->. apply NoDup_cons_iff in ND; tauto. }
  destruct (ob_isset so) eqn:Is; cbn [negb].
  2:{ exists h1, (with_isset o false), bufs. repeat split; auto; try apply O1. }
  unfold value_at in V. destruct (is_numeric (vi_type (ob_info o))) eqn:N.
  - assert (exists n, ob_word so = WInt n /\ val = Some (VInt n)) as (n & Wn & ->).
    { destruct (ob_word so) as [n|[b|]]; [|rewrite <- I in V; destruct V; congruence|tauto]. destruct V; eauto. }
    destruct (own_store h1 a (BVar (with_word (with_isset o true) (WInt n))) _ _ O1) as (E2 & O2 & L2 & X2); [unfold live; congruence|].
    unfold storage_at in S; rewrite N in S; destruct S as (-> & _).
    exists (update h1 a (Some (BVar (with_word (with_isset o true) (WInt n))))), (with_word (with_isset o true) (WInt n)), [].
    split.
    { destruct (numeric_cases _ N) as [-> | ->]; rewrite (load_var_ok _ _ _ L1); cbn [bind]; rewrite Wn; cbn [word_int bind]; exact E2. }
    repeat split; auto; try apply O2.
    + unfold storage_at; cbn. rewrite N; auto.
    + eapply frame_trans; eauto. intros x r; apply X2; auto.
  - assert (exists sb s v, ob_word so = WPtr (Some sb) /\ lookup h sb = Some (BChars s) /\ val = Some v /\ chars_of (ob_info so) s v)
      as (sb & s & v & Ws & Lsb & -> & Ch).
    { destruct (ob_word so) as [n|[b|]]; [rewrite <- I in V; destruct V; congruence| |tauto].
      destruct V as (_ & s & v & ?); exists b, s, v; tauto. }
    assert (length s = Datatypes.S (ilen (ob_info o)) /\ In sb sbufs) as (Sl & Isb).
    { unfold storage_at in Ss. rewrite <- I, N, Ws in Ss. destruct Ss as (-> & s' & L' & Ls'). split; [congruence|left; auto]. }
    destruct (m_allocate_spec h1 a (with_isset o true) bufs R L1 S1 N O1) as (b & h2 & t & E2 & L2 & Lb2 & Lt & O2 & F2).
    set (n := match vi_type (ob_info o) with TString => Datatypes.S (ilen (ob_info o)) | _ => ilen (ob_info o) end).
    assert (Hn : (n <= length s)%nat) by (unfold n; rewrite Sl; destruct (vi_type (ob_info o)); lia).
    assert (Ls2 : lookup h2 sb = Some (BChars s)) by (rewrite F2, F1; auto).
    assert (Hw : (length (firstn n s) <= length t)%nat) by (cbn in Lt; rewrite firstn_length, Lt; lia).
    destruct (write_chars_spec h2 b t (firstn n s) _ _ Lb2 Hw O2) as (h3 & E3 & Lb3 & O3 & X3).
    assert (a <> b).
    { intros ->. destruct O3 as (ND3 & _). apply NoDup_cons_iff in ND3. apply (proj1 ND3); left; auto. }
    exists h3, (with_word (with_isset o true) (WPtr (Some b))), [b]. split.
    { assert (EQ : (' (b0, h4) <- m_allocate a h1;; sp <- word_ptr (ob_word so);;
         match sp with None => UB | Some sb0 => s0 <- read_chars h4 sb0 n;; write_chars h4 b0 s0 end) = Ok h3).
      { rewrite E2; cbn [bind]. rewrite Ws; cbn [word_ptr bind]. unfold read_chars. rewrite (load_chars_ok _ _ _ Ls2); cbn [bind].
        replace (Nat.ltb (length s) n) with false by (symmetry; apply Nat.ltb_ge; auto). cbn [bind]. exact E3. }
      subst n. destruct (textual_cases _ N) as [T|T]; rewrite T in EQ |- *; exact EQ. }
    cbn [with_word with_isset ob_info ob_next ob_word ob_isset].
    assert (Lc : length (firstn n s ++ skipn (length (firstn n s)) t) = Datatypes.S (ilen (ob_info o))).
    { cbn in Lt. rewrite app_length, skipn_length, firstn_length, Lt. lia. }
    split; [|split; [auto|split; [auto|split; [|split; [|split; [auto|]]]]]].
    + rewrite X3; auto.
    + unfold storage_at. rewrite N. split; auto. eexists; split; eauto.
    + unfold value_at. split; auto. eexists _, v. split; [eauto|split; [auto|]]. unfold n. apply chars_copy; auto. congruence.
    + eapply frame_trans; [exact F1|]. eapply frame_trans; [exact F2|]. intros x r; apply X3. intros ->.
      destruct O3 as (_ & D3 & _). apply (D3 b); [right; left; auto|auto].
Qed.

(** ** Copies *)
Lemma own_notin_head h a l R : own h (a :: l) R -> ~ In a l.
Proof. intros (N & _); apply NoDup_cons_iff in N; tauto. Qed.
Lemma own_R_neq h fp R : own h fp R -> forall x y, In x fp -> R y -> y <> x.
Proof. intros (_ & D & _) x y I r ->; eapply D; eauto. Qed.
Lemma own_live h fp R : own h fp R -> forall x, In x fp -> live h x.
Proof. intros (_ & _ & L) x I; apply L; auto. Qed.
Lemma own_live_R h fp R : own h fp R -> forall x, R x -> live h x.
Proof. intros (_ & _ & L) x I; apply L; auto. Qed.

(** Linking a chain to a variable. *)
Lemma set_next h a o c bufs p cs fp R :
  lookup h a = Some (BVar o) -> c_info c = ob_info o -> storage_at h (ob_info o) (ob_word o) bufs ->
  value_at h (ob_info o) (ob_isset o) (ob_word o) (c_val c) -> chain_at h p cs fp -> own h (a :: bufs ++ fp) R ->
  exists h', store_var h a (with_next o p) = Ok h' /\ chain_at h' (Some a) (c :: cs) (a :: bufs ++ fp) /\
    own h' (a :: bufs ++ fp) R /\ frame h h' R /\ lookup h' a = Some (BVar (with_next o p)) /\
    (forall x, x <> a -> lookup h' x = lookup h x).
Proof.
  intros L I S V C O. pose proof (own_notin_head _ _ _ _ O) as Na.
  destruct (own_store h a (BVar (with_next o p)) _ _ O) as (E & O1 & L1 & X1); [unfold live; congruence|].
  eexists; split; [exact E|]. split; [|split; [auto|split; [|auto]]].
  - econstructor; eauto.
    + cbn. eapply storage_frame; eauto. intros x J; apply X1. intros ->; apply Na, in_or_app; auto.
    + cbn. eapply value_frame; eauto. intros x J; apply X1. intros ->; apply Na, in_or_app; auto.
    + cbn. eapply chain_frame; eauto. intros x J; apply X1. intros ->; apply Na, in_or_app; auto.
  - intros x r; apply X1. eapply own_R_neq; eauto. left; auto.
Qed.

Lemma copy_head h src so val sbufs R :
  lookup h src = Some (BVar so) -> storage_at h (ob_info so) (ob_word so) sbufs ->
  value_at h (ob_info so) (ob_isset so) (ob_word so) val -> (forall x, In x sbufs -> live h x) -> own h [] R ->
  exists h2 o bufs, m_copy_value (length h) src (h ++ [Some (BVar (mkobj (ob_info so) false (WPtr None) None))]) = Ok h2 /\
    lookup h2 (length h) = Some (BVar o) /\ ob_info o = ob_info so /\ ob_next o = None /\
    storage_at h2 (ob_info o) (ob_word o) bufs /\ value_at h2 (ob_info o) (ob_isset o) (ob_word o) val /\
    own h2 (length h :: bufs) R /\ frame h h2 R.
Proof.
  intros L S V B O. assert (LR : forall x, live h x -> R x) by (intros x H; apply O in H; destruct H as [[]|]; auto).
  destruct (own_new h (BVar (mkobj (ob_info so) false (WPtr None) None)) [] R O) as (O1 & X1 & L1).
  set (h1 := h ++ _) in *. assert (Ls : live h src) by (unfold live; congruence).
  assert (Ls1 : lookup h1 src = Some (BVar so)) by (rewrite X1; auto).
  assert (Sn : storage_at h1 (ob_info so) (WPtr None) []) by (unfold storage_at; destruct (is_numeric _); auto).
  assert (Ss : storage_at h1 (ob_info so) (ob_word so) sbufs) by (eapply storage_frame; [exact S|auto]).
  assert (Vs : value_at h1 (ob_info so) (ob_isset so) (ob_word so) val) by (eapply value_frame; [exact S|exact V|auto]).
  destruct (m_copy_value_spec h1 (length h) (mkobj (ob_info so) false (WPtr None) None) src so [] sbufs val R
              L1 Ls1 eq_refl Sn Ss Vs O1 (LR _ Ls) (fun x J => LR x (B x J)))
    as (h2 & o & bufs & E2 & L2 & I2 & N2 & S2 & V2 & O2 & F2).
  exists h2, o, bufs. repeat (split; [assumption|]). eapply frame_trans; [|exact F2].
  intros x r; apply X1. eapply own_live_R; eauto.
Qed.

Lemma m_copy_spec cs : forall c fuel src h fp R,
  chain_at h (Some src) (c :: cs) fp -> own h [] R -> (length (c :: cs) <= fuel)%nat ->
  exists a h' fp', m_copy fuel src h = Ok (a, h') /\ chain_at h' (Some a) (c :: cs) fp' /\ own h' fp' R /\ frame h h' R.
Proof.
  induction cs as [|d cs IH]; intros c [|k] src h fp R C O F; cbn [length] in F; try lia;
    pose proof (chain_live _ _ _ _ C) as CL; inversion C as [|? so ? sbufs ? fp1 L I S V T]; subst.
  all: assert (LR : forall x, live h x -> R x) by (intros x H; apply O in H; destruct H as [[]|]; auto).
  all: destruct (copy_head h src so (c_val c) sbufs R L S V) as (h2 & o & bufs & E2 & L2 & I2 & N2 & S2 & V2 & O2 & F2); auto.
  all: try (intros x J; apply CL; right; apply in_or_app; auto; fail).
  all: assert (Ls2 : lookup h2 src = Some (BVar so)) by (rewrite F2; auto; apply LR, CL; left; auto).
  all: cbn [m_copy]; rewrite (load_var_ok _ _ _ L); cbn [bind]; unfold m_new, new; rewrite E2; cbn [bind];
    rewrite (load_var_ok _ _ _ Ls2); cbn [bind]; set (a := length h) in *.
  - assert (ob_next so = None /\ fp1 = []) as (-> & ->) by (inversion T; auto).
    exists a, h2, (a :: bufs ++ []). split; [auto|]. split; [|split].
    + econstructor; eauto; [congruence|]. rewrite N2; constructor.
    + rewrite app_nil_r; auto.
    + auto.
  - inversion T as [|n on ? bn ? fn Ln In' Sn Vn Tn]; subst. rename H into En; symmetry in En.
    assert (T' : chain_at h (Some n) (d :: cs) (n :: bn ++ fn)) by (rewrite En in T; exact T).
    set (fp1 := n :: bn ++ fn) in *.
    destruct (own_split h2 [] (a :: bufs) R O2) as (O3 & Na & Da).
    destruct (IH d k n h2 fp1 (also R (a :: bufs))) as (na & h3 & fp3 & E3 & C3 & O4 & F3); auto.
    { eapply chain_frame; [exact T'|]. intros x J. rewrite F2; auto; apply LR, CL; right; apply in_or_app; auto. }
    { cbn; lia. }
    rewrite E3; cbn [bind].
    assert (La : lookup h3 a = Some (BVar o)) by (rewrite F3; [auto|right; left; auto]).
    rewrite (load_var_ok _ _ _ La); cbn [bind].
    assert (O5 : own h3 (a :: bufs ++ fp3) R).
    { eapply own_perm; [apply Permutation_app_comm with (l := fp3) (l' := a :: bufs)|]. apply own_join; auto. }
    destruct (set_next h3 a o c bufs (Some na) (d :: cs) fp3 R) as (h4 & E4 & C4 & O6 & F4 & _); auto.
    { congruence. }
    { eapply storage_frame; eauto. intros x J; apply F3; right; right; auto. }
    { eapply value_frame; eauto. intros x J; apply F3; right; right; auto. }
    rewrite E4; cbn [bind]. exists a, h4, (a :: bufs ++ fp3). split; [auto|split; [auto|split; [auto|]]].
    eapply frame_trans; [exact F2|]. eapply frame_trans; [|exact F4].
    eapply frame_sub; [|exact F3]. intros x r; left; auto.
Qed.

Lemma copy_next h fuel p cs fp R : chain_at h p cs fp -> own h [] R -> (length cs <= fuel)%nat ->
  match p with
  | None => cs = []
  | Some n => exists a h' fp', m_copy fuel n h = Ok (a, h') /\ chain_at h' (Some a) cs fp' /\ own h' fp' R /\ frame h h' R
  end.
Proof.
  intros C O F. destruct C as [|a o c bufs cs fp L I S V C]; auto.
  eapply m_copy_spec; eauto. econstructor; eauto.
Qed.

Lemma own_nil_also h fp R : own h fp R -> own h [] (also R fp).
Proof. intros O. apply (own_split h [] fp R O). Qed.
Lemma own_back h fp fp' R h0 : own h0 fp R -> own h fp' (also R fp) -> own h (fp' ++ fp) R.
Proof. intros (N & D & _) O. apply own_join; auto. Qed.

Lemma m_setattrs_spec h fuel a o cs fp src so scs sfp R :
  lookup h a = Some (BVar o) -> chain_at h (ob_next o) cs fp -> own h (a :: fp) R ->
  lookup h src = Some (BVar so) -> chain_at h (ob_next so) scs sfp -> R src -> (forall x, In x sfp -> R x) ->
  (length cs <= fuel)%nat -> (length scs <= fuel)%nat ->
  exists h' p fp', m_setattrs fuel a src h = Ok h' /\ lookup h' a = Some (BVar (with_next o p)) /\
    chain_at h' p scs fp' /\ own h' (a :: fp') R /\ frame h h' R.
Proof.
  intros L C O Ls Cs Rs Rf F1 F2. unfold m_setattrs.
  destruct (m_clear_attrs_spec h fuel a o cs fp R L C O F1) as (h1 & E1 & L1 & O1 & Fr1). rewrite E1; cbn [bind].
  assert (Ls1 : lookup h1 src = Some (BVar so)) by (rewrite Fr1; auto). rewrite (load_var_ok _ _ _ Ls1); cbn [bind].
  assert (C1 : chain_at h1 (ob_next so) scs sfp) by (eapply chain_frame; eauto).
  pose proof (copy_next h1 fuel _ _ _ _ C1 (own_nil_also _ _ _ O1) F2) as N.
  destruct (ob_next so) as [n|].
  - destruct N as (na & h2 & fp2 & E2 & C2 & O2 & Fr2). rewrite E2; cbn [bind].
    assert (L2 : lookup h2 a = Some (BVar (with_next o None))) by (rewrite Fr2; [auto|right; left; auto]).
    rewrite (load_var_ok _ _ _ L2); cbn [bind].
    assert (O3 : own h2 (a :: fp2) R).
    { eapply own_perm; [apply Permutation_sym, Permutation_cons_append|]. eapply own_back; eauto. }
    destruct (own_store h2 a (BVar (with_next o (Some na))) _ _ O3) as (E3 & O4 & L4 & X4); [unfold live; congruence|].
    exists (update h2 a (Some (BVar (with_next o (Some na))))), (Some na), fp2. split; [exact E3|]. split; [auto|]. split; [|split; [auto|]].
    + eapply chain_frame; eauto. intros x J; apply X4. intros ->. eapply own_notin_head; eauto.
    + intros x r. rewrite X4, Fr2, Fr1; auto; [left; auto|]. apply (own_R_neq _ _ _ O a); [left; auto|auto].
  - subst scs. exists h1, None, []. repeat split; auto; try apply O1. constructor.
Qed.

Lemma m_setattrs_self h fuel a o cs fp R :
  lookup h a = Some (BVar o) -> chain_at h (ob_next o) cs fp -> own h (a :: fp) R -> (length cs <= fuel)%nat ->
  exists h', m_setattrs fuel a a h = Ok h' /\ lookup h' a = Some (BVar (with_next o None)) /\ own h' [a] R /\ frame h h' R.
Proof.
  intros L C O F1. unfold m_setattrs.
  destruct (m_clear_attrs_spec h fuel a o cs fp R L C O F1) as (h1 & E1 & L1 & O1 & Fr1). rewrite E1; cbn [bind].
  rewrite (load_var_ok _ _ _ L1); cbn. eauto.
Qed.

(** ** Assignment *)
Lemma storage_same h i j w bufs : same_storage i j = true -> storage_at h i w bufs -> storage_at h j w bufs.
Proof.
  unfold same_storage, storage_at. intros E. apply andb_prop in E; destruct E as (E1 & E2).
  apply Bool.eqb_prop in E1. rewrite <- E1. destruct (is_numeric (vi_type i)); auto. cbn in E2.
  unfold ilen. apply Z.eqb_eq in E2; rewrite E2; auto.
Qed.

Lemma m_assign_spec h fuel a src dc dcs fp sc scs sfp R :
  chain_at h (Some a) (dc :: dcs) fp -> chain_at h (Some src) (sc :: scs) sfp -> own h fp R -> (forall x, In x sfp -> R x) ->
  same_storage (c_info dc) (c_info sc) = true -> (length dcs <= fuel)%nat -> (length scs <= fuel)%nat ->
  exists h' fp', m_assign fuel a src h = Ok h' /\ chain_at h' (Some a) (sc :: scs) fp' /\ own h' fp' R /\ frame h h' R.
Proof.
  intros C Cs O Rs SS F1 F2. inversion C as [|? o ? bufs ? fp1 L I S V T]; subst.
  inversion Cs as [|? so ? sbufs ? sfp1 Ls Is Ss Vs Ts]; subst.
  assert (Nas : src <> a) by (eapply own_R_neq; eauto; [left; auto|apply Rs; left; auto]).
  unfold m_assign. replace (Nat.eqb a src) with false by (symmetry; apply Nat.eqb_neq; auto).
  rewrite (load_var_ok _ _ _ L), (load_var_ok _ _ _ Ls); cbn [bind].
  destruct (own_store h a (BVar (with_info o (ob_info so))) _ _ O) as (E1 & O1 & L1 & X1); [unfold live; congruence|].
  unfold store_var; rewrite E1; cbn [bind]. set (h1 := update h a _) in *.
  pose proof (own_notin_head _ _ _ _ O) as Na.
  assert (Fr1 : frame h h1 R) by (intros x r; apply X1; eapply own_R_neq; eauto; left; auto).
  assert (O1' : own h1 ((a :: bufs) ++ fp1) R) by exact O1.
  destruct (own_split _ _ _ _ O1') as (O2 & N2 & D2).
  destruct (m_copy_value_spec h1 a (with_info o (ob_info so)) src so bufs sbufs (c_val sc) (also R fp1))
    as (h2 & o2 & bufs2 & E2 & L2 & I2 & Nx2 & S2 & V2 & O3 & Fr2); auto.
  { rewrite X1; auto. }
  { cbn. apply storage_same with (i := ob_info o); [rewrite <- I, <- Is; auto|].
    eapply storage_frame; eauto. intros x J; apply X1. intros ->; apply Na, in_or_app; auto. }
  { eapply storage_frame; eauto. intros x J; apply Fr1, Rs; right; apply in_or_app; auto. }
  { eapply value_frame; eauto. intros x J; apply Fr1, Rs; right; apply in_or_app; auto. }
  { left; apply Rs; left; auto. }
  { intros x J; left; apply Rs; right; apply in_or_app; auto. }
  rewrite E2; cbn [bind]. cbn in I2, Nx2.
  assert (C2 : chain_at h2 (ob_next o2) dcs fp1).
  { rewrite Nx2. eapply chain_frame; [exact T|]. intros x J. rewrite Fr2 by (right; auto). apply X1.
    intros ->; apply Na, in_or_app; auto. }
  assert (O4 : own h2 ((a :: fp1) ++ bufs2) R).
  { eapply own_perm with (fp := (a :: bufs2) ++ fp1); [|apply own_join; auto]. cbn. constructor. apply Permutation_app_comm. }
  destruct (own_split _ _ _ _ O4) as (O5 & N5 & D5).
  destruct (m_setattrs_spec h2 fuel a o2 dcs fp1 src so scs sfp1 (also R bufs2)) as (h3 & p & fp3 & E3 & L3 & C3 & O6 & Fr3); auto.
  { rewrite Fr2, X1; auto. left; apply Rs; left; auto. }
  { eapply chain_frame; [exact Ts|]. intros x J. assert (R x) by (apply Rs; right; apply in_or_app; auto).
    rewrite Fr2, Fr1; auto. left; auto. }
  { left; apply Rs; left; auto. }
  { intros x J; left; apply Rs; right; apply in_or_app; auto. }
  exists h3, (a :: bufs2 ++ fp3). split; [exact E3|]. split; [|split].
  - econstructor; eauto.
    + cbn; congruence.
    + cbn. eapply storage_frame; eauto. intros x J; apply Fr3; right; auto.
    + cbn. eapply value_frame; eauto. intros x J; apply Fr3; right; auto.
  - eapply own_perm with (fp := (a :: fp3) ++ bufs2); [|apply own_join; auto]. cbn; constructor; apply Permutation_app_comm.
  - intros x r. rewrite Fr3, Fr2, Fr1; auto; left; auto.
Qed.

(** ** Moves *)
Lemma same_kind_storage i j : same_kind i j = true -> same_storage i j = true.
Proof. unfold same_kind; intros E; apply andb_prop in E; tauto. Qed.
Lemma same_storage_sym i j : same_storage i j = true -> same_storage j i = true.
Proof.
  unfold same_storage. intros E; apply andb_prop in E; destruct E as (A & B). apply Bool.eqb_prop in A.
  rewrite <- A, Bool.eqb_reflx. rewrite Z.eqb_sym; auto.
Qed.
Lemma same_kind_value h i j s w v : same_kind i j = true -> value_at h j s w v -> value_at h i s w v.
Proof.
  intros K V. pose proof (same_kind_storage _ _ K) as S. unfold same_kind in K. apply andb_prop in K; destruct K as (_ & K).
  unfold same_storage in S. apply andb_prop in S; destruct S as (A & B). apply Bool.eqb_prop in A.
  unfold value_at in *. rewrite A in *. destruct s; auto. destruct w as [n|[b|]]; auto.
  destruct V as (N & t & u & L & E & C). rewrite N in *; cbn in K, B. split; auto. exists t, u. split; [auto|split; [auto|]].
  assert (T : vi_type i = vi_type j) by (destruct (vi_type i), (vi_type j); try discriminate; auto).
  apply Z.eqb_eq in B. unfold chars_of, ilen in *. rewrite T, B; auto.
Qed.

Lemma m_move_value_spec h a o src so bufs sbufs val R :
  lookup h a = Some (BVar o) -> lookup h src = Some (BVar so) -> same_kind (ob_info o) (ob_info so) = true ->
  storage_at h (ob_info o) (ob_word o) bufs -> storage_at h (ob_info so) (ob_word so) sbufs ->
  value_at h (ob_info so) (ob_isset so) (ob_word so) val ->
  own h ((a :: bufs) ++ src :: sbufs) R ->
  exists h' o' bufs' so' sbufs', m_move_value a src h = Ok h' /\
    lookup h' a = Some (BVar o') /\ ob_info o' = ob_info o /\ ob_next o' = ob_next o /\
    storage_at h' (ob_info o') (ob_word o') bufs' /\ value_at h' (ob_info o') (ob_isset o') (ob_word o') val /\
    lookup h' src = Some (BVar so') /\ ob_info so' = ob_info so /\ ob_next so' = ob_next so /\ ob_isset so' = false /\
    storage_at h' (ob_info so') (ob_word so') sbufs' /\
    own h' ((a :: bufs') ++ src :: sbufs') R /\ frame h h' R.
Proof.
  intros L Ls K S Ss V O. unfold m_move_value.
  rewrite (load_var_ok _ _ _ L), (load_var_ok _ _ _ Ls); cbn [bind].
  pose proof (own_notin_head _ _ _ _ O) as Na.
  assert (Nas : src <> a) by (intros ->; apply Na, in_or_app; right; left; auto).
  assert (Nsb : ~ In src sbufs).
  { destruct O as (N & _). apply NoDup_app_inv in N; destruct N as (_ & N & _). apply NoDup_cons_iff in N; tauto. }
  assert (Nab : ~ In a bufs) by (intros J; apply Na, in_or_app; auto).
  assert (Nasb : ~ In a sbufs) by (intros J; apply Na, in_or_app; right; right; auto).
  assert (Nsab : forall x, In x bufs -> ~ In x (src :: sbufs)).
  { destruct O as (N & _). apply NoDup_app_inv in N. intros x J; apply N; right; auto. }
  assert (Ra : forall x, R x -> x <> a) by (intros x r; eapply own_R_neq; eauto; left; auto).
  assert (Rsr : forall x, R x -> x <> src) by (intros x r; eapply own_R_neq; eauto; apply in_or_app; right; left; auto).
  destruct (own_store h a (BVar (with_isset o (ob_isset so))) _ _ O) as (E1 & O1 & L1 & X1); [unfold live; congruence|].
  unfold store_var at 1; rewrite E1; cbn [bind]. set (h1 := update h a _) in *.
  assert (F1 : frame h h1 R) by (intros x r; apply X1; auto).
  assert (S1 : storage_at h1 (ob_info o) (ob_word o) bufs).
  { eapply storage_frame; eauto. intros x J; apply X1. intros ->; auto. }
  assert (Ss1 : storage_at h1 (ob_info so) (ob_word so) sbufs).
  { eapply storage_frame; eauto. intros x J; apply X1. intros ->; auto. }
  assert (V1 : value_at h1 (ob_info so) (ob_isset so) (ob_word so) val).
  { eapply value_frame; [exact Ss|exact V|]. intros x J; apply X1. intros ->; auto. }
  assert (Ls1 : lookup h1 src = Some (BVar so)) by (rewrite X1; auto).
  pose proof (same_kind_storage _ _ K) as KS.
  assert (KN : is_numeric (vi_type (ob_info so)) = is_numeric (vi_type (ob_info o))).
  { unfold same_storage in KS; apply andb_prop in KS; destruct KS as (A & _); apply Bool.eqb_prop in A; auto. }
  destruct (ob_isset so) eqn:Is; cbn [negb].
  2:{ exists h1, (with_isset o false), bufs, so, sbufs. repeat (split; [first [assumption|reflexivity]|]). auto. }
  destruct (is_numeric (vi_type (ob_info o))) eqn:N.
  - assert (exists n, ob_word so = WInt n /\ val = Some (VInt n)) as (n & Wn & ->).
    { unfold value_at in V1. destruct (ob_word so) as [n|[b|]]; [|destruct V1; congruence|tauto]. destruct V1; eauto. }
    unfold storage_at in S1; rewrite N in S1; destruct S1 as (-> & _).
    unfold storage_at in Ss1; rewrite KN in Ss1; destruct Ss1 as (-> & _).
    destruct (own_store h1 a (BVar (with_word (with_isset o true) (WInt n))) _ _ O1) as (E2 & O2 & L2 & X2); [unfold live; congruence|].
    set (h2 := update h1 a _) in *.
    destruct (own_store h2 src (BVar (with_isset so false)) _ _ O2) as (E3 & O3 & L3 & X3).
    { unfold live; rewrite X2 by auto; congruence. }
    set (h3 := update h2 src _) in *.
    exists h3, (with_word (with_isset o true) (WInt n)), [], (with_isset so false), [].
    split.
    { assert (EQ : (o1 <- load_var h1 a;; i <- word_int (ob_word so);; h2 <- store_var h1 a (with_word o1 (WInt i));;
        store_var h2 src (with_isset so false)) = Ok h3).
      { rewrite (load_var_ok _ _ _ L1); cbn [bind]; rewrite Wn; cbn [word_int bind]. unfold store_var; rewrite E2; cbn [bind]. exact E3. }
      destruct (numeric_cases _ N) as [T|T]; rewrite T; exact EQ. }
    cbn [with_word with_isset ob_info ob_word ob_isset ob_next].
    split; [rewrite X3; auto|]. split; [auto|]. split; [auto|].
    split; [unfold storage_at; rewrite N; auto|]. split; [unfold value_at; auto|].
    split; [auto|]. split; [auto|]. split; [auto|]. split; [auto|]. split; [unfold storage_at; rewrite KN, Wn; auto|]. split; [auto|].
    intros x r. rewrite X3, X2, F1; auto.
  - assert (exists sb, ob_word so = WPtr (Some sb) /\ sbufs = [sb]) as (sb & Ws & ->).
    { unfold storage_at in Ss1; rewrite KN in Ss1. unfold value_at in V1.
      destruct (ob_word so) as [n|[b|]]; [destruct V1; congruence| |tauto]. exists b; split; [auto|apply Ss1]. }
    assert (O1' : own h1 (bufs ++ [a; src; sb]) R).
    { eapply own_perm; [|exact O1]. apply (perm_mid a bufs [src; sb]). }
    destruct (delete_word h1 (ob_info o) (ob_word o) bufs [a; src; sb] R S1 N O1') as (h2 & E2 & O2 & X2).
    assert (L2 : lookup h2 a = Some (BVar (with_isset o true))) by (rewrite X2; auto).
    assert (Ls2 : lookup h2 src = Some (BVar so)) by (rewrite X2; auto; intros J; eapply Nsab; eauto; left; auto).
    assert (Rb : forall x, R x -> ~ In x bufs).
    { intros x r J. destruct O as (_ & D & _). apply (D x); [right; apply in_or_app; auto|auto]. }
    destruct (own_store h2 a (BVar (with_word (with_isset o true) (WPtr (Some sb)))) _ _ O2) as (E3 & O3 & L3 & X3); [unfold live; congruence|].
    set (h3 := update h2 a _) in *.
    destruct (own_store h3 src (BVar (with_isset (with_word so (WPtr None)) false)) _ _ O3) as (E4 & O4 & L4 & X4).
    { unfold live; rewrite X3 by auto; congruence. }
    set (h4 := update h3 src _) in *.
    assert (Nsb' : sb <> src /\ sb <> a) by (split; intros ->; [apply Nsb|apply Nasb]; left; auto).
    assert (Xb : lookup h4 sb = lookup h1 sb).
    { rewrite X4, X3 by tauto. apply X2. intros J; eapply Nsab; eauto; right; left; auto. }
    exists h4, (with_word (with_isset o true) (WPtr (Some sb))), [sb], (with_isset (with_word so (WPtr None)) false), [].
    split.
    { assert (EQ : (p <- word_ptr (ob_word o);; h2 <- delete_chars p h1;; o1 <- load_var h2 a;; sp <- word_ptr (ob_word so);;
         h3 <- store_var h2 a (with_word o1 (WPtr sp));; store_var h3 src (with_isset (with_word so (WPtr None)) false)) = Ok h4).
      { destruct (word_ptr (ob_word o)) as [p| |]; cbn [bind] in E2 |- *; try discriminate. rewrite E2; cbn [bind].
        rewrite (load_var_ok _ _ _ L2); cbn [bind]; rewrite Ws; cbn [word_ptr bind]. unfold store_var; rewrite E3; cbn [bind]. exact E4. }
      destruct (textual_cases _ N) as [T|T]; rewrite T; exact EQ. }
    cbn [with_word with_isset ob_info ob_word ob_isset ob_next].
    split; [rewrite X4; auto|]. split; [auto|]. split; [auto|].
    split.
    { apply storage_same with (i := ob_info so); [apply same_storage_sym; auto|].
      eapply storage_frame; [rewrite <- Ws; exact Ss1|]. intros x [<-|[]]; auto. }
    split.
    { eapply same_kind_value; [exact K|].
      rewrite <- Ws. eapply value_frame; [exact Ss1|exact V1|]. intros x [<-|[]]; auto. }
    split; [auto|]. split; [auto|]. split; [auto|]. split; [auto|]. split; [unfold storage_at; rewrite KN; auto|]. split.
    + eapply own_perm; [|exact O4]. cbn. constructor. apply perm_swap.
    + intros x r. rewrite X4, X3, X2, F1; auto.
Qed.

Lemma m_move_spec h src c cs fp R :
  chain_at h (Some src) (c :: cs) fp -> own h fp R ->
  exists a h' fa fs, m_move src h = Ok (a, h') /\ chain_at h' (Some a) (c :: cs) fa /\
    chain_at h' (Some src) [unset c] fs /\ own h' (fa ++ fs) R /\ frame h h' R.
Proof.
  intros C O. pose proof (chain_live _ _ _ _ C) as CL. inversion C as [|? so ? sbufs ? fp1 L I S V T]; subst.
  unfold m_move. rewrite (load_var_ok _ _ _ L); cbn [bind]. unfold new.
  destruct (own_new h (BVar (mkobj (ob_info so) false (WPtr None) (ob_next so))) _ R O) as (O1 & X1 & L1).
  set (h1 := h ++ _) in *; set (a := length h) in *.
  assert (O1' : own h1 (((a :: []) ++ src :: sbufs) ++ fp1) R) by exact O1.
  destruct (own_split _ _ _ _ O1') as (O2 & N2 & D2).
  destruct (m_move_value_spec h1 a (mkobj (ob_info so) false (WPtr None) (ob_next so)) src so [] sbufs (c_val c) (also R fp1))
    as (h2 & o & bufs & so2 & sb2 & E2 & La & Ia & Xa & Sa & Va & Lb & Ib & Xb & Ub & Sb & O3 & F2); auto.
  { rewrite X1; auto. apply CL; left; auto. }
  { unfold same_kind, same_storage; cbn. destruct (vi_type (ob_info so)); cbn; rewrite ?Z.eqb_refl; reflexivity. }
  { unfold storage_at; cbn; destruct (is_numeric _); auto. }
  { eapply storage_frame; eauto. intros x J; apply X1, CL; right; apply in_or_app; auto. }
  { eapply value_frame; [exact S|exact V|]. intros x J; apply X1, CL; right; apply in_or_app; auto. }
  cbn [ob_info ob_next] in Ia, Xa. rewrite E2; cbn [bind]. rewrite (load_var_ok _ _ _ Lb); cbn [bind].
  assert (O4 : own h2 (((a :: bufs) ++ src :: sb2) ++ fp1) R) by (apply own_join; auto).
  destruct (own_store h2 src (BVar (with_next so2 None)) _ _ O4) as (E5 & O5 & L5 & X5); [unfold live; congruence|].
  unfold store_var; rewrite E5; cbn [bind]. set (h3 := update h2 src _) in *.
  assert (ND : NoDup (src :: (a :: bufs ++ fp1) ++ sb2)).
  { destruct O4 as (N & _). eapply Permutation_NoDup; [|exact N]. perm. }
  apply NoDup_cons_iff in ND; destruct ND as (Ns & ND).
  assert (Xn : forall x, In x ((a :: bufs ++ fp1) ++ sb2) -> lookup h3 x = lookup h2 x) by (intros x J; apply X5; intros ->; auto).
  exists a, h3, (a :: bufs ++ fp1), (src :: sb2 ++ []). split; [auto|]. split; [|split; [|split]].
  - econstructor.
    + rewrite Xn; [exact La|left; auto].
    + congruence.
    + eapply storage_frame; eauto. intros x J; apply Xn. apply in_or_app; left; right; apply in_or_app; auto.
    + eapply value_frame; eauto. intros x J; apply Xn. apply in_or_app; left; right; apply in_or_app; auto.
    + rewrite Xa. eapply chain_frame; [exact T|]. intros x J.
      rewrite Xn by (apply in_or_app; left; right; apply in_or_app; auto).
      rewrite F2 by (right; auto). apply X1, CL; right; apply in_or_app; auto.
  - econstructor; eauto; cbn.
    + congruence.
    + eapply storage_frame; eauto. intros x J; apply Xn. apply in_or_app; auto.
    + rewrite Ub. reflexivity.
    + constructor.
  - eapply own_perm; [|exact O5]. perm.
  - intros x r. rewrite X5, F2, X1; auto; [apply (own_live_R _ _ _ O); auto|left; auto|].
    apply (own_R_neq _ _ _ O src); [left; auto|auto].
Qed.

Lemma m_move_assign_spec h fuel a src dc dcs fp sc scs sfp R :
  chain_at h (Some a) (dc :: dcs) fp -> chain_at h (Some src) (sc :: scs) sfp -> own h (fp ++ sfp) R ->
  same_kind (c_info dc) (c_info sc) = true -> (length dcs <= fuel)%nat ->
  exists h' fa fs, m_move_assign fuel a src h = Ok h' /\
    chain_at h' (Some a) (mkcell (c_info dc) (c_val sc) :: scs) fa /\
    chain_at h' (Some src) [unset sc] fs /\ own h' (fa ++ fs) R /\ frame h h' R.
Proof.
  intros C Cs O K F. inversion C as [|? o ? bufs ? fp1 L I S V T]; subst.
  inversion Cs as [|? so ? sbufs ? sfp1 Ls Is Ss Vs Ts]; subst.
  assert (O1 : own h (((a :: bufs) ++ src :: sbufs) ++ (fp1 ++ sfp1)) R).
  { eapply own_perm; [|exact O]. perm. }
  assert (Nas : src <> a).
  { intros ->. eapply own_notin_head; [exact O|]. apply in_or_app; right; left; auto. }
  unfold m_move_assign. replace (Nat.eqb a src) with false by (symmetry; apply Nat.eqb_neq; auto).
  destruct (own_split _ _ _ _ O1) as (O2 & N2 & D2).
  rewrite I, Is in K.
  destruct (m_move_value_spec h a o src so bufs sbufs (c_val sc) (also R (fp1 ++ sfp1)) L Ls K S Ss Vs O2)
    as (h1 & o1 & bufs1 & so1 & sb1 & E1 & La & Ia & Xa & Sa & Va & Lb & Ib & Xb & Ub & Sb & O3 & F1).
  rewrite E1; cbn [bind]. rewrite (load_var_ok _ _ _ La); cbn [bind].
  assert (T1 : chain_at h1 (ob_next o1) dcs fp1).
  { rewrite Xa. eapply chain_frame; [exact T|]. intros x J; apply F1; right; apply in_or_app; auto. }
  assert (Ts1 : chain_at h1 (ob_next so1) scs sfp1).
  { rewrite Xb. eapply chain_frame; [exact Ts|]. intros x J; apply F1; right; apply in_or_app; auto. }
  assert (O4 : own h1 (fp1 ++ ((a :: bufs1 ++ sfp1) ++ (src :: sb1))) R).
  { eapply own_perm with (fp := ((a :: bufs1) ++ src :: sb1) ++ fp1 ++ sfp1); [|apply own_join; auto].
    perm. }
  destruct (own_split _ _ _ _ O4) as (O5 & N5 & D5).
  destruct (delete_next h1 fuel _ _ _ _ T1 O5 F) as (h2 & E2 & O6 & F2). rewrite E2; cbn [bind].
  set (keep := (a :: bufs1 ++ sfp1) ++ (src :: sb1)) in *.
  assert (X2 : forall x, In x keep -> lookup h2 x = lookup h1 x) by (intros x J; apply F2; right; auto).
  assert (Ik : forall x, In x keep <-> a = x \/ In x bufs1 \/ In x sfp1 \/ src = x \/ In x sb1).
  { intros x; unfold keep. cbn. rewrite !in_app_iff. cbn. tauto. }
  assert (L2 : lookup h2 a = Some (BVar o1)) by (rewrite X2; [auto|apply Ik; auto]).
  assert (Ls2 : lookup h2 src = Some (BVar so1)) by (rewrite X2; [auto|apply Ik; auto]).
  rewrite (load_var_ok _ _ _ Ls2), (load_var_ok _ _ _ L2); cbn [bind].
  assert (O7 : own h2 keep R) by (apply (own_join h2 [] keep R); auto).
  destruct (own_store h2 a (BVar (with_next o1 (ob_next so1))) _ _ O7) as (E8 & O8 & L8 & X8); [unfold live; congruence|].
  unfold store_var at 1; rewrite E8; cbn [bind]. set (h3 := update h2 a _) in *.
  assert (Ls3 : lookup h3 src = Some (BVar so1)) by (rewrite X8; auto).
  rewrite (load_var_ok _ _ _ Ls3); cbn [bind].
  destruct (own_store h3 src (BVar (with_next so1 None)) _ _ O8) as (E9 & O9 & L9 & X9); [unfold live; congruence|].
  set (h4 := update h3 src _) in *.
  assert (ND : NoDup keep) by apply O7.
  unfold keep in ND. apply NoDup_app_inv in ND; destruct ND as (NDa & NDs & NDx).
  apply NoDup_cons_iff in NDa; destruct NDa as (Na & NDa). apply NoDup_cons_iff in NDs; destruct NDs as (Nsx & NDs).
  assert (Xk : forall x, In x keep -> x <> a -> x <> src -> lookup h4 x = lookup h1 x).
  { intros x J n1 n2. rewrite X9, X8, X2; auto. }
  assert (Xb1 : forall x, In x bufs1 -> lookup h4 x = lookup h1 x).
  { intros x J; apply Xk; [apply Ik; auto| |]; intros ->; [apply Na, in_or_app; auto|].
    apply (NDx src); [right; apply in_or_app; auto|left; auto]. }
  assert (Xs1 : forall x, In x sfp1 -> lookup h4 x = lookup h1 x).
  { intros x J; apply Xk; [apply Ik; auto| |]; intros ->; [apply Na, in_or_app; auto|].
    apply (NDx src); [right; apply in_or_app; auto|left; auto]. }
  assert (Xsb : forall x, In x sb1 -> lookup h4 x = lookup h1 x).
  { intros x J; apply Xk; [apply Ik; tauto| |]; intros ->; [|auto]. apply (NDx a); [left; auto|right; auto]. }
  exists h4, (a :: bufs1 ++ sfp1), (src :: sb1 ++ []). split; [exact E9|]. split; [|split; [|split]].
  - econstructor.
    + rewrite X9 by auto. exact L8.
    + cbn; congruence.
    + cbn. eapply storage_frame; eauto.
    + cbn. eapply value_frame; eauto.
    + cbn. eapply chain_frame; eauto.
  - econstructor; [exact L9| | | |].
    + cbn; congruence.
    + cbn. eapply storage_frame; eauto.
    + cbn. rewrite Ub; reflexivity.
    + constructor.
  - rewrite app_nil_r. exact O9.
  - intros x r. rewrite X9, X8, F2, F1; auto; [left; auto|left; auto| |].
    + apply (own_R_neq _ _ _ O a); [left; auto|auto].
    + apply (own_R_neq _ _ _ O src); [apply in_or_app; right; left; auto|auto].
Qed.

(** ** Setters *)
Definition number_result (i : varinfo) (r : outcome cell) : Prop :=
  match r with
  | Done d | Thrown _ d => c_info d = i /\ is_number d
  | Undef => True
  end.

Lemma number_unset c : is_number (unset c).
Proof. intros v; discriminate. Qed.
Lemma number_val c n : is_number (with_val c (VInt n)).
Proof. intros v [= <-]; eauto. Qed.

Lemma assign_i_number op c n : hook_ok op -> is_number c -> number_result (c_info c) (assign_i_checked op c n).
Proof.
  intros H N. unfold assign_i_checked, number_result.
  destruct (_ || _); [|split; [auto|apply number_val]].
  destruct (o_silent op); [split; [auto|apply number_unset]|].
  destruct (o_clamp op); [split; [auto|apply number_val]|].
  destruct (o_hook op) as [f|] eqn:E; [|split; [auto|apply number_unset]].
  specialize (H f c (inl n) E N). destruct (f c (inl n)); auto.
Qed.
Lemma store_d_number c d : number_result (c_info c) (store_d c d).
Proof. unfold store_d. destruct (encode_decimal _ _); cbn; auto. split; [auto|apply number_val]. Qed.
Lemma assign_d_number op c d : hook_ok op -> is_number c -> number_result (c_info c) (assign_d_checked op c d).
Proof.
  intros H N. unfold assign_d_checked.
  assert (HK : number_result (c_info c) (match o_hook op with Some h => h c (inr d) | None => Thrown EDomain (unset c) end)).
  { unfold number_result. destruct (o_hook op) as [f|] eqn:E; [|split; [auto|apply number_unset]].
    specialize (H f c (inr d) E N). destruct (f c (inr d)); auto. }
  destruct (fisnan d).
  - destruct (o_silent op); [split; [auto|apply number_unset]|exact HK].
  - destruct (_ || _); [|apply store_d_number].
    destruct (o_silent op); [split; [auto|apply number_unset]|]. destruct (o_clamp op); [apply store_d_number|exact HK].
Qed.
Lemma set_number_number op c s : hook_ok op -> is_number c -> number_result (c_info c) (set_number op c s).
Proof.
  intros H N. unfold set_number. destruct (negb _); [split; [auto|apply number_unset]|].
  destruct s as [|z s]; [apply assign_i_number; auto|].
  repeat match goal with |- context [match ?z with _ => _ end] => is_var z; destruct z end; apply assign_i_number; auto.
Qed.
Lemma run_setter_number op c x : hook_ok op -> is_number c -> is_numeric (vi_type (c_info c)) = true ->
  number_result (c_info c) (run_setter op c x).
Proof.
  intros H N T. destruct x; cbn [run_setter].
  - unfold seti. rewrite T. apply assign_i_number; auto.
  - unfold setd. destruct (numeric_cases _ T) as [E|E]; rewrite E.
    + destruct (f_lround d); try exact I. apply assign_i_number; auto.
    + apply assign_d_number; auto.
  - unfold setc. destruct (numeric_cases _ T) as [E|E]; rewrite E; apply set_number_number; auto.
  - unfold sets. destruct (numeric_cases _ T) as [E|E]; rewrite E; apply set_number_number; auto.
  - split; [auto|apply number_unset].
Qed.

Definition sets_to (h : heap) (a : addr) (o : obj) (bufs : list addr) (R : addr -> Prop)
    (r : res (option err * heap)) (e : option err) (c : cell) : Prop :=
  exists h' o' bufs', r = Ok (e, h') /\ lookup h' a = Some (BVar o') /\ ob_info o' = ob_info o /\ ob_next o' = ob_next o /\
    c_info c = ob_info o /\ storage_at h' (ob_info o') (ob_word o') bufs' /\
    value_at h' (ob_info o') (ob_isset o') (ob_word o') (c_val c) /\ own h' (a :: bufs') R /\ frame h h' R.

Lemma sets_store h a o bufs R w s e c :
  lookup h a = Some (BVar o) -> own h (a :: bufs) R -> is_numeric (vi_type (ob_info o)) = true ->
  c_info c = ob_info o -> storage_at h (ob_info o) (ob_word o) bufs ->
  match w with WPtr (Some _) => False | _ => True end -> value_at h (ob_info o) s w (c_val c) ->
  sets_to h a o bufs R (h1 <- store_var h a (with_isset (with_word o w) s) ;; Ok (e, h1)) e c.
Proof.
  intros L O N I S W V. destruct (own_store h a (BVar (with_isset (with_word o w) s)) _ _ O) as (E & O1 & L1 & X1); [unfold live; congruence|].
  unfold store_var; rewrite E; cbn [bind]. unfold storage_at in S; rewrite N in S; destruct S as (-> & _).
  eexists _, _, []; split; [reflexivity|]. split; [exact L1|]. cbn. repeat (split; [solve [auto]|]).
  split; [unfold storage_at; rewrite N; auto|]. split; [|split; [auto|]].
  - unfold value_at in *. destruct s; auto. destruct w as [|[|]]; auto; tauto.
  - intros x r; apply X1. eapply own_R_neq; eauto; left; auto.
Qed.

Lemma set_number_spec h a o bufs val R op x :
  hook_ok op -> lookup h a = Some (BVar o) -> storage_at h (ob_info o) (ob_word o) bufs ->
  value_at h (ob_info o) (ob_isset o) (ob_word o) val -> own h (a :: bufs) R -> is_numeric (vi_type (ob_info o)) = true ->
  match run_setter op (mkcell (ob_info o) val) x with
  | Done c => sets_to h a o bufs R (m_set_number (fun c => run_setter op c x) a h) None c
  | Thrown e c => sets_to h a o bufs R (m_set_number (fun c => run_setter op c x) a h) (Some e) c
  | Undef => True
  end.
Proof.
  intros H L S V O N.
  assert (NV : is_number (mkcell (ob_info o) val)).
  { intros v E; cbn in E. unfold value_at in V. destruct (ob_isset o); [|congruence].
    destruct (ob_word o) as [n|[b|]]; [|destruct V; congruence|tauto]. destruct V as (_ & V). rewrite V in E; inversion E; eauto. }
  pose proof (run_setter_number op (mkcell (ob_info o) val) x H NV N) as Q. cbn [c_info] in Q.
  unfold m_set_number. rewrite (load_var_ok _ _ _ L); cbn [bind].
  assert (EV : (if ob_isset o then i <- word_int (ob_word o);; Ok (Some (VInt i)) else Ok None) = Ok val).
  { unfold value_at in V. destruct (ob_isset o); [|congruence].
    destruct (ob_word o) as [n|[b|]]; [|destruct V; congruence|tauto]. destruct V as (_ & ->); reflexivity. }
  rewrite EV; cbn [bind].
  assert (W0 : match ob_word o with WPtr (Some _) => False | _ => True end).
  { unfold storage_at in S; rewrite N in S; tauto. }
  assert (G : forall e c, c_info c = ob_info o -> is_number c ->
    sets_to h a o bufs R (h1 <- match c_val c with
    | Some (VInt i) => store_var h a (with_isset (with_word o (WInt i)) true)
    | Some _ => UB
    | None => store_var h a (with_isset o false)
    end;; Ok (e, h1)) e c).
  { intros e c Ic Nc. destruct (c_val c) as [v|] eqn:Ev.
    - destruct (Nc v Ev) as (n & ->). apply sets_store; auto. cbn; auto.
    - replace (with_isset o false) with (with_isset (with_word o (ob_word o)) false) by (destruct o; reflexivity).
      apply sets_store; auto. }
  destruct (run_setter op (mkcell (ob_info o) val) x) as [c|e c|]; auto; destruct Q as (Q1 & Q2); apply G; auto.
Qed.

Lemma m_assign_c_spec h a o bufs R val size s :
  lookup h a = Some (BVar o) -> storage_at h (ob_info o) (ob_word o) bufs -> vi_type (ob_info o) = TString ->
  own h (a :: bufs) R ->
  strncpy_str val (if Nat.ltb size (ilen (ob_info o)) then size else ilen (ob_info o)) = Some s ->
  sets_to h a o bufs R (h1 <- m_assign_c a val size h ;; Ok (None, h1)) None (mkcell (ob_info o) (Some (VStr s))).
Proof.
  intros L S T O Es. assert (N : is_numeric (vi_type (ob_info o)) = false) by (rewrite T; auto).
  destruct (m_allocate_spec h a o bufs R L S N O) as (b & h1 & t & E1 & L1 & Lb & Lt & O1 & F1).
  unfold m_assign_c. rewrite E1; cbn [bind]. rewrite (load_var_ok _ _ _ L1); cbn [bind with_word ob_info].
  set (n := if Nat.ltb size (ilen (ob_info o)) then size else ilen (ob_info o)) in *. rewrite Es.
  assert (Hn : (n <= ilen (ob_info o))%nat) by (unfold n; destruct (Nat.ltb_spec size (ilen (ob_info o))); lia).
  assert (Hs : ~ In 0 s /\ (length s <= n)%nat).
  { unfold strncpy_str in Es. destruct (_ && _); [discriminate|]. injection Es as <-. split.
    - intros J. pose proof (Var.Proofs.cstr_no_zero (firstn n val)) as Z. rewrite Forall_forall in Z. apply (Z 0 J eq_refl).
    - etransitivity; [apply Var.Proofs.cstr_length|]. rewrite firstn_length; lia. }
  destruct Hs as (Hz & Hl).
  set (w := map Some (s ++ repeat 0 (n - length s)) ++ [Some 0]).
  assert (Lw : length w = Datatypes.S n) by (unfold w; rewrite app_length, map_length, app_length, repeat_length; cbn; lia).
  destruct (write_chars_spec h1 b t w _ _ Lb ltac:(lia) O1) as (h2 & E2 & Lb2 & O2 & X2).
  rewrite E2; cbn [bind].
  assert (Nab : a <> b) by (intros ->; eapply own_notin_head; eauto; left; auto).
  destruct (own_store h2 a (BVar (with_isset (with_word o (WPtr (Some b))) true)) _ _ O2) as (E3 & O3 & L3 & X3).
  { unfold live; rewrite X2 by auto; congruence. }
  unfold store_var; rewrite E3; cbn [bind].
  eexists _, _, [b]; split; [reflexivity|]. split; [exact L3|]. cbn [with_isset with_word ob_info ob_next ob_word ob_isset c_info c_val].
  repeat (split; [solve [auto]|]). split; [|split; [|split; [auto|]]].
  - unfold storage_at; rewrite N. split; auto. eexists; rewrite X3 by auto. split; [eassumption|].
    rewrite app_length, skipn_length, Lt. lia.
  - unfold value_at. split; auto. eexists _, _; rewrite X3 by auto. split; [eassumption|]. split; [reflexivity|].
    unfold chars_of; rewrite T. split; auto. unfold w. rewrite map_app, <- !app_assoc.
    destruct (n - length s)%nat; cbn; eauto.
  - intros x r. rewrite X3, X2, F1; auto; [apply (own_R_neq _ _ _ O2 b)|apply (own_R_neq _ _ _ O2 a)]; cbn; auto.
Qed.

Lemma m_assign_b_spec h a o bufs R val size d :
  lookup h a = Some (BVar o) -> storage_at h (ob_info o) (ob_word o) bufs -> vi_type (ob_info o) = TBinary ->
  own h (a :: bufs) R -> assign_b_checked (fresh (ob_info o)) val size = Done d ->
  sets_to h a o bufs R (h1 <- m_assign_b a val size h ;; Ok (None, h1)) None d.
Proof.
  intros L S T O Es. assert (N : is_numeric (vi_type (ob_info o)) = false) by (rewrite T; auto).
  destruct (m_allocate_spec h a o bufs R L S N O) as (b & h1 & t & E1 & L1 & Lb & Lt & O1 & F1).
  unfold m_assign_b. rewrite E1; cbn [bind]. rewrite (load_var_ok _ _ _ L1); cbn [bind with_word ob_info].
  rewrite Es.
  assert (exists w, d = mkcell (ob_info o) (Some (VBin w)) /\ length w = ilen (ob_info o)) as (w & -> & Lw).
  { unfold assign_b_checked in Es. cbn [fresh c_info] in Es.
    destruct (Nat.ltb_spec size (ilen (ob_info o))).
    - destruct (Nat.ltb_spec (length val) size); [discriminate|]. injection Es as <-. eexists; split; [reflexivity|].
      rewrite app_length, firstn_length, repeat_length. lia.
    - destruct (Nat.ltb_spec (length val) (ilen (ob_info o))); [discriminate|]. destruct (_ && _); [discriminate|]. injection Es as <-.
      eexists; split; [reflexivity|]. rewrite Var.Proofs.mask_last_length, firstn_length; lia. }
  assert (Lm : (length (map Some w) <= length t)%nat) by (rewrite map_length; lia).
  destruct (write_chars_spec h1 b t (map Some w) _ _ Lb Lm O1) as (h2 & E2 & Lb2 & O2 & X2).
  rewrite E2; cbn [bind].
  assert (Nab : a <> b) by (intros ->; eapply own_notin_head; eauto; left; auto).
  destruct (own_store h2 a (BVar (with_isset (with_word o (WPtr (Some b))) true)) _ _ O2) as (E3 & O3 & L3 & X3).
  { unfold live; rewrite X2 by auto; congruence. }
  unfold store_var; rewrite E3; cbn [bind].
  eexists _, _, [b]; split; [reflexivity|]. split; [exact L3|]. cbn [with_isset with_word ob_info ob_next ob_word ob_isset c_info c_val].
  repeat (split; [solve [auto]|]). split; [|split; [|split; [auto|]]].
  - unfold storage_at; rewrite N. split; auto. eexists; rewrite X3 by auto. split; [eassumption|].
    rewrite app_length, skipn_length. rewrite map_length in *. lia.
  - unfold value_at. split; auto. eexists _, _; rewrite X3 by auto. split; [eassumption|]. split; [reflexivity|].
    unfold chars_of; rewrite T. split; auto. eexists; reflexivity.
  - intros x r. rewrite X3, X2, F1; auto; [apply (own_R_neq _ _ _ O2 b)|apply (own_R_neq _ _ _ O2 a)]; cbn; auto.
Qed.

Lemma m_set_spec h a o bufs val R op x :
  hook_ok op -> lookup h a = Some (BVar o) -> storage_at h (ob_info o) (ob_word o) bufs ->
  value_at h (ob_info o) (ob_isset o) (ob_word o) val -> own h (a :: bufs) R ->
  match run_setter op (mkcell (ob_info o) val) x with
  | Done c => sets_to h a o bufs R (m_set op x a h) None c
  | Thrown e c => sets_to h a o bufs R (m_set op x a h) (Some e) c
  | Undef => True
  end.
Proof.
  intros H L S V O. unfold m_set. rewrite (load_var_ok _ _ _ L); cbn [bind].
  assert (SU : sets_to h a o bufs R (h1 <- store_var h a (with_isset o false);; Ok (None, h1)) None (mkcell (ob_info o) None)).
  { destruct (own_store h a (BVar (with_isset o false)) _ _ O) as (E & O1 & L1 & X1); [unfold live; congruence|].
    unfold store_var; rewrite E; cbn [bind]. eexists _, _, bufs; split; [reflexivity|]. split; [exact L1|]. cbn.
    repeat (split; [solve [auto]|]). split; [|split; [auto|split; [auto|]]].
    - eapply storage_frame; eauto. intros y J; apply X1. intros ->. eapply own_notin_head; eauto.
    - intros y r; apply X1. eapply own_R_neq; eauto; left; auto. }
  assert (SK : sets_to h a o bufs R (Ok (Some EType, h)) (Some EType) (mkcell (ob_info o) val)).
  { exists h, o, bufs. repeat (split; [solve [auto]|]). apply frame_refl. }
  destruct (vi_type (ob_info o)) eqn:T.
  - pose proof (set_number_spec h a o bufs val R op x H L S V O ltac:(rewrite T; auto)) as Q.
    destruct x; auto.
  - pose proof (set_number_spec h a o bufs val R op x H L S V O ltac:(rewrite T; auto)) as Q.
    destruct x; auto.
  - destruct x; cbn [run_setter]; unfold seti, setd, setc, sets; cbn [c_info]; rewrite ?T; cbn [is_numeric]; auto.
    all: unfold assign_c_checked; cbn [c_info]; destruct (strncpy_str _ _) eqn:Es; auto;
      apply m_assign_c_spec; auto.
  - destruct x; cbn [run_setter]; unfold seti, setd, setc, sets; cbn [c_info]; rewrite ?T; cbn [is_numeric]; auto.
    all: assert (A : forall buf n, assign_b_checked (mkcell (ob_info o) val) buf n = assign_b_checked (fresh (ob_info o)) buf n) by reflexivity;
      rewrite A; destruct (assign_b_checked _ _ _) as [d|e d|] eqn:Es; auto.
    + apply m_assign_b_spec; auto.
    + exfalso. unfold assign_b_checked in Es. repeat destruct (Nat.ltb _ _); try discriminate; destruct (_ && _); discriminate.
    + apply m_assign_b_spec; auto.
    + exfalso. unfold assign_b_checked in Es. repeat destruct (Nat.ltb _ _); try discriminate; destruct (_ && _); discriminate.
Qed.

(** ** Attributes *)
Lemma with_next_same o : with_next o (ob_next o) = o.
Proof. destruct o; reflexivity. Qed.

Lemma chain_split h p cs fp : chain_at h p cs fp ->
  match p with
  | None => cs = [] /\ fp = []
  | Some a => exists o c bufs cs1 fp1, lookup h a = Some (BVar o) /\ c_info c = ob_info o /\
      storage_at h (ob_info o) (ob_word o) bufs /\ value_at h (ob_info o) (ob_isset o) (ob_word o) (c_val c) /\
      chain_at h (ob_next o) cs1 fp1 /\ cs = c :: cs1 /\ fp = a :: bufs ++ fp1
  end.
Proof. intros C; destruct C; auto. exists o, c, bufs, cs, fp. auto 10. Qed.

Lemma m_seta_ptr_spec cs : forall fuel a o fp attr ac acs afp h R,
  lookup h a = Some (BVar o) -> chain_at h (ob_next o) cs fp -> chain_at h (Some attr) (ac :: acs) afp ->
  own h (a :: fp ++ afp) R -> (S (length cs) <= fuel)%nat -> (S (length acs) <= fuel)%nat -> (2 <= fuel)%nat \/ cs = [] ->
  exists h' p fp', m_seta_ptr fuel a attr h = Ok h' /\ lookup h' a = Some (BVar (with_next o p)) /\
    chain_at h' p (seta ac cs) fp' /\ own h' (a :: fp') R /\ frame h h' R.
Proof.
  induction cs as [|d cs IH]; intros [|k] a o fp attr ac acs afp h R L C CA O F1 F2 F3; cbn [length] in F1; try lia.
  all: apply chain_split in CA; destruct CA as (ao & ? & abufs & ? & afp1 & LA & IA & SA & VA & TA & [= <- <-] & ->).
  all: destruct (own_split h (attr :: afp1) (a :: fp ++ abufs) R) as (O1 & N1 & D1); [eapply own_perm; [|exact O]; perm|].
  all: destruct (m_clear_attrs_spec h k attr ao acs afp1 _ LA TA O1 ltac:(lia)) as (h1 & E1 & L1 & O2 & Fr1).
  all: cbn [m_seta_ptr]; rewrite E1; cbn [bind].
  all: assert (La : lookup h1 a = Some (BVar o)) by (rewrite Fr1; [auto|right; left; auto]).
  all: rewrite (load_var_ok _ _ _ La), (load_var_ok _ _ _ L1); cbn [bind].
  all: assert (O3 : own h1 (a :: fp ++ attr :: abufs) R) by
    (eapply own_perm with (fp := [attr] ++ a :: fp ++ abufs); [perm|apply own_join; auto]).
  all: assert (C1 : chain_at h1 (ob_next o) _ fp) by (eapply chain_frame; [exact C|]; intros x J; apply Fr1; right; right; apply in_or_app; auto).
  all: assert (SA1 : storage_at h1 (ob_info ao) (ob_word ao) abufs) by
    (eapply storage_frame; [exact SA|]; intros x J; apply Fr1; right; right; apply in_or_app; auto).
  all: assert (VA1 : value_at h1 (ob_info ao) (ob_isset ao) (ob_word ao) (c_val ac)) by
    (eapply value_frame; [exact SA|exact VA|]; intros x J; apply Fr1; right; right; apply in_or_app; auto).
  all: assert (FrR : frame h h1 R) by (eapply frame_sub; [|exact Fr1]; intros x r; left; auto).
  (* linking the new attribute in front of the chain [p] *)
  all: assert (LINK : forall g p l fl fr, lookup g a = Some (BVar o) -> lookup g attr = Some (BVar (with_next ao None)) ->
      storage_at g (ob_info ao) (ob_word ao) abufs -> value_at g (ob_info ao) (ob_isset ao) (ob_word ao) (c_val ac) ->
      chain_at g p l fl -> own g (a :: (attr :: abufs ++ fl) ++ fr) R ->
      exists g', (h2 <- store_var g attr (with_next (with_next ao None) p);; store_var h2 a (with_next o (Some attr))) = Ok g' /\
        lookup g' a = Some (BVar (with_next o (Some attr))) /\ chain_at g' (Some attr) (ac :: l) (attr :: abufs ++ fl) /\
        own g' (a :: (attr :: abufs ++ fl) ++ fr) R /\ frame g g' R /\ (forall x, In x fr -> lookup g' x = lookup g x)).
  1,3: intros g p l fl fr Lg Lgt Sg Vg Cg Og.
  1,2: destruct (own_split g (attr :: abufs ++ fl) (a :: fr) R) as (Og1 & Ng & Dg); [eapply own_perm; [|exact Og]; perm|].
  1,2: destruct (set_next g attr (with_next ao None) ac abufs p l fl (also R (a :: fr)) Lgt IA Sg Vg Cg Og1)
      as (g1 & Eg1 & Cg1 & Og2 & Fg1 & Lg1 & Xg1).
  1,2: assert (Og3 : own g1 (a :: (attr :: abufs ++ fl) ++ fr) R) by
      (eapply own_perm with (fp := (attr :: abufs ++ fl) ++ a :: fr); [perm|apply own_join; auto]).
  1,2: assert (Lga : lookup g1 a = Some (BVar o)) by (rewrite Fg1; [auto|right; left; auto]).
  1,2: destruct (own_store g1 a (BVar (with_next o (Some attr))) _ _ Og3) as (Eg4 & Og4 & Lg4 & Xg4); [unfold live; congruence|].
  1,2: exists (update g1 a (Some (BVar (with_next o (Some attr))))).
  1,2: pose proof (own_notin_head _ _ _ _ Og3) as Nag.
  1,2: split; [rewrite Eg1; exact Eg4|]; split; [exact Lg4|]; split;
       [eapply chain_frame; [exact Cg1|]; intros x J; apply Xg4; intros ->; apply Nag, in_or_app; auto|]; split; [exact Og4|]; split;
       [intros x r; rewrite Xg4; [apply Fg1; left; auto|eapply own_R_neq; [exact Og3|left; auto|auto]]
       |intros x J; rewrite Xg4; [apply Fg1; right; right; auto|intros ->; apply Nag, in_or_app; auto]].
  - (* the end of the chain *)
    apply chain_split in C1. destruct (ob_next o) as [n|] eqn:En.
    { destruct C1 as (? & ? & ? & ? & ? & _ & _ & _ & _ & _ & ? & _); discriminate. }
    destruct C1 as (_ & ->). destruct (LINK h1 None [] [] []) as (h2 & E2 & L2 & C2 & O4 & Fr2 & _); auto.
    { constructor. } { eapply own_perm; [|exact O3]. perm. }
    cbn [with_next ob_info ob_isset ob_word ob_next] in E2 |- *. rewrite E2. eexists _, _, _; split; [reflexivity|]. split; [exact L2|]. split; [exact C2|].
    split; [eapply own_perm; [|exact O4]; perm|]. eapply frame_trans; eauto.
  - pose proof C1 as C1'. apply chain_split in C1. destruct (ob_next o) as [n|] eqn:En; [|destruct C1; discriminate].
    destruct C1 as (no & ? & nb & ? & fn & Ln & In' & Sn & Vn & Tn & [= <- <-] & ->).
    rewrite (load_var_ok _ _ _ Ln); cbn [bind]. cbn [with_next ob_info ob_isset ob_word ob_next].
    assert (Hd : vi_code (ob_info no) = c_code d) by (unfold c_code; congruence).
    assert (Ha : vi_code (ob_info ao) = c_code ac) by (unfold c_code; congruence).
    rewrite Hd, Ha. cbn [seta]. rewrite Z.gtb_ltb.
    destruct (c_code ac <? c_code d) eqn:Q1.
    + destruct (LINK h1 (Some n) (d :: cs) (n :: nb ++ fn) []) as (h2 & E2 & L2 & C2 & O4 & Fr2 & _); auto.
      { eapply own_perm; [|exact O3]. perm. }
      cbn [with_next ob_info ob_isset ob_word ob_next] in E2. rewrite E2. eexists _, _, _; split; [reflexivity|]. split; [exact L2|]. split; [exact C2|].
      split; [eapply own_perm; [|exact O4]; perm|]. eapply frame_trans; eauto.
    + destruct (c_code d =? c_code ac) eqn:Q2.
      * destruct (LINK h1 (ob_next no) cs fn (n :: nb)) as (h2 & E2 & L2 & C2 & O4 & Fr2 & X2); auto.
        { eapply own_perm; [|exact O3]. perm. }
        cbn [with_next ob_info ob_isset ob_word ob_next] in E2.
        destruct (store_var h1 attr _) as [h1'| |]; cbn [bind] in E2 |- *; try discriminate. rewrite E2; cbn [bind].
        assert (Ln2 : lookup h2 n = Some (BVar no)) by (rewrite X2; [auto|left; auto]).
        destruct (own_split h2 (n :: nb ++ []) (a :: attr :: abufs ++ fn) R) as (O5 & N5 & D5); [eapply own_perm; [|exact O4]; perm|].
        destruct (set_next h2 n no d nb None [] [] (also R (a :: attr :: abufs ++ fn))) as (h3 & E3 & C3 & O6 & Fr3 & _); auto.
        { eapply storage_frame; [exact Sn|]. intros x J; apply X2; right; auto. }
        { eapply value_frame; [exact Sn|exact Vn|]. intros x J; apply X2; right; auto. }
        { constructor. }
        unfold store_var in E3 |- *. rewrite E3; cbn [bind].
        destruct (m_delete_spec [] d k n h3 _ _ C3 O6) as (h4 & E4 & O7 & Fr4); [cbn [length] in *; lia|].
        rewrite E4. exists h4, (Some attr), (attr :: abufs ++ fn). split; [reflexivity|].
        assert (XX : forall x, In x (a :: attr :: abufs ++ fn) -> lookup h4 x = lookup h2 x).
        { intros x J. rewrite Fr4, Fr3 by (right; auto). reflexivity. }
        split; [rewrite XX; [exact L2|left; auto]|]. split; [|split].
        -- eapply chain_frame; [exact C2|]. intros x J; apply XX; right; auto.
        -- apply (own_join h4 [] _ R O7 N5 D5).
        -- intros x r. rewrite Fr4, Fr3, Fr2, FrR; auto; left; auto.
      * destruct (own_split h1 (n :: fn ++ attr :: abufs ++ []) (a :: nb) R) as (O4 & N4 & D4); [eapply own_perm; [|exact O3]; perm|].
        assert (CA1 : chain_at h1 (Some attr) [ac] (attr :: abufs ++ [])).
        { econstructor; eauto. constructor. }
        destruct (IH k n no fn attr ac [] (attr :: abufs ++ []) h1 _ Ln Tn CA1 O4) as (h2 & p & fp2 & E2 & L2 & C2 & O5 & Fr2);
          [cbn [length] in *; lia|cbn [length] in *; lia|destruct cs; [auto|cbn [length] in *; left; lia]|].
        rewrite E2. exists h2, (Some n), (n :: nb ++ fp2). split; [reflexivity|].
        split; [rewrite Fr2; [|right; left; auto]; rewrite La, <- En, with_next_same; reflexivity|]. split; [|split].
        -- econstructor; eauto.
           ++ cbn. eapply storage_frame; [exact Sn|]. intros x J; apply Fr2; right; right; auto.
           ++ cbn. eapply value_frame; [exact Sn|exact Vn|]. intros x J; apply Fr2; right; right; auto.
        -- eapply own_perm with (fp := (n :: fp2) ++ a :: nb); [perm|apply own_join; auto].
        -- eapply frame_trans; [exact FrR|]. eapply frame_sub; [|exact Fr2]. intros x r; left; auto.
Qed.

Lemma m_unseta_spec cs : forall fuel a o fp code h R,
  lookup h a = Some (BVar o) -> chain_at h (ob_next o) cs fp -> own h (a :: fp) R -> (S (length cs) <= fuel)%nat ->
  exists h' p fp', m_unseta fuel a code h = Ok h' /\ lookup h' a = Some (BVar (with_next o p)) /\
    chain_at h' p (unseta code cs) fp' /\ own h' (a :: fp') R /\ frame h h' R.
Proof.
  induction cs as [|d cs IH]; intros [|k] a o fp code h R L C O F; cbn [length] in F; try lia.
  all: cbn [m_unseta]; rewrite (load_var_ok _ _ _ L); cbn [bind].
  all: pose proof C as C'; apply chain_split in C'; destruct (ob_next o) as [n|] eqn:En.
  { destruct C' as (? & ? & ? & ? & ? & _ & _ & _ & _ & _ & ? & _); discriminate. }
  { destruct C' as (_ & ->). exists h, None, []. split; [auto|]. split; [rewrite L, <- En, with_next_same; auto|].
    split; [constructor|split; [auto|apply frame_refl]]. }
  2:{ destruct C'; discriminate. }
  destruct C' as (no & ? & nb & ? & fn & Ln & In' & Sn & Vn & Tn & [= <- <-] & ->).
  rewrite (load_var_ok _ _ _ Ln); cbn [bind].
  assert (Hd : vi_code (ob_info no) = c_code d) by (unfold c_code; congruence).
  rewrite Hd. cbn [unseta]. rewrite Z.gtb_ltb. pose proof (own_notin_head _ _ _ _ O) as Na.
  destruct (code <? c_code d) eqn:Q1.
  - exists h, (Some n), (n :: nb ++ fn). split; [auto|]. split; [rewrite L, <- En, with_next_same; auto|].
    split; [auto|split; [auto|apply frame_refl]].
  - destruct (c_code d =? code) eqn:Q2.
    + destruct (own_store h a (BVar (with_next o (ob_next no))) _ _ O) as (E1 & O1 & L1 & X1); [unfold live; congruence|].
      unfold store_var; rewrite E1; cbn [bind]. set (h1 := update h a _) in *.
      assert (Xa : forall x, In x (n :: nb ++ fn) -> lookup h1 x = lookup h x) by (intros x J; apply X1; intros ->; auto).
      destruct (own_split h1 (n :: nb ++ []) (a :: fn) R) as (O2 & N2 & D2); [eapply own_perm; [|exact O1]; perm|].
      destruct (set_next h1 n no d nb None [] [] (also R (a :: fn))) as (h2 & E2 & C2 & O3 & Fr2 & _); auto.
      { rewrite Xa; [auto|left; auto]. }
      { eapply storage_frame; [exact Sn|]. intros x J; apply Xa; right; apply in_or_app; auto. }
      { eapply value_frame; [exact Sn|exact Vn|]. intros x J; apply Xa; right; apply in_or_app; auto. }
      { constructor. }
      unfold store_var in E2; rewrite E2; cbn [bind].
      destruct (m_delete_spec [] d k n h2 _ _ C2 O3) as (h3 & E3 & O4 & Fr3); [cbn [length] in *; lia|].
      rewrite E3. exists h3, (ob_next no), fn. split; [reflexivity|].
      assert (XX : forall x, In x (a :: fn) -> lookup h3 x = lookup h1 x).
      { intros x J. rewrite Fr3, Fr2 by (right; auto). reflexivity. }
      split; [rewrite XX; [exact L1|left; auto]|]. split; [|split].
      * eapply chain_frame; [exact Tn|]. intros x J. rewrite XX by (right; auto). apply Xa; right; apply in_or_app; auto.
      * apply (own_join h3 [] _ R O4 N2 D2).
      * intros x r. rewrite Fr3, Fr2 by (left; auto). apply X1. apply (own_R_neq _ _ _ O a); [left; auto|auto].
    + destruct (own_split h (n :: fn) (a :: nb) R) as (O4 & N4 & D4); [eapply own_perm; [|exact O]; perm|].
      destruct (IH k n no fn code h _ Ln Tn O4) as (h2 & p & fp2 & E2 & L2 & C2 & O5 & Fr2); [cbn [length] in *; lia|].
      rewrite E2. exists h2, (Some n), (n :: nb ++ fp2). split; [reflexivity|].
      split; [rewrite Fr2; [|right; left; auto]; rewrite L, <- En, with_next_same; reflexivity|]. split; [|split].
      * econstructor; eauto.
        ++ cbn. eapply storage_frame; [exact Sn|]. intros x J; apply Fr2; right; right; auto.
        ++ cbn. eapply value_frame; [exact Sn|exact Vn|]. intros x J; apply Fr2; right; right; auto.
      * eapply own_perm with (fp := (n :: fp2) ++ a :: nb); [perm|apply own_join; auto].
      * eapply frame_sub; [|exact Fr2]. intros x r; left; auto.
Qed.

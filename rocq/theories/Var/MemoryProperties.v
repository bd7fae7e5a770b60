(** Properties of the memory of variables: C11 (independence of copies) and C45 (no misuse of memory). *)
From Coq Require Import String.
From Verif Require Import Base Num.Float Varcode.Model Varinfo.Model Var.Model Var.Memory Var.MemorySpec Var.MemoryProofs Var.MemoryWorld.
Local Open Scope Z_scope.

(** ** The heap determines the values *)
Lemma map_some_inj (s t : list Z) : map (@Some Z) s = map Some t -> s = t.
Proof. revert t; induction s as [|x s IH]; intros [|y t]; cbn; try discriminate; auto. intros [= -> E]; f_equal; auto. Qed.

Lemma zero_split s : forall t r r', ~ In 0 s -> ~ In 0 t ->
  map Some s ++ Some 0 :: r = map Some t ++ Some 0 :: r' -> s = t.
Proof.
  induction s as [|x s IH]; intros [|y t] r r' Hs Ht E; cbn in *; auto; injection E as E1 E2.
  - exfalso; apply Ht; auto.
  - exfalso; apply Hs; auto.
  - f_equal; [auto|]. eapply IH; eauto.
Qed.
Lemma app_head {A} (p : list A) : forall q r s, p ++ q = r ++ s -> length p = length r -> p = r.
Proof. induction p as [|x p IH]; intros q [|y r] s E N; cbn in *; try lia; auto. injection E as -> E; f_equal; eauto. Qed.
Lemma chars_unique i s v v' : chars_of i s v -> chars_of i s v' -> v = v'.
Proof.
  unfold chars_of. destruct (vi_type i), v, v'; try tauto.
  - intros (Z1 & r & ->) (Z2 & r' & E). f_equal. eapply zero_split; eauto.
  - intros (L1 & r & ->) (L2 & r' & E). f_equal. apply map_some_inj.
    eapply app_head; eauto. rewrite !map_length; lia.
Qed.
Lemma value_unique h i s w v v' : value_at h i s w v -> value_at h i s w v' -> v = v'.
Proof.
  unfold value_at. destruct s; [|congruence]. destruct w as [n|[b|]]; [intros (_ & ->) (_ & ->); auto| |tauto].
  intros (_ & s & u & L & -> & C) (_ & s' & u' & L' & -> & C'). assert (s' = s) by congruence. subst. f_equal. eapply chars_unique; eauto.
Qed.
Lemma chain_unique h p cs fp : chain_at h p cs fp -> forall cs' fp', chain_at h p cs' fp' -> cs' = cs.
Proof.
  induction 1 as [|a o c bufs cs fp L I S V C IH]; intros cs' fp' C'; inversion C'; subst; auto.
  assert (o0 = o) by congruence. subst. f_equal; [|eauto].
  destruct c as [i v], c0 as [i' v']; cbn in *. f_equal; [congruence|]. eapply value_unique; eauto.
Qed.

(** What a program can observe of its variables depends only on the heap. *)
Theorem C45_observable : forall h ns w w', represents h ns w -> represents h ns w' -> w = w'.
Proof.
  intros h ns w w' (f & V & _) (f' & V' & _).
  assert (E : forall k, nth_error w k = nth_error w' k).
  { intros k. specialize (V k); specialize (V' k).
    destruct (nth_error ns k) as [[a|]|], (nth_error w k) as [[v|]|], (nth_error w' k) as [[v'|]|]; cbn in V, V'; try tauto.
    pose proof (chain_unique _ _ _ _ V _ _ V') as Q. injection Q as Q1 Q2. destruct v, v'; cbn in *; subst; auto. }
  clear - E. revert w' E; induction w as [|x w IH]; intros [|y w'] E; auto.
  - specialize (E O); discriminate.
  - specialize (E O); discriminate.
  - f_equal; [specialize (E O); cbn in E; congruence|]. apply IH. intros k; apply (E (S k)).
Qed.

(** ** C45: histories *)
Lemma represents_empty : represents [] [] [].
Proof.
  exists (fun _ => []). split; [intros [|k]; cbn; auto|]. split; [constructor|]. split; [intros ? ? ? []|].
  intros x; split; [|intros (k & [])]. intros H; exfalso; apply H. destruct x; reflexivity.
Qed.

Lemma acts_refine op l : hook_ok op -> forall h ns w w', represents h ns w -> meanings op l w = Some w' ->
  exists ns' h', acts op l ns h = Ok (ns', h') /\ represents h' ns' w'.
Proof.
  intros H; induction l as [|x l IH]; intros h ns w w' R M; cbn in M |- *.
  - injection M as <-; eauto.
  - destruct (meaning op x w) as [[e w1]|] eqn:E; [|discriminate].
    destruct (act_refines op x h ns w e w1 H R E) as (ns1 & h1 & A & R1). rewrite A; cbn. eauto.
Qed.

(** Whatever a program does with its variables, no block of memory is used after its release,
    released twice, read before it is written or overrun, and the variables have the values that the
    operations say. *)
Theorem C45_safe : forall op l w, hook_ok op -> meanings op l [] = Some w ->
  exists ns h, acts op l [] [] = Ok (ns, h) /\ represents h ns w.
Proof. intros op l w H M. eapply acts_refine; eauto. apply represents_empty. Qed.

(** Each operation raises the error that it should. *)
Theorem C45_errors : forall op l w x e w1, hook_ok op -> meanings op l [] = Some w -> meaning op x w = Some (e, w1) ->
  exists ns h ns1 h1, acts op l [] [] = Ok (ns, h) /\ act op x ns h = Ok (e, ns1, h1) /\ represents h1 ns1 w1.
Proof.
  intros op l w x e w1 H M E. destruct (C45_safe op l w H M) as (ns & h & A & R).
  destruct (act_refines op x h ns w e w1 H R E) as (ns1 & h1 & B & R1). eauto 10.
Qed.

(** Nothing leaks: when all the variables are gone, no block is left. *)
Theorem C45_no_leak : forall op l w, hook_ok op -> meanings op l [] = Some w -> Forall (eq None) w ->
  exists ns h, acts op l [] [] = Ok (ns, h) /\ forall a, lookup h a = None.
Proof.
  intros op l w H M N. destruct (C45_safe op l w H M) as (ns & h & A & (f & V & _ & _ & L)).
  exists ns, h; split; auto. intros a. destruct (lookup h a) eqn:E; auto.
  destruct (proj1 (L a)) as (k & I); [unfold live; congruence|]. specialize (V k).
  destruct (nth_error w k) as [v|] eqn:Q.
  - rewrite Forall_forall in N. rewrite <- (N v (nth_error_In _ _ Q)) in V.
    destruct (nth_error ns k) as [[?|]|]; cbn in V; try tauto. rewrite V in I; destruct I.
  - destruct (nth_error ns k) as [[?|]|]; cbn in V; try tauto. rewrite V in I; destruct I.
Qed.

(** ** C11: independence *)
Definition modifies (x : action) : list nat :=
  match x with
  | ANew _ | ACopy _ => []
  | AMove k | AAssign k _ | ADelete k | ASet k _ | ASeta k _ | AUnseta k _ | AClear k | ASetattrs k _ => [k]
  | AMoveAssign k l => [k; l]
  end.

Lemma the_put w k v l : l <> k -> the (put w k v) l = the w l.
Proof. intros N; unfold the; rewrite nth_put_other; auto. Qed.
Lemma the_app w x l v : the w l = Some v -> the (w ++ x) l = Some v.
Proof.
  intros E. assert (L : (l < length w)%nat) by (apply nth_error_Some; rewrite (the_nth _ _ _ E); discriminate).
  unfold the in *. rewrite nth_error_app1; auto.
Qed.

Lemma meaning_other op x w e w' l v : meaning op x w = Some (e, w') -> ~ In l (modifies x) -> the w l = Some v -> the w' l = Some v.
Proof.
  intros M N E. destruct x as [i|k|k|k j|k j|k|k s|k j|k code|k|k j]; cbn [meaning modifies In] in *.
  - injection M as <- <-. apply the_app; auto.
  - destruct (the w k); [|discriminate]. injection M as <- <-. apply the_app; auto.
  - destruct (the w k); [|discriminate]. injection M as <- <-. apply the_app. rewrite the_put; auto.
  - destruct (the w k), (the w j); try discriminate. destruct (same_storage _ _); [|discriminate]. injection M as <- <-. rewrite the_put; auto.
  - destruct (the w k), (the w j); try discriminate. destruct (Nat.eqb k j); [injection M as <- <-; auto|].
    destruct (same_kind _ _); [|discriminate]. injection M as <- <-. rewrite !the_put; auto.
  - destruct (the w k); [|discriminate]. injection M as <- <-. rewrite the_put; auto.
  - destruct (the w k); [|discriminate]. destruct (run_setter _ _ _); try discriminate; injection M as <- <-; rewrite the_put; auto.
  - destruct (the w k), (the w j); try discriminate. injection M as <- <-. rewrite the_put; auto.
  - destruct (the w k); [|discriminate]. injection M as <- <-. rewrite the_put; auto.
  - destruct (the w k); [|discriminate]. injection M as <- <-. rewrite the_put; auto.
  - destruct (the w k), (the w j); try discriminate. injection M as <- <-. rewrite the_put; auto.
Qed.
Lemma meanings_other op l : forall w w' k v, meanings op l w = Some w' -> Forall (fun x => ~ In k (modifies x)) l ->
  the w k = Some v -> the w' k = Some v.
Proof.
  induction l as [|x l IH]; intros w w' k v M F E; cbn in M.
  - injection M as <-; auto.
  - destruct (meaning op x w) as [[e w1]|] eqn:Q; [|discriminate]. inversion_clear F as [|? ? N F'].
    eapply IH; eauto. eapply meaning_other; eauto.
Qed.
Lemma meanings_app op l1 l2 : forall w w1, meanings op l1 w = Some w1 -> meanings op (l1 ++ l2) w = meanings op l2 w1.
Proof.
  induction l1 as [|x l IH]; intros w w1; cbn; [congruence|]. destruct (meaning op x w) as [[e w2]|]; [auto|discriminate].
Qed.

(** A variable that no operation modifies keeps its value and attributes in memory, whatever is done
    to the others, also to its copies. *)
Theorem C11_untouched : forall op l1 l2 w1 w2 k v, hook_ok op ->
  meanings op l1 [] = Some w1 -> the w1 k = Some v -> meanings op l2 w1 = Some w2 ->
  Forall (fun x => ~ In k (modifies x)) l2 ->
  exists ns h, acts op (l1 ++ l2) [] [] = Ok (ns, h) /\ represents h ns w2 /\ the w2 k = Some v.
Proof.
  intros op l1 l2 w1 w2 k v H M1 E M2 F.
  destruct (C45_safe op (l1 ++ l2) w2 H) as (ns & h & A & R); [rewrite (meanings_app _ _ _ _ _ M1); auto|].
  exists ns, h. split; [auto|split; [auto|]]. eapply meanings_other; eauto.
Qed.

(** A copy has the type, value and attributes of its source, also after the source has been changed
    or destroyed. *)
Theorem C11_copy_independent : forall op l1 l2 w1 w2 k v, hook_ok op ->
  meanings op l1 [] = Some w1 -> the w1 k = Some v -> meanings op l2 (w1 ++ [Some v]) = Some w2 ->
  Forall (fun x => ~ In (length w1) (modifies x)) l2 ->
  exists ns h, acts op (l1 ++ ACopy k :: l2) [] [] = Ok (ns, h) /\ represents h ns w2 /\ the w2 (length w1) = Some v.
Proof.
  intros op l1 l2 w1 w2 k v H M1 E M2 F.
  assert (M : meanings op (l1 ++ [ACopy k]) [] = Some (w1 ++ [Some v])).
  { rewrite (meanings_app _ _ _ _ _ M1). cbn. rewrite E. reflexivity. }
  replace (l1 ++ ACopy k :: l2) with ((l1 ++ [ACopy k]) ++ l2) by (rewrite <- app_assoc; reflexivity).
  eapply C11_untouched; eauto. unfold the. rewrite nth_error_app2, Nat.sub_diag; auto.
Qed.

(** The same for a copy by assignment, between definitions that agree on the storage. *)
Theorem C11_assign_independent : forall op l1 l2 w1 w2 k j d v, hook_ok op ->
  meanings op l1 [] = Some w1 -> the w1 k = Some d -> the w1 j = Some v ->
  same_storage (c_info (v_cell d)) (c_info (v_cell v)) = true ->
  meanings op l2 (put w1 k (Some v)) = Some w2 -> Forall (fun x => ~ In k (modifies x)) l2 ->
  exists ns h, acts op (l1 ++ AAssign k j :: l2) [] [] = Ok (ns, h) /\ represents h ns w2 /\ the w2 k = Some v.
Proof.
  intros op l1 l2 w1 w2 k j d v H M1 E E' S M2 F.
  assert (M : meanings op (l1 ++ [AAssign k j]) [] = Some (put w1 k (Some v))).
  { rewrite (meanings_app _ _ _ _ _ M1). cbn. rewrite E, E', S. reflexivity. }
  replace (l1 ++ AAssign k j :: l2) with ((l1 ++ [AAssign k j]) ++ l2) by (rewrite <- app_assoc; reflexivity).
  eapply C11_untouched; eauto. unfold the. rewrite (nth_put_same _ _ _ _ E); auto.
Qed.

(** ** Cases *)
Section Cases.
Variable z : f64.
Definition text (code len : Z) : varinfo := mkinfo code TString "CCITT IA5" 0 len 0 (8 * len) 0 0 z z.
Definition number (code : Z) : varinfo := mkinfo code TInteger "NUMERIC" 0 3 0 7 0 127 z z.

(** A history with texts, attributes, copies, moves and the death of the source before its copy. *)
Definition story : list action :=
  [ANew (text 257 5); ASet 0 (Sets [72; 69; 76; 76; 79]); ANew (number 8454); ASet 1 (Seti 70);
   ASeta 0 1; ACopy 0; ASet 0 (Setc [88]); ADelete 0; ASet 1 (Seti 200);
   ANew (text 300 5); AAssign 3 2; AUnseta 2 8454; AMove 2; AMoveAssign 2 4; ASetattrs 4 3; AClear 3].
Example story_meaning : meanings default_options story [] =
  Some [None; Some (mkvar (mkcell (number 8454) None) []);
        Some (mkvar (mkcell (text 257 5) (Some (VStr [72; 69; 76; 76; 79]))) []);
        Some (mkvar (mkcell (text 257 5) (Some (VStr [72; 69; 76; 76; 79]))) []);
        Some (mkvar (mkcell (text 257 5) None) [mkcell (number 8454) (Some (VInt 70))])].
Proof. reflexivity. Qed.
Lemma default_hook_ok : hook_ok default_options.
Proof. intros f c x; discriminate. Qed.
Example story_runs : exists ns h, acts default_options story [] [] = Ok (ns, h).
Proof. destruct (C45_safe _ _ _ default_hook_ok story_meaning) as (ns & h & A & _); eauto. Qed.
Example story_ends : meanings default_options (story ++ [ADelete 1; ADelete 2; ADelete 3; ADelete 4]) [] = Some [None; None; None; None; None].
Proof. reflexivity. Qed.

(** ** What is not safe *)

(** Copying a long text over a variable for short texts writes past the end of its buffer. *)
Theorem C45_assign_lengths_refuted :
  acts default_options [ANew (text 257 2); ASet 0 (Sets [65; 66]); ANew (text 258 9);
                        ASet 1 (Sets [72; 69; 76; 76; 79]); AAssign 0 1] [] [] = UB.
Proof. reflexivity. Qed.

(** Copying a text over a number takes the number as a pointer. *)
Theorem C45_assign_types_refuted :
  acts default_options [ANew (number 257); ASet 0 (Seti 12); ANew (text 258 9);
                        ASet 1 (Sets [72; 69; 76; 76; 79]); AAssign 0 1] [] [] = UB.
Proof. reflexivity. Qed.

(** Copying a number over a text loses the buffer of the text. *)
Theorem C45_assign_leak_refuted : exists ns h,
  acts default_options [ANew (text 257 2); ASet 0 (Sets [65; 66]); ANew (number 258);
                        ASet 1 (Seti 12); AAssign 0 1; ADelete 0; ADelete 1] [] [] = Ok (ns, h) /\
  ns = [None; None] /\ lookup h 1 = Some (BChars [Some 65; Some 66; Some 0]).
Proof. eexists _, _; split; [reflexivity|]. split; reflexivity. Qed.

(** Assigning to a variable one of its own attributes reads the attribute after its release. *)
Theorem C45_own_attribute_refuted : exists ns h a n o,
  acts default_options [ANew (number 257); ASet 0 (Seti 1); ANew (number 258); ASet 1 (Seti 2); ASeta 0 1] [] [] = Ok (ns, h) /\
  name ns 0 = Some a /\ load_var h a = Ok o /\ ob_next o = Some n /\ forall fuel, (1 <= fuel)%nat -> m_assign fuel a n h = UB.
Proof.
  eexists _, _, _, _, _; split; [reflexivity|]. split; [reflexivity|]. split; [reflexivity|]. split; [reflexivity|].
  intros [|[|k]] F; [lia| |]; reflexivity.
Qed.

(** C11 is false for a move by assignment: the definition, and so the code, stays that of the
    destination. *)
Theorem C11_move_assign_refuted : exists ns h w d s,
  acts default_options [ANew (number 257); ANew (number 258); ASet 1 (Seti 2); AMoveAssign 0 1] [] [] = Ok (ns, h) /\
  represents h ns w /\ the w 0 = Some d /\ c_val (v_cell d) = Some (VInt 2) /\ c_code (v_cell d) = 257 /\
  meanings default_options [ANew (number 257); ANew (number 258); ASet 1 (Seti 2)] [] = Some [Some (mkvar (fresh (number 257)) []); Some s] /\
  c_code (v_cell s) = 258.
Proof.
  destruct (C45_safe default_options [ANew (number 257); ANew (number 258); ASet 1 (Seti 2); AMoveAssign 0 1]
    [Some (mkvar (mkcell (number 257) (Some (VInt 2))) []); Some (mkvar (fresh (number 258)) [])] default_hook_ok eq_refl) as (ns & h & A & R).
  eexists ns, h, _, _, _. split; [exact A|]. split; [exact R|]. repeat split; reflexivity.
Qed.

(** Setting the attributes of a variable to its own attributes drops them. *)
Theorem C11_own_attributes_refuted : exists ns h w,
  acts default_options [ANew (number 257); ANew (number 258); ASet 1 (Seti 2); ASeta 0 1; ASetattrs 0 0] [] [] = Ok (ns, h) /\
  represents h ns w /\ the w 0 = Some (mkvar (fresh (number 257)) []).
Proof.
  destruct (C45_safe default_options [ANew (number 257); ANew (number 258); ASet 1 (Seti 2); ASeta 0 1; ASetattrs 0 0]
    [Some (mkvar (fresh (number 257)) []); Some (mkvar (mkcell (number 258) (Some (VInt 2))) [])] default_hook_ok eq_refl) as (ns & h & A & R).
  eexists ns, h, _. split; [exact A|]. split; [exact R|]. reflexivity.
Qed.
End Cases.

Print Assumptions C45_observable.
Print Assumptions C45_safe.
Print Assumptions C45_errors.
Print Assumptions C45_no_leak.
Print Assumptions C11_untouched.
Print Assumptions C11_copy_independent.
Print Assumptions C11_assign_independent.
Print Assumptions C45_assign_lengths_refuted.
Print Assumptions C45_assign_types_refuted.
Print Assumptions C45_assign_leak_refuted.
Print Assumptions C45_own_attribute_refuted.
Print Assumptions C11_move_assign_refuted.
Print Assumptions C11_own_attributes_refuted.

(** C30: the choice of the tables. *)
From Coq Require Import ZifyBool ZifyNat Permutation String Ascii.
From Verif Require Import Base Tables.Model Select.Model Select.Spec Select.Proofs.
Local Open Scope Z_scope.

(** ** BUFR

    The table that is selected is one that can be used in place of the wanted one; those before it
    that can be used are farther, and those after it are not closer: of the closest ones, it is the
    first. *)
Theorem C30_bufr_choice : forall w l t,
  bufr_id_ok w -> Forall (fun t => kind_ok (tb_kind t)) l -> search_bufr w l = Some t ->
  exists id before after,
    flat_map bufr_of l = before ++ (id, t) :: after /\ bufr_usable w id /\
    (forall id' t', In (id', t') before -> bufr_usable w id' -> lex_lt (bufr_rank w id) (bufr_rank w id')) /\
    (forall id' t', In (id', t') after -> bufr_usable w id' -> ~ lex_lt (bufr_rank w id') (bufr_rank w id)).
Proof.
  intros w l t W F S1. destruct (search_bufr_best w l W F) as (b & E & B). rewrite S1 in E.
  destruct b as [[id t0]|]; [|discriminate]. injection E as <-. destruct B as (A & l1 & l2 & El & B1 & B2).
  exists id, l1, l2. split; [exact El|]. split; [apply bufr_accepts_spec, A|]. rewrite Forall_forall in B1, B2.
  split; intros id' t' I U; [apply (B1 _ I)|apply (B2 _ I)]; apply bufr_accepts_spec, U.
Qed.

(** No usable table is closer. *)
Theorem C30_bufr_closest : forall w l t,
  bufr_id_ok w -> Forall (fun t => kind_ok (tb_kind t)) l -> search_bufr w l = Some t ->
  exists id, tb_kind t = KBufr id /\ In t l /\ bufr_usable w id /\
    forall id' t', In t' l -> tb_kind t' = KBufr id' -> bufr_usable w id' -> ~ lex_lt (bufr_rank w id') (bufr_rank w id).
Proof.
  intros w l t W F S1. destruct (search_bufr_best w l W F) as (b & E & B). rewrite S1 in E.
  destruct b as [[id t0]|]; [|discriminate]. injection E as <-. apply best_minimal in B as (I & A & M).
  apply bufr_of_in in I as [I K]. exists id. split; [exact K|]. split; [exact I|]. split; [apply bufr_accepts_spec, A|].
  intros id' t' I' K' U. apply (M (id', t')); [apply bufr_of_in; auto|apply bufr_accepts_spec, U].
Qed.

(** A table is found as soon as one can be used. *)
Theorem C30_bufr_found : forall w l, bufr_id_ok w -> Forall (fun t => kind_ok (tb_kind t)) l ->
  (search_bufr w l = None <-> forall id t, In t l -> tb_kind t = KBufr id -> ~ bufr_usable w id).
Proof.
  intros w l W F. destruct (search_bufr_best w l W F) as (b & E & B). rewrite E. destruct b as [[id t]|]; cbn [option_map].
  - split; [discriminate|]. intros H. exfalso. apply best_minimal in B as (I & A & _). apply bufr_of_in in I as [I K].
    apply (H id t I K). apply bufr_accepts_spec, A.
  - split; [|reflexivity]. intros _ id t I K U.
    apply (best_none _ _ _ B (id, t)); [apply bufr_of_in; auto|apply bufr_accepts_spec, U].
Qed.

(** The order of the files only matters among tables that are equally close. *)
Theorem C30_bufr_order : forall w l l', bufr_id_ok w -> Forall (fun t => kind_ok (tb_kind t)) l -> Permutation l l' ->
  (search_bufr w l = None <-> search_bufr w l' = None) /\
  (forall t t' id id', search_bufr w l = Some t -> search_bufr w l' = Some t' -> tb_kind t = KBufr id -> tb_kind t' = KBufr id' ->
     bufr_rank w id = bufr_rank w id') /\
  ((forall t t' id id', In t l -> In t' l -> tb_kind t = KBufr id -> tb_kind t' = KBufr id' ->
      bufr_rank w id = bufr_rank w id' -> t = t') -> search_bufr w l = search_bufr w l').
Proof.
  intros w l l' W F P. assert (F' : Forall (fun t => kind_ok (tb_kind t)) l').
  { rewrite Forall_forall in *. intros t I. apply F. eapply Permutation_in; [apply Permutation_sym, P|exact I]. }
  destruct (search_bufr_best w l W F) as (b & E & B). destruct (search_bufr_best w l' W F') as (b' & E' & B').
  assert (Pf : Permutation (flat_map bufr_of l) (flat_map bufr_of l')) by (apply Permutation_flat_map; exact P).
  assert (N := best_same_option _ _ _ _ _ _ Pf B B').
  assert (R : forall x x', b = Some x -> b' = Some x' -> bufr_rank w (fst x) = bufr_rank w (fst x')).
  { intros x x' -> ->. eapply best_same_rank; [|exact Pf|exact B|exact B'].
    intros c d. unfold bufr_rank. cbn [length]. rewrite !origin_length. reflexivity. }
  rewrite E, E'. split; [|split].
  - destruct b, b'; cbn [option_map]; split; intros H; try discriminate; auto; exfalso; destruct N as [N1 N2];
      [specialize (N2 eq_refl)|specialize (N1 eq_refl)]; discriminate.
  - intros t t' id id' Ht Ht' K K'. destruct b as [[i0 t0]|]; [|discriminate]. destruct b' as [[i1 t1]|]; [|discriminate].
    injection Ht as <-. injection Ht' as <-. specialize (R _ _ eq_refl eq_refl). cbn [fst] in R.
    apply best_minimal in B as (I & _). apply best_minimal in B' as (I' & _). apply bufr_of_in in I as [_ Ki], I' as [_ Ki'].
    congruence.
  - intros H. destruct b as [[i0 t0]|], b' as [[i1 t1]|]; cbn [option_map snd]; auto.
    + f_equal. specialize (R _ _ eq_refl eq_refl). cbn [fst] in R.
      apply best_minimal in B as (I & _). apply best_minimal in B' as (I' & _). apply bufr_of_in in I as [I Ki], I' as [I' Ki'].
      apply (H t0 t1 i0 i1); auto. eapply Permutation_in; [apply Permutation_sym, P|exact I'].
    + destruct N as [_ N]. specialize (N eq_refl). discriminate.
    + destruct N as [N _]. specialize (N eq_refl). discriminate.
Qed.

(** If the wanted table is there, and it has a local version, it is the one that is selected. *)
Theorem C30_bufr_exact : forall w l t0, bufr_id_ok w -> Forall (fun t => kind_ok (tb_kind t)) l ->
  In t0 l -> tb_kind t0 = KBufr w -> bi_local w <> 0 ->
  exists t, search_bufr w l = Some t /\ tb_kind t = KBufr w.
Proof.
  intros w l t0 W F I0 K0 L. assert (U0 : bufr_usable w w) by (split; lia).
  destruct (search_bufr w l) as [t|] eqn:E; [|destruct (C30_bufr_found w l W F) as [N _]; exfalso; exact (N E w t0 I0 K0 U0)].
  exists t. split; [reflexivity|]. destruct (C30_bufr_closest w l t W F E) as (id & K & I & U & M). specialize (M w t0 I0 K0 U0).
  rewrite K. f_equal. assert (Oi : bufr_id_ok id) by (rewrite Forall_forall in F; specialize (F t I); rewrite K in F; exact F).
  destruct U as [U1 U2], Oi as (_ & _ & _ & _ & Ol), W as (_ & _ & _ & _ & Wl).
  unfold bufr_rank, origin_rank, centre_rank, local_rank, subcentre_rank in M. rewrite !Z.eqb_refl in M.
  replace (bi_local w =? 0) with false in M by lia. replace (bi_local w <=? bi_local w) with true in M by lia.
  destruct (bi_centre id =? bi_centre w) eqn:E1.
  2:{ exfalso. apply M. destruct (bi_centre id =? 0), (bi_centre id =? 65535); cbn [lex_lt]; lia. }
  destruct (bi_subcentre id =? bi_subcentre w) eqn:E2, (bi_local w <=? bi_local id) eqn:E3; cbn [lex_lt] in M;
    destruct id as [c s m v lo], w as [c' s' m' v' lo']; cbn [bi_centre bi_subcentre bi_mt bi_mtv bi_local] in *; try (exfalso; apply M; lia).
  assert (lo = lo') by lia. assert (v = v') by lia. f_equal; lia.
Qed.

(** In any case the version, the centre and the subcentre are the wanted ones. *)
Theorem C30_bufr_exact_origin : forall w l t0, bufr_id_ok w -> Forall (fun t => kind_ok (tb_kind t)) l ->
  In t0 l -> tb_kind t0 = KBufr w ->
  exists t id, search_bufr w l = Some t /\ tb_kind t = KBufr id /\
    bi_mt id = bi_mt w /\ bi_mtv id = bi_mtv w /\ bi_centre id = bi_centre w /\ bi_subcentre id = bi_subcentre w.
Proof.
  intros w l t0 W F I0 K0. assert (U0 : bufr_usable w w) by (split; lia).
  destruct (search_bufr w l) as [t|] eqn:E; [|destruct (C30_bufr_found w l W F) as [N _]; exfalso; exact (N E w t0 I0 K0 U0)].
  destruct (C30_bufr_closest w l t W F E) as (id & K & I & U & M). specialize (M w t0 I0 K0 U0). exists t, id.
  assert (Oi : bufr_id_ok id) by (rewrite Forall_forall in F; specialize (F t I); rewrite K in F; exact F).
  destruct U as [U1 U2], Oi as (_ & _ & _ & _ & Ol), W as (_ & _ & _ & _ & Wl).
  unfold bufr_rank, origin_rank, centre_rank, local_rank, subcentre_rank in M. rewrite !Z.eqb_refl in M.
  replace (bi_local w <=? bi_local w) with true in M by lia.
  destruct (bi_centre id =? bi_centre w) eqn:E1.
  2:{ exfalso. apply M. destruct (bi_local w =? 0), (bi_centre id =? 0), (bi_centre id =? 65535); cbn [lex_lt]; lia. }
  destruct (bi_subcentre id =? bi_subcentre w) eqn:E2, (bi_local w <=? bi_local id) eqn:E3, (bi_local w =? 0) eqn:E4; cbn [lex_lt] in M;
    try (exfalso; apply M; lia); repeat split; auto; lia.
Qed.

(** ** File names *)
Fixpoint chars (s : string) : list Z :=
  match s with EmptyString => [] | String c r => Z.of_nat (nat_of_ascii c) :: chars r end.

(** B00, five numbers of 3, 4, 4, 3 and 3 digits: the second is the subcentre, then the centre, the
    version and the local version; B00000 and numbers of 3, 3, 2 and 2 digits; and for CREX, B and
    numbers of two digits: master table, edition and version. *)
Theorem C30_file_names : forall dir x sc ce v lv,
  (0 <= x < 1000 -> 0 <= sc < 10000 -> 0 <= ce < 10000 -> 0 <= v < 256 -> 0 <= lv < 256 ->
   let name := chars "B00" ++ digits 3 x ++ digits 4 sc ++ digits 4 ce ++ digits 3 v ++ digits 3 lv ++ chars ".txt" in
   index_entry dir name = [mktable dir name (KBufr (mkbid ce sc 0 v lv))]) /\
  (0 <= sc < 1000 -> 0 <= ce < 1000 -> 0 <= v < 100 -> 0 <= lv < 100 ->
   let name := chars "B00000" ++ digits 3 sc ++ digits 3 ce ++ digits 2 v ++ digits 2 lv ++ chars ".txt" in
   index_entry dir name = [mktable dir name (KBufr (mkbid ce sc 0 v lv))]) /\
  (0 <= sc < 100 -> 0 <= ce < 100 -> 0 <= v < 100 ->
   let name := chars "B" ++ digits 2 sc ++ digits 2 ce ++ digits 2 v ++ chars ".txt" in
   index_entry dir name = [mktable dir name (KCrex (mkcid ce 0 0 sc v 0 0))]).
Proof.
  intros dir x sc ce v lv.
  assert (Tail : forall a (n : nat), length a = n -> zlist_eqb (skipn (length (a ++ chars ".txt") - 4) (a ++ chars ".txt")) txt = true).
  { intros a n _. rewrite app_length. change (length (chars ".txt")) with 4%nat. replace (length a + 4 - 4)%nat with (length a) by lia.
    rewrite skipn_app, skipn_all, Nat.sub_diag. reflexivity. }
  split; [|split].
  - intros Hx Hs Hc Hv Hl name. unfold index_entry.
    assert (L : length name = 24%nat) by (unfold name; rewrite !app_length, !digits_length; reflexivity).
    assert (T : zlist_eqb (skipn (length name - 4) name) txt = true) by (unfold name; rewrite !app_assoc; eapply Tail; reflexivity).
    rewrite T. rewrite L. cbn [Nat.ltb Nat.leb Nat.eqb negb]. change (hd 0 name) with 66. cbn [Z.eqb Pos.eqb].
    assert (E : scan [66; 48; 48] [3; 4; 4; 3; 3]%nat name = Some [x; sc; ce; v; lv]).
    { unfold scan, name. cbn [chars app scan_lit]. change (Z.of_nat (nat_of_ascii "B")) with 66. change (Z.of_nat (nat_of_ascii "0")) with 48.
      cbn [Z.eqb Pos.eqb scan_ints]. rewrite !scan_digits_ok by lia. reflexivity. }
    rewrite E. unfold u8, u16. rewrite !Z.mod_small by lia. reflexivity.
  - intros Hs Hc Hv Hl name. unfold index_entry.
    assert (L : length name = 20%nat) by (unfold name; rewrite !app_length, !digits_length; reflexivity).
    assert (T : zlist_eqb (skipn (length name - 4) name) txt = true) by (unfold name; rewrite !app_assoc; eapply Tail; reflexivity).
    rewrite T. rewrite L. cbn [Nat.ltb Nat.leb Nat.eqb negb]. change (hd 0 name) with 66. cbn [Z.eqb Pos.eqb].
    assert (E : scan [66; 48; 48; 48; 48; 48] [3; 3; 2; 2]%nat name = Some [sc; ce; v; lv]).
    { unfold scan, name. cbn [chars app scan_lit]. change (Z.of_nat (nat_of_ascii "B")) with 66. change (Z.of_nat (nat_of_ascii "0")) with 48.
      cbn [Z.eqb Pos.eqb scan_ints]. rewrite !scan_digits_ok by lia. reflexivity. }
    rewrite E. unfold u8, u16. rewrite !Z.mod_small by lia. reflexivity.
  - intros Hs Hc Hv name. unfold index_entry.
    assert (L : length name = 11%nat) by (unfold name; rewrite !app_length, !digits_length; reflexivity).
    assert (T : zlist_eqb (skipn (length name - 4) name) txt = true) by (unfold name; rewrite !app_assoc; eapply Tail; reflexivity).
    rewrite T. rewrite L. cbn [Nat.ltb Nat.leb Nat.eqb negb]. change (hd 0 name) with 66. cbn [Z.eqb Pos.eqb].
    assert (E : scan [66] [2; 2; 2]%nat name = Some [sc; ce; v]).
    { unfold scan, name. cbn [chars app scan_lit]. change (Z.of_nat (nat_of_ascii "B")) with 66.
      cbn [Z.eqb Pos.eqb scan_ints]. rewrite !scan_digits_ok by lia. reflexivity. }
    rewrite E. unfold u8, u16. rewrite !Z.mod_small by lia. reflexivity.
Qed.

(** ** CREX, among the tables of some directories

    Both kinds of tables can be used.  No table of the same kind is closer than the one that is
    selected, and none of the other kind, for which CREX tables count by their BUFR version. *)
Theorem C30_crex_closest : forall fs dirs w t, crex_id_ok w -> search_crex w (listed fs dirs) = Some t ->
  In t (listed fs dirs) /\
  match tb_kind t with
  | KBufr id => crex_usable_bufr w id /\
    (forall id' t', In t' (listed fs dirs) -> tb_kind t' = KBufr id' -> crex_usable_bufr w id' ->
       ~ lex_lt (crex_rank_bufr w id') (crex_rank_bufr w id)) /\
    (forall id' t', In t' (listed fs dirs) -> tb_kind t' = KCrex id' -> crex_usable w id' ->
       ~ lex_lt (crex_rank_both w id') (crex_rank_bufr w id))
  | KCrex id => crex_usable w id /\
    (forall id' t', In t' (listed fs dirs) -> tb_kind t' = KCrex id' -> crex_usable w id' ->
       ~ lex_lt (crex_rank w id') (crex_rank w id)) /\
    (forall id' t', In t' (listed fs dirs) -> tb_kind t' = KBufr id' -> crex_usable_bufr w id' ->
       lex_lt (crex_rank_both w id) (crex_rank_bufr w id'))
  | KRaw => False
  end.
Proof.
  intros fs dirs w t W S1. set (l := listed fs dirs) in *.
  assert (F : Forall (fun t => kind_ok (tb_kind t)) l) by apply listed_kinds.
  assert (Pl : forall id t, In t l -> tb_kind t = KCrex id -> plain_crex (KCrex id)).
  { intros id t1 I K. pose proof (listed_ok fs dirs) as H. rewrite Forall_forall in H. specialize (H t1 I). rewrite K in H. tauto. }
  assert (Same : forall i j t t', In t l -> tb_kind t = KCrex i -> In t' l -> tb_kind t' = KCrex j -> crex_rank_both w i = crex_rank_both w j).
  { intros i j t1 t2 I K I' K'. apply Pl in K as (A1 & A2 & A3 & A4); [|auto]. apply Pl in K' as (B1 & B2 & B3 & B4); [|auto].
    unfold crex_rank_both. rewrite A1, A2, A3, A4, B1, B2, B3, B4. reflexivity. }
  destruct (search_crex_best w l W F) as (b & c & B & C & E). rewrite S1 in E.
  assert (Bufrs : forall f, b = Some f -> In (snd f) l /\ tb_kind (snd f) = KBufr (fst f) /\ crex_usable_bufr w (fst f) /\ bufr_id_ok (fst f) /\
    forall id' t', In t' l -> tb_kind t' = KBufr id' -> crex_usable_bufr w id' -> ~ lex_lt (crex_rank_bufr w id') (crex_rank_bufr w (fst f))).
  { intros [i tf] ->. apply best_minimal in B as (I & A & M). apply bufr_of_in in I as [I K]. cbn [fst snd] in *.
    split; [exact I|]. split; [exact K|]. split; [apply crex_accepts_bufr_spec, A|].
    split; [rewrite Forall_forall in F; specialize (F _ I); rewrite K in F; exact F|].
    intros id' t' I' K' U. apply (M (id', t')); [apply bufr_of_in; auto|apply crex_accepts_bufr_spec, U]. }
  assert (Crexs : forall f, c = Some f -> In (snd f) l /\ tb_kind (snd f) = KCrex (fst f) /\ crex_usable w (fst f) /\ crex_id_ok (fst f) /\
    forall id' t', In t' l -> tb_kind t' = KCrex id' -> crex_usable w id' -> ~ lex_lt (crex_rank w id') (crex_rank w (fst f))).
  { intros [i tf] ->. apply best_minimal in C as (I & A & M). apply crex_of_in in I as [I K]. cbn [fst snd] in *.
    split; [exact I|]. split; [exact K|]. split; [apply crex_accepts_spec, A|].
    split; [rewrite Forall_forall in F; specialize (F _ I); rewrite K in F; exact F|].
    intros id' t' I' K' U. apply (M (id', t')); [apply crex_of_in; auto|apply crex_accepts_spec, U]. }
  assert (NoB : b = None -> forall id' t', In t' l -> tb_kind t' = KBufr id' -> ~ crex_usable_bufr w id').
  { intros -> id' t' I' K' U. apply (best_none _ _ _ B (id', t')); [apply bufr_of_in; auto|apply crex_accepts_bufr_spec, U]. }
  assert (NoC : c = None -> forall id' t', In t' l -> tb_kind t' = KCrex id' -> ~ crex_usable w id').
  { intros -> id' t' I' K' U. apply (best_none _ _ _ C (id', t')); [apply crex_of_in; auto|apply crex_accepts_spec, U]. }
  clear B C.
  destruct b as [f|]; [destruct (Bufrs f eq_refl) as (If & Kf & Uf & Of & Mf)|];
    (destruct c as [g|]; [destruct (Crexs g eq_refl) as (Ig & Kg & Ug & Og & Mg)|]); cbn [option_map] in E.
  - destruct (crex_closest_both w (fst f) (fst g) <=? 0) eqn:Eb; injection E as ->.
    + split; [exact If|]. rewrite Kf. split; [exact Uf|]. split; [exact Mf|]. intros id' t' I' K' U H.
      rewrite (Same id' (fst g) t' (snd g) I' K' Ig Kg) in H. apply crex_closest_both_rank in H; auto. lia.
    + split; [exact Ig|]. rewrite Kg. split; [exact Ug|]. split; [exact Mg|]. intros id' t' I' K' U.
      assert (H : lex_lt (crex_rank_both w (fst g)) (crex_rank_bufr w (fst f))) by (apply crex_closest_both_rank; auto; lia).
      eapply lex_lt_le; [|exact H|eapply Mf; eauto]. unfold crex_rank_bufr. cbn [length]. rewrite !origin_length. reflexivity.
  - injection E as ->. split; [exact If|]. rewrite Kf. split; [exact Uf|]. split; [exact Mf|]. intros id' t' I' K' U.
    exfalso. exact (NoC eq_refl _ _ I' K' U).
  - injection E as ->. split; [exact Ig|]. rewrite Kg. split; [exact Ug|]. split; [exact Mg|]. intros id' t' I' K' U.
    exfalso. exact (NoB eq_refl _ _ I' K' U).
  - discriminate.
Qed.

Theorem C30_crex_found : forall fs dirs w, crex_id_ok w ->
  (search_crex w (listed fs dirs) = None <->
   forall t, In t (listed fs dirs) ->
     match tb_kind t with KBufr id => ~ crex_usable_bufr w id | KCrex id => ~ crex_usable w id | KRaw => True end).
Proof.
  intros fs dirs w W. pose proof (listed_kinds fs dirs) as F. set (l := listed fs dirs) in *.
  destruct (search_crex_best w l W F) as (b & c & B & C & E). rewrite E. split.
  - intros N. destruct b as [f|]; [destruct c; discriminate|]. destruct c as [g|]; [discriminate|]. intros t I.
    destruct (tb_kind t) as [id|id|] eqn:K; [| |exact Logic.I]; intros U.
    + apply (best_none _ _ _ B (id, t)); [apply bufr_of_in; auto|apply crex_accepts_bufr_spec, U].
    + apply (best_none _ _ _ C (id, t)); [apply crex_of_in; auto|apply crex_accepts_spec, U].
  - intros H. destruct b as [[i t]|].
    + exfalso. apply best_minimal in B as (I & A & _). apply bufr_of_in in I as [I K]. specialize (H t I). rewrite K in H.
      apply H, crex_accepts_bufr_spec, A.
    + destruct c as [[i t]|]; [|reflexivity].
      exfalso. apply best_minimal in C as (I & A & _). apply crex_of_in in I as [I K]. specialize (H t I). rewrite K in H.
      apply H, crex_accepts_spec, A.
Qed.

(** The CREX tables of a directory have BUFR version 0: when another one is wanted, as by default,
    only BUFR tables are selected. *)
Theorem C30_crex_by_bufr_version : forall fs dirs w t, crex_id_ok w -> 0 < ci_mtv_bufr w ->
  search_crex w (listed fs dirs) = Some t -> exists id, tb_kind t = KBufr id.
Proof.
  intros fs dirs w t W V S1. destruct (C30_crex_closest fs dirs w t W S1) as [I H]. destruct (tb_kind t) as [id|id|] eqn:K; [eauto| |tauto].
  exfalso. destruct H as ((_ & _ & _ & U) & _). pose proof (listed_ok fs dirs) as P. rewrite Forall_forall in P. specialize (P t I).
  rewrite K in P. destruct P as [_ (_ & _ & P & _)]. lia.
Qed.

(** ** Directories and caches

    Whatever was asked before, the answer is that of a search in all the directories that were
    added, in their order and each once. *)
Theorem C30_any_history : forall fs calls,
  let td := fold_left (run_call fs) calls (mkdirs [] None) in
  (forall w, fst (find_bufr fs w td) = search_bufr w (listed fs (known_dirs calls))) /\
  (forall w, fst (find_crex fs w td) = search_crex w (listed fs (known_dirs calls))).
Proof.
  intros fs calls td. destruct (calls_ok fs calls (mkdirs [] None) I) as [D E]. fold td in D, E. cbn [td_dirs] in E.
  unfold known_dirs. rewrite <- E. split; intros w; [apply find_bufr_ok|apply find_crex_ok]; exact D.
Qed.

(** The orders used by the caches are strict and total, on all the fields. *)
Theorem C30_total_orders :
  (forall a, bid_lt a a = false) /\ (forall a b c, bid_lt a b = true -> bid_lt b c = true -> bid_lt a c = true) /\
  (forall a b, bid_lt a b = false -> bid_lt b a = false -> a = b) /\
  (forall a, cid_lt a a = false) /\ (forall a b c, cid_lt a b = true -> cid_lt b c = true -> cid_lt a c = true) /\
  (forall a b, cid_lt a b = false -> cid_lt b a = false -> a = b).
Proof.
  split; [intros a; apply (chain_irrefl [bi_centre a; bi_subcentre a; bi_mt a; bi_mtv a; bi_local a])|].
  split; [intros a b c; apply (chain_trans [bi_centre a; bi_subcentre a; bi_mt a; bi_mtv a; bi_local a]
    [bi_centre b; bi_subcentre b; bi_mt b; bi_mtv b; bi_local b] [bi_centre c; bi_subcentre c; bi_mt c; bi_mtv c; bi_local c]); reflexivity|].
  split; [exact bid_same|].
  split; [intros a; apply (chain_irrefl [ci_edition a; ci_centre a; ci_subcentre a; ci_mt a; ci_mtv a; ci_local a; ci_mtv_bufr a])|].
  split; [intros a b c; apply (chain_trans [ci_edition a; ci_centre a; ci_subcentre a; ci_mt a; ci_mtv a; ci_local a; ci_mtv_bufr a]
    [ci_edition b; ci_centre b; ci_subcentre b; ci_mt b; ci_mtv b; ci_local b; ci_mtv_bufr b]
    [ci_edition c; ci_centre c; ci_subcentre c; ci_mt c; ci_mtv c; ci_local c; ci_mtv_bufr c]); reflexivity|].
  exact cid_same.
Qed.

(** ** Examples: some of the tables that come with the library *)
Definition names : list (list Z) := map chars
  ["B0000000000000014000.txt"; "D0000000000000014000.txt"; "B0000000000000016000.txt"; "B0000000000098013001.txt";
   "B0000000000098016001.txt"; "B0000000000098033001.txt"; "B0000000000098033002.txt"; "B000000000980000.txt"; "B000203.txt";
   "dballe.txt"; "README"]%string.
Definition ex_fs : filesystem := fun d => if zlist_eqb d (chars "/tables") then names else [].
Definition chosen (t : option table) : option table_kind := option_map tb_kind t.

Example C30_example :
  let td := fold_left (run_call ex_fs) [AddDir (chars "/tables/"); FindBufr (mkbid 98 0 0 14 1); AddDir (chars "/tables")] (mkdirs [] None) in
  known_dirs [AddDir (chars "/tables/"); AddDir (chars "/tables")] = [chars "/tables"] /\
  length (listed ex_fs [chars "/tables"]) = 9%nat /\
  chosen (fst (find_bufr ex_fs (mkbid 98 0 0 14 1) td)) = Some (KBufr (mkbid 0 0 0 14 0)) /\
  chosen (fst (find_bufr ex_fs (mkbid 98 0 0 15 1) td)) = Some (KBufr (mkbid 98 0 0 16 1)) /\
  chosen (fst (find_bufr ex_fs (mkbid 98 0 0 33 2) td)) = Some (KBufr (mkbid 98 0 0 33 2)) /\
  chosen (fst (find_bufr ex_fs (mkbid 98 0 0 34 2) td)) = None /\
  chosen (fst (find_crex ex_fs (mkcid 2 0 0 0 3 0 0) td)) = Some (KCrex (mkcid 2 0 0 0 3 0 0)) /\
  chosen (fst (find_crex ex_fs (mkcid 2 0 0 0 3 15 0) td)) = Some (KBufr (mkbid 0 0 0 16 0)).
Proof. repeat split; vm_compute; reflexivity. Qed.

(** When no local version is wanted, the local versions are not looked at: the wanted table may lose
    to one of the same centre that has a local version, and which of them is selected
    depends on the order of the files in the directory. *)
Theorem C30_exact_refuted :
  let w := mkbid 98 0 0 33 0 in
  let other := chars "B0000000000098033001.txt" in
  let exact := chars "B0000000000098033000.txt" in
  chosen (search_bufr w (listed (fun _ => [other; exact]) [[]])) = Some (KBufr (mkbid 98 0 0 33 1)) /\
  chosen (search_bufr w (listed (fun _ => [exact; other]) [[]])) = Some (KBufr w).
Proof. split; vm_compute; reflexivity. Qed.

(** The same happens with the tables of other centres. *)
Theorem C30_order_refuted :
  let w := mkbid 200 0 0 12 0 in
  let a := chars "B0000000000098013001.txt" in
  let b := chars "B0000000000254013001.txt" in
  chosen (search_bufr w (listed (fun _ => [a; b]) [[]])) = Some (KBufr (mkbid 98 0 0 13 1)) /\
  chosen (search_bufr w (listed (fun _ => [b; a]) [[]])) = Some (KBufr (mkbid 254 0 0 13 1)).
Proof. split; vm_compute; reflexivity. Qed.

(** The wanted CREX table may lose to a BUFR one. *)
Theorem C30_crex_exact_refuted :
  let w := mkcid 2 0 0 0 3 0 0 in
  chosen (search_crex w (listed (fun _ => map chars ["B000203.txt"; "B000000000000000.txt"]%string) [[]])) = Some (KBufr (mkbid 0 0 0 0 0)) /\
  In (KCrex w) (map tb_kind (listed (fun _ => map chars ["B000203.txt"; "B000000000000000.txt"]%string) [[]])).
Proof. split; [vm_compute; reflexivity|]. vm_compute. auto. Qed.

(** Versions above 255 in file names are taken modulo 256. *)
Theorem C30_version_wraps_refuted :
  map tb_kind (index_entry [] (chars "B0000000000000270000.txt")) = [KBufr (mkbid 0 0 0 14 0)].
Proof. vm_compute. reflexivity. Qed.

Print Assumptions C30_bufr_choice.
Print Assumptions C30_bufr_order.
Print Assumptions C30_crex_closest.
Print Assumptions C30_any_history.

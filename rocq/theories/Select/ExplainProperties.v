(** C65: what the library says about its tables, and tables by file name. *)
From Coq Require Import ZifyBool ZifyNat String.
From Verif Require Import Base Listing.Model Print.Model Print.Spec Print.Proofs Tables.Model Select.Model Select.Spec Select.Proofs Select.Explain.
Local Open Scope Z_scope.

(** ** The calls that print and the search by name, among those that add directories and select tables *)
Inductive xcall : Type :=
  | Plain (c : call)
  | FindName (base : list Z)
  | PrintTables
  | ExplainBufr (w : bufr_id)
  | ExplainCrex (w : crex_id).
Definition run_xcall (fs : filesystem) (td : tabledirs) (c : xcall) : tabledirs :=
  match c with
  | Plain c => run_call fs td c
  | FindName base => snd (find_name fs base td)
  | PrintTables => snd (print_tables fs td)
  | ExplainBufr w => snd (explain_find_bufr fs w td)
  | ExplainCrex w => snd (explain_find_crex fs w td)
  end.
Definition plain (c : xcall) : list call := match c with Plain c => [c] | _ => [] end.

(** A table by the identifier that is printed for it, or none. *)
Definition named (t : option table) : list Z := match t with Some t => id_text t | None => chars "none" end.
Definition is_bufr (t : table) : bool := match tb_kind t with KBufr _ => true | _ => false end.
Definition is_crex (t : table) : bool := match tb_kind t with KCrex _ => true | _ => false end.

(** ** Proofs about histories *)
Lemma with_index_ok {A} fs (f : index -> A) td : dirs_ok fs td ->
  dirs_ok fs (snd (with_index fs f td)) /\ td_dirs (snd (with_index fs f td)) = td_dirs td.
Proof. intros D. apply get_index_ok in D. split; [exact D|reflexivity]. Qed.

Lemma xcalls_ok fs calls : forall td, dirs_ok fs td ->
  dirs_ok fs (fold_left (run_xcall fs) calls td) /\
  td_dirs (fold_left (run_xcall fs) calls td) = td_dirs (fold_left (run_call fs) (flat_map plain calls) td).
Proof.
  assert (G : forall calls td td', dirs_ok fs td -> dirs_ok fs td' -> td_dirs td = td_dirs td' ->
    dirs_ok fs (fold_left (run_xcall fs) calls td) /\
    td_dirs (fold_left (run_xcall fs) calls td) = td_dirs (fold_left (run_call fs) (flat_map plain calls) td')).
  { clear. induction calls as [|c calls IH]; intros td td' D D' E; [auto|].
    change (fold_left (run_xcall fs) (c :: calls) td) with (fold_left (run_xcall fs) calls (run_xcall fs td c)).
    cbn [flat_map]. rewrite fold_left_app. destruct c as [c|b| |w|w]; cbn [plain fold_left run_xcall].
    - destruct (calls_ok fs [c] td D) as [D1 E1]. destruct (calls_ok fs [c] td' D') as [D2 E2].
      cbn [fold_left] in *. apply IH; auto. rewrite E1, E2, E. reflexivity.
    - destruct (with_index_ok fs (ix_find b) td D). apply IH; auto.
    - destruct (with_index_ok fs ix_print td D). apply IH; auto.
    - destruct (with_index_ok fs (ix_explain_bufr w) td D). apply IH; auto.
    - destruct (with_index_ok fs (ix_explain_crex w) td D). apply IH; auto. }
  intros td D. apply G; auto.
Qed.
Lemma history fs calls : let td := fold_left (run_xcall fs) calls (mkdirs [] None) in
  dirs_ok fs td /\ td_dirs td = known_dirs (flat_map plain calls).
Proof.
  intros td. destruct (xcalls_ok fs calls (mkdirs [] None) I) as [D E]. fold td in D, E. split; [exact D|].
  rewrite E. destruct (calls_ok fs (flat_map plain calls) (mkdirs [] None) I) as [_ F]. exact F.
Qed.
Lemma history_tables fs calls : ix_tables (get_index fs (fold_left (run_xcall fs) calls (mkdirs [] None))) =
  listed fs (known_dirs (flat_map plain calls)).
Proof. destruct (history fs calls) as [D E]. rewrite <- E. apply get_index_ok in D. apply D. Qed.

(** Asking for explanations, for the list, or for tables by name does not change what is selected. *)
Theorem C65_no_effect : forall fs calls,
  let td := fold_left (run_xcall fs) calls (mkdirs [] None) in
  let td0 := fold_left (run_call fs) (flat_map plain calls) (mkdirs [] None) in
  (forall w, fst (find_bufr fs w td) = fst (find_bufr fs w td0)) /\
  (forall w, fst (find_crex fs w td) = fst (find_crex fs w td0)).
Proof.
  intros fs calls td td0. destruct (history fs calls) as [D E]. fold td in D, E.
  destruct (calls_ok fs (flat_map plain calls) (mkdirs [] None) I) as [D0 E0]. fold td0 in D0, E0.
  assert (S1 : td_dirs td = td_dirs td0) by (rewrite E, E0; reflexivity).
  split; intros w.
  - destruct (find_bufr_ok fs w td D) as [-> _]. destruct (find_bufr_ok fs w td0 D0) as [-> _]. rewrite S1. reflexivity.
  - destruct (find_crex_ok fs w td D) as [-> _]. destruct (find_crex_ok fs w td0 D0) as [-> _]. rewrite S1. reflexivity.
Qed.

(** ** Explanations *)
Lemma explain_fold step l : forall b, snd (explain_search step b l) = fold_left step l b.
Proof.
  induction l as [|t l IH]; intros b; [reflexivity|]. cbn [explain_search fold_left]. rewrite <- IH.
  destruct (explain_search step (step b t) l). reflexivity.
Qed.
Definition step_line (b : bests) (t : table) : list Z :=
  tb_dir t ++ chars ": considering " ++ id_text t ++ chars ": best bufr: " ++ best_text (fst b) ++ chars ", best crex: " ++ best_text (snd b).
Lemma explain_lines step l : forall b, exists ls, fst (explain_search step b l) = unlines ls /\ length ls = length l /\
  forall k t, nth_error l k = Some t -> nth_error ls k = Some (step_line (fold_left step (firstn (S k) l) b) t).
Proof.
  induction l as [|t l IH]; intros b.
  - exists []. split; [reflexivity|]. split; [reflexivity|]. intros [|k] t E; discriminate E.
  - destruct (IH (step b t)) as (ls & E & L & N). exists (step_line (step b t) t :: ls). split; [|split].
    + cbn [explain_search]. destruct (explain_search step (step b t) l) as [text b'] eqn:X. cbn [fst] in *. rewrite E.
      cbn [unlines flat_map]. unfold step_line. rewrite <- !app_assoc. reflexivity.
    + cbn [length]. lia.
    + intros [|k] u U; cbn [nth_error] in *.
      * injection U as ->. reflexivity.
      * rewrite (N k u U). reflexivity.
Qed.
Lemma ends t : chars "Result chosen: " ++ t ++ [10] = unlines [chars "Result chosen: " ++ t].
Proof. cbn [unlines flat_map]. rewrite app_nil_r, <- app_assoc. reflexivity. Qed.
Lemma unlines_app a b : unlines (a ++ b) = unlines a ++ unlines b.
Proof. apply flat_map_app. Qed.

Lemma bufr_snd w l : snd (fold_left (consider_bufr w) l (None, None)) = None.
Proof. rewrite fold_bufr. cbn [snd]. apply no_crex. Qed.
Lemma search_bufr_best_text w l : best_text (fst (fold_left (consider_bufr w) l (None, None))) = named (search_bufr w l).
Proof.
  unfold search_bufr. pose proof (bufr_snd w l) as N. destruct (fold_left _ _ _) as [f c]. cbn in N. subst c.
  destruct f as [[id t]|]; reflexivity.
Qed.

(** The explanation of the choice of BUFR tables has a line for each table of the directories, in order, with the best
    table of those considered so far, and then the table that is selected. *)
Theorem C65_explain_bufr : forall fs calls w,
  let td := fold_left (run_xcall fs) calls (mkdirs [] None) in
  let tables := listed fs (known_dirs (flat_map plain calls)) in
  exists steps,
    fst (explain_find_bufr fs w td) = unlines (steps ++ [chars "Result chosen: " ++ named (fst (find_bufr fs w td))]) /\
    length steps = length tables /\
    forall k t, nth_error tables k = Some t ->
      nth_error steps k = Some (tb_dir t ++ chars ": considering " ++ id_text t ++
        chars ": best bufr: " ++ named (search_bufr w (firstn (S k) tables)) ++ chars ", best crex: none").
Proof.
  intros fs calls w td tables. destruct (history fs calls) as [D E]. fold td in D, E.
  pose proof (history_tables fs calls) as T. fold td in T. fold tables in T.
  destruct (explain_lines (consider_bufr w) tables (None, None)) as (ls & L1 & L2 & L3). exists ls. split; [|split].
  - unfold explain_find_bufr, with_index, ix_explain_bufr. cbn [fst]. rewrite T.
    pose proof (explain_fold (consider_bufr w) tables (None, None)) as F.
    destruct (explain_search _ _ _) as [text b]. cbn [fst snd] in *. subst text b. rewrite unlines_app. f_equal.
    destruct (find_bufr_ok fs w td D) as [-> _]. rewrite E. fold tables. rewrite <- ends. reflexivity.
  - exact L2.
  - intros k t N. rewrite (L3 k t N). unfold step_line. rewrite bufr_snd, search_bufr_best_text. reflexivity.
Qed.

Lemma crex_only w l : forall b,
  fold_left (consider_crex w) (filter is_bufr l) b = (fst (fold_left (consider_crex w) l b), snd b) /\
  fold_left (consider_crex w) (filter is_crex l) b = (fst b, snd (fold_left (consider_crex w) l b)).
Proof.
  intros b. rewrite !fold_crex. cbn [fst snd].
  assert (A : flat_map bufr_of (filter is_bufr l) = flat_map bufr_of l /\ flat_map crex_of (filter is_bufr l) = [] /\
              flat_map bufr_of (filter is_crex l) = [] /\ flat_map crex_of (filter is_crex l) = flat_map crex_of l).
  { induction l as [|t l (I1 & I2 & I3 & I4)]; [repeat split|]. cbn [filter].
    destruct (is_bufr t) eqn:KB, (is_crex t) eqn:KC; cbn [flat_map]; rewrite ?I1, ?I2, ?I3, ?I4;
      unfold is_bufr in KB; unfold is_crex in KC; unfold bufr_of, crex_of; destruct (tb_kind t); try discriminate; repeat split; reflexivity. }
  destruct A as (-> & -> & -> & ->). split; reflexivity.
Qed.
Lemma search_crex_best_text w l :
  best_text (fst (fold_left (consider_crex w) l (None, None))) = named (search_crex w (filter is_bufr l)) /\
  best_text (snd (fold_left (consider_crex w) l (None, None))) = named (search_crex w (filter is_crex l)).
Proof.
  unfold search_crex. destruct (crex_only w l (None, None)) as [-> ->]. cbn [fst snd].
  destruct (fold_left _ _ _) as [[[f t]|] [[c u]|]]; split; reflexivity.
Qed.

(** The explanation of the choice of CREX tables also has the best BUFR and the best CREX table of those considered so far,
    each chosen as if there were only tables of its kind. *)
Theorem C65_explain_crex : forall fs calls w,
  let td := fold_left (run_xcall fs) calls (mkdirs [] None) in
  let tables := listed fs (known_dirs (flat_map plain calls)) in
  exists steps,
    fst (explain_find_crex fs w td) = unlines (steps ++ [chars "Result chosen: " ++ named (fst (find_crex fs w td))]) /\
    length steps = length tables /\
    forall k t, nth_error tables k = Some t ->
      nth_error steps k = Some (tb_dir t ++ chars ": considering " ++ id_text t ++
        chars ": best bufr: " ++ named (search_crex w (filter is_bufr (firstn (S k) tables))) ++
        chars ", best crex: " ++ named (search_crex w (filter is_crex (firstn (S k) tables)))).
Proof.
  intros fs calls w td tables. destruct (history fs calls) as [D E]. fold td in D, E.
  pose proof (history_tables fs calls) as T. fold td in T. fold tables in T.
  destruct (explain_lines (consider_crex w) tables (None, None)) as (ls & L1 & L2 & L3). exists ls. split; [|split].
  - unfold explain_find_crex, with_index, ix_explain_crex. cbn [fst]. rewrite T.
    pose proof (explain_fold (consider_crex w) tables (None, None)) as F.
    destruct (explain_search _ _ _) as [text b]. cbn [fst snd] in *. subst text b. rewrite unlines_app. f_equal.
    destruct (find_crex_ok fs w td D) as [-> _]. rewrite E. fold tables. rewrite <- ends. reflexivity.
  - exact L2.
  - intros k t N. rewrite (L3 k t N). unfold step_line. destruct (search_crex_best_text w (firstn (S k) tables)) as [-> ->]. reflexivity.
Qed.

(** ** Identifiers

    What is printed of a table tells its kind and all the fields of its identifier. *)
Theorem C65_identifiers : forall t u, kind_ok (tb_kind t) -> kind_ok (tb_kind u) ->
  (id_text t = id_text u <-> tb_kind t = tb_kind u).
Proof.
  intros t u T U. split; [|unfold id_text; intros ->; reflexivity]. unfold id_text.
  destruct (tb_kind t) as [a|a|], (tb_kind u) as [b|b|]; intros E;
    try (apply (f_equal (fun l => nth 0 l 0)) in E; discriminate E); [| |reflexivity].
  - unfold bufr_id_text in E. destruct a as [a1 a2 a3 a4 a5], b as [b1 b2 b3 b4 b5], T as (? & ? & ? & ? & ?), U as (? & ? & ? & ? & ?). cbn [bi_centre bi_subcentre bi_mt bi_mtv bi_local] in *.
    between E. number E. between E. number E. between E. number E. between E. number E. between E. number E. subst. reflexivity.
  - unfold crex_id_text in E. destruct a as [a1 a2 a3 a4 a5 a6 a7], b as [b1 b2 b3 b4 b5 b6 b7], T as (? & ? & ? & ? & ? & ? & ?), U as (? & ? & ? & ? & ? & ? & ?).
    cbn [ci_edition ci_centre ci_subcentre ci_mt ci_mtv ci_mtv_bufr ci_local] in *.
    between E. number E. between E. number E. between E. number E. between E. number E. between E. number E. between E. number E. between E. number E.
    subst. reflexivity.
Qed.
(** All the tables that are found in directories have such identifiers. *)
Theorem C65_identifiers_listed : forall fs dirs t u, In t (listed fs dirs) -> In u (listed fs dirs) ->
  (id_text t = id_text u <-> tb_kind t = tb_kind u).
Proof.
  intros fs dirs t u T U. pose proof (listed_kinds fs dirs) as F. rewrite Forall_forall in F. apply C65_identifiers; auto.
Qed.

(** ** Names *)
Lemma base_name_txt name : base_name (name ++ txt) = name.
Proof. unfold base_name. rewrite rev_app_distr. cbn. apply rev_involutive. Qed.
Lemma zeqb_iff a : forall b, zlist_eqb a b = true <-> a = b.
Proof.
  induction a as [|x a IH]; intros [|y b]; cbn; try (split; [discriminate|discriminate]); [split; reflexivity|].
  rewrite andb_true_iff, IH. split; [intros [E ->]; f_equal; lia|intros E; injection E as -> ->; split; [lia|reflexivity]].
Qed.
Lemma index_entry_file dir name t : In t (index_entry dir name) ->
  tb_dir t = dir /\ tb_file t = name /\ (exists base, name = base ++ txt) /\ index_entry dir name = [t].
Proof.
  unfold index_entry. destruct (Nat.ltb _ _) eqn:L; [intros []|].
  destruct (negb _) eqn:X; [intros []|]. apply negb_false_iff, zeqb_iff in X.
  assert (B : exists base, name = base ++ txt)
    by (exists (firstn (length name - 4) name); rewrite <- X; symmetry; apply firstn_skipn).
  assert (G : forall k, In t [mktable dir name k] ->
    tb_dir t = dir /\ tb_file t = name /\ (exists base, name = base ++ txt) /\ [mktable dir name k] = [t])
    by (intros k [<-|[]]; auto).
  intros H. repeat match type of H with
  | context [if ?c then _ else _] => destruct c
  | context [match scan ?a ?b ?c with _ => _ end] => destruct (scan a b c) as [?l|]
  | context [match ?l with [] => _ | _ => _ end] => is_var l; destruct l
  | In _ [] => destruct H
  | In _ [mktable _ _ _] => exact (G _ H)
  end.
Qed.
Lemma listed_file fs dirs t : In t (listed fs dirs) -> exists base,
  In (tb_dir t) dirs /\ In (tb_file t) (fs (tb_dir t)) /\ tb_file t = base ++ txt /\ base_name (tb_file t) = base.
Proof.
  intros H. apply in_flat_map in H as (d & D & H). apply in_flat_map in H as (n & N & H).
  apply index_entry_file in H as (<- & <- & (b & B) & _). exists b. repeat split; auto. rewrite B. apply base_name_txt.
Qed.

(** The list of tables has a line for each of them, in order: the directory, the name of the file without .txt, and the
    identifier. *)
Theorem C65_list : forall fs calls,
  let td := fold_left (run_xcall fs) calls (mkdirs [] None) in
  exists ls, fst (print_tables fs td) = unlines ls /\
    Forall2 (fun line t => exists base, tb_file t = base ++ chars ".txt" /\ line = tb_dir t ++ chars "/" ++ base ++ chars ":" ++ id_text t)
      ls (listed fs (known_dirs (flat_map plain calls))).
Proof.
  intros fs calls td. unfold print_tables, with_index, ix_print. cbn [fst]. pose proof (history_tables fs calls) as T. fold td in T. rewrite T.
  set (dirs := known_dirs _). assert (A : forall t, In t (listed fs dirs) -> exists base, tb_file t = base ++ txt /\ base_name (tb_file t) = base)
    by (intros t I; apply listed_file in I as (b & _ & _ & B1 & B2); eauto).
  clearbody dirs. clear T. induction (listed fs dirs) as [|t l IH]; [exists []; split; [reflexivity|constructor]|].
  destruct IH as (ls & E & F); [intros u U; apply A; right; exact U|]. destruct (A t (or_introl eq_refl)) as (base & B1 & B2).
  exists ((tb_dir t ++ chars "/" ++ base ++ chars ":" ++ id_text t) :: ls). split.
  - cbn [flat_map unlines]. unfold unlines in E. rewrite E, B2. rewrite <- !app_assoc. reflexivity.
  - constructor; [|exact F]. exists base. split; [exact B1|reflexivity].
Qed.

Lemma find_app {A} (f : A -> bool) l m : List.find f (l ++ m) = match List.find f l with Some x => Some x | None => List.find f m end.
Proof. induction l as [|a l IH]; [reflexivity|]. cbn. destruct (f a); auto. Qed.
Lemma find_entry dir base n : List.find (fun t => zlist_eqb (base_name (tb_file t)) base) (index_entry dir n) =
  if zlist_eqb (base ++ txt) n then hd_error (index_entry dir n) else None.
Proof.
  destruct (index_entry dir n) as [|t l] eqn:E; [cbn; destruct (zlist_eqb _ _); reflexivity|].
  destruct (index_entry_file dir n t) as (D & F & (b & B) & S1); [rewrite E; left; reflexivity|].
  rewrite E in S1. injection S1 as ->. cbn [List.find hd_error]. rewrite F, B, base_name_txt.
  destruct (zlist_eqb b base) eqn:Q.
  - apply zeqb_iff in Q. subst b. replace (zlist_eqb _ _) with true by (symmetry; apply zeqb_iff; reflexivity). reflexivity.
  - destruct (zlist_eqb (base ++ txt) (b ++ txt)) eqn:Q2; [|reflexivity]. apply zeqb_iff, app_inv_tail in Q2. subst b.
    rewrite (proj2 (zeqb_iff base base) eq_refl) in Q. discriminate.
Qed.
Lemma find_dir dir base l : List.find (fun t => zlist_eqb (base_name (tb_file t)) base) (flat_map (index_entry dir) l) =
  if existsb (zlist_eqb (base ++ txt)) l then hd_error (index_entry dir (base ++ txt)) else None.
Proof.
  induction l as [|n l IH]; [reflexivity|]. cbn [flat_map existsb]. rewrite find_app, find_entry, IH.
  destruct (zlist_eqb (base ++ txt) n) eqn:Q; cbn [orb]; [|reflexivity]. apply zeqb_iff in Q. subst n.
  destruct (hd_error _); [reflexivity|]. destruct (existsb _ _); reflexivity.
Qed.
Lemma entry_any_dir d e n : index_entry d n = [] -> index_entry e n = [].
Proof.
  destruct (index_entry e n) as [|t l] eqn:E; [auto|]. intros H. exfalso. revert H E. unfold index_entry.
  repeat match goal with
  | |- context [if ?c then _ else _] => destruct c
  | |- context [match scan ?a ?b ?c with _ => _ end] => destruct (scan a b c) as [?l|]
  | |- context [match ?l with [] => _ | _ => _ end] => is_var l; destruct l
  end; discriminate.
Qed.

(** A table is found by name if a directory has the file with that name and .txt, and it is that of the first directory that
    has it; files whose names are not names of tables are not found. *)
Theorem C65_by_name : forall fs calls base,
  let td := fold_left (run_xcall fs) calls (mkdirs [] None) in
  let file := base ++ chars ".txt" in
  fst (find_name fs base td) =
  match List.find (fun d => existsb (zlist_eqb file) (fs d)) (known_dirs (flat_map plain calls)) with
  | Some d => hd_error (index_entry d file)
  | None => None
  end.
Proof.
  intros fs calls base td file. unfold find_name, with_index, ix_find. cbn [fst]. pose proof (history_tables fs calls) as T. fold td in T. rewrite T.
  change (chars ".txt") with txt in file. generalize (known_dirs (flat_map plain calls)). intros dirs. unfold listed.
  induction dirs as [|d dirs IH]; [reflexivity|]. cbn [flat_map List.find]. rewrite find_app, IH. unfold index_dir at 1. rewrite find_dir. fold file.
  destruct (existsb (zlist_eqb file) (fs d)); [|reflexivity].
  destruct (index_entry d file) as [|t l] eqn:E; [|reflexivity]. cbn [hd_error].
  destruct (List.find _ dirs) as [e|]; [|reflexivity]. rewrite (entry_any_dir d e _ E). reflexivity.
Qed.
(** Tables of sequences are not found by their own name. *)
Corollary C65_by_name_sequences : forall fs calls base,
  fst (find_name fs (68 :: base) (fold_left (run_xcall fs) calls (mkdirs [] None))) = None.
Proof.
  intros. rewrite C65_by_name. destruct (List.find _ _) as [d|]; [|reflexivity]. change (chars ".txt") with txt.
  unfold index_entry. destruct (Nat.ltb _ _); [reflexivity|]. destruct (negb _); reflexivity.
Qed.

(** ** Files

    Tables of different directories, or of different names, are read from different files, and no file is read both as
    elements and as sequences; of the tables of BUFR and CREX, also the files of sequences are different. *)
Definition clean (dir : list Z) : Prop := dir = [47] \/ (dir <> [] /\ last dir 0 <> 47).
Lemma strip_clean r : match strip r with [] => True | c :: _ => c <> 47 end.
Proof. induction r as [|c r IH]; [exact I|]. cbn [strip]. destruct (c =? 47) eqn:E; [exact IH|lia]. Qed.
Lemma clean_dir_clean d : clean (clean_dir d).
Proof.
  unfold clean_dir. pose proof (strip_clean (rev d)) as S1. destruct (strip (rev d)) as [|c r]; [left; reflexivity|]. right. split.
  - intros E. apply (f_equal (@rev Z)) in E. rewrite rev_involutive in E. discriminate E.
  - cbn [rev]. rewrite last_last. exact S1.
Qed.
Lemma known_clean calls : Forall clean (known_dirs calls).
Proof.
  unfold known_dirs. assert (G : forall l, Forall clean l -> Forall clean (fold_left (fun ds c => match c with AddDir d => if existsb (zlist_eqb (clean_dir d)) ds then ds else ds ++ [clean_dir d] | _ => ds end)
    calls l)); [|apply G; constructor].
  induction calls as [|c calls IH]; intros l F; [exact F|]. cbn [fold_left]. apply IH. destruct c as [d|w|w]; auto.
  destruct (existsb _ _); [exact F|]. apply Forall_app. split; [exact F|]. constructor; [apply clean_dir_clean|constructor].
Qed.
Lemma split_last p q a b : ~ In 47 a -> ~ In 47 b -> p ++ 47 :: a = q ++ 47 :: b -> p = q /\ a = b.
Proof.
  revert q. induction p as [|x p IH]; intros [|y q] A B E; cbn in E.
  - injection E as ->. auto.
  - injection E as <- E. exfalso. apply A. rewrite E. apply in_app_iff. right. left. reflexivity.
  - injection E as -> E. exfalso. apply B. rewrite <- E. apply in_app_iff. right. left. reflexivity.
  - injection E as -> E. apply IH in E as [-> ->]; auto.
Qed.
Lemma join_split d a : clean d -> exists p, join_path d a = p ++ 47 :: a /\ (d = [47] /\ p = [] \/ d = p /\ d <> []).
Proof.
  intros [->|[N L]]; unfold join_path; [exists []; cbn; auto|]. exists d. destruct (last d 0 =? 47) eqn:E; [lia|]. cbn. auto.
Qed.
Lemma join_inj d e a b : clean d -> clean e -> ~ In 47 a -> ~ In 47 b -> join_path d a = join_path e b -> d = e /\ a = b.
Proof.
  intros D E A B H. destruct (join_split d a D) as (p & -> & P) in H. 
  destruct (join_split e b E) as (q & Q1 & Q). rewrite Q1 in H. apply split_last in H as [-> ->]; auto. split; [|reflexivity].
  destruct P as [[-> ->]|[-> N]], Q as [[-> Q]|[-> M]]; auto; congruence.
Qed.
Lemma entry_first dir n t : In t (index_entry dir n) -> hd 0 n <> 68 /\ n <> [] /\ (tb_kind t <> KRaw -> hd 0 n = 66).
Proof.
  unfold index_entry. destruct n as [|c n]; [intros []|]. cbn [hd]. destruct (Nat.ltb _ _); [intros []|]. destruct (negb _); [intros []|].
  destruct (c =? 66) eqn:C; [intros _; repeat split; [lia|discriminate|lia]|].
  destruct (c =? 68) eqn:C2; [intros []|]. intros [<-|[]]. cbn. repeat split; [lia|discriminate|congruence].
Qed.

Theorem C65_files : forall fs calls t u,
  (forall d n, In n (fs d) -> ~ In 47 n) ->
  In t (listed fs (known_dirs calls)) -> In u (listed fs (known_dirs calls)) ->
  (b_path t = b_path u -> t = u) /\ b_path t <> d_path u /\
  (tb_kind t <> KRaw -> tb_kind u <> KRaw -> d_path t = d_path u -> t = u).
Proof.
  intros fs calls t u NS T U. pose proof (known_clean calls) as C. rewrite Forall_forall in C.
  apply in_flat_map in T as (d & D & T). apply in_flat_map in T as (n & N & T).
  apply in_flat_map in U as (e & E & U). apply in_flat_map in U as (m & M & U).
  pose proof (entry_first _ _ _ T) as (T1 & T2 & T3). pose proof (entry_first _ _ _ U) as (U1 & U2 & U3).
  pose proof (C d D) as CD. pose proof (C e E) as CE. pose proof (NS d n N) as SN. pose proof (NS e m M) as SM.
  apply index_entry_file in T as (TD & TF & _ & T). apply index_entry_file in U as (UD & UF & _ & U).
  assert (SN' : ~ In 47 (68 :: tl n)) by (intros [A|A]; [discriminate|apply SN; destruct n; [destruct A|right; exact A]]).
  assert (SM' : ~ In 47 (68 :: tl m)) by (intros [A|A]; [discriminate|apply SM; destruct m; [destruct A|right; exact A]]).
  assert (G : d = e -> n = m -> t = u) by (intros -> ->; rewrite T in U; injection U; auto).
  unfold b_path, d_path. rewrite TD, TF, UD, UF. split; [|split].
  - intros H. apply join_inj in H as [-> ->]; auto.
  - intros H. apply join_inj in H as [_ H]; auto. rewrite H in T1. cbn [hd] in T1. congruence.
  - intros K1 K2 H. apply join_inj in H as [-> H]; auto. apply G; [reflexivity|]. injection H as H. specialize (T3 K1). specialize (U3 K2).
    destruct n as [|x n], m as [|y m]; try congruence. cbn in *. congruence.
Qed.

(** ** Examples *)
Definition ex_fs : filesystem := fun d =>
  if zlist_eqb d (chars "/tables") then map chars ["B0000000000000014000.txt"; "D0000000000000014000.txt"; "B0000000000098016001.txt"; "B000203.txt"; "dballe.txt"]%string
  else if zlist_eqb d (chars "/mine") then map chars ["B0000000000000014000.txt"; "README"]%string else [].

Example C65_example :
  let td := fold_left (run_xcall ex_fs) [Plain (AddDir (chars "/mine/")); PrintTables; Plain (AddDir (chars "/tables")); FindName (chars "dballe")] (mkdirs [] None) in
  fst (print_tables ex_fs td) = unlines (map chars
    ["/mine/B0000000000000014000:BUFR(000:00, 00:14:00)"; "/tables/B0000000000000014000:BUFR(000:00, 00:14:00)";
     "/tables/B0000000000098016001:BUFR(098:00, 00:16:01)"; "/tables/B000203:CREX(02, 00:00, 00:03:00:00)"; "/tables/dballe:(raw data)"]%string) /\
  fst (explain_find_crex ex_fs (mkcid 2 0 0 0 3 15 0) td) = unlines (map chars
    ["/mine: considering BUFR(000:00, 00:14:00): best bufr: none, best crex: none";
     "/tables: considering BUFR(000:00, 00:14:00): best bufr: none, best crex: none";
     "/tables: considering BUFR(098:00, 00:16:01): best bufr: BUFR(098:00, 00:16:01), best crex: none";
     "/tables: considering CREX(02, 00:00, 00:03:00:00): best bufr: BUFR(098:00, 00:16:01), best crex: none";
     "/tables: considering (raw data): best bufr: BUFR(098:00, 00:16:01), best crex: none";
     "Result chosen: BUFR(098:00, 00:16:01)"]%string) /\
  option_map tb_dir (fst (find_name ex_fs (chars "B0000000000000014000") td)) = Some (chars "/mine") /\
  option_map d_path (fst (find_name ex_fs (chars "B0000000000098016001") td)) = Some (chars "/tables/D0000000000098016001.txt") /\
  fst (find_name ex_fs (chars "README") td) = None.
Proof. repeat split; vm_compute; reflexivity. Qed.
Example C65_files_example : forall d n, In n (ex_fs d) -> ~ In 47 n.
Proof.
  intros d n. unfold ex_fs. destruct (zlist_eqb d _); [|destruct (zlist_eqb d _)]; cbn [map In]; intros H;
    repeat (destruct H as [<-|H]; [vm_compute; intuition discriminate|]); destruct H.
Qed.

Print Assumptions C65_no_effect.
Print Assumptions C65_explain_bufr.
Print Assumptions C65_explain_crex.
Print Assumptions C65_identifiers.
Print Assumptions C65_list.
Print Assumptions C65_by_name.
Print Assumptions C65_files.

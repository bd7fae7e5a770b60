(** C61: what the printed text of a bulletin tells. *)
From Coq Require Import String Lia ZifyBool ZifyNat.
From Verif Require Import Base Bits.Model Num.Float Varcode.Model Varinfo.Model Varinfo.Proofs Varinfo.RangeProofs Tables.Model Tables.LoadProofs Var.Model Var.Spec
  Var.AttrProofs Var.FormatSpec Var.Format Var.FormatProofs Interp.Model Interp.ExpandProofs Interp.Example Codec.Spec Codec.Sound Codec.AgainSteps Message.Model Message.Spec Crex.Model
  Listing.Model Listing.FaithfulProofs Structured.Model Print.Model Print.Spec Print.Proofs.
From Verif Require Codec.Properties Message.Properties Crex.SoundProperties Var.FormatProperties.
Import Var.FormatProperties.
Local Open Scope Z_scope.

Definition readable_subsets (full : varinfo -> list Z) (label : Z -> list Z) (ss : list (list var)) : Prop :=
  every_cell readable ss /\ every_cell (labelled full label) ss.

Lemma every_good full label ss : readable_subsets full label ss -> every_cell (good full label) ss.
Proof.
  intros [A B]. unfold every_cell in *. revert B. induction A as [|vars ss Fv A IH]; intros B; constructor; inversion B as [|x y Gv B']; subst; [|apply IH; exact B'].
  clear -Fv Gv. revert Gv. induction Fv as [|v vars H Fv IH]; intros G; constructor; inversion G as [|x y Hv G']; subst; [|apply IH; exact G'].
  apply Forall_and; assumption.
Qed.

(** ** The layout *)
Lemma cell_line fixed full p c t : cell_text fixed (shown full) c = Ok t -> exists l, line_of fixed full (p, c) l /\ p ++ t = l ++ [10].
Proof.
  unfold cell_text. destruct (format_file fixed c (chars "(undef)")) as [v| |] eqn:E; try discriminate. cbn [bind]. intros T.
  apply (f_equal (get_ok [])) in T. cbn [get_ok] in T. subst t. eexists. split; [exists v; split; [exact E|reflexivity]|]. cbn [fst snd join]. unfold shown.
  repeat (rewrite <- ?app_assoc; cbn [app]). reflexivity.
Qed.

Lemma attrs_lines fixed full : forall l t, attrs_text fixed (shown full) l = Ok t ->
  exists ls, Forall2 (line_of fixed full) (map (fun a => (chars "           ", a)) l) ls /\ t = unlines ls.
Proof.
  induction l as [|a l IH]; intros t T; cbn [attrs_text] in T.
  - apply (f_equal (get_ok [])) in T. cbn in T. subst t. exists []. split; [constructor|reflexivity].
  - destruct (cell_text fixed (shown full) a) as [x| |] eqn:X; try discriminate T. destruct (attrs_text fixed (shown full) l) as [y| |]; try discriminate T. cbn [bind] in T.
    apply (f_equal (get_ok [])) in T. cbn [get_ok] in T. subst t. destruct (cell_line fixed full (chars "           ") a x X) as (ln & L & E).
    destruct (IH y eq_refl) as (ls & F & ->). exists (ln :: ls). split; [cbn [map]; constructor; assumption|]. rewrite app_assoc. change (repeat 32 11) with (chars "           ").
    rewrite E. cbn [unlines flat_map]. reflexivity.
Qed.

Lemma unlines_app a b : unlines (a ++ b) = unlines a ++ unlines b.
Proof. unfold unlines. apply flat_map_app. Qed.

Lemma variables_lines fixed full i : forall vars j t, variables_text fixed full i j vars = Ok t ->
  exists ls, Forall2 (line_of fixed full) (flat_map (fun v =>
      (chars "  [" ++ padded 0 (Z.of_nat i) ++ chars "][" ++ padded 0 (Z.of_nat (fst v)) ++ chars "] ", v_cell (snd v)) ::
      map (fun a => (chars "           ", a)) (v_attrs (snd v))) (with_place j vars)) ls /\ t = unlines ls.
Proof.
  induction vars as [|v vars IH]; intros j t T; cbn [variables_text] in T.
  - apply (f_equal (get_ok [])) in T. cbn in T. subst t. exists []. split; [constructor|reflexivity].
  - unfold var_text in T. destruct (cell_text fixed (shown full) (v_cell v)) as [x| |] eqn:X; try discriminate T.
    destruct (attrs_text fixed (shown full) (v_attrs v)) as [y| |] eqn:Y; try discriminate T. cbn [bind] in T.
    destruct (variables_text fixed full i (S j) vars) as [z| |] eqn:W; try discriminate T. cbn [bind] in T. apply (f_equal (get_ok [])) in T. cbn [get_ok] in T. subst t.
    destruct (cell_line fixed full (chars "  [" ++ padded 0 (Z.of_nat i) ++ chars "][" ++ padded 0 (Z.of_nat j) ++ chars "] ") _ x X) as (ln & L & E).
    destruct (attrs_lines fixed full _ y Y) as (la & Fa & ->). destruct (IH (S j) z W) as (ls & F & ->).
    exists ((ln :: la) ++ ls). cbn [with_place flat_map fst snd]. split; [apply Forall2_app; [constructor; assumption|exact F]|].
    rewrite unlines_app. cbn [unlines flat_map]. rewrite <- E. change (chars "  [") with [32; 32; 91]. change (chars "][") with [93; 91]. change (chars "] ") with [93; 32].
    repeat (rewrite <- ?app_assoc; cbn [app]). reflexivity.
Qed.

Lemma subsets_lines fixed full : forall ss i t, subsets_text fixed full i ss = Ok t ->
  exists ls, Forall2 (line_of fixed full) (flat_map (fun s => flat_map (fun v =>
      (chars "  [" ++ padded 0 (Z.of_nat (fst s)) ++ chars "][" ++ padded 0 (Z.of_nat (fst v)) ++ chars "] ", v_cell (snd v)) ::
      map (fun a => (chars "           ", a)) (v_attrs (snd v))) (with_place 0 (snd s))) (with_place i ss)) ls /\ t = unlines ls.
Proof.
  induction ss as [|vars ss IH]; intros i t T; cbn [subsets_text] in T.
  - apply (f_equal (get_ok [])) in T. cbn in T. subst t. exists []. split; [constructor|reflexivity].
  - destruct (variables_text fixed full i 0 vars) as [x| |] eqn:X; try discriminate T. destruct (subsets_text fixed full (S i) ss) as [y| |] eqn:Y; try discriminate T. cbn [bind] in T.
    apply (f_equal (get_ok [])) in T. cbn [get_ok] in T. subst t. destruct (variables_lines fixed full i vars 0 x X) as (la & Fa & ->). destruct (IH (S i) y Y) as (ls & F & ->).
    exists (la ++ ls). cbn [with_place flat_map fst snd]. split; [apply Forall2_app; assumption|]. rewrite unlines_app. reflexivity.
Qed.

Lemma descriptors_lines ops : flat_map (fun c => [32; 32] ++ fxy c ++ [10]) ops = unlines (map (fun c => chars "  " ++ fxy c) ops).
Proof. induction ops as [|c ops IH]; [reflexivity|]. cbn [flat_map map unlines]. change (flat_map _ (map _ ops)) with (unlines (map (fun c => chars "  " ++ fxy c) ops)). rewrite IH, <- app_assoc. reflexivity. Qed.

(** The lines of a BUFR bulletin. *)
Theorem C61_bufr_layout : forall fixed full bt dt b t, print_bufr fixed full bt dt b = Ok t ->
  let h := b_header b in
  exists ls, Forall2 (line_of fixed full) (places (b_subsets b)) ls /\
    t = unlines (
      [heading "BUFR" h (length (b_subsets b));
       join [32] [chars " Tables:"; path_text bt; path_text dt];
       chars " Data descriptors:"] ++
      map (fun c => chars "  " ++ fxy c) (b_datadesc b) ++
      [join [32] [chars " BUFR details:"; chars "ed" ++ padded 0 (h_edition h);
                  chars "t" ++ join [58] (map (padded 0) [h_master_table h; h_version h; h_version_local h]);
                  chars (if b_compression b then "c" else "-"); chars "osl" ++ padded 0 (Z.of_nat (length (b_optional b)))];
       chars " Variables:"] ++ ls).
Proof.
  intros fixed full bt dt b t T. cbv zeta. unfold print_bufr in T. destruct (subsets_text fixed full 0 (b_subsets b)) as [x| |] eqn:X; try discriminate T. cbn [bind] in T.
  apply (f_equal (get_ok [])) in T. cbn [get_ok] in T. subst t. destruct (subsets_lines fixed full _ 0%nat x X) as (ls & F & ->). exists ls. split; [exact F|].
  rewrite !unlines_app. unfold descriptors_text. rewrite descriptors_lines. unfold first_line, tables_line, bufr_details, heading, path_text. cbn [unlines flat_map map join].
  replace (chars (if b_compression b then "c" else "-")) with [if b_compression b then 99 else 45] by (destruct (b_compression b); reflexivity).
  change (chars " BUFR details: ed") with (chars " BUFR details:" ++ [32] ++ chars "ed"). change (chars " t") with ([32] ++ chars "t"). change (chars " osl") with ([32] ++ chars "osl").
  change (chars " Tables: ") with (chars " Tables:" ++ [32]). change (chars " subsets") with ([32] ++ chars "subsets").
  repeat (rewrite <- ?app_assoc; cbn [app]). reflexivity.
Qed.

(** The lines of a CREX bulletin. *)
Theorem C61_crex_layout : forall fixed full bt dt x b t, print_crex fixed full bt dt x b = Ok t ->
  let h := cb_header b in
  exists ls, Forall2 (line_of fixed full) (places (cb_subsets b)) ls /\
    t = unlines (
      [heading "CREX" (mkheader (ch_edition h) (ch_mtn h) (ot_centre x) (ot_subcentre x) (ot_update x) (ch_category h) (ch_subcategory h) (ch_subcategory_local h)
                         (ch_mtv h) (ch_mtv_local h) (ot_year x) (ot_month x) (ot_day x) (ot_hour x) (ot_minute x) (ot_second x)) (length (cb_subsets b));
       join [32] [chars " Tables:"; path_text bt; path_text dt];
       chars " Data descriptors:"] ++
      map (fun c => chars "  " ++ fxy c) (cb_datadesc b) ++
      [join [32] [chars " CREX details:"; chars "ed" ++ padded 0 (ch_edition h);
                  chars "t" ++ join [58] (map (padded 0) [ch_mtn h; ch_mtv h; ch_mtv_local h; ch_mtv_bufr h]);
                  chars (if ch_check h then "C" else "-")];
       chars " Variables:"] ++ ls).
Proof.
  intros fixed full bt dt x b t T. cbv zeta. unfold print_crex in T. destruct (subsets_text fixed full 0 (cb_subsets b)) as [y| |] eqn:X; try discriminate T. cbn [bind] in T.
  apply (f_equal (get_ok [])) in T. cbn [get_ok] in T. subst t. destruct (subsets_lines fixed full _ 0%nat y X) as (ls & F & ->). exists ls. split; [exact F|].
  rewrite !unlines_app. unfold descriptors_text. rewrite descriptors_lines. unfold first_line, tables_line, crex_details, heading, path_text.
  cbn [unlines flat_map map join h_edition h_master_table h_centre h_subcentre h_update h_category h_subcategory h_local h_version h_version_local h_year h_month h_day h_hour h_minute h_second].
  replace (chars (if ch_check (cb_header b) then "C" else "-")) with [if ch_check (cb_header b) then 67 else 45] by (destruct (ch_check (cb_header b)); reflexivity).
  change (chars " CREX details: ed") with (chars " CREX details:" ++ [32] ++ chars "ed"). change (chars " t") with ([32] ++ chars "t").
  change (chars " Tables: ") with (chars " Tables:" ++ [32]). change (chars " subsets") with ([32] ++ chars "subsets").
  repeat (rewrite <- ?app_assoc; cbn [app]). reflexivity.
Qed.

(** Subset::print has a number in front of each variable. *)
Theorem C61_subset_layout : forall fixed full vars t, print_subset fixed full vars = Ok t ->
  exists ls, Forall2 (line_of fixed full) (flat_map (fun v => (padded 0 (Z.of_nat (fst v)) ++ [32], v_cell (snd v)) ::
      map (fun a => (chars "           ", a)) (v_attrs (snd v))) (with_place 0 vars)) ls /\ t = unlines ls.
Proof.
  intros fixed full vars. unfold print_subset.
  enough (G : forall j t, print_subset_from fixed full j vars = Ok t ->
    exists ls, Forall2 (line_of fixed full) (flat_map (fun v => (padded 0 (Z.of_nat (fst v)) ++ [32], v_cell (snd v)) ::
      map (fun a => (chars "           ", a)) (v_attrs (snd v))) (with_place j vars)) ls /\ t = unlines ls) by (apply G).
  induction vars as [|v vars IH]; intros j t T; cbn [print_subset_from] in T.
  - apply (f_equal (get_ok [])) in T. cbn in T. subst t. exists []. split; [constructor|reflexivity].
  - unfold var_text in T. destruct (cell_text fixed (shown full) (v_cell v)) as [x| |] eqn:X; try discriminate T.
    destruct (attrs_text fixed (shown full) (v_attrs v)) as [y| |] eqn:Y; try discriminate T. cbn [bind] in T.
    destruct (print_subset_from fixed full (S j) vars) as [z| |] eqn:W; try discriminate T. cbn [bind] in T. apply (f_equal (get_ok [])) in T. cbn [get_ok] in T. subst t.
    destruct (cell_line fixed full (padded 0 (Z.of_nat j) ++ [32]) _ x X) as (ln & L & E). destruct (attrs_lines fixed full _ y Y) as (la & Fa & ->). destruct (IH (S j) z W) as (ls & F & ->).
    exists ((ln :: la) ++ ls). cbn [with_place flat_map fst snd]. split; [apply Forall2_app; [constructor; assumption|exact F]|].
    rewrite unlines_app. cbn [unlines flat_map]. rewrite <- E. repeat (rewrite <- ?app_assoc; cbn [app]). reflexivity.
Qed.

(** ** Same text, same bulletin *)

(** Two BUFR bulletins with the same text have the same header, the same compression, optional sections of
    the same length, the same descriptors, as many subsets, and in them the same variables and
    attributes in the same order, with the same codes and values. *)
Theorem C61_bufr_text : forall fixed full label, printf_correct fixed ->
  forall bt dt bt' dt' b b' t,
  good_path bt -> good_path dt -> good_path bt' -> good_path dt' ->
  header_ok (b_header b) -> header_ok (b_header b') -> 0 <= h_edition (b_header b) -> 0 <= h_edition (b_header b') ->
  Forall in_u16 (b_datadesc b) -> Forall in_u16 (b_datadesc b') ->
  readable_subsets full label (b_subsets b) -> readable_subsets full label (b_subsets b') ->
  print_bufr fixed full bt dt b = Ok t -> print_bufr fixed full bt' dt' b' = Ok t ->
  b_header b = b_header b' /\ b_compression b = b_compression b' /\ length (b_optional b) = length (b_optional b') /\
  b_datadesc b = b_datadesc b' /\ same_subsets (b_subsets b) (b_subsets b').
Proof.
  intros fixed full label P bt dt bt' dt' b b' t G1 G2 G3 G4 H H' Ed Ed' D D' R R' T T'.
  apply every_good in R, R'. unfold print_bufr in T, T'.
  rewrite (subsets_text_is fixed full label P) in T by exact R. rewrite (subsets_text_is fixed full label P) in T' by exact R'. cbn [bind] in T, T'.
  rewrite <- T' in T. clear T' t. apply (f_equal (get_ok [])) in T. cbn [get_ok] in T.
  destruct H, H'. unfold in_u8, in_u16 in *.
  apply first_line_then in T as (E & En & T);
    [|repeat (apply Forall_cons; [cbn [b_header] in *; lia|]); apply Forall_nil|repeat (apply Forall_cons; [cbn [b_header] in *; lia|]); apply Forall_nil].
  apply tables_then in T; [|assumption..]. unfold descriptors_text in T. rewrite <- !app_assoc in T. apply app_inv_head in T. apply app_inv_head in T.
  apply descriptors_then in T as [Ed2 T]; [|exact D|exact D'|discriminate|discriminate].
  unfold bufr_details in T. repeat rewrite <- app_assoc in T. apply app_inv_head in T.
  apply padded_then in T as [Q1 T]; [|lia|lia|reflexivity|reflexivity]. apply app_inv_head in T.
  apply padded_then in T as [Q2 T]; [|lia|lia|reflexivity|reflexivity]. apply app_inv_head in T.
  apply padded_then in T as [Q3 T]; [|lia|lia|reflexivity|reflexivity]. apply app_inv_head in T.
  apply padded_then in T as [Q4 T]; [|lia|lia|reflexivity|reflexivity]. apply app_inv_head in T.
  assert (Cp : b_compression b = b_compression b').
  { apply (f_equal (hd 0)) in T. cbn [app hd] in T. destruct (b_compression b), (b_compression b'); try reflexivity; discriminate T. }
  rewrite Cp in T. apply app_inv_head in T. apply app_inv_head in T.
  apply padded_then in T as [Q5 T]; [|lia|lia|reflexivity|reflexivity]. apply app_inv_head in T. apply app_inv_head in T. apply app_inv_head in T.
  apply (lines_inj fixed full label P) in T; [|apply all_entries_good; exact R|apply all_entries_good; exact R'].
  split; [|split; [exact Cp|split; [lia|split; [exact Ed2|apply (split_subsets _ _ 0); assumption]]]].
  destruct (b_header b), (b_header b'). cbn in *. injection E. intros. subst. reflexivity.
Qed.

(** The same for CREX. *)
Theorem C61_crex_text : forall fixed full label, printf_correct fixed ->
  forall bt dt bt' dt' x x' b b' t,
  good_path bt -> good_path dt -> good_path bt' -> good_path dt' ->
  Forall (fun n => 0 <= n) [ch_category (cb_header b); ch_subcategory (cb_header b); ch_subcategory_local (cb_header b); ot_centre x; ot_subcentre x;
    ot_year x; ot_month x; ot_day x; ot_hour x; ot_minute x; ot_second x; ot_update x] ->
  Forall (fun n => 0 <= n) [ch_category (cb_header b'); ch_subcategory (cb_header b'); ch_subcategory_local (cb_header b'); ot_centre x'; ot_subcentre x';
    ot_year x'; ot_month x'; ot_day x'; ot_hour x'; ot_minute x'; ot_second x'; ot_update x'] ->
  Forall (fun n => 0 <= n) [ch_edition (cb_header b); ch_mtn (cb_header b); ch_mtv (cb_header b); ch_mtv_local (cb_header b); ch_mtv_bufr (cb_header b)] ->
  Forall (fun n => 0 <= n) [ch_edition (cb_header b'); ch_mtn (cb_header b'); ch_mtv (cb_header b'); ch_mtv_local (cb_header b'); ch_mtv_bufr (cb_header b')] ->
  Forall in_u16 (cb_datadesc b) -> Forall in_u16 (cb_datadesc b') ->
  readable_subsets full label (cb_subsets b) -> readable_subsets full label (cb_subsets b') ->
  print_crex fixed full bt dt x b = Ok t -> print_crex fixed full bt' dt' x' b' = Ok t ->
  cb_header b = cb_header b' /\ x = x' /\ cb_datadesc b = cb_datadesc b' /\ same_subsets (cb_subsets b) (cb_subsets b').
Proof.
  intros fixed full label P bt dt bt' dt' x x' b b' t G1 G2 G3 G4 H H' K K' D D' R R' T T'.
  apply every_good in R, R'. unfold print_crex in T, T'.
  rewrite (subsets_text_is fixed full label P) in T by exact R. rewrite (subsets_text_is fixed full label P) in T' by exact R'. cbn [bind] in T, T'.
  rewrite <- T' in T. clear T' t. apply (f_equal (get_ok [])) in T. cbn [get_ok] in T.
  apply first_line_then in T as (E & En & T); [|exact H|exact H'].
  apply tables_then in T; [|assumption..]. unfold descriptors_text in T. rewrite <- !app_assoc in T. apply app_inv_head in T. apply app_inv_head in T.
  apply descriptors_then in T as [Ed2 T]; [|exact D|exact D'|discriminate|discriminate].
  repeat match goal with X : Forall _ (_ :: _) |- _ => apply Forall_cons_iff in X as [? X] end.
  unfold crex_details in T. repeat rewrite <- app_assoc in T. apply app_inv_head in T.
  apply padded_then in T as [Q1 T]; [|assumption|assumption|reflexivity|reflexivity]. apply app_inv_head in T.
  apply padded_then in T as [Q2 T]; [|assumption|assumption|reflexivity|reflexivity]. apply app_inv_head in T.
  apply padded_then in T as [Q3 T]; [|assumption|assumption|reflexivity|reflexivity]. apply app_inv_head in T.
  apply padded_then in T as [Q4 T]; [|assumption|assumption|reflexivity|reflexivity]. apply app_inv_head in T.
  apply padded_then in T as [Q5 T]; [|assumption|assumption|reflexivity|reflexivity]. apply app_inv_head in T.
  assert (Cp : ch_check (cb_header b) = ch_check (cb_header b')).
  { apply (f_equal (hd 0)) in T. cbn [app hd] in T. destruct (ch_check (cb_header b)), (ch_check (cb_header b')); try reflexivity; discriminate T. }
  rewrite Cp in T. apply app_inv_head in T. apply app_inv_head in T. apply app_inv_head in T. apply app_inv_head in T.
  apply (lines_inj fixed full label P) in T; [|apply all_entries_good; exact R|apply all_entries_good; exact R'].
  split; [|split; [|split; [exact Ed2|apply (split_subsets _ _ 0); assumption]]].
  - destruct (cb_header b), (cb_header b'). cbn in *. injection E. intros. subst. reflexivity.
  - destruct x, x'. cbn in *. injection E. intros. subst. reflexivity.
Qed.

(** With the same definitions in the same places the values are the same. *)
Theorem C61_same_values : forall s t, same_subsets s t ->
  Forall2 (Forall2 (fun v w => map c_info (cells v) = map c_info (cells w))) s t -> s = t.
Proof.
  assert (A : forall l m, Forall2 same_cell l m -> map c_info l = map c_info m -> l = m).
  { induction 1 as [|c d l m [_ S] F IH]; intros E; [reflexivity|]. cbn [map] in E.
    assert (E1 : c_info c = c_info d) by (apply (f_equal (hd no_info)) in E; exact E).
    assert (E2 : map c_info l = map c_info m) by (apply (f_equal (@tl varinfo)) in E; exact E). rewrite (S E1), (IH E2). reflexivity. }
  intros s t S. induction S as [|vars vars' s t F S IH]; intros D; [reflexivity|]. inversion D as [|x y p q Dv D']; subst. rewrite (IH D'). f_equal.
  clear -F Dv A. revert Dv. induction F as [|v w l m Sv F IH]; intros Dv; [reflexivity|]. inversion Dv as [|x y p q E Dv']; subst. rewrite (IH Dv'). f_equal.
  pose proof (A _ _ Sv E) as C. unfold cells in C. destruct v as [c a], w as [c' a']. cbn [v_cell v_attrs] in C.
  assert (C1 : c = c') by (apply (f_equal (hd c)) in C; exact C). assert (C2 : a = a') by (apply (f_equal (@tl cell)) in C; exact C). congruence.
Qed.

(** What comes out of the decoders can be printed. *)
Lemma sound_prints fixed o c u : sound o c -> exists t, format_file fixed c u = Ok t.
Proof.
  intros S. unfold format_file. destruct (c_val c) as [v|] eqn:V; [|eauto].
  assert (I : info_ok (c_info c)) by (destruct S as [[I _]|(_ & I & _)]; exact I).
  assert (N : forall k, v = VInt k -> is_numeric (vi_type (c_info c)) = true /\ int_min <= k <= int_max).
  { intros k ->. destruct S as [[_ S]|(_ & _ & N & _ & S)].
    - rewrite V in S. unfold value_ok in S. destruct (vi_type (c_info c)) eqn:Ty; try contradiction;
        (split; [reflexivity|]); destruct (info_ok_numeric _ I) as (_ & I1 & I2 & _); try (rewrite Ty; reflexivity); lia.
    - split; [exact N|]. destruct (info_ok_numeric _ I N) as (_ & I1 & I2 & I3 & I4). rewrite V in S.
      destruct S as [S|S]; injection S as ->; unfold int_min, int_max in *; lia. }
  destruct v as [k|s|b].
  - destruct (N k eq_refl) as [Nk K]. destruct (enqd_number c k I Nk K V) as (d & E & _). destruct (vi_type (c_info c)); try discriminate Nk; rewrite E; cbn [bind]; eauto.
  - destruct S as [[_ S]|(_ & _ & _ & _ & [S|S])]; rewrite V in S; try discriminate S. unfold value_ok in S. destruct (vi_type (c_info c)); try contradiction. eauto.
  - destruct S as [[_ S]|(_ & _ & _ & _ & [S|S])]; rewrite V in S; try discriminate S. unfold value_ok in S. destruct (vi_type (c_info c)); try contradiction.
    replace (Nat.ltb (length b) (ilen (c_info c))) with false by lia. eauto.
Qed.

Lemma subsets_print fixed full o : forall ss i, Forall (Forall (sound_var o)) ss -> exists t, subsets_text fixed full i ss = Ok t.
Proof.
  assert (A : forall l, Forall (sound o) l -> exists t, attrs_text fixed (shown full) l = Ok t).
  { induction 1 as [|a l S F IH]; [eexists; reflexivity|]. cbn [attrs_text]. unfold cell_text. destruct (sound_prints fixed o a (chars "(undef)") S) as (t & ->).
    destruct IH as (u & ->). cbn [bind]. eauto. }
  assert (B : forall vars i j, Forall (sound_var o) vars -> exists t, variables_text fixed full i j vars = Ok t).
  { induction vars as [|v r IH]; intros i j F; [eexists; reflexivity|]. inversion F as [|x y (Sv & Sa & _) F']; subst. cbn [variables_text]. unfold var_text, cell_text.
    destruct (sound_prints fixed o (v_cell v) (chars "(undef)") Sv) as (t & ->). destruct (A _ Sa) as (u & ->). destruct (IH i (S j) F') as (w & ->). cbn [bind]. eauto. }
  induction ss as [|vars r IH]; intros i F; [eexists; reflexivity|]. inversion F as [|x y Fv F']; subst. cbn [subsets_text].
  destruct (B vars i 0%nat Fv) as (t & ->). destruct (IH (S i) F') as (u & ->). cbn [bind]. eauto.
Qed.

Theorem C61_decoded_bufr_is_printed : forall fixed full bt dt opt load skip fuel d b T found, hook_ok opt ->
  decode opt load skip fuel d = Ok (b, T, found) -> table_ok (tb_b T) -> defs_ok (tb_b T) -> exists t, print_bufr fixed full bt dt b = Ok t.
Proof.
  intros fixed full bt dt opt load skip fuel d b T found HO E HT HD. pose proof (Crex.SoundProperties.C56_bufr _ _ _ _ _ _ _ _ HO E HT HD) as S.
  unfold print_bufr. destruct (subsets_print fixed full opt (b_subsets b) 0 S) as (t & ->). cbn [bind]. eauto.
Qed.
Theorem C61_decoded_crex_is_printed : forall fixed full bt dt x o load fuel data b T, hook_ok o ->
  decode_crex o load fuel data = Ok b -> load (cb_header b) = Ok T -> table_ok (tb_b T) -> defs_ok (tb_b T) -> exists t, print_crex fixed full bt dt x b = Ok t.
Proof.
  intros fixed full bt dt x o load fuel data b T HO E L HT HD. pose proof (Crex.SoundProperties.C56_crex _ _ _ _ _ _ HO E L HT HD) as S.
  unfold print_crex. destruct (subsets_print fixed full o (cb_subsets b) 0 S) as (t & ->). cbn [bind]. eauto.
Qed.

(** ** What the text does not tell *)

Definition text_info : varinfo := get_ok no_info (set_bufr (wr_var 0 1 212) "CCITTIA5" 0 64 0 512).
Definition text_cell (s : string) : cell := mkcell text_info (Some (VStr (chars s))).
Definition two_lines : list Z := chars "A" ++ [10] ++ chars "  [0][1] 001212 (CCITTIA5): B".

Lemma text_info_ok : info_ok text_info.
Proof.
  assert (E : set_bufr (wr_var 0 1 212) "CCITTIA5" 0 64 0 512 = Ok text_info) by (apply get_ok_eq; vm_compute; reflexivity).
  apply set_bufr_ok in E; auto; unfold int_min, int_max; lia.
Qed.

(** A missing value and the text "(undef)" look the same. *)
Theorem C61_missing_refuted : forall fixed full,
  cell_ok (mkcell text_info None) /\ cell_ok (text_cell "(undef)") /\
  cell_text fixed (shown full) (mkcell text_info None) = cell_text fixed (shown full) (text_cell "(undef)").
Proof.
  intros fixed full. split; [|split].
  - split; [exact text_info_ok|exact I].
  - split; [exact text_info_ok|]. cbn [text_cell c_val c_info]. unfold value_ok. change (vi_type text_info) with TString. cbv iota. split; [vm_compute; lia|].
    repeat (apply Forall_cons; [discriminate|]). apply Forall_nil.
  - reflexivity.
Qed.

(** A text with a newline can look like two variables. *)
Theorem C61_newline_refuted : forall fixed bt dt h ops,
  cell_ok (mkcell text_info (Some (VStr two_lines))) /\
  exists t, print_bufr fixed (fun _ => []) bt dt (mkbulletin h [] false ops [[mkvar (mkcell text_info (Some (VStr two_lines))) []]]) = Ok t /\
            print_bufr fixed (fun _ => []) bt dt (mkbulletin h [] false ops [[mkvar (text_cell "A") []; mkvar (text_cell "B") []]]) = Ok t.
Proof.
  intros fixed bt dt h ops. split.
  - split; [exact text_info_ok|]. cbn [c_val c_info]. unfold value_ok. change (vi_type text_info) with TString. cbv iota. split; [vm_compute; lia|].
    repeat (apply Forall_cons; [discriminate|]). apply Forall_nil.
  - unfold print_bufr. cbn [b_header b_subsets b_datadesc b_compression b_optional length]. eexists. split; reflexivity.
Qed.

(** The optional section is not in the text, only its length. *)
Theorem C61_optional_refuted : forall fixed full bt dt h c ops ss o1 o2, length o1 = length o2 ->
  print_bufr fixed full bt dt (mkbulletin h o1 c ops ss) = print_bufr fixed full bt dt (mkbulletin h o2 c ops ss).
Proof. intros fixed full bt dt h c ops ss o1 o2 E. unfold print_bufr, bufr_details. cbn [b_header b_subsets b_datadesc b_compression b_optional]. rewrite E. reflexivity. Qed.

(** To a C++ stream a variable is never printed as it is to a file: the first character of the code is a letter there. *)
Theorem C61_stream_refuted : forall fixed full v t u,
  var_text fixed (shown full) v = Ok t -> var_stream fixed full v = Ok u -> t <> u.
Proof.
  intros fixed full v t u T U E. subst u. unfold var_text, cell_text in T. unfold var_stream, cell_stream in U.
  destruct (format_file fixed (v_cell v) (chars "(undef)")) as [f| |]; try discriminate T. destruct (attrs_text fixed (shown full) (v_attrs v)) as [a| |]; try discriminate T.
  destruct (format fixed (v_cell v) (chars "(undef)")) as [f'| |]; try discriminate U. destruct (attrs_stream fixed full (v_attrs v)) as [a'| |]; try discriminate U.
  cbn [bind] in T, U. rewrite <- U in T. apply (f_equal (get_ok [])) in T. cbn [get_ok] in T. apply (f_equal (hd 0)) in T. revert T. unfold fxy, varcode_format. cbn [app hd tl].
  pose proof (var_f_range (c_code (v_cell v))).
  assert (F : var_f (c_code (v_cell v)) = 0 \/ var_f (c_code (v_cell v)) = 1 \/ var_f (c_code (v_cell v)) = 2 \/ var_f (c_code (v_cell v)) = 3) by lia.
  destruct F as [F|[F|[F|F]]]; rewrite F; discriminate.
Qed.
(** The spaces that indent an attribute are there a line of their own, and its line is not indented. *)
Theorem C61_stream_indent_refuted : forall fixed,
  var_text fixed (shown (fun _ => chars "NAME")) (mkvar (text_cell "A") [text_cell "B"]) =
    Ok (chars "001212 NAME(CCITTIA5): A" ++ [10] ++ chars "           001212 NAME(CCITTIA5): B" ++ [10]) /\
  var_stream fixed (fun _ => chars "NAME") (mkvar (text_cell "A") [text_cell "B"]) =
    Ok (chars "B01212 NAME(CCITTIA5): A" ++ [10] ++ chars "           " ++ [10] ++ chars "B01212 NAME(CCITTIA5): B" ++ [10]).
Proof. intros fixed. split; vm_compute; reflexivity. Qed.

(** ** A bulletin with attributes, missing values and altered definitions *)
Import Codec.Properties Message.Properties.

Definition ex_full (i : varinfo) : list Z := chars "NAME".
(** The labels of the codes of a list of cells. *)
Definition label_of (l : list cell) (code : Z) : list Z :=
  match find (fun c => c_code c =? code) l with
  | Some c => firstn 64 (ex_full (c_info c)) ++ chars "(" ++ chars (vi_unit (c_info c)) ++ chars "): "
  | None => []
  end.
Definition ex_label : Z -> list Z := label_of (flat_map cells (ex_subset 300)).

Definition readable_b (c : cell) : bool :=
  (0 <=? c_code c) && (c_code c <? 2 ^ 16) &&
  match c_val c, vi_type (c_info c) with
  | None, _ => true
  | Some (VInt n), TInteger | Some (VInt n), TDecimal => (vi_imin (c_info c) <=? n) && (n <=? vi_imax (c_info c))
  | Some (VStr s), TString => Nat.leb (length s) (ilen (c_info c)) && forallb (fun x => negb (x =? 0) && negb (x =? 10)) s &&
      (if list_eq_dec Z.eq_dec s (chars "(undef)") then false else true)
  | _, _ => false
  end.
Lemma readable_b_ok c : info_ok (c_info c) -> readable_b c = true -> readable c.
Proof.
  intros I B. unfold readable_b in B. apply andb_true_iff in B as [B V]. apply andb_true_iff in B as [B1 B2]. unfold readable, cell_ok, value_ok.
  destruct (c_val c) as [[n|s|b]|]; [| | |split; [auto|split; [lia|exact Logic.I]]]; destruct (vi_type (c_info c)); try discriminate V.
  1,2: split; [split; [exact I|lia]|split; [lia|exact Logic.I]].
  apply andb_true_iff in V as [V V3]. apply andb_true_iff in V as [V1 V2]. rewrite forallb_forall in V2.
  split; [split; [exact I|split; [lia|]]|split; [lia|split]].
  - apply Forall_forall. intros x X. specialize (V2 x X). lia.
  - apply Forall_forall. intros x X. specialize (V2 x X). lia.
  - destruct (list_eq_dec Z.eq_dec s (chars "(undef)")); [discriminate|assumption].
Qed.
Definition labelled_b (label : Z -> list Z) (c : cell) : bool :=
  forallb (fun x => negb (x =? 10)) (label (c_code c)) &&
  (if list_eq_dec Z.eq_dec (firstn 64 (ex_full (c_info c)) ++ chars "(" ++ chars (vi_unit (c_info c)) ++ chars "): ") (label (c_code c)) then true else false).
Lemma labelled_b_ok label c : labelled_b label c = true -> labelled ex_full label c.
Proof.
  unfold labelled_b, labelled. intros B. apply andb_true_iff in B as [B1 B2]. split.
  - rewrite forallb_forall in B1. apply Forall_forall. intros x X. specialize (B1 x X). lia.
  - destruct (list_eq_dec Z.eq_dec _ _); [assumption|discriminate].
Qed.

Lemma ex_readable wide : forallb (fun v => forallb readable_b (cells v)) (ex_subset wide) = true ->
  forallb (fun v => forallb (labelled_b ex_label) (cells v)) (ex_subset wide) = true ->
  Forall (fun v => Forall readable (cells v)) (ex_subset wide) /\ Forall (fun v => Forall (labelled ex_full ex_label) (cells v)) (ex_subset wide).
Proof.
  intros R L. pose proof (ex_subset_ok wide) as K. rewrite forallb_forall in R, L. rewrite Forall_forall in K. split; apply Forall_forall; intros v V.
  - specialize (R v V). specialize (K v V). rewrite forallb_forall in R. apply Forall_forall. intros c C. apply readable_b_ok; [|apply R; exact C].
    destruct K as [K1 K2]. destruct C as [<-|C]; [exact K1|]. rewrite Forall_forall in K2. apply K2. exact C.
  - specialize (L v V). rewrite forallb_forall in L. apply Forall_forall. intros c C. apply labelled_b_ok, L. exact C.
Qed.

Example C61_bufr_text_example : forall ed centre year,
  readable_subsets ex_full ex_label (b_subsets (ex_bulletin ed centre year)) /\ Forall in_u16 (b_datadesc (ex_bulletin ed centre year)) /\
  good_path None /\ good_path (Some (chars "B0000000000000013000.txt")).
Proof.
  intros ed centre year. split; [|split; [|split]].
  - destruct (ex_readable 300) as [A1 A2]; [vm_compute; reflexivity|vm_compute; reflexivity|]. destruct (ex_readable 400) as [B1 B2]; [vm_compute; reflexivity|vm_compute; reflexivity|].
    split; unfold every_cell; cbn [b_subsets ex_bulletin]; (apply Forall_cons; [assumption|apply Forall_cons; [assumption|apply Forall_nil]]).
  - exact ex_ops_ok.
  - exact Logic.I.
  - repeat (apply Forall_cons; [discriminate|]). apply Forall_nil.
Qed.

(** The start of its text. *)
Example C61_first_lines :
  match print_bufr (fun _ _ => chars "number") ex_full None None (ex_bulletin 4 98 2026) with
  | Ok t => firstn 150 t
  | _ => []
  end =
  chars "BUFR 0:7:5 98:3 2026-12-31 23:59:58 1 2 subsets" ++ [10] ++ chars " Tables: (not loaded) (not loaded)" ++ [10] ++ chars " Data descriptors:" ++ [10] ++
  chars "  301002" ++ [10] ++ chars "  001011" ++ [10] ++ chars "  201130" ++ [10] ++ chars "  001001" ++ [10] ++ chars "  201000" ++ [10] ++ chars "  2".
Proof. vm_compute. reflexivity. Qed.

Example C61_crex_text_example :
  let b := mkcb (mkcheader 0 2 19 19 0 1 255 0 true) [wr_var 0 1 212] [[mkvar (text_cell "A") []]; []; [mkvar (mkcell text_info None) [text_cell "B"]]] in
  readable_subsets ex_full (label_of [text_cell "A"]) (cb_subsets b) /\ Forall in_u16 (cb_datadesc b) /\
  Forall (fun n => 0 <= n) [ch_edition (cb_header b); ch_mtn (cb_header b); ch_mtv (cb_header b); ch_mtv_local (cb_header b); ch_mtv_bufr (cb_header b)].
Proof.
  assert (R : forall v, readable_b (mkcell text_info v) = true -> readable (mkcell text_info v)) by (intros v; apply readable_b_ok; exact text_info_ok).
  cbv zeta. cbn [cb_subsets cb_datadesc cb_header ch_edition ch_mtn ch_mtv ch_mtv_local ch_mtv_bufr]. split; [|split].
  - split; unfold every_cell, cells; cbn [v_cell v_attrs].
    + repeat first [apply Forall_nil|apply Forall_cons]; apply R; vm_compute; reflexivity.
    + repeat first [apply Forall_nil|apply Forall_cons]; apply labelled_b_ok; vm_compute; reflexivity.
  - apply Forall_cons; [unfold in_u16; vm_compute; split; [discriminate|reflexivity]|apply Forall_nil].
  - repeat (apply Forall_cons; [lia|]). apply Forall_nil.
Qed.

Print Assumptions C61_bufr_layout.
Print Assumptions C61_crex_layout.
Print Assumptions C61_subset_layout.
Print Assumptions C61_bufr_text.
Print Assumptions C61_crex_text.
Print Assumptions C61_same_values.
Print Assumptions C61_decoded_bufr_is_printed.
Print Assumptions C61_decoded_crex_is_printed.

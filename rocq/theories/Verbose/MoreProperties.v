(** C66: the text depends on the template, the tables and the values only; what is told of an attribute. *)
From Coq Require Import ZArith Lia ZifyBool ZifyNat String.
From Verif Require Import Base Bits.Model Num.Float Varcode.Model Varinfo.Model Tables.Model Tables.Spec
  Var.Model Var.Spec Var.FormatSpec Var.Format Interp.Model Interp.Spec Interp.Hom Interp.Appears Interp.Holds Interp.Example
  Codec.Model Codec.Compressed Codec.AgainProperties Message.Model Message.Properties Message.BytesProperties Listing.Model Listing.Spec
  Verbose.Model Verbose.Spec Verbose.TextRuns Verbose.UniqueProofs Verbose.Properties.
Local Open Scope Z_scope.

(** Two bulletins with the same template and the same values have the same text, whatever the bytes, the options and the rest of
    the bulletins are. *)
Theorem C66_text_depends : forall fixed full path1 opt1 load1 skip1 fuel1 d1 b1 ends1 t1 path2 opt2 load2 skip2 fuel2 d2 b2 ends2 t2 T,
  decode_verbose fixed full path1 opt1 load1 skip1 fuel1 d1 = Ok (b1, T, ends1, t1) ->
  decode_verbose fixed full path2 opt2 load2 skip2 fuel2 d2 = Ok (b2, T, ends2, t2) ->
  straightforward T (b_datadesc b1) -> b_compression b1 = false -> b_compression b2 = false ->
  b_datadesc b1 = b_datadesc b2 -> b_subsets b1 = b_subsets b2 -> t1 = t2.
Proof.
  intros fixed full path1 opt1 load1 skip1 fuel1 d1 b1 ends1 t1 path2 opt2 load2 skip2 fuel2 d2 b2 ends2 t2 T D1 D2 S C1 C2 EO ES.
  destruct (C66_text _ _ _ _ _ _ _ _ _ _ _ _ D1 S C1) as (x1 & -> & F1). rewrite EO in S, F1. rewrite ES in F1.
  destruct (C66_text _ _ _ _ _ _ _ _ _ _ _ _ D2 S C2) as (x2 & -> & F2). f_equal. clear - F1 F2.
  revert x2 F2. induction F1 as [|v t vs x1 D F1 IH]; intros x2 F2; inversion F2 as [|? t' ? x2' D' F2']; subst; [reflexivity|]. f_equal; [|apply IH; exact F2'].
  apply (told_unique T full (var_shows fixed) var_counts (var_shows_one fixed) (fun _ => True) (fun v n n' _ => var_counts_one v n n') 0 (b_datadesc b2) v t t'); auto.
  apply Forall_forall. auto.
Qed.
Print Assumptions C66_text_depends.

(** The columns of some subsets. *)
Lemma push_inj : forall s1 c1 s2 c2, length c1 = length s1 -> length c2 = length s2 -> push_all s1 c1 = push_all s2 c2 -> s1 = s2 /\ c1 = c2.
Proof.
  induction s1 as [|x s1 IH]; intros [|v c1] [|y s2] [|u c2] L1 L2 E; try discriminate; [auto|]. unfold push_all in E. cbn [combine map fst snd] in E.
  assert (E1 : x ++ [v] = y ++ [u]) by congruence. apply (f_equal (@tl _)) in E. cbn [tl] in E. apply app_inj_tail in E1 as [<- <-].
  destruct (IH c1 s2 c2) as [<- <-]; [cbn in L1; lia|cbn in L2; lia|exact E|]. auto.
Qed.
Lemma columns_last n cols c : of_columns n (cols ++ [c]) = push_all (of_columns n cols) c.
Proof. unfold of_columns. rewrite fold_left_app. reflexivity. Qed.
Lemma push_not_new n subs c : (n <> 0)%nat -> length subs = n -> length c = n -> push_all subs c <> repeat [] n.
Proof.
  intros N L1 L2 E. destruct n as [|n]; [lia|]. destruct subs as [|x subs]; [discriminate|]. destruct c as [|v c]; [discriminate|].
  unfold push_all in E. cbn [combine map fst snd repeat] in E. assert (X : x ++ [v] = []) by congruence. destruct x; discriminate.
Qed.
Lemma columns_inj n : (n <> 0)%nat -> forall c1 c2, Forall (fun c => length c = n) c1 -> Forall (fun c => length c = n) c2 ->
  of_columns n c1 = of_columns n c2 -> c1 = c2.
Proof.
  intros N. induction c1 as [|a c1 IH] using rev_ind; intros c2 F1 F2 E.
  - destruct c2 as [|b c2 _] using rev_ind; [reflexivity|]. exfalso. apply Forall_app in F2 as [F2 Fb]. apply Forall_inv in Fb. rewrite columns_last in E. symmetry in E.
    apply (push_not_new n (of_columns n c2) b N); [apply columns_size; exact F2|exact Fb|exact E].
  - apply Forall_app in F1 as [F1 Fa]. apply Forall_inv in Fa. rewrite columns_last in E. destruct c2 as [|b c2 _] using rev_ind.
    + exfalso. apply (push_not_new n (of_columns n c1) a N); [apply columns_size; exact F1|exact Fa|exact E].
    + apply Forall_app in F2 as [F2 Fb]. apply Forall_inv in Fb. rewrite columns_last in E.
      apply push_inj in E as [E <-]; [|rewrite columns_size by exact F1; exact Fa|rewrite columns_size by exact F2; exact Fb]. f_equal. apply IH; assumption.
Qed.

Theorem C66_compressed_text_depends : forall fixed full path1 opt1 load1 skip1 fuel1 d1 b1 ends1 t1 path2 opt2 load2 skip2 fuel2 d2 b2 ends2 t2 T,
  decode_verbose fixed full path1 opt1 load1 skip1 fuel1 d1 = Ok (b1, T, ends1, t1) ->
  decode_verbose fixed full path2 opt2 load2 skip2 fuel2 d2 = Ok (b2, T, ends2, t2) ->
  straightforward T (b_datadesc b1) -> b_compression b1 = true -> b_compression b2 = true ->
  b_datadesc b1 = b_datadesc b2 -> b_subsets b1 = b_subsets b2 -> b_subsets b1 <> [] -> t1 = t2.
Proof.
  intros fixed full path1 opt1 load1 skip1 fuel1 d1 b1 ends1 t1 path2 opt2 load2 skip2 fuel2 d2 b2 ends2 t2 T D1 D2 S C1 C2 EO ES NE.
  destruct (C66_compressed_text _ _ _ _ _ _ _ _ _ _ _ _ D1 S C1) as (x1 & E1 & L1 & F1). rewrite EO in S, F1. rewrite ES in E1, L1, NE.
  destruct (C66_compressed_text _ _ _ _ _ _ _ _ _ _ _ _ D2 S C2) as (x2 & E2 & L2 & F2).
  set (n := length (b_subsets b2)) in *. assert (N : (n <> 0)%nat) by (unfold n; destruct (b_subsets b2); [contradiction|discriminate]). clearbody n.
  assert (x2 = x1) as -> by (apply (columns_inj n N); [exact L2|exact L1|congruence]).
  apply (told_unique T full (column_shows fixed) column_counts (column_shows_one fixed) (fun c => c <> []) column_counts_one 0 (b_datadesc b2) x1 t1 t2); auto.
  eapply Forall_impl; [|exact L1]. intros c Lc ->. cbn in Lc. lia.
Qed.
Print Assumptions C66_compressed_text_depends.

(** ** Attributes *)

(** The attribute [code] of a variable, or a dash. *)
Definition attribute_shows (fixed : nat -> f64 -> list Z) (code : Z) (v : var) (t : list Z) : Prop :=
  (exists a, enqa code (v_attrs v) = Some a /\ format_file fixed a (chars "-") = Ok t) \/ (enqa code (v_attrs v) = None /\ t = chars "-").
(** The lines of an attribute [i] of the variable [v] at [pos]. *)
Definition attribute_lines (full : varinfo -> list Z) (n : nat) (i : varinfo) (pos : nat) (v : var) (t : list Z) : list Z :=
  under_line n (chars "attribute " ++ fxy (vi_code i) ++ chars " " ++ full i) ++
  under_line n (chars "at position " ++ digits (Z.of_nat pos) ++ chars ": " ++ fxy (vi_code (c_info (v_cell v))) ++ chars " " ++ full (c_info (v_cell v))) ++
  under_line n t.

Lemma attr_text_shows fixed code pos vars t : attr_text fixed code pos vars = Ok t -> exists v, nth_error vars pos = Some v /\ attribute_shows fixed code v t.
Proof.
  unfold attr_text, var_at. destruct (nth_error vars pos) as [v|]; cbn [bind]; [|discriminate]. intros E. exists v. split; [reflexivity|].
  destruct (enqa code (v_attrs v)) as [a|] eqn:A; [left; exists a; auto|right]. apply same_ok in E. auto.
Qed.

(** One subset at a time: the variable at the position, and its attribute, after the decoding. *)
Theorem C66_attribute : forall fixed full opt T skip i pos w w',
  on_attr (teller full (one_by_one fixed opt T skip)) i pos w = Ok w' ->
  te_indent w' = te_indent w /\ on_attr (decoder opt T skip) i pos (te_s w) = Ok (te_s w') /\
  exists v t, nth_error (d_vars (te_s w')) pos = Some v /\ attribute_shows fixed (vi_code i) v t /\
    te_out w' = te_out w ++ attribute_lines full (te_indent w) i pos v t.
Proof.
  intros fixed full opt T skip i pos w w' E. cbn [teller on_attr] in E. unfold v_attr in E. inv_bind E. inv_bind Hk. inv_bind Hk0. apply same_ok in Hk. subst w'.
  rename a into s, a0 into j, a1 into t. cbn [one_by_one tg_visitor tg_info tg_attr] in Hb, Hb0, Hb1. apply attr_text_shows in Hb1 as (v & Ev & Sv).
  unfold var_at in Hb0. rewrite Ev in Hb0. cbn [bind] in Hb0. apply same_ok in Hb0. subst j. split; [reflexivity|]. split; [exact Hb|]. exists v, t. split; [exact Ev|]. split; [exact Sv|].
  cbn [te_out te_indent say say_continued with_s]. unfold attribute_lines, under_line. rewrite !repeat_app. change (chars " ") with [32]. rewrite <- !app_assoc. reflexivity.
Qed.
Print Assumptions C66_attribute.

(** With compression: the attribute of each subset, each followed by a space; the definition is that of the first subset. *)
Inductive attributes_show (fixed : nat -> f64 -> list Z) (code : Z) (pos : nat) : list (list var) -> list Z -> Prop :=
| as_end : attributes_show fixed code pos [] []
| as_more vars v t subs u : nth_error vars pos = Some v -> attribute_shows fixed code v t -> attributes_show fixed code pos subs u ->
    attributes_show fixed code pos (vars :: subs) (t ++ chars " " ++ u).

Lemma each_shows fixed code pos : forall subs t, each (attr_text fixed code pos) subs = Ok t -> attributes_show fixed code pos subs t.
Proof.
  induction subs as [|vars subs IH]; intros t E; cbn [each] in E; [apply same_ok in E; subst; constructor|].
  inv_bind E. inv_bind Hk. apply same_ok in Hk0. subst t. apply attr_text_shows in Hb as (v & Ev & Sv). eapply as_more; eauto.
Qed.

Theorem C66_compressed_attribute : forall fixed full opt T skip i pos w w',
  on_attr (teller full (together fixed opt T skip)) i pos w = Ok w' ->
  te_indent w' = te_indent w /\ on_attr (cdecoder opt T skip) i pos (te_s w) = Ok (te_s w') /\
  exists vars v t, hd_error (k_subs (te_s w')) = Some vars /\ nth_error vars pos = Some v /\ attributes_show fixed (vi_code i) pos (k_subs (te_s w')) t /\
    te_out w' = te_out w ++ attribute_lines full (te_indent w) i pos v t.
Proof.
  intros fixed full opt T skip i pos w w' E. cbn [teller on_attr] in E. unfold v_attr in E. inv_bind E. inv_bind Hk. inv_bind Hk0. apply same_ok in Hk. subst w'.
  rename a into s, a0 into j, a1 into t. cbn [together tg_visitor tg_info tg_attr] in Hb, Hb0, Hb1. apply each_shows in Hb1.
  split; [reflexivity|]. split; [exact Hb|]. cbn [te_s say say_continued with_s]. destruct (k_subs s) as [|vars subs] eqn:ES; [discriminate|].
  unfold var_at in Hb0. destruct (nth_error vars pos) as [v|] eqn:Ev; cbn [bind] in Hb0; [|discriminate]. apply same_ok in Hb0. subst j.
  exists vars, v, t. split; [reflexivity|]. split; [exact Ev|]. split; [exact Hb1|].
  cbn [te_out te_indent say say_continued with_s]. unfold attribute_lines, under_line. rewrite !repeat_app. change (chars " ") with [32]. rewrite <- !app_assoc. reflexivity.
Qed.
Print Assumptions C66_compressed_attribute.

(** ** Examples *)

(** The message of C66_text, told with another name of the table. *)
Definition ex_decode_with (name : string) (d : list Z) : res (bulletin * tables * list nat * list Z) :=
  decode_verbose (fun _ _ => chars "N") (fun _ => chars "D") (chars name) (mkopts false false None) ex_load true 100 d.
Lemma ex_again d b T ends t : Forall is_byte d -> ex_decode d = Ok (b, T, ends, t) -> exists t', ex_decode_with "Q" d = Ok (b, T, ends, t').
Proof.
  intros HB E. pose proof (C66_same (fun _ _ => chars "N") (fun _ => chars "D") (chars "P") (mkopts false false None) ex_load true 100 d I ex_loads_defined HB) as E1.
  pose proof (C66_same (fun _ _ => chars "N") (fun _ => chars "D") (chars "Q") (mkopts false false None) ex_load true 100 d I ex_loads_defined HB) as E2.
  unfold ex_decode in E. unfold ex_decode_with. rewrite E in E1. cbn [rmap fst] in E1. rewrite <- E1 in E2.
  destruct (decode_verbose _ _ (chars "Q") _ _ _ _ d) as [[x t']| |]; try discriminate. apply same_ok in E2. change (x = (b, T, ends)) in E2. subst x. exists t'. reflexivity.
Qed.
Lemma ex_again_text d b T ends t : Forall is_byte d -> ex_decode d = Ok (b, T, ends, t) -> straightforward T (b_datadesc b) -> b_compression b = false ->
  exists t', ex_decode_with "Q" d = Ok (b, T, ends, t') /\ t' = t.
Proof.
  intros HB E S C. destruct (ex_again _ _ _ _ _ HB E) as (t' & E'). exists t'. split; [exact E'|].
  exact (C66_text_depends _ _ _ _ _ _ _ _ _ _ _ _ _ _ _ _ _ _ _ _ _ E' E S C C eq_refl eq_refl).
Qed.
Lemma ex_again_columns d b T ends t : Forall is_byte d -> ex_decode d = Ok (b, T, ends, t) -> straightforward T (b_datadesc b) -> b_compression b = true ->
  b_subsets b <> [] -> exists t', ex_decode_with "Q" d = Ok (b, T, ends, t') /\ t' = t.
Proof.
  intros HB E S C N. destruct (ex_again _ _ _ _ _ HB E) as (t' & E'). exists t'. split; [exact E'|].
  exact (C66_compressed_text_depends _ _ _ _ _ _ _ _ _ _ _ _ _ _ _ _ _ _ _ _ _ E' E S C C eq_refl eq_refl N).
Qed.
Lemma ex_told_bytes : Forall is_byte ex_told.
Proof. apply ex_bytes. vm_compute. reflexivity. Qed.
Lemma ex_squeezed_bytes : Forall is_byte ex_squeezed.
Proof. apply ex_bytes. vm_compute. reflexivity. Qed.
Example C66_text_depends_example : exists b ends t, ex_decode ex_told = Ok (b, ex_tables, ends, lines_of (ex_lines ++ ex_lines)) /\
  straightforward ex_tables (b_datadesc b) /\ b_compression b = false /\
  ex_decode_with "Q" ex_told = Ok (b, ex_tables, ends, t) /\ t = lines_of (ex_lines ++ ex_lines).
Proof.
  destruct C66_text_example as (b & ends & E & S & C & _). destruct (ex_again_text _ _ _ _ _ ex_told_bytes E S C) as (t & X).
  exists b, ends, t. exact (conj E (conj S (conj C X))).
Qed.
Example C66_compressed_text_depends_example : exists b ends t, ex_decode ex_squeezed = Ok (b, ex_tables, ends, lines_of ex_columns) /\
  straightforward ex_tables (b_datadesc b) /\ b_compression b = true /\ b_subsets b <> [] /\
  ex_decode_with "Q" ex_squeezed = Ok (b, ex_tables, ends, t) /\ t = lines_of ex_columns.
Proof.
  destruct C66_compressed_text_example as (b & ends & E & S & C & L).
  assert (N : b_subsets b <> []) by (intros X; rewrite X in L; discriminate).
  destruct (ex_again_columns _ _ _ _ _ ex_squeezed_bytes E S C N) as (t & X).
  exists b, ends, t. exact (conj E (conj S (conj C (conj N X)))).
Qed.

(** Two variables; the second gets an attribute that is read, 7 bits for 80. *)
Definition ex_before : telling dec :=
  mktelling 2 (chars "before" ++ [10]) (mkdec (mkin [160; 0] 0 0 0) [Codec.Properties.num 1 1 3; Codec.Properties.num 1 1 5] empty_local).
Lemma ex_attr_from (x : res (telling dec)) lines : (w <- x ;; Ok (te_out w)) = Ok lines -> exists w, x = Ok w /\ te_out w = lines.
Proof. intros E. inv_bind E. apply same_ok in Hk. exists a. auto. Qed.
Example C66_attribute_example : exists i w', query (tb_b ex_tables) (wr_var 0 33 7) = Ok i /\
  on_attr (teller (fun _ => chars "D") (one_by_one (fun _ _ => chars "N") (mkopts false false None) ex_tables true)) i 1 ex_before = Ok w' /\
  te_out w' = lines_of ["before"; "         attribute 033007 D"; "         at position 1: 001001 D"; "         N"]%string.
Proof.
  assert (X : (w <- (i <- query (tb_b ex_tables) (wr_var 0 33 7) ;;
     on_attr (teller (fun _ => chars "D") (one_by_one (fun _ _ => chars "N") (mkopts false false None) ex_tables true)) i 1 ex_before) ;; Ok (te_out w)) =
     Ok (lines_of ["before"; "         attribute 033007 D"; "         at position 1: 001001 D"; "         N"]%string)) by (vm_compute; reflexivity).
  apply ex_attr_from in X as (w & E & L). inv_bind E. exists a, w. auto.
Qed.
Definition ex_before_all : telling cdec :=
  mktelling 0 [] (mkcdec (mkin [160; 0; 0] 0 0 0) [[Codec.Properties.num 1 1 3]; [Codec.Properties.num 1 1 5]] empty_local).
Lemma ex_attr_from_all (x : res (telling cdec)) lines : (w <- x ;; Ok (te_out w)) = Ok lines -> exists w, x = Ok w /\ te_out w = lines.
Proof. intros E. inv_bind E. apply same_ok in Hk. exists a. auto. Qed.
Example C66_compressed_attribute_example : exists i w', query (tb_b ex_tables) (wr_var 0 33 7) = Ok i /\
  on_attr (teller (fun _ => chars "D") (together (fun _ _ => chars "N") (mkopts false false None) ex_tables true)) i 0 ex_before_all = Ok w' /\
  te_out w' = lines_of ["       attribute 033007 D"; "       at position 0: 001001 D"; "       N N "]%string.
Proof.
  assert (X : (w <- (i <- query (tb_b ex_tables) (wr_var 0 33 7) ;;
     on_attr (teller (fun _ => chars "D") (together (fun _ _ => chars "N") (mkopts false false None) ex_tables true)) i 0 ex_before_all) ;; Ok (te_out w)) =
     Ok (lines_of ["       attribute 033007 D"; "       at position 0: 001001 D"; "       N N "]%string)) by (vm_compute; reflexivity).
  apply ex_attr_from_all in X as (w & E & L). inv_bind E. exists a, w. auto.
Qed.

(** C69, continued: the text of a CREX message whose template has sequences and replications. *)
From Coq Require Import ZifyBool ZifyNat String.
From Verif Require Import Base Bits.Spec Num.Float Varcode.Model Varinfo.Model Tables.Model Tables.Spec Tables.LoadProofs Var.Model Interp.Model Interp.Spec Interp.ExpandProofs Codec.Model Codec.Spec
  Crex.Model Crex.Spec Crex.ValueProofs Crex.Proofs Crex.MessageProofs Crex.WireProperties.
From Verif Require Var.AttrProofs Interp.Properties Crex.Properties.
Local Open Scope Z_scope.

(** The counts that have four digits whatever the table says (WMO FM 95, regulation 95.4.3.2): 0 31 001, 0 31 002, 0 31 011 and 0 31 012. *)
Definition short_count (c : Z) : Prop := var_f c = 0 /\ var_x c = 31 /\ In (var_y c) [1; 2; 11; 12].
Definition digits4 (n : Z) : list Z := [48 + n / 1000; 48 + n / 100 mod 10; 48 + n / 10 mod 10; 48 + n mod 10].

(** A variable for an item of the expansion of a template, and its text. *)
Definition crex_slot (T : tables) (it : item) (v : var) : Prop :=
  let i := c_info (v_cell v) in
  match it with
  | IElem c => query (tb_b T) c = Ok i /\ crex_fits false i (c_val (v_cell v)) = true
  | IFactor c n =>
    query (tb_b T) c = Ok i /\ is_numeric (vi_type i) = true /\ c_val (v_cell v) = Some (VInt (Z.of_nat n)) /\ Z.of_nat n <= int_max /\
    (short_count c -> Z.of_nat n < 10000) /\ (~ short_count c -> crex_fits false i (c_val (v_cell v)) = true)
  | _ => False
  end.

Definition slot_text (it : item) (v : var) (t : list Z) : Prop :=
  match it with
  | IFactor c n => (short_count c -> t = 32 :: digits4 (Z.of_nat n)) /\ (~ short_count c -> var_text v t)
  | _ => var_text v t
  end.

(** The variables of a line and their texts, one after the other, are those of some expansion of the template. *)
Definition line_of (T : tables) (ops : list Z) (vars : list var) : Prop :=
  exists items m', expands T (mkmode false false) ops items m' /\ Forall2 (crex_slot T) items vars.
Inductive texts : list item -> list var -> list Z -> Prop :=
| tx_nil : texts [] [] []
| tx_next it v t items vars rest : slot_text it v t -> texts items vars rest -> texts (it :: items) (v :: vars) (t ++ rest).
Definition line_text (T : tables) (ops : list Z) (vars : list var) (line : list Z) : Prop :=
  exists items m', expands T (mkmode false false) ops items m' /\ Forall2 (crex_slot T) items vars /\ texts items vars line.

Lemma four_digits_text n : 0 <= n < 10000 -> zeros 4 (decimal n) = digits4 n.
Proof.
  intros H. assert (A : forallb (fun n => list_eqb (zeros 4 (decimal (Z.of_nat n))) (digits4 (Z.of_nat n))) (seq 0 (Z.to_nat 10000)) = true) by (vm_compute; reflexivity).
  rewrite forallb_forall in A. specialize (A (Z.to_nat n)). rewrite Z2Nat.id in A by lia. apply Var.AttrProofs.list_eqb_spec. apply A. apply in_seq. lia.
Qed.

Lemma short_count_spec c : four_digits c = true <-> short_count c.
Proof. unfold four_digits, short_count. cbn [In]. lia. Qed.

Lemma put_text (v : var) text digit : crex_fits false (c_info (v_cell v)) (c_val (v_cell v)) = true ->
  exists t, var_text v t /\ append_var (c_info (v_cell v)) (v_cell v) (mkcout text false digit) = Ok (mkcout (text ++ t) false digit).
Proof.
  intros C. destruct (C69_crex_field _ _ text digit C) as (t & A). exists t.
  replace (mkcell (c_info (v_cell v)) (c_val (v_cell v))) with (v_cell v) in A by (destruct (v_cell v); reflexivity). exact A.
Qed.

Lemma exec_line o T vars lt digit : forall items before rest text, Forall2 (crex_slot T) items rest -> vars = before ++ rest ->
  exists line, texts items rest line /\
    exec (c_encoder o vars) T items (ist_init, mkcenc (length before) (mkcout text false digit) lt) =
    Ok (ist_init, mkcenc (length vars) (mkcout (text ++ line) false digit) lt).
Proof.
  induction items as [|it items IH]; intros before rest text H E; inversion H as [|? v ? rest' Hs H']; subst.
  - exists []. split; [constructor|]. cbn [exec]. rewrite !app_nil_r. reflexivity.
  - cbn [exec].
    assert (B : exists t, slot_text it v t /\ step (c_encoder o (before ++ v :: rest')) T it (ist_init, mkcenc (length before) (mkcout text false digit) lt) =
      Ok (ist_init, mkcenc (S (length before)) (mkcout (text ++ t) false digit) lt)).
    { destruct it as [c| | | | |c n|]; cbn [crex_slot] in Hs; try contradiction.
      - destruct Hs as (Hq & Hc). destruct (put_text v text digit Hc) as (t & Ft & At). exists t. split; [exact Ft|]. cbn [step ist_init is_refbits Z.eqb].
        unfold b_variable. cbn [ist_init is_refbits Z.eqb negb]. unfold get_varinfo. rewrite Hq. cbn [bind ist_init is_scale is_width is_strlen is_srw is_refs is_cur is_afbits Z.eqb andb].
        rewrite andb_false_r. cbn [negb c_encoder on_var]. unfold ce_var, ce_next, get_var. cbn [ce_pos ce_out ce_lt].
        rewrite nth_error_app2, Nat.sub_diag by lia. cbn [nth_error bind]. unfold ce_put. cbn [ce_pos ce_out ce_lt]. rewrite At. reflexivity.
      - destruct Hs as (Hq & Hn & Hv & Hm & Hs & Hl). pose proof (query_code _ _ _ Hq) as Ec.
        assert (Q : enqi (v_cell v) = Ok (Z.of_nat n)) by (unfold enqi; rewrite Hv; destruct (vi_type (c_info (v_cell v))); try discriminate; reflexivity).
        assert (U : u32 (Z.of_nat n) = Z.of_nat n) by (unfold u32, int_max in *; rewrite Z.mod_small by lia; reflexivity).
        cbn [step]. rewrite Hq. cbn [bind c_encoder on_factor]. unfold ce_factor, ce_next, get_var. cbn [ce_pos ce_out ce_lt]. rewrite nth_error_app2, Nat.sub_diag by lia. cbn [nth_error bind].
        unfold ce_put. cbn [ce_pos ce_out ce_lt]. rewrite Ec. pose proof (short_count_spec c) as SC. destruct (four_digits c).
        + assert (S : short_count c) by (apply SC; reflexivity). specialize (Hs S). rewrite Q. cbn [bind]. rewrite U, four_digits_text by lia.
          exists (32 :: digits4 (Z.of_nat n)). split; [split; [reflexivity|intros N; contradiction]|].
          unfold raw_appendf, encode_check_digit, raw_append. cbn [digits4 length Nat.ltb Nat.leb Nat.eqb bind co_text co_check co_expected]. rewrite Nat2Z.id, Nat.eqb_refl, <- app_assoc. reflexivity.
        + assert (S : ~ short_count c) by (intros X; apply SC in X; discriminate). destruct (put_text v text digit (Hl S)) as (t & Ft & At). rewrite At. cbn [bind].
          exists t. split; [split; [intros N; contradiction|intros _; exact Ft]|]. unfold isset. rewrite Hv, Q. cbn [bind]. rewrite U, Nat2Z.id, Nat.eqb_refl. reflexivity. }
    destruct B as (t & B1 & B2). rewrite B2. cbn [bind].
    destruct (IH (before ++ [v]) rest' (text ++ t) H' ltac:(rewrite <- app_assoc; reflexivity)) as (line & C1 & C2).
    rewrite app_length in C2. cbn [length] in C2. rewrite Nat.add_1_r in C2. exists (t ++ line). split; [constructor; assumption|]. rewrite C2, <- app_assoc. reflexivity.
Qed.

Lemma exec_lines o T ops lt digit : forall subsets first text, Forall (line_of T ops) subsets ->
  exists k lines, Forall2 (line_text T ops) subsets lines /\ forall fuel, (k <= fuel)%nat ->
    encode_csubsets o T fuel ops first subsets lt (mkcout text false digit) =
    Ok (mkcout (text ++ (if first then [] else match subsets with [] => [] | _ => [43; 13; 13; 10] end) ++ joined lines) false digit).
Proof.
  induction subsets as [|vars subsets IH]; intros first text F.
  - exists 0%nat, []. split; [constructor|]. intros fuel _. cbn [encode_csubsets]. destruct first; cbn [joined app]; rewrite app_nil_r; reflexivity.
  - inversion F as [|? ? (items & m' & X & F1) F2]; subst.
    set (text1 := text ++ (if first then [] else [43; 13; 13; 10])).
    assert (C : (if first then mkcout text false digit else raw_append [43; 13; 13; 10] (mkcout text false digit)) = mkcout text1 false digit)
      by (unfold text1; destruct first; [rewrite app_nil_r|]; reflexivity).
    destruct (exec_line o T vars lt digit items [] vars text1 F1 eq_refl) as (line & A1 & A2). cbn [length] in A2.
    destruct (Interp.Properties.C18_expansion_is_run _ _ T ops items m' _ _ _ X A2) as (k1 & R).
    destruct (IH false (text1 ++ line) F2) as (k2 & lines & B1 & B2). exists (Nat.max k1 k2), (line :: lines). split.
    + constructor; [exists items, m'; auto|exact B1].
    + intros fuel L. cbn [encode_csubsets]. rewrite C, (run_mono _ _ k1 fuel _ _ _ ltac:(lia) R). cbn [bind ce_lt ce_out]. rewrite (B2 fuel) by lia. f_equal. f_equal. unfold text1.
      inversion B1 as [|? ? ? ? _ B3]; subst; cbn [joined app]; rewrite ?app_nil_r, <- ?app_assoc; [reflexivity|]. cbn [app]. reflexivity.
Qed.

(** As [C69_crex_message], for templates with sequences, replications and delayed replications to any depth. *)
Theorem C69_crex_message_expanded : forall o T lt h ops subsets,
  crex_header_ok h = true -> crex_ops_ok ops = true -> Forall (line_of T ops) subsets ->
  exists enough lines, Forall2 (line_text T ops) subsets lines /\ forall fuel, (enough <= fuel)%nat ->
    encode_crex o T fuel lt (mkcb h ops subsets) = Ok (
      chars "CREX++" ++ [13; 13; 10] ++
      chars "T" ++ digits2 (ch_mtn h) ++ digits2 (ch_edition h) ++ digits2 (ch_mtv h) ++
      chars " A" ++ digits3 (ch_category h) ++ (if ch_subcategory h =? 255 then [] else digits3 (ch_subcategory h)) ++
      flat_map (fun op => chars " " ++ varcode_format op) ops ++ chars "++" ++ [13; 13; 10] ++
      joined lines ++
      chars "++" ++ [13; 13; 10] ++ chars "7777" ++ [13; 13; 10]).
Proof.
  intros o T lt h ops subsets Hh Ho F. unfold encode_crex, encode_sec1. cbn [cb_header cb_datadesc cb_subsets bind].
  match goal with |- context [raw_append ?t (raw_append ?s cout_empty)] => set (lead := t); change (raw_append lead (raw_append s cout_empty)) with (mkcout (s ++ lead) false 0) end.
  destruct (exec_lines o T ops lt 0 subsets true ((crex_start ++ [13; 13; 10]) ++ lead) F) as (k & lines & A1 & A2). exists k, lines. split; [exact A1|]. intros fuel L.
  rewrite (A2 fuel L). cbn [bind co_text]. f_equal. unfold lead. clear A2 lead.
  unfold crex_header_ok in Hh. rewrite !andb_true_iff in Hh. destruct Hh as ((((((((M1 & M2) & E1) & E2) & V1) & V2) & C1) & C2) & S).
  assert (D : flat_map desc_text ops = flat_map (fun op => chars " " ++ varcode_format op) ops).
  { unfold crex_ops_ok in Ho. apply andb_true_iff in Ho as [_ Ho]. rewrite forallb_forall in Ho. clear -Ho. induction ops as [|c ops IH]; [reflexivity|]. cbn [flat_map].
    rewrite IH by (intros; apply Ho; right; assumption). f_equal. specialize (Ho c (or_introl eq_refl)). rewrite !andb_true_iff in Ho. destruct Ho as ((H1 & H2) & H3).
    apply desc_text_format; [lia|]. unfold is_count. apply negb_true_iff in H3. exact H3. }
  rewrite D. assert (S3 : (if ch_subcategory h =? 255 then [] else fmt_0d 3 (schar (ch_subcategory h))) = (if ch_subcategory h =? 255 then [] else digits3 (ch_subcategory h))).
  { destruct (ch_subcategory h =? 255) eqn:X; [reflexivity|]. rewrite schar_small, MessageProofs.three_digits by lia. reflexivity. }
  rewrite S3, !schar_small, !two_digits, MessageProofs.three_digits by lia. cbn [co_check raw_append cout_empty app]. unfold crex_start, crex_end.
  repeat (rewrite <- app_assoc; cbn [app]). reflexivity.
Qed.
Print Assumptions C69_crex_message_expanded.

(** ** A block number and two temperatures, with their number; and a line with none *)
Import Crex.Properties.
Definition delayed_cops : list Z := [wr_var 0 1 1; wr_var 1 1 0; wr_var 0 12 1].

Lemma ex_line n temps : n = length temps -> Forall (crex_slot crex_tables (IElem (wr_var 0 12 1))) temps -> Z.of_nat n < 10000 ->
  line_of crex_tables delayed_cops (sent block_info (Some (VInt 7)) :: sent (count_info 12 5) (Some (VInt (Z.of_nat n))) :: temps).
Proof.
  intros -> F L. exists (IElem (wr_var 0 1 1) :: IFactor (wr_var 0 31 12) (length temps) :: repeat (IElem (wr_var 0 12 1)) (length temps) ++ []), (mkmode false false). split.
  - apply ex_elem; [reflexivity|]. apply (ex_delayed_implicit crex_tables false (wr_var 1 1 0) (length temps) [wr_var 0 12 1] [] _ (mkmode false false)); try reflexivity.
    + intros c l E (_ & C). injection E as <- <-. discriminate.
    + clear. induction (length temps) as [|k IH]; cbn [repeat]; [constructor|].
      apply (rp_one_more crex_tables (mkmode false false) k [wr_var 0 12 1] [IElem (wr_var 0 12 1)] (mkmode false false) _ _); [|exact IH]. apply ex_elem; [reflexivity|]. constructor.
    + constructor.
  - constructor; [split; reflexivity|]. constructor.
    + repeat (split; [reflexivity|]). split; [unfold int_max; lia|]. split; [intros _; lia|]. intros N. exfalso. apply N. repeat split. cbn [In]. right. right. right. left. reflexivity.
    + rewrite app_nil_r. clear -F. induction F; cbn [length repeat]; constructor; auto.
Qed.

Example C69_crex_expanded_example : crex_ops_ok delayed_cops = true /\
  Forall (line_of crex_tables delayed_cops)
    [[sent block_info (Some (VInt 7)); sent (count_info 12 5) (Some (VInt 2)); sent temp_info (Some (VInt (-125))); sent temp_info (Some (VInt 283))];
     [sent block_info (Some (VInt 7)); sent (count_info 12 5) (Some (VInt 0))]] /\
  32 :: digits4 2 = chars " 0002".
Proof.
  split; [reflexivity|]. split; [|reflexivity]. constructor; [|constructor; [|constructor]].
  - apply (ex_line 2 [_; _]); [reflexivity|repeat (constructor; [split; reflexivity|]); constructor|lia].
  - apply (ex_line 0 []); [reflexivity|constructor|lia].
Qed.

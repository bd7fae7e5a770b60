(** Property C69, continued: templates with the operators that change the definitions of elements. *)
From Coq Require Import ZifyBool ZifyNat.
From Verif Require Import Base Num.Float Bits.Model Bits.Spec Bits.Proofs Varcode.Model Varinfo.Model Tables.Model Tables.Spec Tables.AlterProofs Tables.LoadProofs Varinfo.RangeProofs
  Var.Model Var.Spec Interp.Model Interp.Spec Interp.ExpandProofs Codec.Model Codec.Spec Codec.TransferProofs Message.Model Message.Spec Message.Proofs Message.LayoutProofs Message.ReadProofs
  Message.WireProperties Message.ExpandedWireProperties Message.WireReadProperties.
From Verif Require Interp.EventProofs Interp.Properties Interp.Example Codec.Properties Codec.SoundProofs Codec.AgainProperties.
Local Open Scope Z_scope.

(** The operators in force after some items of an expansion, where the only operators are changes of width (201), of scale (202), of scale, reference
    value and width together (207) and of the length of texts (208). *)
Definition in_force (pre : list item) : istate := mkist (scale_change pre) (width_change pre) (increase pre) (string_length pre) [] 0 0 None None 0 63.
Definition definition_after (T : tables) (pre : list item) (c : Z) : res varinfo := get_varinfo (tb_b T) (in_force pre) c.

(** The variables for the items of an expansion: each has the definition that the table gives with the operators in force, and can be carried by its field.
    Operators have no variable. *)
Inductive slots (p : shift_policy) (T : tables) : list item -> list item -> list var -> Prop :=
| sl_nil pre : slots p T pre [] []
| sl_elem pre c v items vars : definition_after T pre c = Ok (c_info (v_cell v)) -> carried p (c_info (v_cell v)) (c_val (v_cell v)) ->
    slots p T (pre ++ [IElem c]) items vars -> slots p T pre (IElem c :: items) (v :: vars)
| sl_factor pre c n v items vars : query (tb_b T) c = Ok (c_info (v_cell v)) -> carried p (c_info (v_cell v)) (c_val (v_cell v)) ->
    c_val (v_cell v) = Some (VInt (Z.of_nat n)) -> slots p T (pre ++ [IFactor c n]) items vars -> slots p T pre (IFactor c n :: items) (v :: vars)
| sl_op pre c items vars : In (var_x c) [1; 2; 7; 8] -> slots p T (pre ++ [IOp c]) items vars -> slots p T pre (IOp c :: items) vars.

Definition fills_operators (p : shift_policy) (T : tables) (ops : list Z) (vars : list var) : Prop :=
  exists items m', expands T (mkmode false false) ops items m' /\ slots p T [] items vars.

Lemma b_variable_plain {S} (V : visitor S) T c pre s i : definition_after T pre c = Ok i ->
  b_variable V T c (in_force pre, s) = (s' <- on_var V i s ;; Ok (in_force pre, s')).
Proof.
  intros H. unfold b_variable. change (is_refbits (in_force pre)) with 0. cbn [Z.eqb negb]. unfold definition_after in H. rewrite H. cbn [bind].
  change (is_cur (in_force pre)) with (@None bitmap). change (is_afbits (in_force pre)) with 0. rewrite andb_false_r. reflexivity.
Qed.

Lemma in_force_elem pre c : in_force (pre ++ [IElem c]) = in_force pre.
Proof. unfold in_force, scale_change, width_change, increase, string_length, operand. rewrite !fold_left_app. reflexivity. Qed.
Lemma in_force_factor pre c n : in_force (pre ++ [IFactor c n]) = in_force pre.
Proof. unfold in_force, scale_change, width_change, increase, string_length, operand. rewrite !fold_left_app. reflexivity. Qed.

Lemma step_op {S} (V : visitor S) T c pre s : In (var_x c) [1; 2; 7; 8] -> step V T (IOp c) (in_force pre, s) = Ok (in_force (pre ++ [IOp c]), s).
Proof.
  intros H. cbn [step]. unfold c_modifier, in_force, scale_change, width_change, increase, string_length, operand. rewrite !fold_left_app. cbn [fold_left].
  destruct H as [E|[E|[E|[E|[]]]]]; rewrite <- E; cbn [Z.eqb Pos.eqb bind]; reflexivity.
Qed.

Lemma exec_put p o T lt all : forall items pre rest before out, slots p T pre items rest -> all = before ++ rest -> wf_out out ->
  exists out', exec (encoder p o T all) T items (in_force pre, mkenc (length before) out lt) = Ok (in_force (pre ++ items), mkenc (length all) out' lt) /\
    out_bits out' = out_bits out ++ flat_map var_bits rest /\ wf_out out'.
Proof.
  intros items pre rest before out H. revert before out. induction H as [pre|pre c v items vars Hd Hc H IH|pre c n v items vars Hq Hc Hv H IH|pre c items vars Ho H IH]; intros before out E W.
  - exists out. cbn [exec flat_map]. subst all. rewrite !app_nil_r. auto.
  - assert (G : nth_error all (length before) = Some v) by (rewrite E, nth_error_app2, Nat.sub_diag by lia; reflexivity).
    destruct (put_field p v out Hc W) as (o1 & A & B & C). cbn [exec step]. change (is_refbits (in_force pre) =? 0) with true. cbv iota. rewrite (b_variable_plain _ _ _ _ _ _ Hd).
    cbn [encoder on_var]. unfold e_var, e_next, get_var. cbn [e_pos e_out e_lt]. rewrite G. cbn [bind]. unfold e_put. cbn [e_pos e_out e_lt]. rewrite A. cbn [bind].
    destruct (IH (before ++ [v]) o1 ltac:(rewrite <- app_assoc; exact E) C) as (o2 & D1 & D2 & D3). rewrite app_length, in_force_elem in D1. cbn [length] in D1. rewrite Nat.add_1_r, <- app_assoc in D1.
    exists o2. split; [exact D1|]. split; [|exact D3]. rewrite D2, B, <- app_assoc. reflexivity.
  - assert (G : nth_error all (length before) = Some v) by (rewrite E, nth_error_app2, Nat.sub_diag by lia; reflexivity).
    destruct (put_field p v out Hc W) as (o1 & A & B & C). cbn [exec step]. rewrite Hq. cbn [bind encoder on_factor].
    unfold e_factor, e_next, get_var. cbn [e_pos e_out e_lt]. rewrite G. cbn [bind]. unfold e_put. cbn [e_pos e_out e_lt]. rewrite A. cbn [bind].
    destruct (factor_value p _ n Hc Hv) as (m & M1 & M2). rewrite M1. cbn [bind]. rewrite M2, Nat.eqb_refl. cbn [bind].
    destruct (IH (before ++ [v]) o1 ltac:(rewrite <- app_assoc; exact E) C) as (o2 & D1 & D2 & D3). rewrite app_length, in_force_factor in D1. cbn [length] in D1. rewrite Nat.add_1_r, <- app_assoc in D1.
    exists o2. split; [exact D1|]. split; [|exact D3]. rewrite D2, B, <- app_assoc. reflexivity.
  - cbn [exec]. rewrite step_op by exact Ho. cbn [bind]. destruct (IH before out E W) as (o2 & D). rewrite <- app_assoc in D. exists o2. exact D.
Qed.

Lemma subsets_put p o T ops lt : forall subsets out, Forall (fills_operators p T ops) subsets -> wf_out out ->
  exists k out', (forall fuel, (k <= fuel)%nat -> encode_subsets p o T fuel ops subsets lt out = Ok (lt, out')) /\
    out_bits out' = out_bits out ++ flat_map (flat_map var_bits) subsets /\ wf_out out'.
Proof.
  induction subsets as [|vars subsets IH]; intros out F W.
  - exists 0%nat, out. cbn [encode_subsets flat_map]. rewrite app_nil_r. auto.
  - inversion F as [|? ? (items & m' & X & F1) F2]; subst. destruct (exec_put p o T lt vars items [] vars [] out F1 eq_refl W) as (o1 & A1 & A2 & A3). cbn [length] in A1.
    destruct (Interp.Properties.C18_expansion_is_run _ _ T ops items m' _ _ _ X A1) as (k1 & R).
    destruct (IH o1 F2 A3) as (k2 & out' & B1 & B2 & B3). exists (Nat.max k1 k2), out'. split; [|split; [|exact B3]].
    + intros fuel L. cbn [encode_subsets]. rewrite (run_mono _ _ k1 fuel _ _ _ ltac:(lia) R). cbn [bind e_lt e_out]. apply B1. lia.
    + cbn [flat_map]. rewrite B2, A2, <- app_assoc. reflexivity.
Qed.

(** As [C69_message_expanded], with operators: the fields have the widths, scales and reference values that the operators before them say
    ([C69_definitions]). *)
Theorem C69_message_operators : forall p opt T lt b,
  (h_edition (b_header b) = 2 \/ h_edition (b_header b) = 3 \/ h_edition (b_header b) = 4) -> Forall is_byte (b_optional b) ->
  b_subsets b <> [] -> b_datadesc b <> [] -> Forall (fills_operators p T (b_datadesc b)) (b_subsets b) ->
  exists enough data zeroes, (forall fuel, (enough <= fuel)%nat -> encode p opt T fuel lt b = Ok (message b (even_padded data))) /\ (zeroes < 8)%nat /\ Forall is_byte data /\
    bits_of_bytes data = flat_map (flat_map var_bits) (b_subsets b) ++ repeat false zeroes.
Proof.
  intros p opt T lt b ED FO NS ND F. pose proof (before_data_bytes b FO) as FB.
  destruct (subsets_put p opt T (b_datadesc b) lt (b_subsets b) (aligned (before_data b)) F (wf_aligned _ FB)) as (k & out & A1 & A2 & A3).
  destruct (data_of _ _ _ _ _ _ _ _ _ _ FB (A1 k (le_n k))) as (data & EF & FD).
  destruct (flush_spec out A3) as (z & Hz & _ & B & _). rewrite EF in B. cbn [aligned obytes] in B. rewrite A2, aligned_bits in B. unfold bits_of_bytes in B at 1. rewrite flat_map_app in B.
  fold (bits_of_bytes (before_data b)) in B. fold (bits_of_bytes data) in B. rewrite <- app_assoc in B. apply app_inv_head in B.
  exists k, data, z. split; [|auto]. intros fuel L. rewrite encode_layout by assumption. rewrite (A1 fuel L). cbn [bind]. rewrite EF. cbn [aligned obytes]. rewrite skipn_length_app. reflexivity.
Qed.
Print Assumptions C69_message_operators.

(** ** The decoder *)
Lemma exec_get p o T skip lt rest : (8 <= length rest)%nat -> forall items pre vars inp got, slots p T pre items vars -> Forall bare vars ->
  Forall is_byte (idata inp) -> wf_in inp -> in_bits inp = flat_map var_bits vars ++ rest ->
  exists inp', exec (decoder o T skip) T items (in_force pre, mkdec inp got lt) = Ok (in_force (pre ++ items), mkdec inp' (got ++ vars) lt) /\ in_bits inp' = rest /\ wf_in inp' /\ idata inp' = idata inp.
Proof.
  intros L items pre vars inp got H. revert inp got. induction H as [pre|pre c v items vars Hd Hc H IH|pre c n v items vars Hq Hc Hv H IH|pre c items vars Ho H IH]; intros inp got N B W E.
  - exists inp. cbn [exec]. rewrite !app_nil_r. auto.
  - inversion N as [|? ? Nv N']; subst. cbn [flat_map] in E. rewrite <- app_assoc in E.
    destruct (get_field p o v inp (flat_map var_bits vars ++ rest) Hc B W ltac:(rewrite app_length; lia) E) as (inp1 & A & R1 & R2 & R3). cbn [exec step]. change (is_refbits (in_force pre) =? 0) with true. cbv iota.
    rewrite (b_variable_plain _ _ _ _ _ _ Hd). cbn [decoder on_var]. unfold d_var, d_store. cbn [d_in d_vars d_lt]. rewrite A. cbn [bind].
    destruct (IH inp1 (got ++ [v]) N' ltac:(rewrite R3; exact B) R2 R1) as (inp' & C1 & C2 & C3 & C4). rewrite in_force_elem, <- !app_assoc in C1. exists inp'.
    destruct v as [vc va]. unfold bare in Nv. cbn [v_attrs v_cell] in *. subst va. split; [exact C1|]. split; [exact C2|]. split; [exact C3|]. rewrite C4. exact R3.
  - inversion N as [|? ? Nv N']; subst. cbn [flat_map] in E. rewrite <- app_assoc in E.
    destruct (get_field p o v inp (flat_map var_bits vars ++ rest) Hc B W ltac:(rewrite app_length; lia) E) as (inp1 & A & R1 & R2 & R3). cbn [exec step]. rewrite Hq. cbn [bind decoder on_factor].
    unfold d_factor, d_store. cbn [d_in d_vars d_lt]. rewrite A. cbn [bind]. destruct (factor_value p _ n Hc Hv) as (m & M1 & M2). rewrite M1. cbn [bind]. rewrite M2, Nat.eqb_refl. cbn [bind].
    destruct (IH inp1 (got ++ [v]) N' ltac:(rewrite R3; exact B) R2 R1) as (inp' & C1 & C2 & C3 & C4). rewrite in_force_factor, <- !app_assoc in C1. exists inp'.
    destruct v as [vc va]. unfold bare in Nv. cbn [v_attrs v_cell] in *. subst va. split; [exact C1|]. split; [exact C2|]. split; [exact C3|]. rewrite C4. exact R3.
  - cbn [exec]. rewrite step_op by exact Ho. cbn [bind]. destruct (IH inp got N B W E) as (inp' & C). rewrite <- app_assoc in C. exists inp'. exact C.
Qed.

Lemma subsets_get p o T skip ops lt rest : (8 <= length rest)%nat -> forall subsets inp, Forall (fills_operators p T ops) subsets -> Forall (Forall bare) subsets ->
  Forall is_byte (idata inp) -> wf_in inp -> in_bits inp = flat_map (flat_map var_bits) subsets ++ rest ->
  exists k inp', forall fuel, (k <= fuel)%nat -> decode_subsets o T skip fuel ops (length subsets) lt inp = Ok (subsets, lt, inp').
Proof.
  intros L. induction subsets as [|vars subsets IH]; intros inp F N B W E.
  - exists 0%nat, inp. intros fuel _. reflexivity.
  - inversion F as [|? ? (items & m' & X & F1) F2]; subst. inversion N as [|? ? N1 N2]; subst. cbn [flat_map] in E. rewrite <- app_assoc in E.
    destruct (exec_get p o T skip lt (flat_map (flat_map var_bits) subsets ++ rest) ltac:(rewrite app_length; lia) items [] vars inp [] F1 N1 B W E) as (inp1 & A1 & A2 & A3 & A4).
    destruct (Interp.Properties.C18_expansion_is_run _ _ T ops items m' _ _ _ X A1) as (k1 & R).
    destruct (IH inp1 F2 N2 ltac:(rewrite A4; exact B) A3 A2) as (k2 & inp' & C). exists (Nat.max k1 k2), inp'. intros fuel Lf. cbn [length decode_subsets].
    rewrite (run_mono _ _ k1 fuel _ _ _ ltac:(lia) R). cbn [bind d_lt d_in d_vars]. rewrite (C fuel) by lia. reflexivity.
Qed.

Theorem C69_message_read_operators : forall p opt load skip before data after l T subsets filler,
  Forall is_byte (before ++ data ++ [55; 55; 55; 55] ++ after) ->
  decode_lead (before ++ data ++ [55; 55; 55; 55] ++ after) = Ok l -> load (tableid_of (l_header l)) = Ok T ->
  l_compression l = false -> l_expected l = Z.of_nat (length subsets) -> subsets <> [] ->
  (s4 (l_sections l) + 4)%nat = length before -> s5 (l_sections l) = (length before + length data)%nat ->
  bits_of_bytes data = flat_map (flat_map var_bits) subsets ++ filler ->
  Forall (fills_operators p T (l_datadesc l)) subsets -> Forall (Forall bare) subsets ->
  exists enough sections, forall fuel, (enough <= fuel)%nat ->
    decode opt load skip fuel (before ++ data ++ [55; 55; 55; 55] ++ after) = Ok (mkbulletin (l_header l) (l_optional l) false (l_datadesc l) subsets, T, sections).
Proof.
  intros p opt load skip before data after l T subsets filler B D LT NC NE NS S4 S5 E F N. set (d := before ++ data ++ [55; 55; 55; 55] ++ after) in *.
  assert (I : in_bits (mkin d (length before) 0 0) = flat_map (flat_map var_bits) subsets ++ (filler ++ bits_of_bytes ([55; 55; 55; 55] ++ after))).
  { unfold in_bits. cbn [iplen ipbyte icur idata firstn app]. unfold d. rewrite skipn_app, skipn_all, Nat.sub_diag. cbn [skipn app].
    unfold bits_of_bytes. rewrite flat_map_app. fold (bits_of_bytes data). rewrite E, <- app_assoc. reflexivity. }
  destruct (subsets_get p opt T skip (l_datadesc l) empty_local (filler ++ bits_of_bytes ([55; 55; 55; 55] ++ after)) ltac:(rewrite app_length; cbn [app bits_of_bytes flat_map]; rewrite !app_length; cbn [bits_of length]; lia)
    subsets (mkin d (length before) 0 0) F N B ltac:(split; [cbn; lia|split; [cbn; lia|unfold d; cbn [icur idata]; rewrite app_length; lia]]) I) as (k & inp' & A).
  exists k, [s1 (l_sections l); s2 (l_sections l); s3 (l_sections l); s4 (l_sections l); s5 (l_sections l); (s5 (l_sections l) + 4)%nat].
  intros fuel L. unfold decode. rewrite D. cbn [bind]. rewrite LT. cbn [bind]. unfold decode_data. rewrite S4, NE, NC.
  replace (Z.of_nat (length subsets) =? 0) with false by (destruct subsets; [contradiction|cbn [length]; lia]). rewrite Nat2Z.id, (A fuel L). cbn [bind].
  rewrite S5. replace (Nat.ltb (length d) (length before + length data + 4)) with false by (unfold d; rewrite !app_length; cbn [length]; lia).
  unfold d at 1. rewrite app_assoc, <- app_length, zlist_is_ok. cbn [bind negb]. reflexivity.
Qed.
Print Assumptions C69_message_read_operators.

(** ** Which definitions *)
Definition usual (it : item) : Prop := match it with IElem _ | IFactor _ _ => True | IOp c => In (var_x c) [1; 2; 7; 8] | _ => False end.

Lemma usual_no_bitmap pre : Forall usual pre -> no_bitmap pre.
Proof. intros F r d codes bits H. rewrite Forall_forall in F. exact (F _ H). Qed.

Lemma usual_serves pre refs k : Forall usual pre -> ~ serves pre refs k.
Proof.
  intros F H. induction H as [pre r d codes bits|pre refs k c H IH ? ? ? ?|pre refs k c H IH ? ? ?|pre refs k it H IH ? ?]; apply Forall_app in F as [F1 F2]; try (exact (IH F1)).
  inversion F2 as [|? ? U _]. exact U.
Qed.

Lemma usual_inv pre : Forall usual pre -> EventProofs.st_inv pre (in_force pre).
Proof.
  intros F. assert (Q : reference_width pre = 0 /\ (forall c, new_reference c pre = None) /\ pending pre = 0 /\ associated pre = None).
  { induction pre as [|it pre IH] using rev_ind; [repeat split|]. apply Forall_app in F as [F1 F2]. inversion F2 as [|? ? U _]; subst. destruct (IH F1) as (Q1 & Q2 & Q3 & Q4).
    unfold reference_width, new_reference, pending, associated, operand in *. rewrite !fold_left_app. cbn [fold_left].
    destruct it as [c| |c| | |c n|]; try contradiction; [| |].
    - split; [exact Q1|]. split; [|split; [exact Q3|exact Q4]]. intros c'. rewrite fold_left_app. exact (Q2 c').
    - cbn [usual In] in U. replace (var_x c =? 3) with false by lia. replace (var_x c =? 4) with false by lia. replace (var_x c =? 22) with false by lia. replace (var_x c =? 23) with false by lia.
      replace (var_x c =? 37) with false by lia. cbn [orb andb]. split; [exact Q1|]. split; [|split; [exact Q3|exact Q4]]. intros c'. rewrite fold_left_app. exact (Q2 c').
    - split; [exact Q1|]. split; [|split; [exact Q3|exact Q4]]. intros c'. rewrite fold_left_app. exact (Q2 c'). }
  destruct Q as (Q1 & Q2 & Q3 & Q4). constructor; cbn [in_force is_width is_scale is_srw is_strlen is_refbits is_refs is_pending is_afbits is_afsig is_cur is_last]; try reflexivity.
  - symmetry. exact Q1.
  - intros c. rewrite Q2. reflexivity.
  - symmetry. exact Q3.
  - rewrite Q4. reflexivity.
  - auto.
  - intros refs k H. exfalso. exact (usual_serves pre refs k F H).
Qed.

(** The variable of each element has the definition of [Interp/Spec.v]: the scale, the width and the reference value of the table, changed as the
    operators before it say. *)
Theorem C69_definitions : forall p T text items1 c items2 vars, load_bufr text = Ok (tb_b T) -> slots p T [] (items1 ++ IElem c :: items2) vars ->
  exists vars1 v vars2, vars = vars1 ++ v :: vars2 /\ slots p T [] items1 vars1 /\ defines (tb_b T) items1 c (c_info (v_cell v)).
Proof.
  intros p T text items1 c items2 vars Ld H. destruct (load_bufr_spec _ _ Ld) as [[Sd _] _].
  assert (G : forall pre, Forall usual pre -> slots p T pre (items1 ++ IElem c :: items2) vars ->
    exists vars1 v vars2, vars = vars1 ++ v :: vars2 /\ slots p T pre items1 vars1 /\ defines (tb_b T) (pre ++ items1) c (c_info (v_cell v))).
  { clear H. revert vars. induction items1 as [|it items1 IH]; intros vars pre U H.
    - inversion H as [|? ? v ? vars' D C S| |]; subst. exists [], v, vars'. split; [reflexivity|]. split; [constructor|]. rewrite app_nil_r.
      exact (EventProofs.get_varinfo_defines T Sd (load_bufr_ok _ _ Ld) pre (in_force pre) c _ (usual_inv pre U) D).
    - assert (E : forall x, pre ++ x :: items1 = (pre ++ [x]) ++ items1) by (intros; rewrite <- app_assoc; reflexivity).
      inversion H as [|? c' v ? vars' D C S|? c' n v ? vars' Q C V S|? c' ? ? O S]; subst.
      + destruct (IH vars' (pre ++ [IElem c']) ltac:(apply Forall_app; split; [exact U|repeat constructor]) S) as (v1 & w & v2 & -> & S1 & Df). exists (v :: v1), w, v2. rewrite E. split; [reflexivity|]. split; [constructor; assumption|exact Df].
      + destruct (IH vars' (pre ++ [IFactor c' n]) ltac:(apply Forall_app; split; [exact U|repeat constructor]) S) as (v1 & w & v2 & -> & S1 & Df). exists (v :: v1), w, v2. rewrite E. split; [reflexivity|]. split; [constructor; assumption|exact Df].
      + destruct (IH vars (pre ++ [IOp c']) ltac:(apply Forall_app; split; [exact U|constructor; [exact O|constructor]]) S) as (v1 & w & v2 & -> & S1 & Df). exists v1, w, v2. rewrite E. split; [reflexivity|]. split; [constructor; assumption|exact Df]. }
  exact (G [] (Forall_nil _) H).
Qed.
Print Assumptions C69_definitions.

(** ** 201130, a block number in nine bits, 201000, a temperature *)
Import Interp.Example Codec.Properties.
Definition operator_ops : list Z := [wr_var 2 1 130; wr_var 0 1 1; wr_var 2 1 0; wr_var 0 12 101].
Definition operator_items : list item := [IOp (wr_var 2 1 130); IElem (wr_var 0 1 1); IOp (wr_var 2 1 0); IElem (wr_var 0 12 101)].
Definition operator_info (pre : list item) (x y : Z) : varinfo := get_ok no_info (definition_after ex_tables pre (wr_var 0 x y)).
Definition nine : varinfo := operator_info [IOp (wr_var 2 1 130)] 1 1.
Definition operator_vars : list var := [mkvar (mkcell nine (Some (VInt 300))) []; mkvar (mkcell (ex_info 12 101) (Some (VInt 28315))) []].

Lemma nine_defined : definition_after ex_tables [IOp (wr_var 2 1 130)] (wr_var 0 1 1) = Ok nine.
Proof.
  assert (H : is_ok (definition_after ex_tables [IOp (wr_var 2 1 130)] (wr_var 0 1 1)) = true) by (vm_compute; reflexivity). exact (get_ok_eq no_info _ H).
Qed.

Lemma nine_ok : info_ok nine.
Proof.
  refine (SoundProofs.calm_info ex_tables ex_btable_ok AgainProperties.ex_defs_ok (in_force [IOp (wr_var 2 1 130)]) (wr_var 0 1 1) nine _ nine_defined).
  split; [constructor|]. split; vm_compute; split; discriminate.
Qed.

Lemma temperature_defined : definition_after ex_tables ((([] ++ [IOp (wr_var 2 1 130)]) ++ [IElem (wr_var 0 1 1)]) ++ [IOp (wr_var 2 1 0)]) (wr_var 0 12 101) = Ok (ex_info 12 101).
Proof.
  unfold definition_after. replace (in_force _) with ist_init by (vm_compute; reflexivity). unfold get_varinfo.
  rewrite (wire_view 12 101) by (vm_compute; reflexivity). reflexivity.
Qed.

Lemma slots_of (i1 i2 : varinfo) : definition_after ex_tables [IOp (wr_var 2 1 130)] (wr_var 0 1 1) = Ok i1 -> info_ok i1 -> field_ok X86 i1 (Some (VInt 300)) = true ->
  definition_after ex_tables ((([] ++ [IOp (wr_var 2 1 130)]) ++ [IElem (wr_var 0 1 1)]) ++ [IOp (wr_var 2 1 0)]) (wr_var 0 12 101) = Ok i2 -> info_ok i2 -> field_ok X86 i2 (Some (VInt 28315)) = true ->
  slots X86 ex_tables [] operator_items [mkvar (mkcell i1 (Some (VInt 300))) []; mkvar (mkcell i2 (Some (VInt 28315))) []].
Proof.
  intros D1 K1 F1 D2 K2 F2. apply sl_op; [left; reflexivity|]. apply sl_elem; [exact D1|split; [exact K1|split; [exact F1|discriminate]]|].
  apply sl_op; [left; reflexivity|]. apply sl_elem; [exact D2|split; [exact K2|split; [exact F2|discriminate]]|apply sl_nil].
Qed.

Lemma nine_fits : field_ok X86 nine (Some (VInt 300)) = true.
Proof. vm_compute. reflexivity. Qed.
Lemma temperature_fits : field_ok X86 (ex_info 12 101) (Some (VInt 28315)) = true.
Proof. vm_compute. reflexivity. Qed.
Lemma temperature_ok : info_ok (ex_info 12 101).
Proof. apply ex_info_ok. vm_compute. reflexivity. Qed.

Lemma operator_slots : slots X86 ex_tables [] operator_items operator_vars.
Proof. exact (slots_of nine (ex_info 12 101) nine_defined nine_ok nine_fits temperature_defined temperature_ok temperature_fits). Qed.

Example C69_operators_example : fills_operators X86 ex_tables operator_ops operator_vars /\ Forall bare operator_vars /\
  flat_map var_bits operator_vars = bits_of 9 300 ++ bits_of 16 28315 /\ load_bufr ex_file = Ok (tb_b ex_tables).
Proof.
  split; [|split; [repeat constructor|split; [vm_compute; reflexivity|exact ex_btable_loads]]]. exists operator_items, (mkmode false false). split; [|exact operator_slots].
  apply ex_op; [reflexivity|reflexivity|]. apply ex_elem; [reflexivity|]. apply ex_op; [reflexivity|reflexivity|]. apply ex_elem; [reflexivity|]. constructor.
Qed.

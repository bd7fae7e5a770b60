(** Property C69: the bits of a message, stated with no decoder. *)
From Coq Require Import ZifyBool ZifyNat.
From Verif Require Import Base Num.Float Bits.Model Bits.Spec Bits.Proofs Bits.StringProofs Varcode.Model Varinfo.Model Varinfo.Proofs Tables.Model Tables.Spec
  Varinfo.RangeProofs Var.Model Var.Spec Var.Proofs Var.AttrProofs Var.CodecProofs Interp.Model Codec.Model Codec.Spec Codec.ValueProofs Codec.TransferProofs Message.Model Message.Spec Message.Proofs Message.LayoutProofs.
From Verif Require Interp.Example Codec.Properties Message.Properties.
Local Open Scope Z_scope.

(** The field of a value (WMO FM 94, regulations 94.1.3 and 94.6): a number less its reference value, the most significant bit first; all the bits set
    if it is missing; a text from its first character, with blanks after the last. *)
Definition field_bits (i : varinfo) (v : option value) : list bool :=
  let n := Z.to_nat (vi_bit_len i) in
  match v with
  | None => repeat true n
  | Some (VInt k) => bits_of n (k - vi_bit_ref i)
  | Some (VStr s) => bits_of_bytes (s ++ repeat 32 (n / 8 - length s))
  | Some (VBin b) => groups_bits n b
  end.

(** What a field can carry ([field_ok], C21), and if the value is missing the field is not wider than the 32 bits for which there is a mask (C39). *)
Definition carried (p : shift_policy) (i : varinfo) (v : option value) : Prop :=
  info_ok i /\ field_ok p i v = true /\ (v = None -> vi_bit_len i <= 32).

Theorem C69_field : forall p i v, carried p i v -> forall out, wf_out out ->
  exists out', append_var p i (mkcell i v) out = Ok out' /\ out_bits out' = out_bits out ++ field_bits i v /\ wf_out out'.
Proof.
  intros p i v (K & F & M) out W. unfold field_ok in F. destruct v as [[k|s|b]|].
  - assert (N : is_numeric (vi_type i) = true) by (destruct (vi_type i); try reflexivity; rewrite ?andb_false_r in F; discriminate).
    assert (F' : (1 <=? vi_bit_len i) && (vi_bit_len i <=? 32) && number_fits i k = true) by (destruct (vi_type i); try discriminate; exact F).
    apply andb_prop in F' as [B F']. unfold number_fits in F'. unfold append_var. cbn [isset c_val negb c_info].
    assert (Hn : (1 <= bit_len_nat i <= 32)%nat) by (unfold bit_len_nat; lia).
    destruct (info_ok_numeric i K N) as (_ & M1 & M2 & _).
    pose proof (encode_cell (mkcell i (Some (VInt k))) k K N ltac:(cbn; lia) ltac:(lia) eq_refl) as E.
    cbn [c_info] in E. replace (k <? vi_bit_ref i) with false in E by lia.
    assert (E2 : (d <- enqd (mkcell i (Some (VInt k)));; n <- encode_binary i d;; add_bits p n (bit_len_nat i) out) = add_bits p (k - vi_bit_ref i) (bit_len_nat i) out).
    { transitivity (n <- (d <- enqd (mkcell i (Some (VInt k)));; encode_binary i d);; add_bits p n (bit_len_nat i) out).
      - symmetry. apply bind_assoc.
      - rewrite E. reflexivity. }
    destruct (vi_type i); try discriminate; rewrite E2; apply add_bits_writes; auto.
  - destruct (vi_type i) eqn:N; rewrite ?andb_false_r in F; try discriminate. apply andb_prop in F as [B F]. unfold text_fits in F. rewrite !andb_true_iff in F. destruct F as (((((F1 & F2) & F3) & F4) & F5) & F6).
    assert (P : printable_str s) by (eapply forallb_Forall; [|exact F4]; cbv beta; intros; lia).
    unfold append_var. cbn [isset c_val negb]. rewrite N. unfold enqc. cbn [c_val c_info]. rewrite N. cbn [bind]. unfold append_chars.
    rewrite existsb_app. cbn [existsb]. rewrite Z.eqb_refl, orb_true_r. cbn [negb andb].
    destruct (append_string_spec p (s ++ [0]) (bit_len_nat i) out W) as (o' & A1 & A2 & A3). exists o'. split; [exact A1|]. split; [|exact A3]. rewrite A2. f_equal. cbn [field_bits].
    fold (bit_len_nat i). assert (M8 : (bit_len_nat i mod 8 = 0)%nat) by (unfold bit_len_nat; lia). rewrite M8. cbn [repeat]. rewrite app_nil_r. f_equal.
    rewrite <- pad_field_fit; [|exact P|unfold bit_len_nat; lia]. unfold pad_field. f_equal. f_equal. clear -P. induction P as [|c s Hc P IH]; cbn [cstr app]; [reflexivity|].
    replace (c =? 0) with false by lia. f_equal. exact IH.
  - destruct (vi_type i) eqn:N; rewrite ?andb_false_r in F; try discriminate. rewrite !andb_true_iff in F. destruct F as ((B1 & B2) & F).
    unfold binary_fits in F. rewrite !andb_true_iff in F. destruct F as (((F1 & F2) & F3) & F4).
    assert (Hng : Z.of_nat (ngroups (bit_len_nat i)) = vi_len i) by (unfold ngroups, bit_len_nat; rewrite Nat2Z.inj_div, Nat2Z.inj_add, Z2Nat.id by lia; lia).
    unfold append_var. cbn [isset c_val negb]. rewrite N. unfold enqc. cbn [c_val c_info]. rewrite N. cbn [bind].
    destruct (append_binary_spec p (bit_len_nat i) b out W ltac:(lia)) as (o' & A1 & A2 & A3). rewrite firstn_all2 in A2 by lia. exists o'. auto.
  - specialize (M eq_refl). unfold append_var. cbn [isset c_val negb].
    assert (Hn : (1 <= bit_len_nat i <= 32)%nat) by (unfold bit_len_nat; destruct (vi_type i); lia).
    destruct (append_missing_spec p (bit_len_nat i) out Hn W) as (o' & ? & ? & ?). exists o'. auto.
Qed.
Print Assumptions C69_field.

(** A subset for a template that is a list of elements: a variable for each, defined as in the table. *)
Definition element_of (p : shift_policy) (T : tables) (code : Z) (v : var) : Prop :=
  var_f code = 0 /\ query (tb_b T) code = Ok (c_info (v_cell v)) /\ carried p (c_info (v_cell v)) (c_val (v_cell v)).
Definition var_bits (v : var) : list bool := field_bits (c_info (v_cell v)) (c_val (v_cell v)).

Lemma run_elements p o T vars lt : forall ops before rest fuel out, Forall2 (element_of p T) ops rest -> vars = before ++ rest -> (length ops < fuel)%nat -> wf_out out ->
  exists out', run (encoder p o T vars) T fuel ops (ist_init, mkenc (length before) out lt) = Ok (ist_init, mkenc (length vars) out' lt) /\
    out_bits out' = out_bits out ++ flat_map var_bits rest /\ wf_out out'.
Proof.
  induction ops as [|op ops IH]; intros before rest fuel out H E L W; inversion H as [|? v ? rest' (Hf & Hq & Hc) H']; subst; (destruct fuel as [|fuel]; [cbn in L; lia|]).
  - exists out. cbn [run flat_map]. rewrite !app_nil_r. auto.
  - cbn [run]. rewrite Hf. cbn [Z.eqb].
    assert (B : exists out1, b_variable (encoder p o T (before ++ v :: rest')) T op (ist_init, mkenc (length before) out lt) = Ok (ist_init, mkenc (S (length before)) out1 lt) /\
      out_bits out1 = out_bits out ++ var_bits v /\ wf_out out1).
    { unfold b_variable. cbn [ist_init is_refbits Z.eqb negb]. unfold get_varinfo. rewrite Hq. cbn [bind ist_init is_scale is_width is_strlen is_srw is_refs is_cur is_afbits Z.eqb andb].
      rewrite andb_false_r. cbn [negb encoder on_var]. unfold e_var, e_next, get_var. cbn [e_pos e_out e_lt].
      rewrite nth_error_app2, Nat.sub_diag by lia. cbn [nth_error bind].
      destruct (C69_field p _ _ Hc out W) as (out1 & A & B & C). replace (mkcell (c_info (v_cell v)) (c_val (v_cell v))) with (v_cell v) in A by (destruct (v_cell v); reflexivity).
      unfold e_put. cbn [e_pos e_out e_lt]. rewrite A. cbn [bind]. exists out1. auto. }
    destruct B as (out1 & B1 & B2 & B3). rewrite B1. cbn [bind].
    destruct (IH (before ++ [v]) rest' fuel out1 H' ltac:(rewrite <- app_assoc; reflexivity) ltac:(cbn [length] in L; lia) B3) as (out' & C1 & C2 & C3).
    rewrite app_length in C1. cbn [length] in C1. rewrite Nat.add_1_r in C1. exists out'. split; [exact C1|]. split; [|exact C3]. rewrite C2, B2, <- app_assoc. reflexivity.
Qed.

Lemma subsets_elements p o T ops fuel lt : (length ops < fuel)%nat -> forall subsets out, Forall (Forall2 (element_of p T) ops) subsets -> wf_out out ->
  exists out', encode_subsets p o T fuel ops subsets lt out = Ok (lt, out') /\ out_bits out' = out_bits out ++ flat_map (flat_map var_bits) subsets /\ wf_out out'.
Proof.
  intros L. induction subsets as [|vars subsets IH]; intros out F W; cbn [encode_subsets flat_map].
  - exists out. rewrite app_nil_r. auto.
  - inversion F as [|? ? F1 F2]; subst. destruct (run_elements p o T vars lt ops [] vars fuel out F1 eq_refl L W) as (o1 & A1 & A2 & A3).
    cbn [length] in A1. rewrite A1. cbn [bind e_lt e_out]. destruct (IH o1 F2 A3) as (out' & B1 & B2 & B3). exists out'. split; [exact B1|]. split; [|exact B3].
    rewrite B2, A2, <- app_assoc. reflexivity.
Qed.

(** The whole message: the sections of [Message/Spec.v] byte by byte, where the data are the fields of the first subset, then of the second and so on,
    with no gaps; then zeroes to the end of the byte, and to an even number of bytes. *)
Theorem C69_message : forall p opt T fuel lt b,
  (h_edition (b_header b) = 2 \/ h_edition (b_header b) = 3 \/ h_edition (b_header b) = 4) -> Forall is_byte (b_optional b) ->
  b_subsets b <> [] -> b_datadesc b <> [] -> (length (b_datadesc b) < fuel)%nat ->
  Forall (Forall2 (element_of p T) (b_datadesc b)) (b_subsets b) ->
  exists data zeroes, encode p opt T fuel lt b = Ok (message b (even_padded data)) /\ (zeroes < 8)%nat /\ Forall is_byte data /\
    bits_of_bytes data = flat_map (flat_map var_bits) (b_subsets b) ++ repeat false zeroes.
Proof.
  intros p opt T fuel lt b ED FO NS ND L F. rewrite encode_layout by assumption.
  pose proof (before_data_bytes b FO) as FB.
  destruct (subsets_elements p opt T (b_datadesc b) fuel lt L (b_subsets b) (aligned (before_data b)) F (wf_aligned _ FB)) as (out & A1 & A2 & A3).
  rewrite A1. cbn [bind]. destruct (data_of _ _ _ _ _ _ _ _ _ _ FB A1) as (data & EF & FD). rewrite EF. cbn [aligned obytes]. rewrite skipn_length_app.
  destruct (flush_spec out A3) as (k & Hk & _ & B & _). rewrite EF in B. cbn [aligned obytes] in B. rewrite A2, aligned_bits in B. unfold bits_of_bytes in B at 1. rewrite flat_map_app in B.
  fold (bits_of_bytes (before_data b)) in B. fold (bits_of_bytes data) in B. rewrite <- app_assoc in B. apply app_inv_head in B.
  exists data, k. auto.
Qed.
Print Assumptions C69_message.

(** The decoder agrees on what a field is. *)
Theorem C69_field_read : forall p o i v, carried p i v -> forall inp rest, Forall is_byte (idata inp) -> wf_in inp -> (8 <= length rest)%nat ->
  in_bits inp = field_bits i v ++ rest ->
  exists inp', decode_value o i inp = Ok (mkcell i v, inp') /\ in_bits inp' = rest /\ wf_in inp' /\ idata inp' = idata inp.
Proof.
  intros p o i v C. pose proof C as (K & F & _). destruct (value_roundtrip p o i v (or_intror K) F) as (bs & W & R).
  destruct (W out_empty wf_out_empty) as (o1 & A1 & A2 & _). destruct (C69_field p i v C out_empty wf_out_empty) as (o2 & B1 & B2 & _).
  rewrite A1 in B1. injection B1 as ->. rewrite A2 in B2. apply app_inv_head in B2. subst bs. exact R.
Qed.
Print Assumptions C69_field_read.

(** ** A message with a block number, a temperature and a name, and then the same with no temperature *)
Import Interp.Example Codec.Properties.
Definition wire_ops : list Z := [wr_var 0 1 1; wr_var 0 12 101; wr_var 0 1 11].
Definition wire_name : var := mkvar (mkcell (ex_info 1 11) (Some (VStr [65; 66]))) [].
Definition wire_bulletin : bulletin :=
  mkbulletin (Message.Properties.ex_header 4 98 0 2026) [] false wire_ops [[num 1 1 16; num 12 101 28315; wire_name]; [num 1 1 16; gone 12 101; wire_name]].

Lemma wire_view x y : is_ok (query ex_btable (wr_var 0 x y)) = true -> query (tb_b ex_tables) (wr_var 0 x y) = Ok (ex_info x y).
Proof. intros H. exact (get_ok_eq no_info _ H). Qed.

Lemma wire_element x y v : is_ok (query ex_btable (wr_var 0 x y)) = true -> var_f (wr_var 0 x y) = 0 -> field_ok X86 (ex_info x y) v = true ->
  (vi_bit_len (ex_info x y) <=? 32) || match v with None => false | _ => true end = true -> element_of X86 ex_tables (wr_var 0 x y) (mkvar (mkcell (ex_info x y) v) []).
Proof.
  intros H1 H2 H3 H4. split; [exact H2|]. split; [apply wire_view; exact H1|]. split; [apply ex_info_ok; exact H1|]. split; [exact H3|].
  cbn [v_cell c_val c_info]. intros ->. lia.
Qed.

Example C69_example : Forall (Forall2 (element_of X86 ex_tables) (b_datadesc wire_bulletin)) (b_subsets wire_bulletin) /\
  flat_map var_bits [num 1 1 16; gone 12 101] = bits_of 7 16 ++ repeat true 16.
Proof.
  split; [|vm_compute; reflexivity].
  repeat (constructor; [repeat (constructor; [apply wire_element; vm_compute; reflexivity|]); constructor|]). constructor.
Qed.

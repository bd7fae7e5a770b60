(** Property C69, continued: the bits of a message whose template has sequences and replications. *)
From Coq Require Import ZifyBool ZifyNat.
From Verif Require Import Base Num.Float Bits.Model Bits.Spec Bits.Proofs Varcode.Model Varinfo.Model Varinfo.Proofs Tables.Model Tables.Spec
  Varinfo.RangeProofs Var.Model Var.Spec Var.Proofs Var.AttrProofs Var.CodecProofs Interp.Model Interp.Spec Interp.ExpandProofs Codec.Model Codec.Spec Codec.ValueProofs Codec.TransferProofs
  Message.Model Message.Spec Message.Proofs Message.LayoutProofs Message.WireProperties.
From Verif Require Interp.Properties Interp.Example Codec.Properties Message.Properties.
Local Open Scope Z_scope.

(** A variable for an item of the expansion of a template: an element, or the factor of a delayed replication, whose value is the number of repetitions. *)
Definition slot_of (p : shift_policy) (T : tables) (it : item) (v : var) : Prop :=
  let i := c_info (v_cell v) in
  match it with
  | IElem c => query (tb_b T) c = Ok i /\ carried p i (c_val (v_cell v))
  | IFactor c n => query (tb_b T) c = Ok i /\ carried p i (c_val (v_cell v)) /\ c_val (v_cell v) = Some (VInt (Z.of_nat n))
  | _ => False
  end.

(** The variables of a subset are those of some expansion of the template. *)
Definition fills (p : shift_policy) (T : tables) (ops : list Z) (vars : list var) : Prop :=
  exists items m', expands T (mkmode false false) ops items m' /\ Forall2 (slot_of p T) items vars.

Lemma put_field p (v : var) out : carried p (c_info (v_cell v)) (c_val (v_cell v)) -> wf_out out ->
  exists out1, append_var p (c_info (v_cell v)) (v_cell v) out = Ok out1 /\ out_bits out1 = out_bits out ++ var_bits v /\ wf_out out1.
Proof.
  intros C W. destruct (C69_field p _ _ C out W) as (o1 & A). exists o1.
  replace (mkcell (c_info (v_cell v)) (c_val (v_cell v))) with (v_cell v) in A by (destruct (v_cell v); reflexivity). exact A.
Qed.

Lemma factor_value p (c : cell) n : carried p (c_info c) (c_val c) -> c_val c = Some (VInt (Z.of_nat n)) -> exists m, enqi c = Ok m /\ Z.to_nat (u32 m) = n.
Proof.
  intros (K & F & _) V. rewrite V in F. unfold field_ok in F. exists (Z.of_nat n). unfold enqi. rewrite V.
  assert (N : is_numeric (vi_type (c_info c)) = true) by (destruct (vi_type (c_info c)); try reflexivity; rewrite ?andb_false_r in F; discriminate).
  assert (F' : (1 <=? vi_bit_len (c_info c)) && (vi_bit_len (c_info c) <=? 32) && number_fits (c_info c) (Z.of_nat n) = true) by (destruct (vi_type (c_info c)); try discriminate; exact F).
  apply andb_prop in F' as [_ F']. unfold number_fits in F'. destruct (info_ok_numeric _ K N) as (_ & M1 & M2 & _).
  split; [destruct (vi_type (c_info c)); try discriminate; reflexivity|]. unfold u32, int_min, int_max in *. rewrite Z.mod_small by lia. lia.
Qed.

Lemma exec_slots p o T vars lt : forall items before rest out, Forall2 (slot_of p T) items rest -> vars = before ++ rest -> wf_out out ->
  exists out', exec (encoder p o T vars) T items (ist_init, mkenc (length before) out lt) = Ok (ist_init, mkenc (length vars) out' lt) /\
    out_bits out' = out_bits out ++ flat_map var_bits rest /\ wf_out out'.
Proof.
  induction items as [|it items IH]; intros before rest out H E W; inversion H as [|? v ? rest' Hs H']; subst.
  - exists out. cbn [exec flat_map]. rewrite !app_nil_r. auto.
  - cbn [exec].
    assert (B : exists out1, step (encoder p o T (before ++ v :: rest')) T it (ist_init, mkenc (length before) out lt) = Ok (ist_init, mkenc (S (length before)) out1 lt) /\
      out_bits out1 = out_bits out ++ var_bits v /\ wf_out out1).
    { destruct it as [c| | | | |c n|]; cbn [slot_of] in Hs; try contradiction.
      - destruct Hs as (Hq & Hc). destruct (put_field p v out Hc W) as (out1 & A & B & C). exists out1. split; [|auto]. cbn [step ist_init is_refbits Z.eqb].
        unfold b_variable. cbn [ist_init is_refbits Z.eqb negb]. unfold get_varinfo. rewrite Hq. cbn [bind ist_init is_scale is_width is_strlen is_srw is_refs is_cur is_afbits Z.eqb andb].
        rewrite andb_false_r. cbn [negb encoder on_var]. unfold e_var, e_next, get_var. cbn [e_pos e_out e_lt].
        rewrite nth_error_app2, Nat.sub_diag by lia. cbn [nth_error bind]. unfold e_put. cbn [e_pos e_out e_lt]. rewrite A. reflexivity.
      - destruct Hs as (Hq & Hc & Hv). destruct (put_field p v out Hc W) as (out1 & A & B & C). exists out1. split; [|auto]. cbn [step]. rewrite Hq. cbn [bind encoder on_factor].
        unfold e_factor, e_next, get_var. cbn [e_pos e_out e_lt]. rewrite nth_error_app2, Nat.sub_diag by lia. cbn [nth_error bind]. unfold e_put. cbn [e_pos e_out e_lt]. rewrite A. cbn [bind].
        destruct (factor_value p _ n Hc Hv) as (m & M1 & M2). rewrite M1. cbn [bind]. rewrite M2, Nat.eqb_refl. reflexivity. }
    destruct B as (out1 & B1 & B2 & B3). rewrite B1. cbn [bind].
    destruct (IH (before ++ [v]) rest' out1 H' ltac:(rewrite <- app_assoc; reflexivity) B3) as (out' & C1 & C2 & C3).
    rewrite app_length in C1. cbn [length] in C1. rewrite Nat.add_1_r in C1. exists out'. split; [exact C1|]. split; [|exact C3]. rewrite C2, B2, <- app_assoc. reflexivity.
Qed.

Lemma subsets_slots p o T ops lt : forall subsets out, Forall (fills p T ops) subsets -> wf_out out ->
  exists k out', (forall fuel, (k <= fuel)%nat -> encode_subsets p o T fuel ops subsets lt out = Ok (lt, out')) /\
    out_bits out' = out_bits out ++ flat_map (flat_map var_bits) subsets /\ wf_out out'.
Proof.
  induction subsets as [|vars subsets IH]; intros out F W.
  - exists 0%nat, out. cbn [encode_subsets flat_map]. rewrite app_nil_r. auto.
  - inversion F as [|? ? (items & m' & X & F1) F2]; subst. destruct (exec_slots p o T vars lt items [] vars out F1 eq_refl W) as (o1 & A1 & A2 & A3). cbn [length] in A1.
    destruct (Interp.Properties.C18_expansion_is_run _ _ T ops items m' _ _ _ X A1) as (k1 & R).
    destruct (IH o1 F2 A3) as (k2 & out' & B1 & B2 & B3). exists (Nat.max k1 k2), out'. split; [|split; [|exact B3]].
    + intros fuel L. cbn [encode_subsets]. rewrite (run_mono _ _ k1 fuel _ _ _ ltac:(lia) R). cbn [bind e_lt e_out]. apply B1. lia.
    + cbn [flat_map]. rewrite B2, A2, <- app_assoc. reflexivity.
Qed.

(** As [C69_message], for templates with sequences, replications and delayed replications to any depth; the subsets need not have the same number of variables. *)
Theorem C69_message_expanded : forall p opt T lt b,
  (h_edition (b_header b) = 2 \/ h_edition (b_header b) = 3 \/ h_edition (b_header b) = 4) -> Forall is_byte (b_optional b) ->
  b_subsets b <> [] -> b_datadesc b <> [] -> Forall (fills p T (b_datadesc b)) (b_subsets b) ->
  exists enough data zeroes, (forall fuel, (enough <= fuel)%nat -> encode p opt T fuel lt b = Ok (message b (even_padded data))) /\ (zeroes < 8)%nat /\ Forall is_byte data /\
    bits_of_bytes data = flat_map (flat_map var_bits) (b_subsets b) ++ repeat false zeroes.
Proof.
  intros p opt T lt b ED FO NS ND F. pose proof (before_data_bytes b FO) as FB.
  destruct (subsets_slots p opt T (b_datadesc b) lt (b_subsets b) (aligned (before_data b)) F (wf_aligned _ FB)) as (k & out & A1 & A2 & A3).
  destruct (data_of _ _ _ _ _ _ _ _ _ _ FB (A1 k (le_n k))) as (data & EF & FD).
  destruct (flush_spec out A3) as (z & Hz & _ & B & _). rewrite EF in B. cbn [aligned obytes] in B. rewrite A2, aligned_bits in B. unfold bits_of_bytes in B at 1. rewrite flat_map_app in B.
  fold (bits_of_bytes (before_data b)) in B. fold (bits_of_bytes data) in B. rewrite <- app_assoc in B. apply app_inv_head in B.
  exists k, data, z. split; [|auto]. intros fuel L. rewrite encode_layout by assumption. rewrite (A1 fuel L). cbn [bind]. rewrite EF. cbn [aligned obytes]. rewrite skipn_length_app. reflexivity.
Qed.
Print Assumptions C69_message_expanded.

(** ** A block number, and temperatures as many as their number: two in the first subset, none in the second *)
Import Interp.Example Codec.Properties.
Definition delayed_ops : list Z := [wr_var 0 1 1; wr_var 1 1 0; wr_var 0 31 1; wr_var 0 12 101].

Lemma ex_fills n (temps : list var) : n = length temps -> Forall (slot_of X86 ex_tables (IElem (wr_var 0 12 101))) temps ->
  slot_of X86 ex_tables (IElem (wr_var 0 1 1)) (num 1 1 16) -> slot_of X86 ex_tables (IFactor (wr_var 0 31 1) n) (num 31 1 (Z.of_nat n)) ->
  fills X86 ex_tables delayed_ops (num 1 1 16 :: num 31 1 (Z.of_nat n) :: temps).
Proof.
  intros -> F H1 H2. exists (IElem (wr_var 0 1 1) :: IFactor (wr_var 0 31 1) (length temps) :: repeat (IElem (wr_var 0 12 101)) (length temps) ++ []), (mkmode false false). split.
  - apply ex_elem; [reflexivity|]. apply (ex_delayed ex_tables false (wr_var 1 1 0) (wr_var 0 31 1) (length temps) [wr_var 0 12 101] [] _ (mkmode false false)); try reflexivity.
    + split; reflexivity.
    + clear. induction (length temps) as [|k IH]; cbn [repeat]; [constructor|].
      apply (rp_one_more ex_tables (mkmode false false) k [wr_var 0 12 101] [IElem (wr_var 0 12 101)] (mkmode false false) _ _); [|exact IH]. apply ex_elem; [reflexivity|]. constructor.
    + constructor.
  - constructor; [exact H1|]. constructor; [exact H2|]. rewrite app_nil_r. clear -F. induction F; cbn [length repeat]; constructor; auto.
Qed.

Lemma ex_elem_slot x y v : is_ok (query ex_btable (wr_var 0 x y)) = true -> var_f (wr_var 0 x y) = 0 -> field_ok X86 (ex_info x y) v = true ->
  (vi_bit_len (ex_info x y) <=? 32) || match v with None => false | _ => true end = true -> slot_of X86 ex_tables (IElem (wr_var 0 x y)) (mkvar (mkcell (ex_info x y) v) []).
Proof. intros H1 H2 H3 H4. exact (proj2 (wire_element x y v H1 H2 H3 H4)). Qed.

Lemma ex_factor_slot x y n : is_ok (query ex_btable (wr_var 0 x y)) = true -> var_f (wr_var 0 x y) = 0 -> field_ok X86 (ex_info x y) (Some (VInt (Z.of_nat n))) = true ->
  slot_of X86 ex_tables (IFactor (wr_var 0 x y) n) (mkvar (mkcell (ex_info x y) (Some (VInt (Z.of_nat n)))) []).
Proof. intros H1 H2 H3. destruct (wire_element x y _ H1 H2 H3 (orb_true_r _)) as (_ & A & B). exact (conj A (conj B eq_refl)). Qed.

Example C69_expanded_example :
  Forall (fills X86 ex_tables delayed_ops) [[num 1 1 16; num 31 1 2; num 12 101 28315; gone 12 101]; [num 1 1 16; num 31 1 0]] /\
  flat_map var_bits [num 1 1 16; num 31 1 2; num 12 101 28315; gone 12 101] = bits_of 7 16 ++ bits_of 8 2 ++ bits_of 16 28315 ++ repeat true 16.
Proof.
  split; [|vm_compute; reflexivity]. constructor; [|constructor; [|constructor]].
  - apply (ex_fills 2 [num 12 101 28315; gone 12 101]); [reflexivity|repeat (constructor; [apply ex_elem_slot; vm_compute; reflexivity|]); constructor|apply ex_elem_slot; vm_compute; reflexivity|apply (ex_factor_slot 31 1 2); vm_compute; reflexivity].
  - apply (ex_fills 0 []); [reflexivity|constructor|apply ex_elem_slot; vm_compute; reflexivity|apply (ex_factor_slot 31 1 0); vm_compute; reflexivity].
Qed.

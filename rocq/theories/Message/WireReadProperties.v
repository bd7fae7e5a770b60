(** Property C69, continued: the decoder reads what the format prescribes, whoever wrote it. *)
From Coq Require Import ZifyBool ZifyNat.
From Verif Require Import Base Num.Float Bits.Model Bits.Spec Bits.Proofs Varcode.Model Varinfo.Model Tables.Model Tables.Spec Varinfo.RangeProofs
  Var.Model Var.Spec Interp.Model Interp.Spec Interp.ExpandProofs Codec.Model Codec.Spec Message.Model Message.Spec Message.ReadProofs Message.WireProperties Message.ExpandedWireProperties.
From Verif Require Interp.Properties Interp.Example Codec.Properties.
Local Open Scope Z_scope.

Definition bare (v : var) : Prop := v_attrs v = [].

Lemma get_field p o (v : var) inp rest : carried p (c_info (v_cell v)) (c_val (v_cell v)) -> Forall is_byte (idata inp) -> wf_in inp -> (8 <= length rest)%nat ->
  in_bits inp = var_bits v ++ rest ->
  exists inp', decode_value o (c_info (v_cell v)) inp = Ok (v_cell v, inp') /\ in_bits inp' = rest /\ wf_in inp' /\ idata inp' = idata inp.
Proof.
  intros C B W L E. destruct (C69_field_read p o _ _ C inp rest B W L E) as (inp' & A). exists inp'.
  replace (mkcell (c_info (v_cell v)) (c_val (v_cell v))) with (v_cell v) in A by (destruct (v_cell v); reflexivity). exact A.
Qed.

Lemma exec_read p o T skip lt rest : (8 <= length rest)%nat -> forall items vars inp got, Forall2 (slot_of p T) items vars -> Forall bare vars ->
  Forall is_byte (idata inp) -> wf_in inp -> in_bits inp = flat_map var_bits vars ++ rest ->
  exists inp', exec (decoder o T skip) T items (ist_init, mkdec inp got lt) = Ok (ist_init, mkdec inp' (got ++ vars) lt) /\ in_bits inp' = rest /\ wf_in inp' /\ idata inp' = idata inp.
Proof.
  intros L. induction items as [|it items IH]; intros vars inp got H N B W E; inversion H as [|? v ? vars' Hs H']; subst.
  - exists inp. cbn [exec]. rewrite app_nil_r. auto.
  - inversion N as [|? ? Nv N']; subst. cbn [flat_map] in E. rewrite <- app_assoc in E.
    assert (S : exists inp1, step (decoder o T skip) T it (ist_init, mkdec inp got lt) = Ok (ist_init, mkdec inp1 (got ++ [v]) lt) /\
      in_bits inp1 = flat_map var_bits vars' ++ rest /\ wf_in inp1 /\ idata inp1 = idata inp).
    { assert (L' : (8 <= length (flat_map var_bits vars' ++ rest))%nat) by (rewrite app_length; lia).
      destruct it as [c| | | | |c n|]; cbn [slot_of] in Hs; try contradiction.
      - destruct Hs as (Hq & Hc). destruct (get_field p o v inp _ Hc B W L' E) as (inp1 & A & R). exists inp1. split; [|exact R]. cbn [step ist_init is_refbits Z.eqb].
        unfold b_variable. cbn [ist_init is_refbits Z.eqb negb]. unfold get_varinfo. rewrite Hq. cbn [bind ist_init is_scale is_width is_strlen is_srw is_refs is_cur is_afbits Z.eqb andb].
        rewrite andb_false_r. cbn [negb decoder on_var]. unfold d_var, d_store. cbn [d_in d_vars d_lt]. rewrite A. cbn [bind]. destruct v as [vc va]. unfold bare in Nv. cbn [v_attrs v_cell] in *. subst va. reflexivity.
      - destruct Hs as (Hq & Hc & Hv). destruct (get_field p o v inp _ Hc B W L' E) as (inp1 & A & R). exists inp1. split; [|exact R]. cbn [step]. rewrite Hq. cbn [bind decoder on_factor].
        unfold d_factor, d_store. cbn [d_in d_vars d_lt]. rewrite A. cbn [bind]. destruct (factor_value p _ n Hc Hv) as (m & M1 & M2). rewrite M1. cbn [bind]. rewrite M2, Nat.eqb_refl.
        destruct v as [vc va]. unfold bare in Nv. cbn [v_attrs v_cell] in *. subst va. reflexivity. }
    destruct S as (inp1 & S1 & S2 & S3 & S4). cbn [exec]. rewrite S1. cbn [bind].
    destruct (IH vars' inp1 (got ++ [v]) H' N' ltac:(rewrite S4; exact B) S3 S2) as (inp' & C1 & C2 & C3 & C4). exists inp'.
    rewrite <- app_assoc in C1. split; [exact C1|]. split; [exact C2|]. split; [exact C3|]. rewrite C4. exact S4.
Qed.

Lemma subsets_read p o T skip ops lt rest : (8 <= length rest)%nat -> forall subsets inp, Forall (fills p T ops) subsets -> Forall (Forall bare) subsets ->
  Forall is_byte (idata inp) -> wf_in inp -> in_bits inp = flat_map (flat_map var_bits) subsets ++ rest ->
  exists k inp', forall fuel, (k <= fuel)%nat -> decode_subsets o T skip fuel ops (length subsets) lt inp = Ok (subsets, lt, inp').
Proof.
  intros L. induction subsets as [|vars subsets IH]; intros inp F N B W E.
  - exists 0%nat, inp. intros fuel _. reflexivity.
  - inversion F as [|? ? (items & m' & X & F1) F2]; subst. inversion N as [|? ? N1 N2]; subst. cbn [flat_map] in E. rewrite <- app_assoc in E.
    destruct (exec_read p o T skip lt (flat_map (flat_map var_bits) subsets ++ rest) ltac:(rewrite app_length; lia) items vars inp [] F1 N1 B W E) as (inp1 & A1 & A2 & A3 & A4).
    destruct (Interp.Properties.C18_expansion_is_run _ _ T ops items m' _ _ _ X A1) as (k1 & R).
    destruct (IH inp1 F2 N2 ltac:(rewrite A4; exact B) A3 A2) as (k2 & inp' & C). exists (Nat.max k1 k2), inp'. intros fuel Lf. cbn [length decode_subsets].
    rewrite (run_mono _ _ k1 fuel _ _ _ ltac:(lia) R). cbn [bind d_lt d_in d_vars]. rewrite (C fuel) by lia. reflexivity.
Qed.

(** A message, whoever wrote it, that is not compressed, whose data section holds the fields of the subsets one after the other and then anything at all,
    and that ends with 7777: the bulletin has those subsets.  [before] is what comes before the fields. *)
Theorem C69_message_read : forall p opt load skip before data after l T subsets filler,
  Forall is_byte (before ++ data ++ [55; 55; 55; 55] ++ after) ->
  decode_lead (before ++ data ++ [55; 55; 55; 55] ++ after) = Ok l -> load (tableid_of (l_header l)) = Ok T ->
  l_compression l = false -> l_expected l = Z.of_nat (length subsets) -> subsets <> [] ->
  (s4 (l_sections l) + 4)%nat = length before -> s5 (l_sections l) = (length before + length data)%nat ->
  bits_of_bytes data = flat_map (flat_map var_bits) subsets ++ filler ->
  Forall (fills p T (l_datadesc l)) subsets -> Forall (Forall bare) subsets ->
  exists enough sections, forall fuel, (enough <= fuel)%nat ->
    decode opt load skip fuel (before ++ data ++ [55; 55; 55; 55] ++ after) = Ok (mkbulletin (l_header l) (l_optional l) false (l_datadesc l) subsets, T, sections).
Proof.
  intros p opt load skip before data after l T subsets filler B D LT NC NE NS S4 S5 E F N. set (d := before ++ data ++ [55; 55; 55; 55] ++ after) in *.
  assert (I : in_bits (mkin d (length before) 0 0) = flat_map (flat_map var_bits) subsets ++ (filler ++ bits_of_bytes ([55; 55; 55; 55] ++ after))).
  { unfold in_bits. cbn [iplen ipbyte icur idata firstn app]. unfold d. rewrite skipn_app, skipn_all, Nat.sub_diag. cbn [skipn app].
    unfold bits_of_bytes. rewrite flat_map_app. fold (bits_of_bytes data). rewrite E, <- app_assoc. reflexivity. }
  destruct (subsets_read p opt T skip (l_datadesc l) empty_local (filler ++ bits_of_bytes ([55; 55; 55; 55] ++ after)) ltac:(rewrite app_length; cbn [app bits_of_bytes flat_map]; rewrite !app_length; cbn [bits_of length]; lia)
    subsets (mkin d (length before) 0 0) F N B ltac:(split; [cbn; lia|split; [cbn; lia|unfold d; cbn [icur idata]; rewrite app_length; lia]]) I) as (k & inp' & A).
  exists k, [s1 (l_sections l); s2 (l_sections l); s3 (l_sections l); s4 (l_sections l); s5 (l_sections l); (s5 (l_sections l) + 4)%nat].
  intros fuel L. unfold decode. rewrite D. cbn [bind]. rewrite LT. cbn [bind]. unfold decode_data. rewrite S4, NE, NC.
  replace (Z.of_nat (length subsets) =? 0) with false by (destruct subsets; [contradiction|cbn [length]; lia]). rewrite Nat2Z.id, (A fuel L). cbn [bind].
  rewrite S5. replace (Nat.ltb (length d) (length before + length data + 4)) with false by (unfold d; rewrite !app_length; cbn [length]; lia).
  unfold d at 1. rewrite app_assoc, <- app_length, zlist_is_ok. cbn [bind negb]. reflexivity.
Qed.
Print Assumptions C69_message_read.

(** ** The two subsets of [C69_expanded_example] with eighteen more bits after them, which this library never writes *)
Import Interp.Example Codec.Properties.
Definition wr_before : list Z :=
  [66; 85; 70; 82; 0; 0; 64; 4; 0; 0; 22; 0; 0; 98; 0; 0; 1; 0; 0; 7; 5; 13; 1; 7; 234; 12; 31; 23; 59; 58; 0; 0; 16; 0; 0; 2; 128; 1; 1; 65; 0; 31; 1; 12; 101; 0; 0; 0; 14; 0].
Definition wr_data : list Z := [32; 4; 221; 55; 255; 254; 64; 0; 170; 170].
Definition wr_message : list Z := wr_before ++ wr_data ++ [55; 55; 55; 55].
Definition wr_subsets : list (list var) := [[num 1 1 16; num 31 1 2; num 12 101 28315; gone 12 101]; [num 1 1 16; num 31 1 0]].
Definition no_lead : lead := mklead (mkheader 0 0 0 0 0 0 0 0 0 0 0 0 0 0 0 0) [] false [] (mksections 0 0 0 0 0) 0.
Definition wr_lead : lead := get_ok no_lead (decode_lead wr_message).

Example C69_read_example : forallb (fun b => (0 <=? b) && (b <? 256)) wr_message = true /\ decode_lead wr_message = Ok wr_lead /\
  l_compression wr_lead = false /\ l_expected wr_lead = Z.of_nat (length wr_subsets) /\ l_datadesc wr_lead = delayed_ops /\
  (s4 (l_sections wr_lead) + 4)%nat = length wr_before /\ s5 (l_sections wr_lead) = (length wr_before + length wr_data)%nat /\
  bits_of_bytes wr_data = flat_map (flat_map var_bits) wr_subsets ++ [false; false] ++ bits_of_bytes [170; 170] /\
  Forall (fills X86 ex_tables delayed_ops) wr_subsets /\ Forall (Forall bare) wr_subsets.
Proof.
  do 8 (split; [vm_compute; reflexivity|]). split; [exact (proj1 C69_expanded_example)|]. repeat (constructor; [repeat (constructor; [reflexivity|]); constructor|]). constructor.
Qed.

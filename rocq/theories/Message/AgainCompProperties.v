(** C48 for messages with compression: the bulletin can be encoded, without compression, and decoded again. *)
From Coq Require Import ZArith Lia ZifyBool ZifyNat.
From Verif Require Import Base Bits.Model Bits.Spec Varcode.Model Varinfo.Model Tables.Model Tables.LoadProofs Var.Model Interp.Model
  Codec.Model Codec.Compressed Codec.Spec Codec.Proofs Codec.ColumnProofs Codec.Again Codec.AgainCheck Codec.AgainSteps Codec.AgainProperties Codec.AgainComp Codec.AgainCompProperties
  Message.Model Message.Spec Message.Proofs Message.SafeProofs Message.ReadProofs Message.Again Message.AgainProperties.
From Verif Require Message.Properties.
From Verif Require Interp.Example Codec.CompressedProperties.
Local Open Scope Z_scope.

(** [decode] with the record of what the template asks for; messages with compression. *)
Definition record_compressed_message (opt : options) (load : tableid -> res tables) (skip : bool) (fuel : nat) (d : list Z)
  : res (list (list var) * list request) :=
  l <- decode_lead d ;;
  T <- load (tableid_of (l_header l)) ;;
  ' (gots, reqs, _, _) <- record_compressed opt T skip fuel (l_datadesc l) (Z.to_nat (l_expected l)) empty_local
                      (mkin d (s4 (l_sections l) + 4) 0 0) ;;
  Ok (gots, reqs).

(** The same bulletin, except that there is no compression. *)
Definition uncompressed (b : bulletin) : bulletin := mkbulletin (b_header b) (b_optional b) false (b_datadesc b) (b_subsets b).

Theorem C48_compressed_messages_can_be_sent_again : forall p opt load skip fuel lt d b T found,
  Forall is_byte d -> strict_options opt ->
  decode opt load skip fuel d = Ok (b, T, found) ->
  table_ok (tb_b T) -> defs_ok (tb_b T) ->
  b_compression b = true -> header_kept (b_header b) -> Nat.even (length (b_optional b)) = true -> b_datadesc b <> [] -> lt_unknown lt = [] ->
  exists reqs, record_compressed_message opt load skip fuel d = Ok (b_subsets b, reqs) /\
    (Forall (fun vars => comp_faithful p vars reqs) (b_subsets b) ->
     exists bytes, encode p opt T fuel lt b = Ok bytes /\
       (Z.of_nat (length bytes) < 2 ^ 24 -> exists found', decode opt load skip fuel bytes = Ok (uncompressed b, T, found'))).
Proof.
  intros p opt load skip fuel lt d b T found HB HO E HT HD Cp Hk Ev Nd Lt. unfold decode in E. inv_bind E. rename a into l. inv_bind Hk0. rename a into T'. inv_bind Hk1. destruct a as [subsets lt'].
  apply ok_inj in Hk0. injection Hk0 as <- -> <-. unfold uncompressed. cbn [b_compression b_header b_optional b_datadesc b_subsets] in *.
  pose proof (lead_fields d HB) as Lo. unfold defined in Lo. rewrite Hb in Lo. pose proof Lo as (L1 & L2 & _ & L4 & L5 & L6).
  unfold decode_data in Hb1. destruct (Z.eqb_spec (l_expected l) 0) as [|Ne]; [discriminate|]. rewrite Cp in Hb1. inv_bind Hb1. destruct a as [[subs0 lt0] inp0].
  destruct (Nat.ltb _ _) in Hk0; [discriminate|]. inv_bind Hk0. destruct a; [|discriminate]. cbn [negb] in Hk1. apply ok_inj in Hk1. injection Hk1 as -> ->.
  destruct (comp_recorded _ _ _ _ _ _ _ _ _ _ _ Hb2) as (reqs & Es). exists reqs. unfold record_compressed_message. rewrite Hb. cbn [bind]. rewrite Hb0. cbn [bind]. rewrite Es. cbn [bind].
  split; [reflexivity|]. intros Fa.
  assert (Pn : (0 < Z.to_nat (l_expected l))%nat) by lia.
  destruct (comp_sent p opt HO T skip HT HD fuel (l_datadesc l) _ _ _ _ _ _ _ C48_no_local_definitions Pn Es) as (V & N & K). specialize (K Fa).
  pose proof (kept_again l Lo Hk) as R.
  destruct (Message.Properties.C40_messages_round_trip p opt T load skip fuel lt (mkbulletin (l_header l) (l_optional l) (l_compression l) (l_datadesc l) subsets) subsets lt') as (bytes & Eb & D);
    cbn [b_compression b_header b_optional b_datadesc b_subsets] in *; auto.
  - destruct subsets; [cbn [length] in N; lia|discriminate].
  - rewrite N. lia.
  - rewrite R. exact Hb0.
  - exists bytes. split; [exact Eb|]. intros Lb. destruct (D Lb) as (found' & F). exists found'. rewrite F, R.
    assert (P : even_padded (l_optional l) = l_optional l) by (unfold even_padded; rewrite <- Nat.negb_even, Ev; reflexivity). rewrite P. reflexivity.
Qed.

(** A message with the three subsets of C23 meets the conditions: the sections of an uncompressed message with
    the data replaced, the compression flag set and the lengths as they have to be. *)
Definition ex_plain_message : list Z :=
  get_ok [] (encode X86 (mkopts false false None) Interp.Example.ex_tables 100 empty_local
              (mkbulletin (Message.Properties.ex_header 4 40000 3 2026) [] false Codec.Properties.ex_ops Codec.CompressedProperties.ex_subs)).
Definition ex_section4 : nat := 30 + (256 * 256 * nth 30 (map Z.to_nat ex_plain_message) 0 + 256 * nth 31 (map Z.to_nat ex_plain_message) 0 + nth 32 (map Z.to_nat ex_plain_message) 0)%nat.
Definition ex_comp_message : list Z :=
  let data := firstn (length ex_comp - 2) ex_comp in
  let d := firstn ex_section4 (put 36 192 ex_plain_message) ++ [0; 0; Z.of_nat (length data + 4); 0] ++ data ++ [55; 55; 55; 55] in
  put 6 (Z.of_nat (length d)) d.

Lemma comp_message_checks p opt load skip fuel d b T found gots reqs : decode opt load skip fuel d = Ok (b, T, found) -> record_compressed_message opt load skip fuel d = Ok (gots, reqs) ->
  (' (b, T, _) <- decode opt load skip fuel d ;; ' (gots, reqs) <- record_compressed_message opt load skip fuel d ;;
   Ok (b_compression b && (h_edition (b_header b) =? 4) && (h_master_table (b_header b) =? 0) && Nat.even (length (b_optional b)) &&
       negb (Nat.eqb (length (b_datadesc b)) 0) && Nat.eqb (length gots) 3 && forallb (fun vars => comp_faithfulb p vars reqs) gots)) = Ok true ->
  b_compression b = true /\ header_kept (b_header b) /\ Nat.even (length (b_optional b)) = true /\ b_datadesc b <> [] /\ length gots = 3%nat /\
  Forall (fun vars => comp_faithful p vars reqs) gots.
Proof.
  intros -> -> H. cbn [bind] in H. apply ok_inj in H. repeat (apply andb_true_iff in H as [H ?]). unfold header_kept. rewrite H5.
  split; [exact H|]. split; [lia|]. split; [exact H3|]. split; [|split; [lia|apply comp_all_faithful; exact H0]].
  intros E. rewrite E in H2. discriminate.
Qed.

Example C48_compressed_message_example :
  Forall is_byte ex_comp_message /\
  exists b T found reqs,
    decode (mkopts false false None) Message.Properties.ex_load true 100 ex_comp_message = Ok (b, T, found) /\ table_ok (tb_b T) /\ defs_ok (tb_b T) /\
    b_compression b = true /\ header_kept (b_header b) /\ Nat.even (length (b_optional b)) = true /\ b_datadesc b <> [] /\ length (b_subsets b) = 3%nat /\
    record_compressed_message (mkopts false false None) Message.Properties.ex_load true 100 ex_comp_message = Ok (b_subsets b, reqs) /\
    Forall (fun vars => comp_faithful X86 vars reqs) (b_subsets b).
Proof.
  assert (FB : Forall is_byte ex_comp_message).
  { apply Forall_forall; intros x Hx; assert (B : forallb (fun x => (0 <=? x) && (x <? 256)) ex_comp_message = true) by (vm_compute; reflexivity).
    rewrite forallb_forall in B; specialize (B x Hx); unfold is_byte; lia. }
  split; [exact FB|].
  assert (Y : match decode (mkopts false false None) Message.Properties.ex_load true 100 ex_comp_message with Ok (b, T, _) => h_version (b_header b) =? 13 | _ => false end = true)
    by (vm_compute; reflexivity).
  assert (X : (' (b, T, _) <- decode (mkopts false false None) Message.Properties.ex_load true 100 ex_comp_message ;;
     ' (gots, reqs) <- record_compressed_message (mkopts false false None) Message.Properties.ex_load true 100 ex_comp_message ;;
     Ok (b_compression b && (h_edition (b_header b) =? 4) && (h_master_table (b_header b) =? 0) && Nat.even (length (b_optional b)) &&
       negb (Nat.eqb (length (b_datadesc b)) 0) && Nat.eqb (length gots) 3 && forallb (fun vars => comp_faithfulb X86 vars reqs) gots)) = Ok true)
    by (vm_compute; reflexivity).
  revert X Y FB. generalize ex_comp_message. intros d X Y FB.
  destruct (decode (mkopts false false None) Message.Properties.ex_load true 100 d) as [[[b T] found]| |] eqn:E; try discriminate.
  assert (HT : T = Interp.Example.ex_tables).
  { pose proof E as E0. unfold decode in E0. inv_bind E0. inv_bind Hk. inv_bind Hk0. destruct a1. apply ok_inj in Hk. injection Hk as <- <- _.
    unfold Message.Properties.ex_load in Hb0. destruct (_ =? 13); [|discriminate]. apply ok_inj in Hb0. symmetry. exact Hb0. }
  destruct (record_compressed_message (mkopts false false None) Message.Properties.ex_load true 100 d) as [[gots reqs]| |] eqn:Es; try discriminate.
  destruct (comp_message_checks X86 _ _ _ _ d b T found gots reqs E Es) as (R1 & R2 & R3 & R4 & R5 & R6); [rewrite E, Es; exact X|].
  assert (HTo : table_ok (tb_b T)) by (rewrite HT; exact Interp.Example.ex_btable_ok). assert (HDo : defs_ok (tb_b T)) by (rewrite HT; exact ex_defs_ok).
  destruct (C48_compressed_messages_can_be_sent_again X86 (mkopts false false None) Message.Properties.ex_load true 100 empty_local d b T found FB ltac:(repeat split) E HTo HDo R1 R2 R3 R4 eq_refl) as (reqs' & Er & _).
  rewrite Es in Er. apply ok_inj in Er. apply pair_equal_spec in Er as [Eg _]. subst gots.
  exists b, T, found, reqs. auto 12.
Qed.

Print Assumptions C48_compressed_messages_can_be_sent_again.

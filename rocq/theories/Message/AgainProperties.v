(** C48: what is decoded from a message can be encoded and decoded again. *)
From Coq Require Import ZArith Lia ZifyBool ZifyNat.
From Verif Require Import Base Bits.Model Bits.Spec Varcode.Model Varinfo.Model Tables.Model Tables.LoadProofs Var.Model Interp.Model
  Codec.Model Codec.Spec Codec.Proofs Codec.ColumnProofs Codec.Again Codec.AgainCheck Codec.AgainSteps Codec.AgainProperties
  Message.Model Message.Spec Message.Proofs Message.SafeProofs Message.ReadProofs Message.Again.
From Verif Require Message.Properties.
From Verif Require Interp.Example.
Local Open Scope Z_scope.

(** ** What the header of any message is like *)
Definition lead_ok (l : lead) : Prop :=
  let h := l_header l in
  header_ok h /\ (h_edition h = 2 \/ h_edition h = 3 \/ h_edition h = 4) /\
  (h_edition h <> 4 -> h_centre h < 256 /\ h_subcentre h < 256 /\ h_subcategory h = 255 /\ h_second h = 0 /\ 1951 <= h_year h) /\
  Forall is_byte (l_optional l) /\ Forall in_u16 (l_datadesc l) /\ 0 <= l_expected l < 65536.

Section Header.
Context (d : list Z) (HB : Forall is_byte d).
Ltac safe_byte := eapply defined_bind; [apply read_at_safe; [exact HB|lia]|]; intros ? ?.
Ltac safe_short := eapply defined_bind; [apply read_number_safe; [exact HB|lia|lia]|]; intros ? ?.
Definition fields_ok (ed : Z) (h : header) : Prop :=
  header_ok h /\ h_edition h = ed /\
  (ed <> 4 -> h_centre h < 256 /\ h_subcentre h < 256 /\ h_subcategory h = 255 /\ h_second h = 0 /\ 1951 <= h_year h).

Lemma sec1_ed3_fields ed sec2 : (8 + 18 <= length d)%nat -> (sec2 <= length d)%nat ->
  defined (decode_sec1_ed3 d ed sec2) (fun x => fields_ok ed (fst (fst x)) /\ scanned d (snd (fst x))).
Proof.
  intros L L2. unfold decode_sec1_ed3. cbv zeta. unfold read_byte. safe_byte. safe_byte.
  eapply defined_bind; [apply scan_safe; auto|]. intros se Hs. do 12 safe_byte. cbn [defined fst snd]. split; [|exact Hs].
  unfold fields_ok, is_byte in *. split; [constructor; cbn; unfold in_u8, in_u16; try lia; match goal with |- context [50 <? ?y] => destruct (50 <? y) eqn:Y end; lia|].
  split; [reflexivity|]. intros _. cbn. repeat (split; [lia|]). match goal with |- context [50 <? ?y] => destruct (50 <? y) eqn:Y end; lia.
Qed.

Lemma sec1_ed4_fields sec2 : (8 + 22 <= length d)%nat -> (sec2 <= length d)%nat ->
  defined (decode_sec1_ed4 d 4 sec2) (fun x => fields_ok 4 (fst (fst x)) /\ scanned d (snd (fst x))).
Proof.
  intros L L2. unfold decode_sec1_ed4. cbv zeta. unfold read_byte. safe_byte. do 2 safe_short. do 2 safe_byte.
  eapply defined_bind; [apply scan_safe; auto|]. intros se Hs. destruct (_ && _); [discriminate|].
  do 5 safe_byte. safe_short. do 5 safe_byte. cbn [defined fst snd]. split; [|exact Hs].
  change (256 ^ Z.of_nat 2) with 65536 in *. unfold fields_ok, is_byte in *. split; [constructor; cbn; unfold in_u8, in_u16; lia|]. split; [reflexivity|]. intros X. contradiction.
Qed.

Lemma descriptors_fields : forall n pos, (pos + 2 * n <= length d)%nat -> defined (read_descriptors d pos n) (Forall in_u16).
Proof.
  induction n as [|n IH]; intros pos L; cbn [read_descriptors]; [constructor|].
  eapply defined_bind; [apply read_number_safe; [exact HB|lia|lia]|]. intros v Hv. eapply defined_bind; [apply IH; lia|]. intros vs Hvs. cbn. constructor; [|exact Hvs].
  change (256 ^ Z.of_nat 2) with 65536 in Hv. exact Hv.
Qed.

Lemma lead_fields : defined (decode_lead d) lead_ok.
Proof.
  unfold decode_lead. destruct (Nat.ltb (length d) 8) eqn:E8; [discriminate|].
  eapply defined_bind; [apply zlist_is_safe; [exact HB|cbn [length]; lia]|]. intros [] _; cbn [negb]; [|discriminate].
  unfold read_byte at 1. safe_byte. rename a into ed. destruct (negb _) eqn:ED; [discriminate|].
  eapply defined_bind; [apply section_end_safe; exact HB|]. cbv beta. intros sec2 H2.
  destruct (Nat.ltb (length d) (8 + (if ed =? 4 then 22 else 18))) eqn:E1; [discriminate|].
  apply defined_bind with (P := fun x => fields_ok ed (fst (fst x)) /\ scanned d (snd (fst x))).
  { destruct (Z.eqb_spec ed 4) as [->|]; [apply sec1_ed4_fields|apply sec1_ed3_fields]; lia. }
  intros [[h se] has2] [(Hh & He & H3) Hs]. cbn [fst snd] in *. destruct Hs as (S1 & S2 & S3 & S4).
  apply defined_bind with (P := Forall is_byte).
  { destruct has2; [|cbn; constructor]. destruct (Nat.ltb (s3 se) (s2 se + 3)) eqn:L3; [discriminate|].
    safe_short. destruct (Nat.ltb (s3 se) (s2 se + Z.to_nat a)); [discriminate|]. destruct (a <? 4); [discriminate|]. cbn.
    rewrite <- (firstn_skipn (s2 se + 4) d) in HB. apply Forall_app in HB as [_ HB2].
    rewrite <- (firstn_skipn (Z.to_nat a - 4) (skipn (s2 se + 4) d)) in HB2. apply Forall_app in HB2 as [HB2 _]. exact HB2. }
  intros op Ho. destruct (Nat.ltb (s4 se - s3 se) 7) eqn:E7; [discriminate|]. destruct (Nat.ltb (s4 se) (s3 se + 8)) eqn:E9; [discriminate|].
  safe_short. unfold read_byte. safe_byte. cbv zeta.
  destruct (Nat.ltb (s4 se) (s3 se + 7 + (s4 se - s3 se - 7) / 2 * 2)) eqn:E10; [discriminate|].
  eapply defined_bind; [apply descriptors_fields; lia|]. intros descs Hd. cbn [defined]. unfold lead_ok. cbn [l_header l_optional l_datadesc l_expected].
  split; [exact Hh|]. split; [lia|]. split; [intros X; apply H3; lia|]. split; [exact Ho|]. split; [exact Hd|]. cbv beta in *. change (256 ^ Z.of_nat 2) with 65536 in *. lia.
Qed.
End Header.

Lemma kept_again l : lead_ok l -> header_kept (l_header l) -> read_header (l_header l) = l_header l.
Proof.
  intros (Hh & He & H3 & _) Hk. unfold read_header, header_kept in *. destruct (Z.eqb_spec (h_edition (l_header l)) 4) as [E|E].
  - unfold read_ed4. destruct (l_header l). cbn in *. subst. reflexivity.
  - destruct (H3 E) as (C1 & C2 & C3 & C4 & C5). destruct Hh. unfold read_ed3. destruct (l_header l) as [ed mt ce su up ca sc lo ve vl ye mo da ho mi se]. cbn in *. unfold in_u16, in_u8 in *. subst.
    rewrite !Z.mod_small by lia. f_equal. unfold year_ed3. destruct (Z.eqb_spec ye 2000) as [->|Ny]; [reflexivity|].
    destruct (Z_lt_dec ye 2000) as [Lt|Ge].
    + replace (ye mod 100) with (ye - 1900) by (apply (Z.mod_unique_pos ye 100 19); lia). destruct (Z.ltb_spec 50 (ye - 1900)); lia.
    + replace (ye mod 100) with (ye - 2000) by (apply (Z.mod_unique_pos ye 100 20); lia). destruct (Z.ltb_spec 50 (ye - 2000)); lia.
Qed.

(** Any message without compression that can be decoded: the bulletin that it is can be encoded, and decodes to
    the same bulletin, when each subset is faithful to what the template asks for. *)
Theorem C48_messages_can_be_sent_again : forall p opt load skip fuel lt d b T found,
  Forall is_byte d -> strict_options opt ->
  decode opt load skip fuel d = Ok (b, T, found) ->
  table_ok (tb_b T) -> defs_ok (tb_b T) ->
  b_compression b = false -> header_kept (b_header b) -> Nat.even (length (b_optional b)) = true -> b_datadesc b <> [] -> lt_unknown lt = [] ->
  exists subs, record_message opt load skip fuel d = Ok subs /\ map fst subs = b_subsets b /\
    (Forall (fun q => faithful p T (fst q) (snd q)) subs ->
     exists bytes, encode p opt T fuel lt b = Ok bytes /\
       (Z.of_nat (length bytes) < 2 ^ 24 -> exists found', decode opt load skip fuel bytes = Ok (b, T, found'))).
Proof.
  intros p opt load skip fuel lt d b T found HB HO E HT HD Cp Hk Ev Nd Lt. unfold decode in E. inv_bind E. rename a into l. inv_bind Hk0. rename a into T'. inv_bind Hk1. destruct a as [subsets lt'].
  apply ok_inj in Hk0. injection Hk0 as <- -> <-. cbn [b_compression b_header b_optional b_datadesc b_subsets] in *.
  pose proof (lead_fields d HB) as Lo. unfold defined in Lo. rewrite Hb in Lo. pose proof Lo as (L1 & L2 & _ & L4 & L5 & L6).
  unfold decode_data in Hb1. destruct (Z.eqb_spec (l_expected l) 0) as [|Ne]; [discriminate|]. rewrite Cp in Hb1. inv_bind Hb1. destruct a as [[subs0 lt0] inp0].
  destruct (Nat.ltb _ _) in Hk0; [discriminate|]. inv_bind Hk0. destruct a; [|discriminate]. cbn [negb] in Hk1. apply ok_inj in Hk1. injection Hk1 as -> ->.
  destruct (recorded _ _ _ _ _ _ _ _ _ _ _ Hb2) as (subs & Es & <-). exists subs. unfold record_message. rewrite Hb. cbn [bind]. rewrite Hb0. cbn [bind]. rewrite Es. cbn [bind].
  split; [reflexivity|]. split; [reflexivity|]. intros Fa.
  destruct (sent_again p opt T skip fuel (l_datadesc l) HO HT HD _ _ _ _ _ _ C48_no_local_definitions Es) as (V & N & _ & K). specialize (K Fa).
  pose proof (kept_again l Lo Hk) as R.
  destruct (Message.Properties.C40_messages_round_trip p opt T load skip fuel lt (mkbulletin (l_header l) (l_optional l) (l_compression l) (l_datadesc l) (map fst subs)) (map fst subs) lt') as (bytes & Eb & D);
    cbn [b_compression b_header b_optional b_datadesc b_subsets] in *; auto.
  - destruct subs; [cbn [length] in N; lia|discriminate].
  - rewrite map_length, N. lia.
  - rewrite R. exact Hb0.
  - exists bytes. split; [exact Eb|]. intros Lb. destruct (D Lb) as (found' & F). exists found'. rewrite F, R, Cp.
    assert (P : even_padded (l_optional l) = l_optional l) by (unfold even_padded; rewrite <- Nat.negb_even, Ev; reflexivity). rewrite P. reflexivity.
Qed.

(** A message of two subsets, with an optional section, meets the conditions. *)
Definition ex_message : list Z :=
  get_ok [] (encode X86 (mkopts false false None) Interp.Example.ex_tables 100 empty_local
              (mkbulletin (Message.Properties.ex_header 4 40000 3 2026) [1; 2] false Codec.Properties.ex_ops
                 [Codec.Properties.ex_subset 300; Codec.Properties.ex_subset 400])).

Lemma message_checks p opt load skip fuel d b T found subs : decode opt load skip fuel d = Ok (b, T, found) -> record_message opt load skip fuel d = Ok subs ->
  (' (b, T, _) <- decode opt load skip fuel d ;; subs <- record_message opt load skip fuel d ;;
   Ok (negb (b_compression b) && (h_edition (b_header b) =? 4) && (h_master_table (b_header b) =? 0) && Nat.even (length (b_optional b)) &&
       negb (Nat.eqb (length (b_datadesc b)) 0) && Nat.eqb (length subs) 2 && forallb (fun q => faithfulb p T (fst q) (snd q)) subs)) = Ok true ->
  b_compression b = false /\ header_kept (b_header b) /\ Nat.even (length (b_optional b)) = true /\ b_datadesc b <> [] /\ length subs = 2%nat /\
  Forall (fun q => faithful p T (fst q) (snd q)) subs.
Proof.
  intros -> -> H. cbn [bind] in H. apply ok_inj in H. repeat (apply andb_true_iff in H as [H ?]). unfold header_kept. rewrite H5.
  split; [destruct (b_compression b); [discriminate|reflexivity]|]. split; [lia|]. split; [exact H3|]. split; [|split; [lia|apply all_faithful; exact H0]].
  intros E. rewrite E in H2. discriminate.
Qed.

Example C48_message_example :
  Forall is_byte ex_message /\ length ex_message = 122%nat /\
  exists b T found subs,
    decode (mkopts false false None) Message.Properties.ex_load true 100 ex_message = Ok (b, T, found) /\ table_ok (tb_b T) /\ defs_ok (tb_b T) /\
    b_compression b = false /\ header_kept (b_header b) /\ Nat.even (length (b_optional b)) = true /\ b_datadesc b <> [] /\
    record_message (mkopts false false None) Message.Properties.ex_load true 100 ex_message = Ok subs /\ length subs = 2%nat /\
    Forall (fun q => faithful X86 T (fst q) (snd q)) subs.
Proof.
  split; [apply Forall_forall; intros x Hx; assert (B : forallb (fun x => (0 <=? x) && (x <? 256)) ex_message = true) by (vm_compute; reflexivity);
          rewrite forallb_forall in B; specialize (B x Hx); unfold is_byte; lia|].
  split; [vm_compute; reflexivity|].
  assert (Y : match decode (mkopts false false None) Message.Properties.ex_load true 100 ex_message with Ok (b, T, _) => h_version (b_header b) =? 13 | _ => false end = true)
    by (vm_compute; reflexivity).
  assert (Z : is_ok (record_message (mkopts false false None) Message.Properties.ex_load true 100 ex_message) = true) by (vm_compute; reflexivity).
  assert (X : (' (b, T, _) <- decode (mkopts false false None) Message.Properties.ex_load true 100 ex_message ;;
     subs <- record_message (mkopts false false None) Message.Properties.ex_load true 100 ex_message ;;
     Ok (negb (b_compression b) && (h_edition (b_header b) =? 4) && (h_master_table (b_header b) =? 0) && Nat.even (length (b_optional b)) &&
       negb (Nat.eqb (length (b_datadesc b)) 0) && Nat.eqb (length subs) 2 && forallb (fun q => faithfulb X86 T (fst q) (snd q)) subs)) = Ok true)
    by (vm_compute; reflexivity).
  apply is_ok_exists in Z as (subs & Es). revert X Y Es. generalize ex_message. intros d X Y Es.
  destruct (decode (mkopts false false None) Message.Properties.ex_load true 100 d) as [[[b T] found]| |] eqn:E; try discriminate.
  destruct (message_checks X86 _ _ _ _ d b T found subs E Es) as (R1 & R2 & R3 & R4 & R5 & R6); [rewrite E; exact X|].
  assert (HT : T = Interp.Example.ex_tables).
  { unfold decode in E. inv_bind E. inv_bind Hk. inv_bind Hk0. destruct a1. apply ok_inj in Hk. injection Hk as <- <- _.
    unfold Message.Properties.ex_load in Hb0. destruct (_ =? 13); [|discriminate]. apply ok_inj in Hb0. symmetry. exact Hb0. }
  exists b, T, found, subs. split; [reflexivity|]. rewrite HT at 1 2. split; [exact Interp.Example.ex_btable_ok|]. split; [exact ex_defs_ok|]. auto 10.
Qed.

(** ** What is not kept of the header

    The headers that are decoded from [d] and from what its bulletin is encoded to. *)
Definition headers (d : list Z) : res (header * header) :=
  ' (b, T, _) <- decode (mkopts false false None) Message.Properties.ex_load true 100 d ;;
  bytes <- encode X86 (mkopts false false None) T 100 empty_local b ;;
  ' (b', _, _) <- decode (mkopts false false None) Message.Properties.ex_load true 100 bytes ;;
  Ok (b_header b, b_header b').
Definition ex_message3 : list Z :=
  get_ok [] (encode X86 (mkopts false false None) Interp.Example.ex_tables 100 empty_local
              (mkbulletin (Message.Properties.ex_header 3 200 3 2026) [1; 2] false [wr_var 0 1 1] [[Codec.Properties.num 1 1 5]])).
Definition put (k : nat) (x : Z) (d : list Z) : list Z := firstn k d ++ x :: skipn (S k) d.

(** Edition 4: the encoder always writes master table 0. *)
Theorem C48_master_table_refuted :
  (' (h, h') <- headers (put 11 10 ex_message) ;; Ok (h_master_table h, h_master_table h')) = Ok (10, 0).
Proof. vm_compute. reflexivity. Qed.

(** Edition 3: a year of the century of 160 is decoded as 2060, which is encoded as 60, which is
    decoded as 1960. *)
Theorem C48_year_refuted :
  (' (h, h') <- headers (put 20 160 ex_message3) ;; Ok (h_year h, h_year h')) = Ok (2060, 1960).
Proof. vm_compute. reflexivity. Qed.

Print Assumptions C48_messages_can_be_sent_again.

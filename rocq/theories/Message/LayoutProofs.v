(** The encoder writes the sections of [Message.Spec]. *)
From Coq Require Import ZifyBool ZifyNat.
From Verif Require Import Base Codec.ColumnProofs Bits.Model Bits.Spec Bits.Proofs Num.Float Varcode.Model Varinfo.Model Tables.Model
  Var.Model Interp.Model Codec.Model Codec.Compressed Codec.Spec Codec.TransferProofs
  Message.Model Message.Spec Message.Proofs.
Local Open Scope Z_scope.

Lemma u8_be v : be 1 (u8 v) = be 1 v.
Proof. apply (be_mod 1 v 8). lia. Qed.
Lemma u16_be v : be 2 (u16 v) = be 2 v.
Proof. apply (be_mod 2 v 16). lia. Qed.

Lemma whole_three v : exists k, snd (three v) = (8 * k)%nat /\ (1 <= k <= 4)%nat.
Proof. exists 3%nat. split; [reflexivity|lia]. Qed.
Lemma whole_byte v : exists k, snd (byte v) = (8 * k)%nat /\ (1 <= k <= 4)%nat.
Proof. exists 1%nat. split; [reflexivity|lia]. Qed.
Lemma whole_short v : exists k, snd (short v) = (8 * k)%nat /\ (1 <= k <= 4)%nat.
Proof. exists 2%nat. split; [reflexivity|lia]. Qed.

Ltac whole := repeat (apply Forall_cons; [first [apply whole_three|apply whole_byte|apply whole_short]|]); try apply Forall_nil.

Lemma fields_three v fs : fields_bytes (three v :: fs) = be 3 v ++ fields_bytes fs.
Proof. reflexivity. Qed.
Lemma fields_byte v fs : fields_bytes (byte v :: fs) = be 1 v ++ fields_bytes fs.
Proof. rewrite <- u8_be. reflexivity. Qed.
Lemma fields_short v fs : fields_bytes (short v :: fs) = be 2 v ++ fields_bytes fs.
Proof. rewrite <- u16_be. reflexivity. Qed.
Lemma fields_nil : fields_bytes [] = [].
Proof. reflexivity. Qed.
Lemma fields_shorts ds : fields_bytes (map short ds) = flat_map (be 2) ds.
Proof. induction ds as [|x ds IH]; [reflexivity|]. cbn [map flat_map]. rewrite fields_short, IH. reflexivity. Qed.

Lemma sec1_ed3_bytes b : fields_bytes (sec1_ed3 b) = section1_ed3 b.
Proof.
  unfold sec1_ed3, section1_ed3. cbv zeta. rewrite !fields_three, !fields_byte, fields_nil, app_nil_r. reflexivity.
Qed.
Lemma sec1_ed4_bytes b : fields_bytes (sec1_ed4 b) = section1_ed4 b.
Proof.
  unfold sec1_ed4, section1_ed4. cbv zeta.
  rewrite fields_three, fields_byte, !fields_short, !fields_byte, fields_short, !fields_byte, fields_nil, app_nil_r.
  reflexivity.
Qed.
Lemma whole_ed3 b : whole_bytes (sec1_ed3 b).
Proof. unfold sec1_ed3, whole_bytes. cbv zeta. whole. Qed.
Lemma whole_ed4 b : whole_bytes (sec1_ed4 b).
Proof. unfold sec1_ed4, whole_bytes. cbv zeta. whole. Qed.

Lemma Forall_be_app k v l : Forall is_byte l -> Forall is_byte (be k v ++ l).
Proof. intros. apply Forall_app. split; auto using be_bytes. Qed.
Lemma byte_0 : is_byte 0. Proof. unfold is_byte; lia. Qed.
Lemma byte_128 : is_byte 128. Proof. unfold is_byte; lia. Qed.

Lemma section1_bytes b : Forall is_byte (section1 b).
Proof. unfold section1. destruct (_ =? 4); [rewrite <- sec1_ed4_bytes|rewrite <- sec1_ed3_bytes]; apply fields_bytes_ok. Qed.

Lemma section1_length b : length (section1 b) = if h_edition (b_header b) =? 4 then 22%nat else 18%nat.
Proof.
  unfold section1. destruct (_ =? 4); unfold section1_ed4, section1_ed3; cbv zeta; rewrite !app_length, !be_length; reflexivity.
Qed.

Lemma even_padded_even s : Nat.odd (length (even_padded s)) = false.
Proof.
  unfold even_padded. destruct (Nat.odd (length s)) eqn:E; auto.
  rewrite app_length, Nat.odd_add, E. reflexivity.
Qed.

Lemma even_padded_bytes s : Forall is_byte s -> Forall is_byte (even_padded s).
Proof. intros F. unfold even_padded. destruct (Nat.odd _); auto. apply Forall_app. split; auto. repeat constructor; lia. Qed.

Lemma section2_bytes b : Forall is_byte (b_optional b) -> Forall is_byte (section2 b).
Proof.
  intros F. unfold section2. destruct (b_optional b) eqn:E; auto. rewrite <- E in *.
  apply Forall_be_app. apply Forall_app. split; [repeat constructor; lia|]. apply even_padded_bytes. exact F.
Qed.

Lemma section3_bytes b : Forall is_byte (section3 b).
Proof.
  unfold section3. apply Forall_be_app. apply Forall_app. split; [repeat constructor; lia|]. apply Forall_be_app.
  apply Forall_app. split; [repeat constructor; lia|]. apply Forall_app. split; [|repeat constructor; lia].
  induction (b_datadesc b) as [|x l IH]; cbn [flat_map]; auto using Forall_be_app.
Qed.

Lemma flat_be_length k ds : length (flat_map (be k) ds) = (k * length ds)%nat.
Proof. induction ds; cbn [flat_map length]; [lia|]. rewrite app_length, be_length, IHds. lia. Qed.

Lemma section3_length b : length (section3 b) = (8 + 2 * length (b_datadesc b))%nat.
Proof. unfold section3. rewrite !app_length, !be_length, flat_be_length. cbn [length]. lia. Qed.

Lemma section2_length b : length (section2 b) = match b_optional b with [] => 0 | s => 4 + length (even_padded s) end%nat.
Proof. unfold section2. destruct (b_optional b); reflexivity. Qed.

Lemma section4_length data : length (section4 data) = (4 + length data)%nat.
Proof. unfold section4. rewrite !app_length, !be_length. cbn [length]. lia. Qed.

Lemma section_ok_intro s body : s = be 3 (Z.of_nat (length s)) ++ body -> section_ok s.
Proof. intros E. exists body. exact E. Qed.

Lemma section1_ok b : section_ok (section1 b).
Proof.
  unfold section_ok. rewrite section1_length. unfold section1. destruct (_ =? 4); unfold section1_ed4, section1_ed3; cbv zeta;
    eexists; reflexivity.
Qed.
Lemma section2_ok b : b_optional b <> [] -> section_ok (section2 b).
Proof.
  intros NE. exists ([0] ++ even_padded (b_optional b)). rewrite section2_length. unfold section2.
  destruct (b_optional b) eqn:E; [congruence|]. f_equal. f_equal. lia.
Qed.
Lemma section3_ok b : section_ok (section3 b).
Proof. unfold section_ok. rewrite section3_length. unfold section3. eexists. apply f_equal2; [f_equal; lia|reflexivity]. Qed.
Lemma section4_ok data : section_ok (section4 data).
Proof. unfold section_ok. rewrite section4_length. unfold section4. eexists. apply f_equal2; [f_equal; lia|reflexivity]. Qed.

Lemma concat_sections b data :
  concat (sections_of b data) = section1 b ++ section2 b ++ section3 b ++ section4 data.
Proof.
  unfold sections_of, section2. destruct (b_optional b) eqn:E; cbn [app concat]; rewrite ?app_nil_r; auto.
Qed.

(** ** The encoder *)

(** What is in the output before the data: the lengths of the message and of section 4 are
    not known yet. *)
Definition before_sec4 (b : bulletin) : list Z :=
  [66; 85; 70; 82; 0; 0; 0] ++ be 1 (h_edition (b_header b)) ++ section1 b ++ section2 b ++ section3 b.
Definition before_data (b : bulletin) : list Z := before_sec4 b ++ [0; 0; 0; 0].

Lemma before_sec4_bytes b : Forall is_byte (b_optional b) -> Forall is_byte (before_sec4 b).
Proof.
  intros F. unfold before_sec4. apply Forall_app. split; [repeat constructor; lia|]. apply Forall_be_app.
  apply Forall_app. split; [apply section1_bytes|]. apply Forall_app. split; [apply section2_bytes; auto|apply section3_bytes].
Qed.

Lemma before_data_bytes b : Forall is_byte (b_optional b) -> Forall is_byte (before_data b).
Proof. intros F. apply Forall_app. split; [apply before_sec4_bytes; auto|repeat constructor; lia]. Qed.

Lemma before_data_even b : Nat.odd (length (before_data b)) = false.
Proof.
  unfold before_data, before_sec4. rewrite !app_length, be_length, section1_length, section2_length, section3_length.
  rewrite !Nat.odd_add.
  assert (E1 : Nat.odd (if h_edition (b_header b) =? 4 then 22 else 18) = false) by (destruct (_ =? 4); reflexivity).
  assert (E2 : Nat.odd (match b_optional b with [] => 0 | s => 4 + length (even_padded s) end) = false).
  { destruct (b_optional b) eqn:E; auto. rewrite Nat.odd_add, even_padded_even. reflexivity. }
  rewrite E1, E2, Nat.odd_mul. reflexivity.
Qed.

Lemma sec2_aligned p b l : Forall is_byte (b_optional b) -> Forall is_byte l ->
  encode_sec2 p b (aligned l) = Ok (aligned (l ++ section2 b)).
Proof.
  intros FO F. unfold encode_sec2, section2. destruct (b_optional b) as [|x opt] eqn:E; [rewrite app_nil_r; reflexivity|].
  rewrite <- E in *. clear E x opt. set (opt := b_optional b) in *. cbv zeta.
  rewrite write_aligned; auto; [|unfold whole_bytes; whole]. cbn [bind].
  rewrite fields_three, fields_byte, fields_nil, app_nil_r, raw_aligned, be_u32 by lia. unfold even_padded.
  destruct (Nat.odd (length opt)).
  - rewrite byte_aligned.
    + rewrite app_length. cbn [length]. change (be 1 0) with [0]. change (u8 0) with 0.
      replace (4 + Z.of_nat (length opt + 1)) with (4 + Z.of_nat (length opt) + 1) by lia.
      rewrite <- !app_assoc. reflexivity.
    + apply Forall_app. split; auto. apply Forall_app. split; auto. apply Forall_be_app. apply be_bytes.
  - rewrite <- !app_assoc. reflexivity.
Qed.

Lemma sec3_aligned p b l : Forall is_byte l -> b_subsets b <> [] -> b_datadesc b <> [] ->
  encode_sec3 p b (aligned l) = Ok (aligned (l ++ section3 b)).
Proof.
  intros F N1 N2. unfold encode_sec3, section3.
  replace (Nat.eqb (length (b_subsets b)) 0) with false by (destruct (b_subsets b); [congruence|reflexivity]).
  replace (Nat.eqb (length (b_datadesc b)) 0) with false by (destruct (b_datadesc b); [congruence|reflexivity]).
  rewrite write_aligned; auto.
  - f_equal. f_equal. f_equal. cbn [app].
    rewrite fields_three, fields_byte, fields_short, fields_byte, fields_bytes_app, fields_shorts, fields_byte, fields_nil.
    rewrite be_u32 by lia. reflexivity.
  - unfold whole_bytes. apply Forall_app. split; [whole|]. apply Forall_app. split; [|whole].
    apply Forall_map. apply Forall_forall. intros; apply whole_short.
Qed.

Lemma flush_aligned l : flush (aligned l) = aligned l.
Proof. reflexivity. Qed.

Lemma flush_is_aligned o : wf_out o -> flush o = aligned (obytes (flush o)) /\ Forall is_byte (obytes (flush o)).
Proof.
  intros W. destruct (flush_spec o W) as (k & _ & _ & _ & E1 & E2 & F). split; auto.
  destruct (flush o) as [ob pb pl]. cbn in *. subst. reflexivity.
Qed.

(** The data written after [pre]. *)
Lemma data_of p o T fuel ops subsets lt pre lt' out : Forall is_byte pre ->
  encode_subsets p o T fuel ops subsets lt (aligned pre) = Ok (lt', out) ->
  exists data, flush out = aligned (pre ++ data) /\ Forall is_byte data.
Proof.
  intros F H. destruct (encode_subsets_grows _ _ _ _ _ _ _ _ _ _ H (wf_aligned pre F)) as (W & bs & B).
  destruct (flush_spec out W) as (k & _ & _ & F2 & _ & _ & F5).
  rewrite B, aligned_bits, <- app_assoc in F2.
  destruct (bits_of_bytes_prefix pre (obytes (flush out)) (bs ++ repeat false k) F5 F F2) as (data & E & _).
  exists data. destruct (flush_is_aligned out W) as [E1 _]. rewrite <- E. split; auto.
  rewrite E in F5. apply Forall_app in F5. apply F5.
Qed.

Theorem encode_layout p opt T fuel lt b : Forall is_byte (b_optional b) ->
  (h_edition (b_header b) = 2 \/ h_edition (b_header b) = 3 \/ h_edition (b_header b) = 4) ->
  b_subsets b <> [] -> b_datadesc b <> [] ->
  encode p opt T fuel lt b =
  (' (_, out) <- encode_subsets p opt T fuel (b_datadesc b) (b_subsets b) lt (aligned (before_data b)) ;;
   Ok (message b (even_padded (skipn (length (before_data b)) (obytes (flush out)))))).
Proof.
  intros FO ED NS ND. unfold encode. cbv zeta.
  change (raw_append [66; 85; 70; 82; 0; 0; 0] out_empty) with (aligned [66; 85; 70; 82; 0; 0; 0]).
  rewrite byte_aligned by (repeat constructor; lia). cbn [bind].
  set (l0 := [66; 85; 70; 82; 0; 0; 0] ++ [u8 (h_edition (b_header b))]).
  assert (L0 : l0 = [66; 85; 70; 82; 0; 0; 0] ++ be 1 (h_edition (b_header b))) by (unfold l0; rewrite be_one; reflexivity).
  assert (F0 : Forall is_byte l0) by (rewrite L0; apply Forall_app; split; [repeat constructor; lia|apply be_bytes]).
  assert (S1 : (if (h_edition (b_header b) =? 2) || (h_edition (b_header b) =? 3) then write_fields p (sec1_ed3 b) (aligned l0)
     else if h_edition (b_header b) =? 4 then write_fields p (sec1_ed4 b) (aligned l0) else Err EUnimpl)
     = Ok (aligned (l0 ++ section1 b))).
  { unfold section1. destruct ED as [E|[E|E]]; rewrite E; cbn [Z.eqb Pos.eqb orb];
      rewrite write_aligned by auto using whole_ed3, whole_ed4; rewrite ?sec1_ed3_bytes, ?sec1_ed4_bytes; reflexivity. }
  rewrite S1. cbn [bind].
  assert (F1 : Forall is_byte (l0 ++ section1 b)) by (apply Forall_app; auto using section1_bytes).
  rewrite sec2_aligned by auto. cbn [bind].
  assert (F2 : Forall is_byte ((l0 ++ section1 b) ++ section2 b)) by (apply Forall_app; auto using section2_bytes).
  rewrite sec3_aligned by auto. cbn [bind]. unfold encode_sec4. cbv zeta.
  replace (((l0 ++ section1 b) ++ section2 b) ++ section3 b) with (before_sec4 b)
    by (unfold before_sec4; rewrite L0, <- !app_assoc; reflexivity).
  rewrite write_aligned; [|unfold whole_bytes; whole|apply before_sec4_bytes; auto]. cbn [bind].
  change (before_sec4 b ++ fields_bytes [three 0; byte 0]) with (before_data b).
  destruct (encode_subsets p opt T fuel (b_datadesc b) (b_subsets b) lt (aligned (before_data b))) as [[lt' out]| |] eqn:ES;
    cbn [bind]; auto.
  destruct (data_of _ _ _ _ _ _ _ _ _ _ (before_data_bytes b FO) ES) as (data & EF & FD). rewrite EF.
  cbn [aligned obytes]. rewrite app_length, Nat.odd_add, before_data_even. cbn [xorb].
  rewrite skipn_length_app.
  assert (Pad : (if Nat.odd (length data) then append_byte p 0 (aligned (before_data b ++ data)) else Ok (aligned (before_data b ++ data)))
     = Ok (aligned (before_data b ++ even_padded data))).
  { unfold even_padded. destruct (Nat.odd (length data)); auto. rewrite byte_aligned.
    - rewrite <- app_assoc. reflexivity.
    - apply Forall_app. auto using before_data_bytes. }
  replace (Nat.odd (length data)) with (xorb false (Nat.odd (length data))) in Pad by (destruct (Nat.odd _); reflexivity).
  cbn [xorb] in Pad. fold (aligned (before_data b ++ data)). rewrite Pad. cbn [bind]. rewrite flush_aligned. cbn [aligned obytes opbyte oplen].
  set (D := even_padded data).
  assert (P4 : patch (before_data b ++ D) (length (before_sec4 b)) (be3 (u32 (Z.of_nat (length (before_data b ++ D) - length (before_sec4 b)))))
     = before_sec4 b ++ section4 D).
  { unfold before_data. rewrite <- app_assoc. change ([0; 0; 0; 0] ++ D) with ([0; 0; 0] ++ [0] ++ D).
    rewrite patch_mid by reflexivity. f_equal. unfold section4. f_equal.
    rewrite be3_be by (unfold u32; apply Z.mod_pos_bound; lia). rewrite be_u32 by lia. f_equal.
    rewrite !app_length. cbn [length]. lia. }
  rewrite P4. unfold raw_append. cbn [obytes]. f_equal.
  unfold before_sec4. rewrite <- !app_assoc.
  set (rest := be 1 _ ++ section1 b ++ section2 b ++ section3 b ++ section4 D ++ [55; 55; 55; 55]).
  change ([66; 85; 70; 82; 0; 0; 0] ++ rest) with ([66; 85; 70; 82] ++ [0; 0; 0] ++ rest).
  change 4%nat with (length [66; 85; 70; 82]) at 1. rewrite patch_mid by reflexivity.
  rewrite be3_be by (unfold u32; apply Z.mod_pos_bound; lia). rewrite be_u32 by lia.
  unfold message. cbv zeta. rewrite concat_sections. f_equal. f_equal.
  - f_equal. unfold rest. rewrite !app_length, be_length. cbn [length]. lia.
  - unfold rest. rewrite <- !app_assoc. reflexivity.
Qed.

Lemma encode_requires p opt T fuel lt b bytes : encode p opt T fuel lt b = Ok bytes ->
  (h_edition (b_header b) = 2 \/ h_edition (b_header b) = 3 \/ h_edition (b_header b) = 4) /\
  b_subsets b <> [] /\ b_datadesc b <> [].
Proof.
  intros H. unfold encode in H. cbv zeta in H. inv_bind H. inv_bind Hk. inv_bind Hk0. inv_bind Hk. clear Hk0.
  split.
  - destruct (h_edition (b_header b) =? 2) eqn:E2; [left; lia|]. destruct (h_edition (b_header b) =? 3) eqn:E3; [right; left; lia|].
    destruct (h_edition (b_header b) =? 4) eqn:E4; [right; right; lia|]. discriminate.
  - unfold encode_sec3 in Hb2. destruct (b_subsets b); [discriminate|]. destruct (b_datadesc b); [discriminate|].
    split; discriminate.
Qed.

(** Everything that is encoded is a message made of the sections. *)
Theorem encoded p opt T fuel lt b bytes : Forall is_byte (b_optional b) -> encode p opt T fuel lt b = Ok bytes ->
  (h_edition (b_header b) = 2 \/ h_edition (b_header b) = 3 \/ h_edition (b_header b) = 4) /\
  b_subsets b <> [] /\ b_datadesc b <> [] /\
  exists lt' out data,
    encode_subsets p opt T fuel (b_datadesc b) (b_subsets b) lt (aligned (before_data b)) = Ok (lt', out) /\
    flush out = aligned (before_data b ++ data) /\ Forall is_byte data /\ bytes = message b (even_padded data).
Proof.
  intros FO H. destruct (encode_requires _ _ _ _ _ _ _ H) as (ED & NS & ND). split; [exact ED|]. split; [exact NS|].
  split; [exact ND|]. rewrite encode_layout in H by auto. inv_bind H. destruct a as [lt' out]. apply ok_inj in Hk.
  destruct (data_of _ _ _ _ _ _ _ _ _ _ (before_data_bytes b FO) Hb) as (data & EF & FD).
  exists lt', out, data. split; [exact Hb|]. split; [exact EF|]. split; [exact FD|]. rewrite <- Hk, EF.
  cbn [aligned obytes]. rewrite skipn_length_app. reflexivity.
Qed.

Lemma message_framed b data : in_u8 (h_edition (b_header b)) ->
  framed (h_edition (b_header b)) (sections_of b data) (message b data).
Proof.
  intros E. split.
  - assert (L : Z.of_nat (length (message b data)) = 12 + Z.of_nat (length (concat (sections_of b data)))).
    { unfold message. cbv zeta. rewrite !app_length, !be_length. cbn [length]. lia. }
    rewrite L. unfold message. cbv zeta. rewrite be_one, Z.mod_small by (unfold in_u8 in E; lia). reflexivity.
  - unfold sections_of. constructor; [apply section1_ok|]. apply Forall_app. split.
    + destruct (b_optional b) eqn:O; constructor; auto. apply section2_ok. congruence.
    + constructor; [apply section3_ok|]. constructor; [apply section4_ok|constructor].
Qed.

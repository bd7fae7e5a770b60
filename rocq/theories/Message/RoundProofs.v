(** Whole messages are read back. *)
From Coq Require Import ZifyBool ZifyNat.
From Verif Require Import Base Codec.ColumnProofs Bits.Model Bits.Spec Bits.Proofs Num.Float Varcode.Model Varinfo.Model
  Varinfo.Proofs Tables.Model Tables.LoadProofs Var.Model Interp.Model Codec.Model Codec.Compressed Codec.Spec Codec.Proofs Codec.TransferProofs
  Message.Model Message.Spec Message.Proofs Message.LayoutProofs Message.ReadProofs.
Local Open Scope Z_scope.

(** The data of a message do not depend on what is before them. *)
Lemma data_roundtrip p o T skip fuel ops subsets lt lte gots lt' pre : table_ok (tb_b T) ->
  Forall (Forall var_infos_ok) subsets -> lt_unknown lte = lt_unknown lt -> Forall is_byte pre ->
  transfer_all p T skip fuel ops subsets lt = Ok (gots, lt') ->
  exists lte' out data, encode_subsets p o T fuel ops subsets lte (aligned pre) = Ok (lte', out) /\
    flush out = aligned (pre ++ data) /\ Forall is_byte data /\
    forall pre' post, Forall is_byte pre' -> Forall is_byte post -> (1 <= length post)%nat ->
    exists inp', decode_subsets o T skip fuel ops (length subsets) lt (mkin (pre' ++ data ++ post) (length pre') 0 0)
                 = Ok (gots, lt', inp').
Proof.
  intros TOK VOK L Hpre H.
  destruct (subsets_roundtrip p o T skip fuel ops TOK subsets lt lte gots lt' _ VOK L (wf_aligned pre Hpre) H)
    as (bs & lte' & out & E1 & E2 & E3 & E4).
  destruct (flush_spec out E2) as (k & Hk & F1 & F2 & F3 & F4 & F5).
  rewrite aligned_bits in E3. rewrite E3, <- app_assoc in F2.
  destruct (bits_of_bytes_prefix pre (obytes (flush out)) (bs ++ repeat false k) F5 Hpre F2) as (data & B1 & B2).
  assert (Fb : Forall is_byte data) by (rewrite B1 in F5; apply Forall_app in F5; apply F5).
  exists lte', out, data. split; [exact E1|]. split; [|split; [exact Fb|]].
  - destruct (flush_is_aligned out E2) as [E _]. rewrite <- B1. exact E.
  - intros pre' post Fp' Fp Lp.
    destruct (E4 (mkin (pre' ++ data ++ post) (length pre') 0 0) (repeat false k ++ bits_of_bytes post)) as (inp' & D & _).
    + cbn [idata]. apply Forall_app. split; auto. apply Forall_app. auto.
    + unfold wf_in. cbn [iplen ipbyte icur idata]. rewrite app_length. lia.
    + rewrite app_length, repeat_length. destruct post as [|b post]; [cbn in Lp; lia|]. cbn [bits_of_bytes flat_map].
      rewrite app_length, bits_of_length. lia.
    + unfold in_bits. cbn [iplen ipbyte icur idata firstn app]. rewrite skipn_length_app, bits_of_bytes_app, <- B2, <- app_assoc.
      reflexivity.
    + eauto.
Qed.

Lemma start_bytes b t : Forall is_byte (start_of b t).
Proof. unfold start_of. apply Forall_app. split; [repeat constructor; lia|]. apply Forall_be_app. apply be_bytes. Qed.

Theorem message_roundtrip p opt T load skip fuel lt b gots lt' : table_ok (tb_b T) ->
  header_ok (b_header b) ->
  (h_edition (b_header b) = 2 \/ h_edition (b_header b) = 3 \/ h_edition (b_header b) = 4) ->
  Forall is_byte (b_optional b) -> Forall in_u16 (b_datadesc b) -> b_datadesc b <> [] ->
  b_subsets b <> [] -> Z.of_nat (length (b_subsets b)) < 65536 -> Forall (Forall var_infos_ok) (b_subsets b) ->
  lt_unknown lt = [] ->
  load (tableid_of (read_header (b_header b))) = Ok T ->
  transfer_all p T skip fuel (b_datadesc b) (b_subsets b) empty_local = Ok (gots, lt') ->
  exists data, encode p opt T fuel lt b = Ok (message b data) /\ Forall is_byte data /\
    (Z.of_nat (length (message b data)) < 2 ^ 24 ->
     decode opt load skip fuel (message b data) =
     Ok (mkbulletin (read_header (b_header b)) (even_padded (b_optional b)) false (b_datadesc b) gots, T,
         8%nat :: ends 8 [section1 b; section2 b; section3 b; section4 data] ++ [length (message b data)])).
Proof.
  intros TOK HO ED FO FD ND NS LS VOK LT LD TR.
  destruct (data_roundtrip p opt T skip fuel (b_datadesc b) (b_subsets b) empty_local lt gots lt' (before_data b)
    TOK VOK LT (before_data_bytes b FO) TR) as (lte' & out & data & E1 & E2 & E3 & E4).
  exists (even_padded data). split; [|split].
  - rewrite encode_layout by auto. rewrite E1. cbn [bind]. rewrite E2. cbn [aligned obytes]. rewrite skipn_length_app. reflexivity.
  - apply even_padded_bytes. exact E3.
  - intros L. destruct (message_parts b (even_padded data)) as (t & EM). rewrite EM in *.
    set (D := even_padded data) in *. set (tail := [55; 55; 55; 55]) in *.
    unfold decode. rewrite lead_read by auto. cbn [bind lead_of l_header]. rewrite LD. cbn [bind].
    unfold decode_data. cbn [lead_of l_sections l_expected l_compression l_datadesc].
    rewrite Z.mod_small by lia. replace (Z.of_nat (length (b_subsets b)) =? 0) with false
      by (destruct (b_subsets b); [congruence|cbn [length]; lia]).
    rewrite Nat2Z.id. set (d := start_of b t ++ _) in *.
    set (pre' := start_of b t ++ section1 b ++ section2 b ++ section3 b ++ be 3 (4 + Z.of_nat (length D)) ++ [0]).
    assert (LP : length pre' = (s4 (sections_at b D) + 4)%nat).
    { unfold pre', sections_at. cbv zeta. cbn [s4]. rewrite !app_length, start_length, be_length. cbn [length]. lia. }
    assert (FP : Forall is_byte pre').
    { unfold pre'. apply Forall_app. split; [apply start_bytes|]. apply Forall_app. split; [apply section1_bytes|].
      apply Forall_app. split; [apply section2_bytes; auto|]. apply Forall_app. split; [apply section3_bytes|].
      apply Forall_be_app. repeat constructor; lia. }
    assert (Pad : exists pad, D = data ++ pad /\ Forall is_byte pad).
    { unfold D, even_padded. destruct (Nat.odd (length data)); [exists [0]|exists []]; rewrite ?app_nil_r; split; auto.
      repeat constructor; lia. }
    destruct Pad as (pad & EP & FPad).
    assert (Dd : d = pre' ++ data ++ pad ++ tail).
    { unfold d, pre', section4. rewrite EP. rewrite <- !app_assoc. reflexivity. }
    destruct (E4 pre' (pad ++ tail) FP) as (inp' & DS).
    { apply Forall_app. split; auto. repeat constructor; lia. }
    { rewrite app_length. cbn [length tail]. lia. }
    rewrite <- Dd, LP in DS. rewrite DS. cbn [bind].
    assert (L5 : s5 (sections_at b D) = length (start_of b t ++ section1 b ++ section2 b ++ section3 b ++ section4 D)).
    { unfold sections_at. cbv zeta. cbn [s5]. rewrite !app_length, start_length. lia. }
    assert (Ld : length d = (s5 (sections_at b D) + 4)%nat).
    { rewrite L5. unfold d. rewrite !app_length. cbn [length tail]. lia. }
    replace (Nat.ltb (length d) (s5 (sections_at b D) + 4)) with false by lia.
    rewrite (zlist_is_at d (start_of b t ++ section1 b ++ section2 b ++ section3 b ++ section4 D) tail []).
    2:{ unfold d. rewrite app_nil_r, <- !app_assoc. reflexivity. }
    2:{ exact L5. }
    cbn [bind negb]. cbn [lead_of l_header l_optional l_sections l_compression l_datadesc].
    rewrite Ld. unfold sections_at. cbv zeta. cbn [s1 s2 s3 s4 s5 ends app]. reflexivity.
Qed.

(** The header alone. *)
Theorem header_roundtrip p opt T load T' fuel lt b bytes : header_ok (b_header b) -> Forall is_byte (b_optional b) ->
  Forall in_u16 (b_datadesc b) -> encode p opt T fuel lt b = Ok bytes -> Z.of_nat (length bytes) < 2 ^ 24 ->
  load (tableid_of (read_header (b_header b))) = Ok T' ->
  decode_header load bytes = Ok (mkbulletin (read_header (b_header b)) (even_padded (b_optional b)) false (b_datadesc b) [], T').
Proof.
  intros HO FO FD H L LD. destruct (encoded _ _ _ _ _ _ _ FO H) as (ED & _ & _ & lt' & out & data & _ & _ & _ & ->).
  destruct (message_parts b (even_padded data)) as (t & EM). rewrite EM in *.
  unfold decode_header. rewrite lead_read by auto. cbn [bind lead_of l_header]. rewrite LD. reflexivity.
Qed.

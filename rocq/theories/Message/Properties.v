(** C24, C25, C26, C27, C36, C37, C40: whole BUFR messages. *)
From Coq Require Import ZifyBool ZifyNat String.
From Verif Require Import Base Codec.ColumnProofs Bits.Model Bits.Spec Bits.Proofs Num.Float Varcode.Model Varinfo.Model
  Varinfo.Proofs Tables.Model Tables.LoadProofs Var.Model Interp.Model Interp.FuelProofs Interp.Example Codec.Model
  Codec.Compressed Codec.Spec Codec.Proofs Codec.TransferProofs Codec.EndProofs Codec.Properties
  Message.Model Message.Spec Message.Proofs Message.LayoutProofs Message.ReadProofs Message.StreamProofs Message.SafeProofs
  Message.RoundProofs.
From Verif Require Interp.Properties.
Local Open Scope Z_scope.

(** ** A bulletin for the examples *)

Definition ex_header (ed centre subcentre year : Z) : header :=
  mkheader ed 0 centre subcentre 1 0 7 5 13 1 year 12 31 23 59 58.
Definition ex_bulletin (ed centre year : Z) : bulletin :=
  mkbulletin (ex_header ed centre 3 year) [1; 2; 3] false ex_ops [ex_subset 300; ex_subset 400].
Definition ex_load (t : tableid) : res tables :=
  if t_version t =? 13 then Ok ex_tables else Err ENotFound.
Definition ex_encode (ed centre year : Z) : list Z :=
  get_ok [] (encode X86 (mkopts false false None) ex_tables 100 empty_local (ex_bulletin ed centre year)).

Lemma ex_header_ok ed centre subcentre year : in_u16 centre -> in_u16 subcentre -> in_u16 year -> header_ok (ex_header ed centre subcentre year).
Proof. intros H1 H2 H3. constructor; cbn; auto; unfold in_u8; lia. Qed.

Lemma ex_ops_ok : Forall in_u16 ex_ops.
Proof. unfold ex_ops, in_u16. repeat (constructor; [vm_compute; split; [discriminate|reflexivity]|]). constructor. Qed.

Lemma ex_optional_ok : Forall is_byte [1; 2; 3].
Proof. repeat constructor; lia. Qed.

(** ** C24: edition 4 headers

    Whatever was encoded, the header that is read back has the centre, subcentre, update
    sequence number, category, subcategories, table versions and date of the bulletin, and the
    same descriptors.  [load] looks up the tables that the header asks for. *)
Theorem C24_edition4_header : forall p opt T fuel lt b bytes load T',
  encode p opt T fuel lt b = Ok bytes -> h_edition (b_header b) = 4 ->
  header_ok (b_header b) -> Forall is_byte (b_optional b) -> Forall in_u16 (b_datadesc b) ->
  Z.of_nat (length bytes) < 2 ^ 24 ->
  load (mktableid (h_centre (b_header b)) (h_subcentre (b_header b)) 0 (h_version (b_header b)) (h_version_local (b_header b))) = Ok T' ->
  exists h optional, decode_header load bytes = Ok (mkbulletin h optional false (b_datadesc b) [], T') /\
    h_edition h = 4 /\
    h_centre h = h_centre (b_header b) /\ h_subcentre h = h_subcentre (b_header b) /\
    h_update h = h_update (b_header b) /\ h_category h = h_category (b_header b) /\
    h_subcategory h = h_subcategory (b_header b) /\ h_local h = h_local (b_header b) /\
    h_version h = h_version (b_header b) /\ h_version_local h = h_version_local (b_header b) /\
    h_year h = h_year (b_header b) /\ h_month h = h_month (b_header b) /\ h_day h = h_day (b_header b) /\
    h_hour h = h_hour (b_header b) /\ h_minute h = h_minute (b_header b) /\ h_second h = h_second (b_header b) /\
    optional = (if Nat.odd (length (b_optional b)) then b_optional b ++ [0] else b_optional b).
Proof.
  intros p opt T fuel lt b bytes load T' H E4 HO FO FD L LD.
  exists (read_header (b_header b)), (even_padded (b_optional b)).
  assert (R : read_header (b_header b) = read_ed4 (b_header b)) by (unfold read_header; rewrite E4; reflexivity).
  split; [eapply header_roundtrip; eauto; rewrite R; exact LD|]. rewrite R. cbn. repeat (split; [reflexivity|]). reflexivity.
Qed.

Example C24_example :
  header_ok (b_header (ex_bulletin 4 40000 2026)) /\ Forall is_byte (b_optional (ex_bulletin 4 40000 2026)) /\
  Forall in_u16 (b_datadesc (ex_bulletin 4 40000 2026)) /\
  encode X86 (mkopts false false None) ex_tables 100 empty_local (ex_bulletin 4 40000 2026) = Ok (ex_encode 4 40000 2026) /\
  length (ex_encode 4 40000 2026) = 124%nat /\
  (' (b, _) <- decode_header ex_load (ex_encode 4 40000 2026) ;; Ok (b_header b, b_optional b, b_datadesc b)) =
  Ok (ex_header 4 40000 3 2026, [1; 2; 3; 0], ex_ops).
Proof.
  split; [apply ex_header_ok; unfold in_u16; lia|]. split; [exact ex_optional_ok|]. split; [exact ex_ops_ok|].
  split; [apply get_ok_eq; vm_compute; reflexivity|]. split; vm_compute; reflexivity.
Qed.

(** The master table number does not survive: 0 is always written. *)
Theorem C24_master_table_refuted : exists b bytes,
  header_ok (b_header b) /\ h_edition (b_header b) = 4 /\ h_master_table (b_header b) = 10 /\
  encode X86 (mkopts false false None) ex_tables 100 empty_local b = Ok bytes /\
  (' (b', _) <- decode_header ex_load bytes ;; Ok (h_master_table (b_header b'))) = Ok 0.
Proof.
  set (b := mkbulletin (mkheader 4 10 200 0 0 0 0 0 13 0 2026 1 1 0 0 0) [] false ex_ops [ex_subset 300]).
  exists b, (get_ok [] (encode X86 (mkopts false false None) ex_tables 100 empty_local b)).
  split; [constructor; cbn; unfold in_u8, in_u16; lia|]. split; [reflexivity|]. split; [reflexivity|].
  split; [apply get_ok_eq|]; vm_compute; reflexivity.
Qed.

(** ** C25: edition 2 and 3 headers

    These editions have one byte for the centre and one for the subcentre, no international
    subcategory, no seconds, and a year of the century: with a centre and a subcentre below 256
    and a year from 1951 to 2050, everything they can represent is read back. *)
Theorem C25_edition3_header : forall p opt T fuel lt b bytes load T',
  encode p opt T fuel lt b = Ok bytes -> (h_edition (b_header b) = 2 \/ h_edition (b_header b) = 3) ->
  header_ok (b_header b) -> Forall is_byte (b_optional b) -> Forall in_u16 (b_datadesc b) ->
  Z.of_nat (length bytes) < 2 ^ 24 ->
  h_centre (b_header b) < 256 -> h_subcentre (b_header b) < 256 -> 1951 <= h_year (b_header b) <= 2050 ->
  load (mktableid (h_centre (b_header b)) (h_subcentre (b_header b)) (h_master_table (b_header b))
         (h_version (b_header b)) (h_version_local (b_header b))) = Ok T' ->
  exists h optional, decode_header load bytes = Ok (mkbulletin h optional false (b_datadesc b) [], T') /\
    h_edition h = h_edition (b_header b) /\ h_master_table h = h_master_table (b_header b) /\
    h_centre h = h_centre (b_header b) /\ h_subcentre h = h_subcentre (b_header b) /\
    h_update h = h_update (b_header b) /\ h_category h = h_category (b_header b) /\
    h_local h = h_local (b_header b) /\
    h_version h = h_version (b_header b) /\ h_version_local h = h_version_local (b_header b) /\
    h_year h = h_year (b_header b) /\ h_month h = h_month (b_header b) /\ h_day h = h_day (b_header b) /\
    h_hour h = h_hour (b_header b) /\ h_minute h = h_minute (b_header b) /\
    h_second h = 0 /\ h_subcategory h = 255 /\
    optional = (if Nat.odd (length (b_optional b)) then b_optional b ++ [0] else b_optional b).
Proof.
  intros p opt T fuel lt b bytes load T' H E3 HO FO FD L C S Y LD.
  exists (read_header (b_header b)), (even_padded (b_optional b)).
  assert (R : read_header (b_header b) = read_ed3 (b_header b)).
  { unfold read_header. destruct (Z.eqb_spec (h_edition (b_header b)) 4); [lia|reflexivity]. }
  assert (Yr : year_ed3 (h_year (b_header b)) = h_year (b_header b)).
  { unfold year_ed3. cbv zeta. set (y := h_year (b_header b)) in *. destruct (Z.eqb_spec y 2000); [change (50 <? 100) with true; cbv iota; lia|].
    assert (y < 2000 /\ y mod 100 = y - 1900 \/ 2000 < y /\ y mod 100 = y - 2000).
    { destruct (Z.ltb_spec y 2000); [left|right]; (split; [lia|]).
      - symmetry. apply (Z.mod_unique_pos _ _ 19); lia.
      - symmetry. apply (Z.mod_unique_pos _ _ 20); lia. }
    destruct (Z.ltb_spec 50 (y mod 100)); lia. }
  assert (Cm : h_centre (b_header b) mod 256 = h_centre (b_header b)).
  { apply Z.mod_small. pose proof (ok_centre _ HO) as K. unfold in_u16 in K. lia. }
  assert (Sm : h_subcentre (b_header b) mod 256 = h_subcentre (b_header b)).
  { apply Z.mod_small. pose proof (ok_subcentre _ HO) as K. unfold in_u16 in K. lia. }
  split; [eapply header_roundtrip; eauto; rewrite R; unfold tableid_of, read_ed3; cbn; rewrite Cm, Sm; exact LD|].
  rewrite R. cbn. rewrite Cm, Sm, Yr. repeat (split; [reflexivity|]). reflexivity.
Qed.

Example C25_example :
  header_ok (b_header (ex_bulletin 3 200 2000)) /\
  encode X86 (mkopts false false None) ex_tables 100 empty_local (ex_bulletin 3 200 2000) = Ok (ex_encode 3 200 2000) /\
  (' (b, _) <- decode_header ex_load (ex_encode 3 200 2000) ;; Ok (b_header b, b_optional b, b_datadesc b)) =
  Ok (mkheader 3 0 200 3 1 0 255 5 13 1 2000 12 31 23 59 0, [1; 2; 3; 0], ex_ops).
Proof. split; [apply ex_header_ok; unfold in_u16; lia|]. split; [apply get_ok_eq|]; vm_compute; reflexivity. Qed.

(** Outside those limits: 2051 is read as 1951 and centre 256 as 0; the century (which is
    written) is not used. *)
Theorem C25_year_refuted :
  encode X86 (mkopts false false None) ex_tables 100 empty_local (ex_bulletin 3 200 2051) = Ok (ex_encode 3 200 2051) /\
  (' (b, _) <- decode_header ex_load (ex_encode 3 200 2051) ;; Ok (h_year (b_header b))) = Ok 1951.
Proof. split; [apply get_ok_eq|]; vm_compute; reflexivity. Qed.
Theorem C25_centre_refuted :
  encode X86 (mkopts false false None) ex_tables 100 empty_local (ex_bulletin 2 256 2026) = Ok (ex_encode 2 256 2026) /\
  (' (b, _) <- decode_header ex_load (ex_encode 2 256 2026) ;; Ok (h_centre (b_header b))) = Ok 0.
Proof. split; [apply get_ok_eq|]; vm_compute; reflexivity. Qed.

(** ** C26: the framing of a message *)

(** The number that some bytes stand for. *)
Definition number_of (l : list Z) : Z := fold_left (fun acc x => acc * 256 + x) l 0.

Lemma number_be3 v : 0 <= v < 2 ^ 24 -> number_of (be 3 v) = v.
Proof.
  intros H. unfold number_of, be. cbn [fold_left]. change (256 ^ Z.of_nat 2) with 65536. change (256 ^ Z.of_nat 1) with 256.
  change (256 ^ Z.of_nat 0) with 1. rewrite Z.div_1_r.
  assert (E : v / 65536 = v / 256 / 256) by (rewrite Z.div_div by lia; reflexivity).
  assert (0 <= v / 65536 < 256) by (split; [apply Z.div_pos; lia|apply Z.div_lt_upper_bound; lia]).
  rewrite (Z.mod_small (v / 65536)) by lia. pose proof (Z.div_mod v 256). pose proof (Z.div_mod (v / 256) 256). lia.
Qed.

(** Bytes from [a] to [b]. *)
Definition part (d : list Z) (a b : nat) : list Z := firstn (b - a) (skipn a d).

Lemma part_mid a s c : part (a ++ s ++ c) (length a) (length a + length s) = s.
Proof.
  unfold part. rewrite skipn_length_app. replace (length a + length s - length a)%nat with (length s) by lia.
  rewrite firstn_app, Nat.sub_diag, firstn_O, app_nil_r. apply firstn_all.
Qed.

(** A message starts with BUFR and its own length, ends with 7777, and in between there are
    sections that start with their own lengths. *)
Theorem C26_framing : forall p opt T fuel lt b bytes,
  encode p opt T fuel lt b = Ok bytes -> Forall is_byte (b_optional b) -> Z.of_nat (length bytes) < 2 ^ 24 ->
  exists total secs,
    bytes = [66; 85; 70; 82] ++ total ++ [h_edition (b_header b)] ++ concat secs ++ [55; 55; 55; 55] /\
    length total = 3%nat /\ number_of total = Z.of_nat (length bytes) /\
    length secs = (if Nat.eqb (length (b_optional b)) 0 then 3 else 4)%nat /\
    Forall (fun s => (4 <= length s)%nat /\ number_of (firstn 3 s) = Z.of_nat (length s)) secs /\
    fold_right (fun s n => number_of (firstn 3 s) + n) 12 secs = Z.of_nat (length bytes).
Proof.
  intros p opt T fuel lt b bytes H FO L. destruct (encoded _ _ _ _ _ _ _ FO H) as (ED & _ & _ & lt' & out & data & _ & _ & _ & E).
  set (D := even_padded data) in *. assert (U : in_u8 (h_edition (b_header b))) by (unfold in_u8; lia).
  destruct (message_framed b D U) as [F1 F2]. rewrite <- E in F1.
  exists (be 3 (Z.of_nat (length bytes))), (sections_of b D). split; [exact F1|]. split; [reflexivity|].
  split; [apply number_be3; lia|]. split; [unfold sections_of; destruct (b_optional b); reflexivity|].
  assert (Ls : forall s, In s (sections_of b D) -> (4 <= length s)%nat).
  { intros s I. unfold sections_of in I. destruct I as [<-|I].
    - rewrite section1_length. destruct (_ =? 4); lia.
    - apply in_app_iff in I as [I|I].
      + destruct (b_optional b) as [|c l] eqn:O; [destruct I|]. destruct I as [<-|[]]. rewrite section2_length, O. lia.
      + destruct I as [<-|[<-|[]]]; [rewrite section3_length; lia|rewrite section4_length; lia]. }
  assert (Lc : Z.of_nat (length bytes) = 12 + Z.of_nat (length (concat (sections_of b D)))).
  { rewrite F1 at 1. rewrite !app_length, be_length. cbn [length]. lia. }
  assert (A : forall secs, Forall section_ok secs -> Z.of_nat (length (concat secs)) < 2 ^ 24 ->
    Forall (fun s => number_of (firstn 3 s) = Z.of_nat (length s)) secs /\
    fold_right (fun s n => number_of (firstn 3 s) + n) 12 secs = 12 + Z.of_nat (length (concat secs))).
  { induction secs as [|s secs IH]; intros F Lb; [split; [constructor|reflexivity]|].
    apply Forall_cons_iff in F as [[body Es] F]. cbn [concat] in Lb. rewrite app_length in Lb.
    destruct (IH F ltac:(lia)) as [I1 I2].
    assert (N : number_of (firstn 3 s) = Z.of_nat (length s)).
    { rewrite Es at 1. change (firstn 3 (be 3 (Z.of_nat (length s)) ++ body)) with (be 3 (Z.of_nat (length s))).
      apply number_be3. lia. }
    split; [constructor; auto|]. cbn [fold_right concat]. rewrite N, I2, app_length. lia. }
  destruct (A _ F2 ltac:(lia)) as [A1 A2]. split; [|rewrite A2; lia].
  rewrite Forall_forall in *. intros s I. split; auto.
Qed.

(** ... and whoever decodes it finds those sections: [ends] is where the decoder says that the
    sections start or end. *)
Theorem C26_sections_found_again : forall p opt T fuel lt b bytes opt' load skip fuel' b' T' found,
  encode p opt T fuel lt b = Ok bytes -> header_ok (b_header b) -> Forall is_byte (b_optional b) ->
  Forall in_u16 (b_datadesc b) -> Z.of_nat (length bytes) < 2 ^ 24 ->
  decode opt' load skip fuel' bytes = Ok (b', T', found) ->
  exists e1 e2 e3 e4 e5, found = [e1; e2; e3; e4; e5; length bytes] /\
    bytes = part bytes 0 e1 ++ part bytes e1 e2 ++ part bytes e2 e3 ++ part bytes e3 e4 ++ part bytes e4 e5 ++ [55; 55; 55; 55] /\
    e1 = 8%nat /\
    number_of (firstn 3 (part bytes e1 e2)) = Z.of_nat (length (part bytes e1 e2)) /\
    (b_optional b = [] -> e2 = e3) /\
    (b_optional b <> [] -> number_of (firstn 3 (part bytes e2 e3)) = Z.of_nat (length (part bytes e2 e3))) /\
    number_of (firstn 3 (part bytes e3 e4)) = Z.of_nat (length (part bytes e3 e4)) /\
    number_of (firstn 3 (part bytes e4 e5)) = Z.of_nat (length (part bytes e4 e5)).
Proof.
  intros p opt T fuel lt b bytes opt' load skip fuel' b' T' found H HO FO FD L Dc.
  destruct (encoded _ _ _ _ _ _ _ FO H) as (ED & _ & _ & lt' & out & data & _ & _ & _ & ->).
  set (D := even_padded data) in *. destruct (message_parts b D) as (t & EM). rewrite EM in *.
  set (d := start_of b t ++ _) in *. assert (LR : decode_lead d = Ok (lead_of b D)) by (apply lead_read; auto).
  unfold decode in Dc. rewrite LR in Dc. cbn [bind lead_of l_header] in Dc.
  inv_bind Dc. rename Hk into Hk1. inv_bind Hk1. destruct a0 as [subsets ltx]. apply ok_inj in Hk. injection Hk as _ _ Ef.
  cbn [l_sections lead_of] in Ef. unfold sections_at in Ef. cbv zeta in Ef. cbn [s1 s2 s3 s4 s5] in Ef.
  set (e2 := (8 + length (section1 b))%nat) in *. set (e3 := (e2 + length (section2 b))%nat) in *.
  set (e4 := (e3 + length (section3 b))%nat) in *. set (e5 := (e4 + length (section4 D))%nat) in *.
  exists 8%nat, e2, e3, e4, e5.
  assert (Ld : length d = (e5 + 4)%nat).
  { unfold d, e5, e4, e3, e2. rewrite !app_length, start_length. cbn [length]. lia. }
  assert (P0 : part d 0 8 = start_of b t) by reflexivity.
  assert (P1 : part d 8 e2 = section1 b).
  { unfold d, e2. rewrite <- (start_length b t) at 1 2. apply part_mid. }
  assert (P2 : part d e2 e3 = section2 b).
  { unfold d, e3. replace e2 with (length (start_of b t ++ section1 b)) by (rewrite app_length, start_length; reflexivity).
    rewrite app_assoc. apply part_mid. }
  assert (P3 : part d e3 e4 = section3 b).
  { unfold d, e4. replace e3 with (length (start_of b t ++ section1 b ++ section2 b))
      by (rewrite !app_length, start_length; unfold e3, e2; lia).
    rewrite (app_assoc (section1 b)), (app_assoc (start_of b t)). apply part_mid. }
  assert (P4 : part d e4 e5 = section4 D).
  { unfold d, e5. replace e4 with (length (start_of b t ++ section1 b ++ section2 b ++ section3 b))
      by (rewrite !app_length, start_length; unfold e4, e3, e2; lia).
    replace (start_of b t ++ section1 b ++ section2 b ++ section3 b ++ section4 D ++ [55; 55; 55; 55])
      with ((start_of b t ++ section1 b ++ section2 b ++ section3 b) ++ section4 D ++ [55; 55; 55; 55])
      by (rewrite <- !app_assoc; reflexivity).
    apply part_mid. }
  assert (N : forall s, section_ok s -> (length s <= length d)%nat -> number_of (firstn 3 s) = Z.of_nat (length s)).
  { intros s [body Es] Ls. rewrite Es at 1. change (firstn 3 (be 3 (Z.of_nat (length s)) ++ body)) with (be 3 (Z.of_nat (length s))).
    apply number_be3. lia. }
  rewrite P0, P1, P2, P3, P4. rewrite Ld. split; [symmetry; exact Ef|].
  split; [reflexivity|]. split; [reflexivity|].
  split; [apply N; [apply section1_ok|lia]|].
  split; [intros O; unfold e3; rewrite section2_length, O; lia|].
  split; [intros O; apply N; [apply section2_ok; exact O|lia]|].
  split; [apply N; [apply section3_ok|lia]|apply N; [apply section4_ok|lia]].
Qed.

Example C26_example :
  exists b' T', decode (mkopts false false None) ex_load true 100 (ex_encode 4 40000 2026) =
  Ok (b', T', [8; 30; 38; 68; 120; 124]%nat).
Proof.
  assert (V : (' (_, _, se) <- decode (mkopts false false None) ex_load true 100 (ex_encode 4 40000 2026) ;; Ok se) =
    Ok [8; 30; 38; 68; 120; 124]%nat) by (vm_compute; reflexivity).
  destruct (decode (mkopts false false None) ex_load true 100 (ex_encode 4 40000 2026)) as [[[b' T'] se]|e|]; cbn [bind] in V; [|discriminate|discriminate].
  apply ok_inj in V. subst se. eauto.
Qed.

(** The other way round: whatever is decoded starts with BUFR, has a known edition, sections
    that lie inside it and declare where the next one starts, and 7777 after them.  (Trailing
    bytes and the declared total length are not checked.) *)
Lemma zlist_is_true d s : forall pos, zlist_is d pos s = Ok true -> (pos + length s <= length d)%nat -> part d pos (pos + length s) = s.
Proof.
  induction s as [|c s IH]; intros pos H L; cbn [zlist_is length] in *.
  - unfold part. replace (pos + 0 - pos)%nat with 0%nat by lia. reflexivity.
  - inv_bind H. unfold read_byte, read_at in Hb. destruct (nth_error d pos) as [x|] eqn:N; [|apply nth_error_None in N; lia].
    apply ok_inj in Hb. subst a. destruct (Z.eqb_spec x c); [subst x|discriminate]. apply nth_error_split in N as (l1 & l2 & -> & <-).
    rewrite app_length in L. cbn [length] in L.
    assert (E := IH _ Hk ltac:(rewrite app_length; cbn [length]; lia)).
    unfold part in *. rewrite skipn_length_app.
    replace (length l1 + S (length s) - length l1)%nat with (S (length s)) by lia. cbn [firstn]. f_equal.
    replace (S (length l1) + length s - S (length l1))%nat with (length s) in E by lia.
    rewrite <- E at 2. f_equal. change (c :: l2) with ([c] ++ l2). rewrite app_assoc.
    replace (S (length l1)) with (length (l1 ++ [c])) by (rewrite app_length; cbn; lia). rewrite skipn_length_app. reflexivity.
Qed.

Lemma number_part d pos : Forall is_byte d -> (pos + 3 <= length d)%nat -> read_number d pos 3 = Ok (number_of (part d pos (pos + 3))).
Proof.
  intros F L.
  assert (P : exists a b c, part d pos (pos + 3) = [a; b; c] /\ nth_error d pos = Some a /\ nth_error d (S pos) = Some b /\ nth_error d (S (S pos)) = Some c).
  { unfold part. replace (pos + 3 - pos)%nat with 3%nat by lia.
    assert (K : forall k, nth_error d (pos + k) = nth_error (skipn pos d) k).
    { clear. intros k. revert pos. induction d as [|x d IH]; intros [|pos]; cbn; auto. destruct k; reflexivity. }
    assert (Ls : (3 <= length (skipn pos d))%nat) by (rewrite skipn_length; lia).
    pose proof (K 0%nat) as K0. pose proof (K 1%nat) as K1. pose proof (K 2%nat) as K2.
    replace (pos + 0)%nat with pos in K0 by lia. replace (pos + 1)%nat with (S pos) in K1 by lia.
    replace (pos + 2)%nat with (S (S pos)) in K2 by lia.
    destruct (skipn pos d) as [|a [|b [|c r]]]; cbn [length] in Ls; try lia. exists a, b, c. cbn in *. auto. }
  destruct P as (a & b & c & -> & N1 & N2 & N3). rewrite Forall_forall in F.
  pose proof (F _ (nth_error_In _ _ N1)) as B1. pose proof (F _ (nth_error_In _ _ N2)) as B2. pose proof (F _ (nth_error_In _ _ N3)) as B3.
  unfold is_byte in *. unfold read_number. cbn [read_number_loop]. unfold read_at. rewrite N1. cbn [bind]. rewrite N2. cbn [bind]. rewrite N3. cbn [bind].
  unfold number_of. cbn [fold_left]. f_equal.
  assert (Lor : forall x y, 0 <= x < 2 ^ 24 -> 0 <= y < 256 -> Z.lor (u32 (256 * x)) y = x * 256 + y).
  { intros x y Hx Hy. unfold u32. rewrite Z.mod_small by lia.
    assert (A : Z.land (256 * x) y = 0).
    { replace (256 * x) with (Z.shiftl x 8) by (rewrite Z.shiftl_mul_pow2 by lia; lia).
      apply Z.bits_inj'. intros n Hn. rewrite Z.land_spec, Z.bits_0. destruct (Z.ltb_spec n 8).
      - rewrite Z.shiftl_spec_low by lia. reflexivity.
      - replace y with (y mod 2 ^ 8) by (apply Z.mod_small; lia). rewrite Z.mod_pow2_bits_high by lia. apply andb_false_r. }
    rewrite <- (Z.lxor_lor _ _ A), <- Z.add_nocarry_lxor by exact A. lia. }
  rewrite (Lor 0 a), (Lor (0 * 256 + a) b), (Lor ((0 * 256 + a) * 256 + b) c) by lia. lia.
Qed.

Theorem C26_decoded_is_framed : forall opt load skip fuel d b T found, Forall is_byte d ->
  decode opt load skip fuel d = Ok (b, T, found) ->
  exists e2 e3 e4 e5, found = [8; e2; e3; e4; e5; e5 + 4]%nat /\
    (8 <= e2 <= e3)%nat /\ (e3 <= e4 <= e5)%nat /\ (e5 + 4 <= length d)%nat /\
    part d 0 4 = [66; 85; 70; 82] /\ part d 7 8 = [h_edition (b_header b)] /\
    (h_edition (b_header b) = 2 \/ h_edition (b_header b) = 3 \/ h_edition (b_header b) = 4) /\
    number_of (part d 8 11) = Z.of_nat (e2 - 8) /\
    (e2 = e3 \/ number_of (part d e2 (e2 + 3)) = Z.of_nat (e3 - e2)) /\
    number_of (part d e3 (e3 + 3)) = Z.of_nat (e4 - e3) /\
    number_of (part d e4 (e4 + 3)) = Z.of_nat (e5 - e4) /\
    part d e5 (e5 + 4) = [55; 55; 55; 55].
Proof.
  intros opt load skip fuel d b T found F H. unfold decode in H. inv_bind H. rename Hb into HL, Hk into HR. inv_bind HR.
  rename a0 into T0. clear Hb. rename Hk into HR. inv_bind HR. destruct a0 as [subsets ltx]. apply ok_inj in Hk. injection Hk as Eb ET Ef.
  rename Hb into HD. assert (SE : forall sec e, section_end_at d sec = Ok e ->
    (sec <= e <= length d)%nat /\ number_of (part d sec (sec + 3)) = Z.of_nat (e - sec)).
  { intros sec e E. unfold section_end_at in E. destruct (Nat.ltb_spec (length d) (sec + 3)); [discriminate|].
    rewrite number_part in E by auto. cbn [bind] in E.
    assert (N0 : 0 <= number_of (part d sec (sec + 3))).
    { pose proof (read_number_safe d F sec 3 ltac:(lia) ltac:(lia)) as R. unfold defined in R. rewrite number_part in R by auto. lia. }
    match type of E with (if Nat.ltb ?x ?y then _ else _) = _ => destruct (Nat.ltb_spec x y); [discriminate|] end. apply ok_inj in E. lia. }
  unfold decode_lead in HL. destruct (Nat.ltb_spec (length d) 8) as [|L8]; [discriminate|].
  inv_bind HL. rename Hb into Hsig, Hk into HL. destruct a0; [|discriminate]. cbn [negb] in HL. inv_bind HL. rename a0 into ed, Hb into Hed, Hk into HL.
  destruct (negb _) eqn:Eed in HL; [discriminate|]. inv_bind HL. rename a0 into sec2, Hb into H2, Hk into HL.
  destruct (Nat.ltb _ _) in HL; [discriminate|]. inv_bind HL. destruct a0 as [[h se] has2]. rename Hb into HS, Hk into HL.
  inv_bind HL. rename a0 into opt2, Hk into HL. clear Hb. destruct (Nat.ltb _ _) in HL; [discriminate|]. destruct (Nat.ltb _ _) in HL; [discriminate|].
  inv_bind HL. rename Hk into HL. clear Hb. inv_bind HL. rename Hk into HL. clear Hb. destruct (Nat.ltb _ _) in HL; [discriminate|].
  inv_bind HL. clear Hb. apply ok_inj in Hk. subst a. cbn [l_sections l_header l_optional l_compression l_datadesc] in *.
  assert (Sc : exists o', scan_sections d sec2 o' = Ok se /\ h_edition h = ed).
  { destruct (ed =? 4); unfold decode_sec1_ed4, decode_sec1_ed3 in HS; cbv zeta in HS;
      repeat (inv_bind HS; rename Hk into HS; try (match type of HS with (if ?c then _ else _) = _ => destruct c; [discriminate|] end));
      apply ok_inj in HS; injection HS as <- <- <-; eauto. }
  destruct Sc as (o' & Sc & Eh). unfold scan_sections in Sc. inv_bind Sc. rename Hb into H3, Hk into Sc, a into sec3.
  inv_bind Sc. rename Hb into H4, Hk into Sc, a into sec4. inv_bind Sc. rename Hb into H5, a into sec5. apply ok_inj in Hk. subst se.
  cbn [s1 s2 s3 s4 s5] in *.
  destruct (SE _ _ H2) as [A2 B2]. destruct (SE _ _ H4) as [A4 B4]. destruct (SE _ _ H5) as [A5 B5].
  assert (A3 : (sec2 <= sec3)%nat /\ (sec2 = sec3 \/ number_of (part d sec2 (sec2 + 3)) = Z.of_nat (sec3 - sec2))).
  { destruct o'; [apply SE in H3; lia|apply ok_inj in H3; lia]. }
  unfold decode_data in HD. cbv zeta in HD. cbn [l_sections l_expected s5] in HD. destruct (_ =? 0) in HD; [discriminate|].
  inv_bind HD. rename Hk into HD. clear Hb. destruct a as [[? ?] ?].
  destruct (Nat.ltb_spec (length d) (sec5 + 4)) as [|L7]; [discriminate|]. inv_bind HD. destruct a; [|discriminate].
  exists sec2, sec3, sec4, sec5. subst b. cbn [b_header]. rewrite Eh. split; [symmetry; exact Ef|].
  split; [lia|]. split; [lia|]. split; [lia|]. split; [exact (zlist_is_true d _ 0%nat Hsig ltac:(cbn [length]; lia))|].
  split.
  { unfold read_byte, read_at in Hed. destruct (nth_error d 7) as [x|] eqn:N; [|apply nth_error_None in N; lia]. apply ok_inj in Hed. subst x.
    do 8 (destruct d as [|? d]; [cbn in L8; lia|]). cbn in N. injection N as ->. reflexivity. }
  split; [lia|]. split; [exact B2|]. split; [apply A3|]. split; [exact B4|]. split; [exact B5|].
  exact (zlist_is_true d [55; 55; 55; 55] sec5 Hb ltac:(cbn [length]; lia)).
Qed.

(** Messages of 2^24 bytes or more are encoded without complaint, with a wrong length. *)
Theorem C26_long_messages_refuted : forall p opt T fuel lt b bytes,
  encode p opt T fuel lt b = Ok bytes -> Forall is_byte (b_optional b) -> 2 ^ 24 <= Z.of_nat (length bytes) ->
  number_of (part bytes 4 7) <> Z.of_nat (length bytes).
Proof.
  intros p opt T fuel lt b bytes H FO L. destruct (encoded _ _ _ _ _ _ _ FO H) as (ED & _ & _ & lt' & out & data & _ & _ & _ & E).
  assert (U : in_u8 (h_edition (b_header b))) by (unfold in_u8; lia).
  destruct (message_framed b (even_padded data) U) as [F1 _]. rewrite <- E in F1.
  assert (P : part bytes 4 7 = be 3 (Z.of_nat (length bytes))) by (rewrite F1 at 1; reflexivity).
  rewrite P. unfold number_of, be. cbn [fold_left].
  assert (forall x, 0 <= x mod 256 < 256) by (intros x; apply Z.mod_pos_bound; lia).
  pose proof (H0 (Z.of_nat (length bytes) / 256 ^ Z.of_nat 2)). pose proof (H0 (Z.of_nat (length bytes) / 256 ^ Z.of_nat 1)).
  pose proof (H0 (Z.of_nat (length bytes) / 256 ^ Z.of_nat 0)). lia.
Qed.

Lemma message_length b data : (length (b_optional b) <= length (message b data))%nat.
Proof.
  destruct (message_parts b data) as (t & ->). rewrite !app_length, section2_length.
  destruct (b_optional b) eqn:O; [cbn [length]; lia|]. rewrite <- O. unfold even_padded.
  destruct (Nat.odd _); rewrite ?app_length; lia.
Qed.

Definition bulletin_with (optional : list Z) : bulletin :=
  mkbulletin (ex_header 4 200 3 2026) optional false ex_ops [ex_subset 300].

Lemma any_optional optional : Forall is_byte optional -> exists bytes,
  encode X86 (mkopts false false None) ex_tables 100 empty_local (bulletin_with optional) = Ok bytes /\
  (length optional <= length bytes)%nat.
Proof.
  intros FO.
  assert (TR : (' (g, _) <- transfer_all X86 ex_tables true 100 ex_ops [ex_subset 300] empty_local ;; Ok (map view g)) =
    Ok (map view [ex_subset 300])) by (vm_compute; reflexivity).
  destruct (transfer_all X86 ex_tables true 100 ex_ops [ex_subset 300] empty_local) as [[gots lt']|e|] eqn:E; cbn [bind] in TR;
    [|discriminate|discriminate]. clear TR.
  destruct (message_roundtrip X86 (mkopts false false None) ex_tables (fun _ => Ok ex_tables) true 100 empty_local
    (bulletin_with optional) gots lt') as (data & En & _ & _).
  - exact ex_btable_ok.
  - apply ex_header_ok; unfold in_u16; lia.
  - right. right. reflexivity.
  - exact FO.
  - exact ex_ops_ok.
  - discriminate.
  - discriminate.
  - reflexivity.
  - constructor; [exact (ex_subset_ok 300)|constructor].
  - reflexivity.
  - reflexivity.
  - exact E.
  - exists (message (bulletin_with optional) data). split; [exact En|]. exact (message_length (bulletin_with optional) data).
Qed.

Theorem C26_long_messages_exist : exists b bytes, Forall is_byte (b_optional b) /\ encode X86 (mkopts false false None) ex_tables 100 empty_local b = Ok bytes /\ 2 ^ 24 <= Z.of_nat (length bytes).
Proof.
  assert (L : forall n, exists optional, Forall is_byte optional /\ length optional = n).
  { intros n. exists (repeat 0 n). split; [|apply repeat_length].
    apply Forall_forall. intros x I. apply repeat_spec in I. subst x. unfold is_byte. lia. }
  destruct (L (Z.to_nat (2 ^ 24))) as (optional & FO & Ln). destruct (any_optional optional FO) as (bytes & En & Lb).
  exists (bulletin_with optional), bytes. split; [exact FO|]. split; [exact En|]. lia.
Qed.

(** ** C27: streams of messages

    Between the messages there may be anything that does not contain the signature and does not
    end with a part of it; after the last one, anything that does not contain the signature. *)
Lemma encoded_sized p opt T fuel lt b bytes : encode p opt T fuel lt b = Ok bytes -> Forall is_byte (b_optional b) ->
  Z.of_nat (length bytes) < 2 ^ 24 -> sized bytes.
Proof.
  intros H FO L. destruct (encoded _ _ _ _ _ _ _ FO H) as (ED & _ & _ & lt' & out & data & _ & _ & _ & E).
  assert (U : in_u8 (h_edition (b_header b))) by (unfold in_u8; lia).
  destruct (message_framed b (even_padded data) U) as [F1 _]. rewrite <- E in F1. split; [|split; [exact L|]].
  - rewrite F1, !app_length, be_length. cbn [length]. lia.
  - exists (h_edition (b_header b)), (concat (sections_of b (even_padded data)) ++ [55; 55; 55; 55]). exact F1.
Qed.

Theorem C27_stream : forall items tail fuel,
  (length items < fuel)%nat ->
  Forall (fun i => ~ occurs [66; 85; 70; 82] (fst i) /\
                   ~ ends_with (fst i) [66] /\ ~ ends_with (fst i) [66; 85] /\ ~ ends_with (fst i) [66; 85; 70] /\
                   exists p opt T f lt b, encode p opt T f lt b = Ok (snd i) /\ Forall is_byte (b_optional b) /\
                     Z.of_nat (length (snd i)) < 2 ^ 24) items ->
  ~ occurs [66; 85; 70; 82] tail ->
  read_all fuel (fold_right (fun i rest => fst i ++ snd i ++ rest) tail items) = Ok (map snd items).
Proof.
  intros items tail fuel L F N.
  replace (fold_right (fun i rest => fst i ++ snd i ++ rest) tail items) with (stream items tail).
  - apply read_stream; auto. eapply Forall_impl; [|exact F]. intros [sep m] (A & B1 & B2 & B3 & p & opt & T & f & lt & b & H1 & H2 & H3).
    cbn [fst snd] in *. split; [unfold clean; auto|eapply encoded_sized; eauto].
  - clear. induction items as [|[sep m] items IH]; [reflexivity|]. cbn [stream fold_right fst snd]. rewrite IH. reflexivity.
Qed.

(** Read one by one: each call gives the next message and leaves the rest of the file. *)
Theorem C27_next_message : forall sep m rest p opt T f lt b,
  ~ occurs [66; 85; 70; 82] sep ->
  ~ ends_with sep [66] -> ~ ends_with sep [66; 85] -> ~ ends_with sep [66; 85; 70] ->
  encode p opt T f lt b = Ok m -> Forall is_byte (b_optional b) -> Z.of_nat (length m) < 2 ^ 24 ->
  read_message (sep ++ m ++ rest) = Ok (Some (m, rest)).
Proof.
  intros sep m rest p opt T f lt b A B1 B2 B3 H1 H2 H3. apply read_one; [unfold clean; auto|eapply encoded_sized; eauto].
Qed.

Theorem C27_end_of_file : forall tail, ~ occurs [66; 85; 70; 82] tail -> read_message tail = Ok None.
Proof. intros tail N. unfold read_message. fold signature. rewrite seek_end by exact N. reflexivity. Qed.

Definition example_messages : list (list Z * list Z) :=
  [([13; 10; 66; 85; 32], ex_encode 4 40000 2026); ([], ex_encode 3 200 2000); ([1; 2], ex_encode 2 1 1999)].
Example C27_example :
  read_all 10 (fold_right (fun i rest => fst i ++ snd i ++ rest) [66; 85; 70] example_messages) =
  Ok [ex_encode 4 40000 2026; ex_encode 3 200 2000; ex_encode 2 1 1999].
Proof. vm_compute. reflexivity. Qed.

(** A client that reads to the end of any file stops, with messages or with an error. *)
Theorem C27_reading_ends : forall file fuel, (length file < fuel)%nat -> read_all fuel file <> Err EFuel /\ read_all fuel file <> UB.
Proof. intros file fuel L. apply read_all_ends. exact L. Qed.

(** With a separator that ends with B (without containing the signature) the message after it is
    lost. *)
Theorem C27_separator_refuted :
  read_all 10 ([66] ++ ex_encode 4 40000 2026 ++ ex_encode 3 200 2000) = Ok [ex_encode 3 200 2000] /\
  ~ occurs [66; 85; 70; 82] [66].
Proof. split; [vm_compute; reflexivity|]. intros (a & b & E). apply (f_equal (@length Z)) in E. rewrite !app_length in E. cbn in E. lia. Qed.

(** ** C36: decoding arbitrary bytes *)

(** Reading the header is always defined: it gives a bulletin or an error. *)
Theorem C36_any_header : forall d load, Forall is_byte d -> (forall t, load t <> UB /\ load t <> Err EFuel) ->
  decode_header load d <> UB /\ decode_header load d <> Err EFuel.
Proof.
  intros d load F L. unfold decode_header. pose proof (lead_safe d F) as H. unfold defined in H.
  destruct (decode_lead d) as [l|e|]; cbn [bind]; [|split; congruence|contradiction].
  destruct (L (tableid_of (l_header l))) as [L1 L2].
  destruct (load (tableid_of (l_header l))) as [T|e|]; cbn [bind]; split; congruence.
Qed.

(** Decoding ends, whatever the bytes: given tables where no sequence contains itself, there
    is an amount of work after which the result is there and does not change any more. *)
Theorem C36_decoding_ends : forall opt load skip d, options_end opt -> Forall is_byte d ->
  (forall t, load t <> Err EFuel) -> (forall t T, load t = Ok T -> well_founded (within T)) ->
  exists N, forall fuel, (N <= fuel)%nat ->
    decode opt load skip fuel d = decode opt load skip N d /\ decode opt load skip fuel d <> Err EFuel.
Proof.
  intros opt load skip d O F L1 L2. unfold decode. pose proof (lead_safe d F) as H. unfold defined in H.
  destruct (decode_lead d) as [l|e|]; cbn [bind]; [|exists 0%nat; intros; split; [auto|congruence]|contradiction].
  pose proof (L1 (tableid_of (l_header l))) as K1. pose proof (L2 (tableid_of (l_header l))) as K2.
  destruct (load (tableid_of (l_header l))) as [T|e|]; cbn [bind]; [|exists 0%nat; intros; split; congruence|exists 0%nat; intros; split; congruence].
  destruct (decoding_ends opt T skip (l_datadesc l) O (K2 T eq_refl)) as (N & D). exists N. intros fuel Lf.
  assert (R : decode_data opt T skip fuel d l = decode_data opt T skip N d l /\ decode_data opt T skip fuel d l <> Err EFuel).
  { unfold decode_data. cbv zeta. destruct (l_expected l =? 0); [split; [auto|discriminate]|].
    destruct (D fuel (Z.to_nat (l_expected l)) empty_local (mkin d (s4 (l_sections l) + 4) 0 0) Lf) as [[D1 D2] [D3 D4]].
    unfold ended in D2, D4.
    assert (X : forall m : res (list (list var) * localtables * input), m <> Err EFuel ->
      (' (subsets, lt, _) <- m ;;
       (if Nat.ltb (length d) (s5 (l_sections l) + 4) then Err EParse
        else ok <- zlist_is d (s5 (l_sections l)) [55; 55; 55; 55] ;; (if negb ok then Err EParse else Ok (subsets, lt)))) <> Err EFuel).
    { intros [[[a b] c]|e|] Hm; cbn [bind]; try congruence.
      destruct (Nat.ltb_spec (length d) (s5 (l_sections l) + 4)); [discriminate|].
      pose proof (zlist_is_safe d F [55; 55; 55; 55] (s5 (l_sections l)) ltac:(cbn [length]; lia)) as Z. unfold defined in Z.
      destruct (zlist_is d (s5 (l_sections l)) [55; 55; 55; 55]) as [ok|e|]; cbn [bind]; try congruence. destruct (negb ok); discriminate. }
    destruct (l_compression l); split; try (apply X; auto); [rewrite D3|rewrite D1]; reflexivity. }
  destruct R as [<- R]. split; [reflexivity|]. destruct (decode_data opt T skip fuel d l) as [[a b]|e|]; cbn [bind]; congruence.
Qed.

Example C36_decoding_example : options_end (mkopts false false None) /\
  (forall t T, ex_load t = Ok T -> well_founded (within T)).
Proof.
  split; [exact I|]. intros t T E. unfold ex_load in E. destruct (t_version t =? 13); [|discriminate]. apply ok_inj in E. subst T.
  eapply ranked_well_founded. exact Verif.Interp.Properties.C36_example.
Qed.

(** "A bulletin or an error" is false: there are inputs for which the decoder reads outside the
    buffer.  A data section that claims less than four bytes at the end of the file. *)
Definition short_data : list Z :=
  firstn 68 (ex_encode 4 40000 2026) ++ [0; 0; 0].
Theorem C36_short_data_section_refuted :
  Forall is_byte short_data /\ decode (mkopts false false None) ex_load true 100 short_data = UB.
Proof.
  split; [|vm_compute; reflexivity].
  apply Forall_forall. intros x I. unfold is_byte.
  assert (B : forallb (fun x => (0 <=? x) && (x <? 256)) short_data = true) by (vm_compute; reflexivity).
  rewrite forallb_forall in B. specialize (B x I). lia.
Qed.

(** Data that end in the middle of a value. *)
Definition cut_data : list Z :=
  firstn 68 (ex_encode 4 40000 2026) ++ [0; 0; 6; 0; 10; 5].
Theorem C36_cut_data_refuted :
  Forall is_byte cut_data /\ decode (mkopts false false None) ex_load true 100 cut_data = UB.
Proof.
  split; [|vm_compute; reflexivity].
  apply Forall_forall. intros x I. unfold is_byte.
  assert (B : forallb (fun x => (0 <=? x) && (x <? 256)) cut_data = true) by (vm_compute; reflexivity).
  rewrite forallb_forall in B. specialize (B x I). lia.
Qed.

(** A message that announces no subsets makes the decoder ask for 2^32 of them. *)
Definition no_subsets : list Z :=
  patch (ex_encode 4 40000 2026) 42 [0; 0].
Theorem C36_no_subsets : decode (mkopts false false None) ex_load true 100 no_subsets = Err EAlloc.
Proof. vm_compute. reflexivity. Qed.

(** The total length declared in section 0 is not looked at when the header is read: any three
    bytes will do. *)
Theorem C36_total_length_ignored : forall load a b c a' b' c' ed rest,
  decode_header load ([66; 85; 70; 82; a; b; c; ed] ++ rest) = decode_header load ([66; 85; 70; 82; a'; b'; c'; ed] ++ rest).
Proof.
  intros load a b c a' b' c' ed rest.
  assert (RA : forall k, (8 <= k)%nat -> read_at ([66; 85; 70; 82; a; b; c; ed] ++ rest) k = read_at ([66; 85; 70; 82; a'; b'; c'; ed] ++ rest) k).
  { intros k Lk. unfold read_at. do 8 (destruct k as [|k]; [lia|]). reflexivity. }
  set (x := [66; 85; 70; 82; a; b; c; ed] ++ rest) in *. set (y := [66; 85; 70; 82; a'; b'; c'; ed] ++ rest) in *.
  assert (Ll : length x = length y) by reflexivity.
  assert (RN : forall n k, (8 <= k)%nat -> read_number x k n = read_number y k n).
  { intros n. unfold read_number. generalize 0. induction n as [|n IH]; intros acc k Lk; cbn [read_number_loop]; auto.
    rewrite RA by lia. destruct (read_at y k); cbn [bind]; auto; apply IH; lia. }
  assert (RE : forall k, (8 <= k)%nat -> section_end_at x k = section_end_at y k).
  { intros k Lk. unfold section_end_at. rewrite Ll, RN by lia. reflexivity. }
  assert (RS : forall k o, (8 <= k)%nat -> scan_sections x k o = scan_sections y k o).
  { intros k o' Lk. unfold scan_sections.
    assert (G : forall z, section_end_at y k = Ok z -> (8 <= z)%nat).
    { intros z Hz. unfold section_end_at in Hz. destruct (Nat.ltb _ _); [discriminate|]. inv_bind Hz. destruct (Nat.ltb _ _); [discriminate|].
      apply ok_inj in Hk. lia. }
    assert (G2 : forall k', (8 <= k')%nat -> forall z, section_end_at y k' = Ok z -> (8 <= z)%nat).
    { intros k' Lk' z Hz. unfold section_end_at in Hz. destruct (Nat.ltb _ _); [discriminate|]. inv_bind Hz. destruct (Nat.ltb _ _); [discriminate|].
      apply ok_inj in Hk. lia. }
    assert (E1 : (if o' then section_end_at x k else Ok k) = (if o' then section_end_at y k else Ok k)) by (destruct o'; auto).
    rewrite E1. destruct (if o' then section_end_at y k else Ok k) as [z| |] eqn:Ez; cbn [bind]; auto.
    assert (Lz : (8 <= z)%nat) by (destruct o'; [eapply G; eauto|apply ok_inj in Ez; lia]).
    rewrite RE by lia. destruct (section_end_at y z) as [w| |] eqn:Ew; cbn [bind]; auto.
    rewrite RE by (eapply (G2 z); eauto). reflexivity. }
  assert (RZ : forall s k, (8 <= k)%nat -> zlist_is x k s = zlist_is y k s).
  { induction s as [|ch s IH]; intros k Lk; cbn [zlist_is]; auto. unfold read_byte. rewrite RA by lia.
    destruct (read_at y k); cbn [bind]; auto. rewrite IH by lia. reflexivity. }
  assert (RD : forall n k, (8 <= k)%nat -> read_descriptors x k n = read_descriptors y k n).
  { induction n as [|n IH]; intros k Lk; cbn [read_descriptors]; auto. rewrite RN, IH by lia. reflexivity. }
  assert (SK : forall k, (8 <= k)%nat -> skipn k x = skipn k y).
  { intros k Lk. do 8 (destruct k as [|k]; [lia|]). reflexivity. }
  assert (L : decode_lead x = decode_lead y).
  { unfold decode_lead. rewrite Ll.
    assert (Z0 : zlist_is x 0 [66; 85; 70; 82] = zlist_is y 0 [66; 85; 70; 82]) by reflexivity.
    assert (Z7 : read_byte x 7 = read_byte y 7) by reflexivity.
    rewrite Z0, Z7, RE by lia. destruct (Nat.ltb (length y) 8); auto. destruct (zlist_is y 0 _) as [sg| |]; cbn [bind]; auto.
    destruct (negb sg); auto. destruct (read_byte y 7) as [e| |]; cbn [bind]; auto. destruct (negb _); auto.
    destruct (section_end_at y 8) as [sec2| |] eqn:E2; cbn [bind]; auto.
    assert (L2 : (8 <= sec2)%nat).
    { unfold section_end_at in E2. destruct (Nat.ltb _ _); [discriminate|]. inv_bind E2. destruct (Nat.ltb _ _); [discriminate|].
      apply ok_inj in Hk. lia. }
    destruct (Nat.ltb (length y) (8 + (if e =? 4 then 22 else 18))); auto.
    assert (Sc : (if e =? 4 then decode_sec1_ed4 x e sec2 else decode_sec1_ed3 x e sec2) =
                 (if e =? 4 then decode_sec1_ed4 y e sec2 else decode_sec1_ed3 y e sec2)).
    { unfold decode_sec1_ed4, decode_sec1_ed3, read_byte. cbv zeta.
      repeat (rewrite RA by lia). repeat (rewrite RN by lia).
      destruct (e =? 4).
      - repeat (match goal with |- bind ?m _ = bind ?m _ => destruct m; cbn [bind]; auto end). rewrite RS by lia. reflexivity.
      - repeat (match goal with |- bind ?m _ = bind ?m _ => destruct m; cbn [bind]; auto end). rewrite RS by lia. reflexivity. }
    rewrite Sc. destruct (if e =? 4 then decode_sec1_ed4 y e sec2 else decode_sec1_ed3 y e sec2) as [[[h se] has2]| |] eqn:Es; cbn [bind]; auto.
    assert (Lse : (8 <= s2 se)%nat /\ (8 <= s3 se)%nat).
    { assert (Q : forall o' z, scan_sections y sec2 o' = Ok z -> (8 <= s2 z /\ 8 <= s3 z)%nat).
      { intros o' z Hz. unfold scan_sections in Hz. inv_bind Hz. rename Hk into Hk1. inv_bind Hk1. rename Hk into Hk2. inv_bind Hk2.
        apply ok_inj in Hk. subst z. cbn [s2 s3]. split; [lia|]. destruct o'; [|apply ok_inj in Hb; lia].
        unfold section_end_at in Hb. destruct (Nat.ltb _ _); [discriminate|]. inv_bind Hb. destruct (Nat.ltb _ _); [discriminate|].
        apply ok_inj in Hk. lia. }
      destruct (e =? 4); unfold decode_sec1_ed4, decode_sec1_ed3 in Es; cbv zeta in Es;
        repeat (let A := fresh in inv_bind Es; rename Hk into Es; try (match type of Es with
          | (if ?c then _ else _) = _ => destruct c; [discriminate|] end));
        apply ok_inj in Es; injection Es as <- <- <-; eauto. }
    destruct Lse as [L2' L3']. rewrite !RN, SK, RD by lia. unfold read_byte. rewrite RA by lia. reflexivity. }
  unfold decode_header. rewrite L. reflexivity.
Qed.

(** ** C37: subsets of a bulletin

    A bulletin has the subsets that were asked for, numbered from 0: asking for one creates the
    missing ones before it, empty, and leaves the others as they are. *)
Theorem C37_obtain_subset : forall k l, exists s l', obtain_subset k l = Ok (s, l') /\
  length l' = Nat.max (S k) (length l) /\ nth_error l' k = Some s /\
  (forall j, (j < length l)%nat -> nth_error l' j = nth_error l j) /\
  (forall j, (length l <= j < length l')%nat -> nth_error l' j = Some []).
Proof.
  intros k l. unfold obtain_subset. set (l' := grow_subsets k l).
  assert (L : length l' = Nat.max (S k) (length l)) by (unfold l', grow_subsets; rewrite app_length, repeat_length; lia).
  destruct (nth_error l' k) as [s|] eqn:E; [|apply nth_error_None in E; lia].
  exists s, l'. split; [reflexivity|]. split; [exact L|]. split; [exact E|]. split.
  - intros j Lj. unfold l', grow_subsets. apply nth_error_app1. exact Lj.
  - intros j Lj. unfold l', grow_subsets in *. rewrite nth_error_app2 by lia. rewrite app_length, repeat_length in Lj.
    apply nth_error_repeat. lia.
Qed.

(** Reading a subset never creates it: it is there, or an error is thrown. *)
Theorem C37_subset : forall k l,
  ((k < length l)%nat /\ exists s, nth_error l k = Some s /\ get_subset k l = Ok s) \/
  ((length l <= k)%nat /\ get_subset k l = Err ENotFound).
Proof.
  intros k l. unfold get_subset. destruct (Nat.leb_spec (length l) k) as [H|H]; [right; auto|left].
  split; [exact H|]. destruct (nth_error l k) as [s|] eqn:E; [eauto|]. apply nth_error_None in E. lia.
Qed.

Theorem C37_obtained_is_there : forall k l s l', obtain_subset k l = Ok (s, l') ->
  get_subset k l' = Ok s /\ obtain_subset k l' = Ok (s, l').
Proof.
  intros k l s l' H. destruct (C37_obtain_subset k l) as (s0 & l0 & E & L & N & _). rewrite E in H. apply ok_inj in H. injection H as <- <-.
  unfold get_subset, obtain_subset, grow_subsets. replace (S k - length l0)%nat with 0%nat by lia. cbn [repeat]. rewrite app_nil_r, N.
  destruct (Nat.leb_spec (length l0) k); [lia|auto].
Qed.

Example C37_example : forall v, obtain_subset 2 [[v]] = Ok ([], [[v]; []; []]) /\ get_subset 1 [[v]] = Err ENotFound.
Proof. intros v. split; reflexivity. Qed.

(** ** C40: whole messages round-trip

    For every bulletin whose data can be transferred with its template (C21 says what that means
    and that what arrives is what was sent), whatever its header and optional section: it is encoded, and decoding the
    result gives the same edition, table versions, category, date (as far as the edition can
    represent them: C24, C25), optional section, descriptors and subsets. *)
Theorem C40_messages_round_trip : forall p opt T load skip fuel lt b gots lt',
  table_ok (tb_b T) -> header_ok (b_header b) ->
  (h_edition (b_header b) = 2 \/ h_edition (b_header b) = 3 \/ h_edition (b_header b) = 4) ->
  Forall is_byte (b_optional b) -> Forall in_u16 (b_datadesc b) -> b_datadesc b <> [] ->
  b_subsets b <> [] -> Z.of_nat (length (b_subsets b)) < 65536 -> Forall (Forall var_infos_ok) (b_subsets b) ->
  lt_unknown lt = [] ->
  load (tableid_of (read_header (b_header b))) = Ok T ->
  transfer_all p T skip fuel (b_datadesc b) (b_subsets b) empty_local = Ok (gots, lt') ->
  exists bytes, encode p opt T fuel lt b = Ok bytes /\
    (Z.of_nat (length bytes) < 2 ^ 24 ->
     exists found, decode opt load skip fuel bytes =
       Ok (mkbulletin (read_header (b_header b)) (even_padded (b_optional b)) false (b_datadesc b) gots, T, found)).
Proof.
  intros p opt T load skip fuel lt b gots lt' H1 H2 H3 H4 H5 H6 H7 H8 H9 H10 H11 H12.
  destruct (message_roundtrip p opt T load skip fuel lt b gots lt' H1 H2 H3 H4 H5 H6 H7 H8 H9 H10 H11 H12) as (data & E & _ & D).
  exists (message b data). split; [exact E|]. intros L. eexists. exact (D L).
Qed.

(** An edition 4 bulletin with an even optional section and only plain elements comes back equal. *)
Theorem C40_equal_bulletin : forall p opt T load skip fuel lt b lt',
  table_ok (tb_b T) -> header_ok (b_header b) -> h_edition (b_header b) = 4 -> h_master_table (b_header b) = 0 ->
  Forall is_byte (b_optional b) -> Nat.even (length (b_optional b)) = true -> b_compression b = false ->
  Forall in_u16 (b_datadesc b) -> b_datadesc b <> [] ->
  b_subsets b <> [] -> Z.of_nat (length (b_subsets b)) < 65536 -> Forall (Forall var_infos_ok) (b_subsets b) ->
  lt_unknown lt = [] -> load (tableid_of (b_header b)) = Ok T ->
  transfer_all p T skip fuel (b_datadesc b) (b_subsets b) empty_local = Ok (b_subsets b, lt') ->
  exists bytes, encode p opt T fuel lt b = Ok bytes /\
    (Z.of_nat (length bytes) < 2 ^ 24 -> exists found, decode opt load skip fuel bytes = Ok (b, T, found)).
Proof.
  intros p opt T load skip fuel lt b lt' H1 H2 E4 M0 H4 Ev Cp H5 H6 H7 H8 H9 H10 H11 H12.
  assert (R : read_header (b_header b) = b_header b).
  { unfold read_header. rewrite E4. unfold read_ed4. destruct (b_header b). cbn in *. subst. reflexivity. }
  destruct (C40_messages_round_trip p opt T load skip fuel lt b (b_subsets b) lt') as (bytes & E & D); auto.
  { rewrite R. exact H11. }
  exists bytes. split; [exact E|]. intros L. destruct (D L) as (found & F). exists found. rewrite F.
  assert (P : even_padded (b_optional b) = b_optional b).
  { unfold even_padded. rewrite <- Nat.negb_even, Ev. reflexivity. }
  rewrite R, P, <- Cp. destruct b. reflexivity.
Qed.

Example C40_example :
  let b := mkbulletin (ex_header 4 40000 3 2026) [1; 2] false ex_ops [ex_subset 300; ex_subset 400] in
  (bytes <- encode X86 (mkopts false false None) ex_tables 100 empty_local b ;;
   ' (b', _, _) <- decode (mkopts false false None) ex_load true 100 bytes ;;
   Ok (b_header b', b_optional b', b_datadesc b', map view (b_subsets b'))) =
  Ok (b_header b, b_optional b, b_datadesc b, map view (b_subsets b)).
Proof. vm_compute. reflexivity. Qed.

(** The compression flag and an odd optional section are not preserved. *)
Theorem C40_compression_refuted :
  let b := mkbulletin (ex_header 4 200 3 2026) [1] true ex_ops [ex_subset 300] in
  (bytes <- encode X86 (mkopts false false None) ex_tables 100 empty_local b ;;
   ' (b', _, _) <- decode (mkopts false false None) ex_load true 100 bytes ;;
   Ok (b_compression b', b_optional b')) = Ok (false, [1; 0]).
Proof. vm_compute. reflexivity. Qed.

Print Assumptions C24_edition4_header.
Print Assumptions C25_edition3_header.
Print Assumptions C26_framing.
Print Assumptions C26_sections_found_again.
Print Assumptions C26_decoded_is_framed.
Print Assumptions C27_stream.
Print Assumptions C36_decoding_ends.
Print Assumptions C37_obtain_subset.
Print Assumptions C40_messages_round_trip.

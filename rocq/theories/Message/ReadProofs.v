(** The decoder reads back the sections of [Message.Spec]. *)
From Coq Require Import ZifyBool ZifyNat.
From Verif Require Import Base Codec.ColumnProofs Bits.Model Bits.Spec Bits.Proofs Num.Float Varcode.Model Varinfo.Model
  Tables.Model Var.Model Interp.Model Codec.Model Codec.Compressed Codec.Spec Codec.TransferProofs
  Message.Model Message.Spec Message.Proofs Message.LayoutProofs.
Local Open Scope Z_scope.

Lemma read_at_app l r k x : nth_error l k = Some x -> read_at (l ++ r) k = Ok x.
Proof.
  intros H. unfold read_at. rewrite nth_error_app1; [rewrite H; reflexivity|]. apply nth_error_Some. congruence.
Qed.

Lemma read_at_mid a x c : read_at (a ++ x :: c) (length a) = Ok x.
Proof. unfold read_at. rewrite nth_error_app2 by lia. rewrite Nat.sub_diag. reflexivity. Qed.

Lemma read_loop_be k : forall a acc v c, 0 <= acc -> (acc + 1) * 256 ^ Z.of_nat k <= 2 ^ 32 ->
  read_number_loop k (length a) acc (a ++ be k v ++ c) = Ok (acc * 256 ^ Z.of_nat k + v mod 256 ^ Z.of_nat k).
Proof.
  induction k as [|k IH]; intros a acc v c Ha Hb; cbn [read_number_loop be].
  - change (256 ^ Z.of_nat 0) with 1. rewrite Z.mod_1_r. f_equal. lia.
  - set (x := (v / 256 ^ Z.of_nat k) mod 256). cbn [app]. rewrite read_at_mid. cbn [bind].
    assert (Hx : 0 <= x < 256) by (apply Z.mod_pos_bound; lia).
    rewrite Nat2Z.inj_succ, Z.pow_succ_r in * by lia. set (q := 256 ^ Z.of_nat k) in *.
    assert (Hq : 0 < q) by (unfold q; apply Z.pow_pos_nonneg; lia).
    assert (E : Z.lor (u32 (256 * acc)) x = 256 * acc + x).
    { unfold u32. rewrite Z.mod_small by nia. 
      assert (D : Z.land (256 * acc) x = 0); [|rewrite <- Z.lxor_lor, <- Z.add_nocarry_lxor by exact D; reflexivity].
      apply Z.bits_inj'. intros j Hj. rewrite Z.land_spec, Z.bits_0.
      destruct (Z.ltb_spec j 8) as [H8|H8].
      - replace (256 * acc) with (acc * 2 ^ 8) by lia. rewrite Z.mul_pow2_bits_low by lia. reflexivity.
      - replace (Z.testbit x j) with false; [apply andb_false_r|]. symmetry.
        destruct (Z.eq_dec x 0) as [->|NZ]; [apply Z.bits_0|]. apply Z.bits_above_log2; try lia.
        apply Z.lt_le_trans with 8; auto. apply Z.log2_lt_pow2; lia. }
    rewrite E. replace (a ++ x :: be k v ++ c) with ((a ++ [x]) ++ be k v ++ c) by (rewrite <- app_assoc; reflexivity).
    replace (S (length a)) with (length (a ++ [x])) by (rewrite app_length; cbn; lia).
    rewrite IH by nia. f_equal. fold q. replace (256 * q) with (q * 256) by lia. rewrite (Z.rem_mul_r v q 256) by lia. fold x. lia.
Qed.

Lemma read_number_be a k v c : (k <= 4)%nat -> 0 <= v < 256 ^ Z.of_nat k ->
  read_number (a ++ be k v ++ c) (length a) k = Ok v.
Proof.
  intros Hk Hv. unfold read_number. rewrite read_loop_be; try lia.
  - rewrite Z.mod_small by lia. f_equal.
  - change (2 ^ 32) with (256 ^ 4). assert (256 ^ Z.of_nat k <= 256 ^ 4) by (apply Z.pow_le_mono_r; lia). lia.
Qed.

Lemma read_number_at d a k v c pos : d = a ++ be k v ++ c -> pos = length a -> (k <= 4)%nat -> 0 <= v < 256 ^ Z.of_nat k ->
  read_number d pos k = Ok v.
Proof. intros -> ->. apply read_number_be. Qed.

Lemma read_byte_at d a v c pos : d = a ++ be 1 v ++ c -> pos = length a -> in_u8 v -> read_byte d pos = Ok v.
Proof.
  intros -> -> H. rewrite be_one, Z.mod_small by exact H. apply read_at_mid.
Qed.

Lemma section_end_ok d a s c : d = a ++ s ++ c -> section_ok s -> Z.of_nat (length s) < 2 ^ 24 ->
  (3 <= length s)%nat -> section_end_at d (length a) = Ok (length a + length s)%nat.
Proof.
  intros -> (body & E) L L3. unfold section_end_at.
  replace (Nat.ltb (length (a ++ s ++ c)) (length a + 3)) with false by (rewrite !app_length; lia).
  rewrite (read_number_at _ a 3 (Z.of_nat (length s)) (body ++ c)); auto; try lia.
  - cbn [bind]. rewrite Nat2Z.id.
    replace (Nat.ltb (length (a ++ s ++ c)) (length a + length s)) with false by (rewrite !app_length; lia). reflexivity.
  - rewrite app_assoc with (l := be 3 _), <- E. reflexivity.
Qed.

Lemma read_descriptors_ok ds : forall a c, Forall in_u16 ds ->
  read_descriptors (a ++ flat_map (be 2) ds ++ c) (length a) (length ds) = Ok ds.
Proof.
  induction ds as [|x ds IH]; intros a c F; [reflexivity|]. apply Forall_cons_iff in F as [F1 F2].
  cbn [flat_map length read_descriptors]. rewrite <- app_assoc. rewrite read_number_be; [|lia|exact F1]. cbn [bind].
  replace (a ++ be 2 x ++ flat_map (be 2) ds ++ c) with ((a ++ be 2 x) ++ flat_map (be 2) ds ++ c)
    by (rewrite <- app_assoc; reflexivity).
  replace (length a + 2)%nat with (length (a ++ be 2 x)) by (rewrite app_length, be_length; lia).
  rewrite IH by auto. reflexivity.
Qed.

Lemma zlist_is_ok s : forall a c, zlist_is (a ++ s ++ c) (length a) s = Ok true.
Proof.
  induction s as [|x s IH]; intros a c; [reflexivity|]. cbn [zlist_is]. unfold read_byte. cbn [app]. rewrite read_at_mid. cbn [bind].
  rewrite Z.eqb_refl. replace (a ++ x :: s ++ c) with ((a ++ [x]) ++ s ++ c) by (rewrite <- app_assoc; reflexivity).
  replace (S (length a)) with (length (a ++ [x])) by (rewrite app_length; cbn; lia). apply IH.
Qed.

Lemma zlist_is_at d a s c pos : d = a ++ s ++ c -> pos = length a -> zlist_is d pos s = Ok true.
Proof. intros -> ->. apply zlist_is_ok. Qed.

(** ** Section 1 *)

Definition start_of (b : bulletin) (total : Z) : list Z := [66; 85; 70; 82] ++ be 3 total ++ be 1 (h_edition (b_header b)).

Lemma start_length b t : length (start_of b t) = 8%nat.
Proof. reflexivity. Qed.

Lemma byte_be v : in_u8 v -> (v / 256 ^ Z.of_nat 0) mod 256 = v.
Proof. intros H. change (256 ^ Z.of_nat 0) with 1. rewrite Z.div_1_r. apply Z.mod_small. exact H. Qed.

(** Bytes and pairs of bytes at known positions of an explicit list. *)
Ltac byte_at := match goal with |- _ = Ok ?v => rewrite <- (byte_be v); [reflexivity|assumption] end.
Ltac short_at d n v := apply (read_number_at d (firstn n d) 2 v (skipn (n + 2) d)); [reflexivity|reflexivity|lia|assumption].

(** The header as the decoder sees it. *)
Definition read_ed4 (h : header) : header :=
  mkheader 4 0 (h_centre h) (h_subcentre h) (h_update h) (h_category h) (h_subcategory h) (h_local h)
    (h_version h) (h_version_local h) (h_year h) (h_month h) (h_day h) (h_hour h) (h_minute h) (h_second h).

Definition year_ed3 (y : Z) : Z :=
  let yy := if y =? 2000 then 100 else y mod 100 in if 50 <? yy then yy + 1900 else yy + 2000.

Definition read_ed3 (h : header) : header :=
  mkheader (h_edition h) (h_master_table h) (h_centre h mod 256) (h_subcentre h mod 256) (h_update h) (h_category h) 255
    (h_local h) (h_version h) (h_version_local h) (year_ed3 (h_year h)) (h_month h) (h_day h) (h_hour h) (h_minute h) 0.

Definition has_section2 (se : sections) : bool := Nat.ltb (s2 se + 4) (s3 se).

Lemma flag_ok b : in_u8 (optional_flag b).
Proof. unfold optional_flag, in_u8. destruct (b_optional b); lia. Qed.

Lemma flag_bit b : negb (Z.land (optional_flag b) 128 =? 0) = match b_optional b with [] => false | _ => true end.
Proof. unfold optional_flag. destruct (b_optional b); reflexivity. Qed.

Lemma sec1_ed4_read b t rest sec2 se : header_ok (b_header b) -> h_edition (b_header b) = 4 ->
  let d := start_of b t ++ section1_ed4 b ++ rest in
  scan_sections d sec2 (match b_optional b with [] => false | _ => true end) = Ok se ->
  (s3 se = s2 se \/ s2 se + 4 <= s3 se)%nat -> Z.of_nat (s3 se) < 2 ^ 32 ->
  decode_sec1_ed4 d 4 sec2 = Ok (read_ed4 (b_header b), se, has_section2 se).
Proof.
  intros [] E d SC H L. unfold decode_sec1_ed4.
  set (h := b_header b) in *. pose proof (flag_ok b) as Fl.
  assert (R3 : read_byte d (8 + 3) = Ok 0) by reflexivity.
  assert (R4 : read_number d (8 + 4) 2 = Ok (h_centre h)) by short_at d 12%nat (h_centre h).
  assert (R6 : read_number d (8 + 6) 2 = Ok (h_subcentre h)) by short_at d 14%nat (h_subcentre h).
  assert (R8 : read_byte d (8 + 8) = Ok (h_update h)) by byte_at.
  assert (R9 : read_byte d (8 + 9) = Ok (optional_flag b)) by byte_at.
  assert (R10 : read_byte d (8 + 10) = Ok (h_category h)) by byte_at.
  assert (R11 : read_byte d (8 + 11) = Ok (h_subcategory h)) by byte_at.
  assert (R12 : read_byte d (8 + 12) = Ok (h_local h)) by byte_at.
  assert (R13 : read_byte d (8 + 13) = Ok (h_version h)) by byte_at.
  assert (R14 : read_byte d (8 + 14) = Ok (h_version_local h)) by byte_at.
  assert (R15 : read_number d (8 + 15) 2 = Ok (h_year h)) by short_at d 23%nat (h_year h).
  assert (R17 : read_byte d (8 + 17) = Ok (h_month h)) by byte_at.
  assert (R18 : read_byte d (8 + 18) = Ok (h_day h)) by byte_at.
  assert (R19 : read_byte d (8 + 19) = Ok (h_hour h)) by byte_at.
  assert (R20 : read_byte d (8 + 20) = Ok (h_minute h)) by byte_at.
  assert (R21 : read_byte d (8 + 21) = Ok (h_second h)) by byte_at.
  clearbody d. cbv zeta. rewrite R3, R4, R6, R8, R9. cbn [bind]. rewrite flag_bit, SC. cbn [bind].
  replace ((0 <? Z.of_nat (s3 se - s2 se)) && (Z.of_nat (s3 se - s2 se) <? 4)) with false by lia.
  rewrite R10, R11, R12, R13, R14, R15, R17, R18, R19, R20, R21. cbn [bind]. unfold read_ed4, has_section2. f_equal. f_equal.
  destruct (Z.eqb_spec (Z.of_nat (s3 se - s2 se)) 0); [change (0 =? 0) with true; lia|]. unfold u32. rewrite Z.mod_small by lia. lia.
Qed.

Lemma sec1_ed3_read b t rest sec2 se : header_ok (b_header b) ->
  let d := start_of b t ++ section1_ed3 b ++ rest in
  scan_sections d sec2 (match b_optional b with [] => false | _ => true end) = Ok se ->
  (s3 se = s2 se \/ s2 se + 4 <= s3 se)%nat -> Z.of_nat (s3 se) < 2 ^ 32 ->
  decode_sec1_ed3 d (h_edition (b_header b)) sec2 = Ok (read_ed3 (b_header b), se, has_section2 se).
Proof.
  intros [] d SC H L. unfold decode_sec1_ed3.
  set (h := b_header b) in *. pose proof (flag_ok b) as Fl.
  set (yy := if h_year h =? 2000 then 100 else h_year h mod 100).
  assert (Hy : in_u8 yy).
  { unfold yy, in_u8. pose proof (Z.mod_pos_bound (h_year h) 100). destruct (_ =? 2000); lia. }
  assert (R3 : read_byte d (8 + 3) = Ok (h_master_table h)) by byte_at.
  assert (R4 : read_byte d (8 + 4) = Ok (h_subcentre h mod 256)) by (rewrite <- (Z.div_1_r (h_subcentre h)); reflexivity).
  assert (R5 : read_byte d (8 + 5) = Ok (h_centre h mod 256)) by (rewrite <- (Z.div_1_r (h_centre h)); reflexivity).
  assert (R6 : read_byte d (8 + 6) = Ok (h_update h)) by byte_at.
  assert (R7 : read_byte d (8 + 7) = Ok (optional_flag b)) by byte_at.
  assert (R8 : read_byte d (8 + 8) = Ok (h_category h)) by byte_at.
  assert (R9 : read_byte d (8 + 9) = Ok (h_local h)) by byte_at.
  assert (R10 : read_byte d (8 + 10) = Ok (h_version h)) by byte_at.
  assert (R11 : read_byte d (8 + 11) = Ok (h_version_local h)) by byte_at.
  assert (R12 : read_byte d (8 + 12) = Ok yy) by byte_at.
  assert (R13 : read_byte d (8 + 13) = Ok (h_month h)) by byte_at.
  assert (R14 : read_byte d (8 + 14) = Ok (h_day h)) by byte_at.
  assert (R15 : read_byte d (8 + 15) = Ok (h_hour h)) by byte_at.
  assert (R16 : read_byte d (8 + 16) = Ok (h_minute h)) by byte_at.
  clearbody d. cbv zeta. rewrite R3, R7. cbn [bind]. rewrite flag_bit, SC. cbn [bind].
  rewrite R4, R5, R6, R8, R9, R10, R11, R12, R13, R14, R15, R16. cbn [bind]. unfold read_ed3, has_section2, year_ed3.
  fold yy. cbv zeta. f_equal. f_equal.
  destruct (Z.eqb_spec (Z.of_nat (s3 se - s2 se)) 0); [change (0 =? 0) with true; lia|]. unfold u32. rewrite Z.mod_small by lia. lia.
Qed.

(** ** The whole header *)

Definition read_header (h : header) : header := if h_edition h =? 4 then read_ed4 h else read_ed3 h.

Definition sections_at (b : bulletin) (data : list Z) : sections :=
  let e1 := (8 + length (section1 b))%nat in
  let e2 := (e1 + length (section2 b))%nat in
  let e3 := (e2 + length (section3 b))%nat in
  mksections 8 e1 e2 e3 (e3 + length (section4 data)).

Definition lead_of (b : bulletin) (data : list Z) : lead :=
  mklead (read_header (b_header b)) (even_padded (b_optional b)) false (b_datadesc b) (sections_at b data)
    (Z.of_nat (length (b_subsets b)) mod 65536).

Lemma message_parts b data : exists t,
  message b data = start_of b t ++ section1 b ++ section2 b ++ section3 b ++ section4 data ++ [55; 55; 55; 55].
Proof.
  exists (12 + Z.of_nat (length (concat (sections_of b data)))). unfold message, start_of. cbv zeta.
  rewrite concat_sections, <- !app_assoc. reflexivity.
Qed.

Lemma scan_ok b t data tail : let d := start_of b t ++ section1 b ++ section2 b ++ section3 b ++ section4 data ++ tail in
  Z.of_nat (length d) < 2 ^ 24 ->
  section_end_at d 8 = Ok (8 + length (section1 b))%nat /\
  scan_sections d (8 + length (section1 b)) (match b_optional b with [] => false | _ => true end) = Ok (sections_at b data).
Proof.
  intros d L.
  assert (Ld : length d = (8 + length (section1 b) + length (section2 b) + length (section3 b) + length (section4 data) + length tail)%nat).
  { unfold d. rewrite !app_length, start_length. lia. }
  pose proof (section1_length b) as L1. pose proof (section3_length b) as L3. pose proof (section4_length data) as L4.
  assert (E1 : section_end_at d 8 = Ok (8 + length (section1 b))%nat).
  { apply (section_end_ok d (start_of b t) (section1 b) (section2 b ++ section3 b ++ section4 data ++ tail)); auto using section1_ok; try lia.
    destruct (h_edition (b_header b) =? 4); lia. }
  split; auto. unfold scan_sections.
  assert (E2 : (if match b_optional b with [] => false | _ => true end then section_end_at d (8 + length (section1 b))%nat
     else Ok (8 + length (section1 b))%nat) = Ok (8 + length (section1 b) + length (section2 b))%nat).
  { pose proof (section2_length b) as L2. pose proof (section2_ok b) as O2. destruct (b_optional b) as [|x l] eqn:O.
    - rewrite L2. f_equal. lia.
    - replace (8 + length (section1 b))%nat with (length (start_of b t ++ section1 b)) by (rewrite app_length, start_length; lia).
      apply (section_end_ok d _ (section2 b) (section3 b ++ section4 data ++ tail)); try lia.
      + unfold d. rewrite <- !app_assoc. reflexivity.
      + apply O2. discriminate. }
  rewrite E2. cbn [bind].
  assert (E3 : section_end_at d (8 + length (section1 b) + length (section2 b)) =
     Ok (8 + length (section1 b) + length (section2 b) + length (section3 b))%nat).
  { replace (8 + length (section1 b) + length (section2 b))%nat with (length (start_of b t ++ section1 b ++ section2 b))
      by (rewrite !app_length, start_length; lia).
    apply (section_end_ok d _ (section3 b) (section4 data ++ tail)); auto using section3_ok; try lia.
    unfold d. rewrite <- !app_assoc. reflexivity. }
  rewrite E3. cbn [bind].
  assert (E4 : section_end_at d (8 + length (section1 b) + length (section2 b) + length (section3 b)) =
     Ok (8 + length (section1 b) + length (section2 b) + length (section3 b) + length (section4 data))%nat).
  { replace (8 + length (section1 b) + length (section2 b) + length (section3 b))%nat
      with (length (start_of b t ++ section1 b ++ section2 b ++ section3 b)) by (rewrite !app_length, start_length; lia).
    apply (section_end_ok d _ (section4 data) tail); auto using section4_ok; try lia.
    unfold d. rewrite <- !app_assoc. reflexivity. }
  rewrite E4. reflexivity.
Qed.

Theorem lead_read b t data tail : header_ok (b_header b) ->
  (h_edition (b_header b) = 2 \/ h_edition (b_header b) = 3 \/ h_edition (b_header b) = 4) ->
  Forall in_u16 (b_datadesc b) ->
  let d := start_of b t ++ section1 b ++ section2 b ++ section3 b ++ section4 data ++ tail in
  Z.of_nat (length d) < 2 ^ 24 -> decode_lead d = Ok (lead_of b data).
Proof.
  intros HO ED FD d L.
  assert (Ld : length d = (8 + length (section1 b) + length (section2 b) + length (section3 b) + length (section4 data) + length tail)%nat).
  { unfold d. rewrite !app_length, start_length. lia. }
  destruct (scan_ok b t data tail L) as [E1 ES]. fold d in E1, ES.
  pose proof (section1_length b) as L1. pose proof (section2_length b) as L2. pose proof (section3_length b) as L3.
  pose proof (section4_length data) as L4.
  assert (L18 : (18 <= length (section1 b) <= 22)%nat) by (destruct (h_edition (b_header b) =? 4); lia).
  unfold decode_lead.
  replace (Nat.ltb (length d) 8) with false by lia.
  rewrite (zlist_is_at d [] [66; 85; 70; 82] (skipn 4 d)) by reflexivity. cbn [bind negb].
  assert (RE : read_byte d 7 = Ok (h_edition (b_header b))).
  { rewrite <- (byte_be (h_edition (b_header b))); [reflexivity|]. unfold in_u8. lia. }
  rewrite RE. cbn [bind].
  replace ((h_edition (b_header b) =? 2) || (h_edition (b_header b) =? 3) || (h_edition (b_header b) =? 4)) with true by lia.
  cbn [negb]. rewrite E1. cbn [bind].
  replace (Nat.ltb (length d) (8 + (if h_edition (b_header b) =? 4 then 22 else 18))) with false
    by (rewrite <- L1; lia).
  set (se := sections_at b data) in *.
  assert (Hse : (s3 se = s2 se \/ s2 se + 4 <= s3 se)%nat).
  { unfold se, sections_at. cbv zeta. cbn [s2 s3]. destruct (b_optional b); lia. }
  assert (Hs3 : Z.of_nat (s3 se) < 2 ^ 32) by (unfold se, sections_at; cbv zeta; cbn [s3]; lia).
  assert (S1 : (if h_edition (b_header b) =? 4 then decode_sec1_ed4 d (h_edition (b_header b)) (8 + length (section1 b))
      else decode_sec1_ed3 d (h_edition (b_header b)) (8 + length (section1 b)))
      = Ok (read_header (b_header b), se, has_section2 se)).
  { unfold read_header, d. unfold d in ES. destruct (Z.eqb_spec (h_edition (b_header b)) 4) as [E4|E4].
    - rewrite E4. unfold section1 at 1. rewrite E4. cbn [Z.eqb Pos.eqb]. apply sec1_ed4_read; auto.
      unfold section1 at 1 in ES. rewrite E4 in ES. cbn [Z.eqb Pos.eqb] in ES. exact ES.
    - unfold section1 at 1. rewrite (proj2 (Z.eqb_neq _ _) E4). apply sec1_ed3_read; auto.
      unfold section1 at 1 in ES. rewrite (proj2 (Z.eqb_neq _ _) E4) in ES. exact ES. }
  rewrite S1. cbn [bind]. clear S1 ES E1 RE.
  set (a2 := start_of b t ++ section1 b).
  assert (La2 : length a2 = s2 se) by (unfold a2; rewrite app_length, start_length; reflexivity).
  assert (D2 : d = a2 ++ section2 b ++ section3 b ++ section4 data ++ tail) by (unfold d, a2; rewrite <- !app_assoc; reflexivity).
  set (a3 := a2 ++ section2 b).
  assert (La3 : length a3 = s3 se) by (unfold a3; rewrite app_length, La2; unfold se, sections_at; cbv zeta; cbn [s2 s3]; lia).
  assert (D3 : d = a3 ++ section3 b ++ section4 data ++ tail) by (rewrite D2; unfold a3; rewrite <- !app_assoc; reflexivity).
  assert (Opt : (if has_section2 se then
            if Nat.ltb (s3 se) (s2 se + 3) then Err EParse
            else
              n <- read_number d (s2 se) 3 ;;
              if Nat.ltb (s3 se) (s2 se + Z.to_nat n) then Err EParse
              else if n <? 4 then Err EConsistency
              else Ok (firstn (Z.to_nat n - 4) (skipn (s2 se + 4) d))
          else Ok []) = Ok (even_padded (b_optional b))).
  { unfold has_section2. unfold section2 in D2. destruct (b_optional b) as [|x l] eqn:O.
    - replace (Nat.ltb (s2 se + 4) (s3 se)) with false by (unfold se, sections_at; cbv zeta; cbn [s2 s3]; lia). reflexivity.
    - rewrite <- O in *. set (opt := even_padded (b_optional b)) in *.
      assert (Lo : (1 <= length opt)%nat) by (unfold opt, even_padded; rewrite O; destruct (Nat.odd _); cbn; lia).
      assert (Hs : s3 se = (s2 se + 4 + length opt)%nat) by (unfold se, sections_at; cbv zeta; cbn [s2 s3]; lia).
      replace (Nat.ltb (s2 se + 4) (s3 se)) with true by lia.
      replace (Nat.ltb (s3 se) (s2 se + 3)) with false by lia.
      rewrite (read_number_at d a2 3 (4 + Z.of_nat (length opt)) (([0] ++ opt) ++ section3 b ++ section4 data ++ tail)); auto; try lia.
      cbn [bind]. replace (Nat.ltb (s3 se) (s2 se + Z.to_nat (4 + Z.of_nat (length opt)))) with false by lia.
      replace (4 + Z.of_nat (length opt) <? 4) with false by lia.
      replace (Z.to_nat (4 + Z.of_nat (length opt)) - 4)%nat with (length opt) by lia. f_equal.
      replace d with ((a2 ++ be 3 (4 + Z.of_nat (length opt)) ++ [0]) ++ opt ++ section3 b ++ section4 data ++ tail)
        by (rewrite D2 at 1; rewrite <- !app_assoc; reflexivity).
      replace (s2 se + 4)%nat with (length (a2 ++ be 3 (4 + Z.of_nat (length opt)) ++ [0]))
        by (rewrite !app_length, be_length, La2; cbn [length]; lia).
      rewrite skipn_length_app, firstn_app, Nat.sub_diag, firstn_O, app_nil_r. apply firstn_all. }
  rewrite Opt. cbn [bind].
  assert (Hs4 : s4 se = (s3 se + 8 + 2 * length (b_datadesc b))%nat) by (unfold se, sections_at; cbv zeta; cbn [s3 s4]; lia).
  replace (Nat.ltb (s4 se - s3 se) 7) with false by lia. replace (Nat.ltb (s4 se) (s3 se + 8)) with false by lia.
  set (n := Z.of_nat (length (b_subsets b))).
  set (q := be 3 (8 + 2 * Z.of_nat (length (b_datadesc b))) ++ [0]).
  assert (D4 : d = (a3 ++ q) ++ be 2 n ++ [128] ++ flat_map (be 2) (b_datadesc b) ++ [0] ++ section4 data ++ tail).
  { rewrite D3. unfold section3, q. fold n. rewrite <- !app_assoc. reflexivity. }
  rewrite (read_number_at d (a3 ++ q) 2 (n mod 65536) ([128] ++ flat_map (be 2) (b_datadesc b) ++ [0] ++ section4 data ++ tail)).
  2:{ rewrite D4. change 65536 with (2 ^ 16). rewrite be_mod by lia. reflexivity. }
  2:{ rewrite app_length, La3. reflexivity. }
  2: lia.
  2:{ apply Z.mod_pos_bound. lia. }
  cbn [bind].
  rewrite (read_byte_at d ((a3 ++ q) ++ be 2 n) 128 (flat_map (be 2) (b_datadesc b) ++ [0] ++ section4 data ++ tail)).
  2:{ rewrite D4. rewrite <- !app_assoc. reflexivity. }
  2:{ rewrite !app_length, La3, be_length. unfold q. rewrite app_length, be_length. cbn [length]. lia. }
  2: unfold in_u8; lia.
  cbn [bind]. replace (Nat.div (s4 se - s3 se - 7) 2) with (length (b_datadesc b)).
  2:{ rewrite Hs4. replace (s3 se + 8 + 2 * length (b_datadesc b) - s3 se - 7)%nat with (1 + length (b_datadesc b) * 2)%nat by lia.
      rewrite Nat.div_add by lia. reflexivity. }
  replace (Nat.ltb (s4 se) (s3 se + 7 + length (b_datadesc b) * 2)) with false by lia.
  replace d with ((((a3 ++ q) ++ be 2 n) ++ [128]) ++ flat_map (be 2) (b_datadesc b) ++ ([0] ++ section4 data ++ tail))
    by (rewrite D4; rewrite <- !app_assoc; reflexivity).
  replace (s3 se + 7)%nat with (length (((a3 ++ q) ++ be 2 n) ++ [128])).
  2:{ rewrite !app_length, La3, be_length. unfold q. rewrite app_length, be_length. cbn [length]. lia. }
  rewrite read_descriptors_ok by auto. reflexivity.
Qed.

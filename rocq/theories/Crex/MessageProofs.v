(** Whole CREX messages. *)
From Coq Require Import ZifyBool ZifyNat.
From Verif Require Import Base Bits.Spec Bits.StringProofs Num.Float Varcode.Model Varcode.Proofs Varinfo.Model Tables.Model
  Var.Model Var.AttrProofs Var.CodecProofs Interp.Model Interp.Sim Codec.Model Codec.Spec Codec.Proofs Codec.ColumnProofs Message.Model
  Crex.Model Crex.Spec Crex.ValueProofs Crex.Proofs.
Local Open Scope Z_scope.

(** ** Digits *)
Lemma two_digits x : 0 <= x < 100 -> fmt_0d 2 x = [48 + x / 10; 48 + x mod 10].
Proof.
  intros H. assert (A : forallb (fun n => list_eqb (fmt_0d 2 (Z.of_nat n)) [48 + Z.of_nat n / 10; 48 + Z.of_nat n mod 10]) (seq 0 100) = true)
    by (vm_compute; reflexivity).
  rewrite forallb_forall in A. specialize (A (Z.to_nat x)). rewrite Z2Nat.id in A by lia.
  apply list_eqb_spec. apply A. apply in_seq. lia.
Qed.
Definition digits3 (y : Z) : list Z := [48 + y / 100; 48 + (y / 10) mod 10; 48 + y mod 10].
Lemma three_digits y : 0 <= y < 1000 -> fmt_0d 3 y = digits3 y.
Proof.
  intros H. assert (A : forallb (fun n => list_eqb (fmt_0d 3 (Z.of_nat n)) (digits3 (Z.of_nat n))) (seq 0 1000) = true)
    by (vm_compute; reflexivity).
  rewrite forallb_forall in A. specialize (A (Z.to_nat y)). rewrite Z2Nat.id in A by lia.
  apply list_eqb_spec. apply A. apply in_seq. lia.
Qed.

Lemma schar_small v : 0 <= v < 128 -> schar v = v.
Proof. intros H. unfold schar. rewrite Z.mod_small by lia. lia. Qed.

Lemma scan_two x r : 0 <= x < 100 -> scan_hhu2 (48 + x / 10 :: 48 + x mod 10 :: r) = Some (x, r).
Proof.
  intros H. unfold scan_hhu2. assert (0 <= x / 10 < 10) by (split; [apply Z.div_pos; lia|apply Z.div_lt_upper_bound; lia]).
  assert (0 <= x mod 10 < 10) by (apply Z.mod_pos_bound; lia).
  replace ((48 + x / 10 =? 43) || (48 + x / 10 =? 45)) with false by lia.
  replace (c_isdigit (48 + x / 10)) with true by (unfold c_isdigit; lia).
  replace (c_isdigit (48 + x mod 10)) with true by (unfold c_isdigit; lia).
  do 2 f_equal. pose proof (Z.div_mod x 10). lia.
Qed.

Lemma digits3_digits y : 0 <= y < 1000 -> Forall digit (digits3 y).
Proof.
  intros H. unfold digits3, digit. assert (0 <= y / 100 < 10) by (split; [apply Z.div_pos; lia|apply Z.div_lt_upper_bound; lia]).
  pose proof (Z.mod_pos_bound (y / 10) 10). pose proof (Z.mod_pos_bound y 10). repeat constructor; lia.
Qed.
Lemma digits3_value y : 0 <= y < 1000 -> forall acc, dval acc (digits3 y) = acc * 1000 + y.
Proof.
  intros H acc. unfold dval, digits3. cbn [fold_left].
  pose proof (Z.div_mod y 10). pose proof (Z.div_mod (y / 10) 10). rewrite Z.div_div in * by lia. change (10 * 10) with 100 in *. lia.
Qed.

Lemma strtoul_number s : Forall digit s -> s <> [] -> dval 0 s < 2 ^ 64 -> fst (c_strtoul s) = dval 0 s.
Proof.
  intros F N H. destruct s as [|c s]; [contradiction|]. unfold c_strtoul. cbn [skip_space].
  assert (Hc : digit c) by (inversion F; auto). rewrite digit_not_space by exact Hc. pose proof Hc as Hc'. unfold digit in Hc'.
  replace (c =? 45) with false by lia. replace (c =? 43) with false by lia. rewrite (proj1 (digit_is c) Hc).
  rewrite <- (app_nil_r (c :: s)). rewrite scan_digits_app by (auto; exact I). rewrite app_nil_r. cbn [fst].
  replace (2 ^ 64 <=? dval 0 (c :: s)) with false by lia. reflexivity.
Qed.

(** ** Words *)
Lemma word_app w : forall n c rest, Forall (fun c => c_isspace c = false) w -> (length w <= n)%nat -> c_isspace c = true ->
  word n (w ++ c :: rest) = (w, c :: rest).
Proof.
  induction w as [|a w IH]; intros n c rest F L Hc.
  - destruct n; cbn [word app]; [reflexivity|]. rewrite Hc. reflexivity.
  - destruct n; cbn [length] in L; [lia|]. apply Forall_cons_iff in F as [Fa Fw]. cbn [word app]. rewrite Fa.
    rewrite IH by (auto; lia). reflexivity.
Qed.

Lemma digits_not_space s : Forall digit s -> Forall (fun c => c_isspace c = false) s.
Proof. intros F. eapply Forall_impl; [|exact F]. intros c. apply digit_not_space. Qed.

(** ** Data descriptors *)
Lemma varcode_parse_more s r : length s = 6%nat -> varcode_parse (Some (s ++ r)) = varcode_parse (Some s).
Proof.
  intros L. do 6 (destruct s as [|? s]; [discriminate|]). destruct s; [|discriminate]. reflexivity.
Qed.

Lemma desc_text_format c : 0 <= c < 65536 -> is_count c = false -> desc_text c = 32 :: varcode_format c.
Proof.
  intros H N. unfold desc_text. rewrite N. unfold varcode_format. destruct (pack_unpack c H) as (Hf & Hx & Hy & _).
  rewrite two_digits by lia. rewrite three_digits by lia. unfold digits3. cbn [app]. do 2 f_equal.
  assert (var_f c = 0 \/ var_f c = 1 \/ var_f c = 2 \/ var_f c = 3) as [-> | [-> | [-> | ->]]] by lia; reflexivity.
Qed.

Lemma format_head c : 0 <= c < 65536 -> exists h r, varcode_format c = h :: r /\ length r = 5%nat /\ (h = 66 \/ h = 82 \/ h = 67 \/ h = 68).
Proof.
  intros H. destruct (pack_unpack c H) as (Hf & _). unfold varcode_format. eexists. eexists. split; [reflexivity|]. split; [reflexivity|].
  assert (var_f c = 0 \/ var_f c = 1 \/ var_f c = 2 \/ var_f c = 3) as [-> | [-> | [-> | ->]]] by lia; cbn; auto.
Qed.

Definition op_ok (c : Z) : Prop := 0 <= c < 65536 /\ is_count c = false.

Lemma descs_ok ops : Forall op_ok ops -> forall fuel data acc, (length ops < fuel)%nat ->
  decode_descs fuel (mkcin (skip_space (flat_map desc_text ops ++ [43; 43; 13; 13; 10] ++ data)) false 0) acc =
  Ok (acc ++ ops, mkcin (skip_space data) false 0).
Proof.
  induction ops as [|c ops IH]; intros F fuel data acc L; (destruct fuel as [|k]; [cbn [length] in L; lia|]); cbn [decode_descs].
  - cbn [flat_map app skip_space]. change (c_isspace 43) with false. cbv iota. unfold ci_cur. cbn [ci_rest hd].
    cbn. rewrite app_nil_r. reflexivity.
  - apply Forall_cons_iff in F as [[Hc Nc] F]. cbn [flat_map]. rewrite desc_text_format by auto.
    destruct (format_head c Hc) as (h & r & E & Lr & Hh).
    cbn [app skip_space]. change (c_isspace 32) with true. cbv iota. rewrite <- app_assoc. cbn [app].
    set (rest := flat_map desc_text ops ++ [43; 43; 13; 13; 10] ++ data).
    assert (Sk : skip_space (varcode_format c ++ flat_map desc_text ops ++ 43 :: 43 :: 13 :: 13 :: 10 :: data) = varcode_format c ++ rest).
    { rewrite E. cbn [app skip_space]. replace (c_isspace h) with false by (unfold c_isspace; lia). reflexivity. }
    rewrite Sk. unfold ci_cur. cbn [ci_rest]. assert (Hd : hd 0 (varcode_format c ++ rest) = h) by (rewrite E; reflexivity).
    rewrite Hd. replace ((h =? 66) || (h =? 82) || (h =? 67) || (h =? 68)) with true by lia.
    unfold check_available. cbn [ci_rest]. rewrite app_length, format_length.
    replace (Nat.ltb (6 + length rest) 6) with false by (symmetry; apply Nat.ltb_ge; lia). cbn [bind].
    rewrite varcode_parse_more by apply format_length. rewrite parse_format by exact Hc. cbn [bind].
    unfold skip_data_and_spaces, skip_spaces, with_rest. cbn [ci_rest ci_check ci_expected].
    rewrite (skipn_app_exact (varcode_format c)) by apply format_length.
    unfold rest. rewrite IH by (auto; cbn [length] in L; lia). rewrite <- app_assoc. reflexivity.
Qed.

(** ** The header *)
Definition lead (h : cheader) : list Z :=
  84 :: fmt_0d 2 (ch_mtn h) ++ fmt_0d 2 (ch_edition h) ++ fmt_0d 2 (ch_mtv h) ++
  [32; 65] ++ fmt_0d 3 (ch_category h) ++ (if ch_subcategory h =? 255 then [] else fmt_0d 3 (ch_subcategory h)).

Lemma header_decodes fuel h ops data : crex_header_ok h = true -> crex_ops_ok ops = true -> (length ops < fuel)%nat ->
  decode_cheader fuel (crex_start ++ [13; 13; 10] ++ lead h ++ flat_map desc_text ops ++ [43; 43; 13; 13; 10] ++ data) =
  Ok (crex_received h, ops, mkcin (skip_space data) false 0).
Proof.
  intros Hh Ho L. unfold crex_header_ok in Hh. rewrite !andb_true_iff, orb_true_iff, andb_true_iff in Hh.
  assert (Fo : ops <> [] /\ Forall op_ok ops).
  { unfold crex_ops_ok in Ho. apply andb_true_iff in Ho as [O1 O2]. split; [destruct ops; [discriminate|congruence]|].
    rewrite forallb_forall in O2. apply Forall_forall. intros c Hc. apply O2 in Hc. rewrite !andb_true_iff in Hc.
    destruct Hc as ((A & B) & C). split; [lia|]. unfold is_count. apply negb_true_iff in C. exact C. }
  destruct Fo as [Ne Fo]. destruct Hh as ((((((((A1 & A2) & B1) & B2) & C1) & C2) & D1) & D2) & E).
  set (tail := flat_map desc_text ops ++ [43; 43; 13; 13; 10] ++ data).
  assert (Ht : exists t, tail = 32 :: t).
  { unfold tail. destruct ops as [|c ops]; [contradiction|]. apply Forall_cons_iff in Fo as [[Hc Nc] _]. cbn [flat_map].
    rewrite desc_text_format by auto. cbn [app]. eauto. }
  destruct Ht as (t & Ht).
  unfold lead. rewrite !two_digits, (three_digits (ch_category h)) by lia.
  set (sub := if ch_subcategory h =? 255 then [] else fmt_0d 3 (ch_subcategory h)).
  assert (Fsub : Forall digit sub).
  { unfold sub. destruct (Z.eqb_spec (ch_subcategory h) 255); [constructor|]. rewrite three_digits by lia. apply digits3_digits. lia. }
  unfold decode_cheader. unfold check_available. cbn [ci_rest app length crex_start].
  replace (Nat.ltb _ 6) with false by reflexivity. cbn [bind firstn].
  replace (list_eqb [67; 82; 69; 88; 43; 43] [67; 82; 69; 88; 43; 43]) with true by reflexivity. cbn [negb].
  unfold skip_data_and_spaces, skip_spaces, with_rest. cbn [ci_rest ci_check ci_expected skipn skip_space].
  change (c_isspace 13) with true. change (c_isspace 10) with true. change (c_isspace 84) with false. cbv iota.
  unfold check_eof, ci_cur. cbn [ci_rest hd bind]. change (84 =? 84) with true. cbn [negb].
  unfold read_word, skip_spaces, with_rest. cbn [ci_rest ci_check ci_expected Nat.sub].
  assert (Hd2 : forall x, 0 <= x < 100 -> digit (48 + x / 10) /\ digit (48 + x mod 10)).
  { intros x Hx. pose proof (Z.mod_pos_bound x 10). unfold digit.
    assert (0 <= x / 10 < 10) by (split; [apply Z.div_pos; lia|apply Z.div_lt_upper_bound; lia]). lia. }
  assert (N84 : c_isspace 84 = false) by reflexivity. assert (N65 : c_isspace 65 = false) by reflexivity.
  destruct (Hd2 (ch_mtn h) ltac:(lia)). destruct (Hd2 (ch_edition h) ltac:(lia)). destruct (Hd2 (ch_mtv h) ltac:(lia)).
  match goal with |- context [word 10 (84 :: ?a :: ?b :: ?c :: ?d :: ?e :: ?f :: 32 :: ?x)] =>
    pose proof (word_app [84; a; b; c; d; e; f] 10 32 x) as W1 end.
  cbn [app length] in W1. rewrite W1; clear W1; [|repeat constructor; auto using digit_not_space|lia|reflexivity].
  cbn [ci_rest ci_check ci_expected].
  assert (P : parse_edition [84; 48 + ch_mtn h / 10; 48 + ch_mtn h mod 10; 48 + ch_edition h / 10; 48 + ch_edition h mod 10;
    48 + ch_mtv h / 10; 48 + ch_mtv h mod 10] = Ok (ch_mtn h, ch_edition h, ch_mtv h)).
  { unfold parse_edition. rewrite cstr_id.
    - rewrite !scan_two by lia. reflexivity.
    - repeat constructor; unfold digit in *; lia. }
  rewrite P. clear P. cbn [bind skip_space]. change (c_isspace 32) with true. rewrite N65. cbv iota. cbn [hd bind].
  change (65 =? 65) with true. cbn [negb].
  assert (Dc := digits3_digits (ch_category h) ltac:(lia)).
  assert (Lsub : (length sub = 0 \/ length sub = 3)%nat).
  { unfold sub. destruct (ch_subcategory h =? 255); [auto|]. right. rewrite three_digits by lia. reflexivity. }
  assert (W2 : word 19 (65 :: digits3 (ch_category h) ++ sub ++ tail) = (65 :: digits3 (ch_category h) ++ sub, 32 :: t)).
  { rewrite Ht. pose proof (word_app (65 :: digits3 (ch_category h) ++ sub) 19 32 t) as W2. cbn [app] in W2. rewrite <- app_assoc in W2.
    apply W2; [|cbn [length]; rewrite app_length; cbn [digits3 length]; lia|reflexivity].
    constructor; [reflexivity|]. apply Forall_app. split; apply digits_not_space; auto. }
  match goal with |- context [word 19 ?l] => replace l with (65 :: digits3 (ch_category h) ++ sub ++ tail)
    by (unfold tail; cbn [app]; rewrite <- ?app_assoc; reflexivity) end.
  rewrite W2. clear W2.
  assert (Pa : parse_atable (65 :: digits3 (ch_category h) ++ sub) =
               Ok (ch_category h, ch_subcategory h, if ch_subcategory h =? 255 then 0 else 255)).
  { unfold parse_atable. rewrite cstr_id.
    2:{ constructor; [lia|]. apply Forall_app. split; eapply Forall_impl; try eassumption; unfold digit; intros; lia. }
    cbn [skipn]. unfold sub. destruct (Z.eqb_spec (ch_subcategory h) 255) as [->|Ns].
    - rewrite app_nil_r. rewrite strtoul_number; [|exact Dc|discriminate|].
      + rewrite digits3_value by lia. change (Nat.eqb _ 4) with true. cbv iota. unfold u32, u8. rewrite !Z.mod_small; try lia. reflexivity.
      + rewrite digits3_value by lia. lia.
    - rewrite three_digits by lia. assert (Ds := digits3_digits (ch_subcategory h) ltac:(lia)).
      assert (V : dval 0 (digits3 (ch_category h) ++ digits3 (ch_subcategory h)) = ch_category h * 1000 + ch_subcategory h).
      { unfold dval at 1. rewrite fold_left_app. change (dval (dval 0 (digits3 (ch_category h))) (digits3 (ch_subcategory h)) = ch_category h * 1000 + ch_subcategory h).
        rewrite !digits3_value by lia. lia. }
      rewrite strtoul_number; [|apply Forall_app; auto|discriminate|rewrite V; lia].
      rewrite V. change (Nat.eqb (length (65 :: digits3 (ch_category h) ++ digits3 (ch_subcategory h))) 4) with false.
      change (Nat.eqb (length (65 :: digits3 (ch_category h) ++ digits3 (ch_subcategory h))) 7) with true. cbv iota.
      assert (Hu : u32 (ch_category h * 1000 + ch_subcategory h) = ch_category h * 1000 + ch_subcategory h) by (unfold u32; apply Z.mod_small; lia).
      rewrite Hu. rewrite Z.div_add_l, Z.div_small by lia.
      assert (Hm : (ch_category h * 1000 + ch_subcategory h) mod 1000 = ch_subcategory h) by (rewrite Z.add_comm, Z.mod_add by lia; apply Z.mod_small; lia).
      rewrite Hm, Z.add_0_r. unfold u8. rewrite !Z.mod_small by lia. reflexivity. }
  rewrite Pa. clear Pa. cbn [bind ci_rest ci_check ci_expected]. rewrite <- Ht.
  assert (Hne : exists a b, skip_space tail = a :: b).
  { unfold tail. destruct ops as [|c ops']; [contradiction|]. apply Forall_cons_iff in Fo as [[Hc Nc] _]. cbn [flat_map].
    rewrite desc_text_format by auto. destruct (format_head c Hc) as (hh & r & E1 & _ & E2). rewrite E1. cbn [app skip_space].
    change (c_isspace 32) with true. replace (c_isspace hh) with false by (unfold c_isspace; lia). eauto. }
  destruct Hne as (a & b & Hne). rewrite Hne. cbn [bind]. rewrite <- Hne. unfold tail. rewrite descs_ok by auto. reflexivity.
Qed.

(** ** The whole message *)
Lemma sec1_text h ops c : crex_header_ok h = true -> co_check c = false ->
  encode_sec1 h ops c = Ok (raw_append (lead h ++ flat_map desc_text ops ++ [43; 43; 13; 13; 10]) c).
Proof.
  intros Hh K. unfold crex_header_ok in Hh. rewrite !andb_true_iff, orb_true_iff, andb_true_iff in Hh.
  unfold encode_sec1, lead. rewrite K. rewrite !schar_small by lia. destruct (Z.eqb_spec (ch_subcategory h) 255); [reflexivity|].
  rewrite schar_small by lia. reflexivity.
Qed.

Lemma skip_space_plus s tail : exists a b, skip_space (s ++ 43 :: tail) = a :: b.
Proof. induction s as [|c s IH]; cbn [app skip_space]; [cbn; eauto|]. destruct (c_isspace c); eauto. Qed.

Definition body_text (h : cheader) (ops : list Z) (ts : list (list Z)) : list Z :=
  [13; 13; 10] ++ lead h ++ flat_map desc_text ops ++ [43; 43; 13; 13; 10] ++ concat ts.

(** The end of a message, without the line end after it. *)
Definition crex_stop : list Z := [43; 43; 13; 13; 10; 55; 55; 55; 55].

Theorem message_round_trip o load T fuel lt h ops vars got :
  crex_header_ok h = true -> crex_ops_ok ops = true -> (length ops < fuel)%nat ->
  load (crex_received h) = Ok T -> crex_transfer vars T fuel ops = Ok got ->
  exists ts, Forall2 good_token vars ts /\
    encode_crex o T fuel lt (mkcb h ops [vars]) = Ok (crex_start ++ body_text h ops ts ++ crex_end) /\
    (forall after, decode_crex o load fuel (crex_start ++ body_text h ops ts ++ crex_stop ++ after) = Ok (mkcb (crex_received h) ops [got])).
Proof.
  intros Hh Ho L HT H.
  set (c0 := raw_append (lead h ++ flat_map desc_text ops ++ [43; 43; 13; 13; 10]) (raw_append (crex_start ++ [13; 13; 10]) cout_empty)).
  destruct (subset_text o T fuel ops vars got c0 lt H eq_refl) as (ts & F & (st & s & Er & Eo) & D).
  exists ts. split; [exact F|]. split.
  - unfold encode_crex. cbn [cb_header cb_datadesc cb_subsets]. rewrite sec1_text by auto. cbn [bind]. fold c0.
    cbn [encode_csubsets]. rewrite Er. cbn [bind fst snd]. rewrite Eo. cbn [co_text]. f_equal. unfold c0, raw_append, body_text.
    cbn [co_text cout_empty app]. rewrite <- !app_assoc. reflexivity.
  - intros after. unfold decode_crex, body_text. rewrite <- !app_assoc. rewrite header_decodes by auto. cbn [bind]. rewrite HT. cbn [bind].
    set (fin := crex_stop ++ after). destruct (D fin empty_local) as (st' & sd & Ed & Ev & Ei); [split; [cbn; lia|reflexivity]|].
    assert (X : decode_cdata o T fuel ops empty_local (mkcin (skip_space (concat ts ++ fin)) false 0) = Ok [got]).
    { unfold decode_cdata, check_eof. cbn [ci_rest]. destruct (skip_space_plus (concat ts) (tl fin)) as (a & b & E).
      change (43 :: tl fin) with fin in E. rewrite E at 1. cbn [bind]. cbn [decode_csubsets]. rewrite Ed. cbn [bind].
      unfold skip_spaces, with_rest. rewrite Ei, Ev. cbn [ci_rest ci_check ci_expected]. rewrite skip_space_idem. reflexivity. }
    rewrite X. reflexivity.
Qed.

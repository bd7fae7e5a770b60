(** C61 for decoded CREX messages: messages with the same text are the same. *)
From Coq Require Import String Lia ZifyBool ZifyNat.
From Verif Require Import Base Bits.Spec Num.Float Varcode.Model Varinfo.Model Tables.Model Tables.LoadProofs Var.Model Var.Spec Var.AttrProofs Var.Proofs
  Var.FormatSpec Var.Format Interp.Model Interp.Appears Interp.SureProofs Interp.PlainRun Codec.Model Codec.ColumnProofs Codec.Sound Codec.Again Codec.AgainSteps
  Message.Spec Crex.Model Crex.Again Crex.AgainProofs Listing.Model Print.Model Print.Spec Print.Proofs Print.Properties Print.DecodedProperties.
From Verif Require Interp.Example Crex.OperatorProperties Crex.AgainProperties Crex.SoundProperties.
Local Open Scope Z_scope.

(** ** The header of a decoded message *)
Lemma scanned_range s x r : scan_hhu2 s = Some (x, r) -> 0 <= x.
Proof.
  unfold scan_hhu2. destruct s as [|c s]; [discriminate|]. unfold c_isdigit, u8. destruct ((c =? 43) || (c =? 45)).
  - destruct s as [|d s]; [discriminate|]. destruct (_ && _); [|discriminate]. intros E. assert (x = (if c =? 45 then - (d - 48) else d - 48) mod 2 ^ 8) as -> by congruence. apply Z.mod_pos_bound. reflexivity.
  - destruct ((48 <=? c) && (c <=? 57)) eqn:C; [|discriminate]. destruct s as [|d s].
    + intros E. assert (x = c - 48) by congruence. lia.
    + destruct ((48 <=? d) && (d <=? 57)) eqn:D; intros E; [assert (x = (c - 48) * 10 + (d - 48)) by congruence|assert (x = c - 48) by congruence]; lia.
Qed.

Lemma parsed_u16 s x : varcode_parse s = Ok x -> in_u16 x.
Proof.
  unfold varcode_parse. destruct s as [s|]; [|discriminate]. intros E. inv_bind E. destruct (a =? 0); [discriminate|]. cbv zeta in Hk.
  repeat match goal with X : bind ?m _ = Ok _ |- _ => destruct m; cbn [bind] in X; try discriminate X end.
  apply ok_inj in Hk. subst x. unfold in_u16, u16. apply Z.mod_pos_bound. reflexivity.
Qed.

Lemma descs_u16 fuel : forall c acc ops c', decode_descs fuel c acc = Ok (ops, c') -> Forall in_u16 acc -> Forall in_u16 ops.
Proof.
  induction fuel as [|k IH]; intros c acc ops c' E F; cbn [decode_descs] in E; [discriminate|].
  destruct ((ci_cur c =? 66) || (ci_cur c =? 82) || (ci_cur c =? 67) || (ci_cur c =? 68)).
  { inv_bind E. inv_bind Hk. eapply IH; [exact Hk0|]. apply Forall_app. split; [exact F|]. constructor; [eapply parsed_u16; eassumption|constructor]. }
  destruct (ci_cur c =? 69); [eapply IH; eassumption|]. destruct (ci_cur c =? 43); [|eapply IH; eassumption].
  inv_bind E. destruct (negb _); [discriminate|]. apply ok_inj in Hk. assert (ops = acc) as -> by congruence. exact F.
Qed.

Lemma decoded_header fuel data h ops c : decode_cheader fuel data = Ok (h, ops, c) ->
  Forall in_u16 ops /\ Forall (fun n => 0 <= n) [ch_edition h; ch_mtn h; ch_mtv h; ch_mtv_local h; ch_mtv_bufr h] /\
  0 <= ch_category h /\ 0 <= ch_subcategory h /\ 0 <= ch_subcategory_local h.
Proof.
  intros E. unfold decode_cheader in E. cbv zeta in E. inv_bind E. destruct (negb _); [discriminate|]. inv_bind Hk.
  destruct (negb _); [discriminate|].
  destruct (read_word 11 (skip_data_and_spaces 6 (mkcin data false 0))) as [w c2] eqn:E2. inv_bind Hk0. destruct a1 as [[mtn ed] mtv]. inv_bind Hk.
  destruct (negb _); [discriminate|].
  destruct (read_word 20 c2) as [w2 c3] eqn:E3. inv_bind Hk0. destruct a2 as [[cat sub] subl]. inv_bind Hk. inv_bind Hk0. destruct a3 as [descs c4].
  apply ok_inj in Hk.
  assert (h = mkcheader mtn ed mtv 0 0 cat sub subl (ci_check c4)) as -> by congruence. assert (descs = ops) as -> by congruence. clear Hk.
  match goal with X : decode_descs _ _ _ = _ |- _ => apply descs_u16 in X; [rename X into D|constructor] end. split; [exact D|].
  match goal with X : parse_atable _ = _ |- _ => rename X into Pa end. match goal with X : parse_edition _ = _ |- _ => rename X into Pe end.
  cbn [ch_edition ch_mtn ch_mtv ch_mtv_local ch_mtv_bufr ch_category ch_subcategory ch_subcategory_local]. split.
  - unfold parse_edition in Pe.
    assert (X : exists s a s1 b s2 d s3, scan_hhu2 s = Some (a, s1) /\ scan_hhu2 s1 = Some (b, s2) /\ scan_hhu2 s2 = Some (d, s3) /\ mtn = a /\ ed = b /\ mtv = d).
    { destruct (cstr w) as [|t s]; [discriminate Pe|].
      assert (Y : match scan_hhu2 s with Some (a, s1) => match scan_hhu2 s1 with Some (b, s2) => match scan_hhu2 s2 with Some (c, _) => Ok (a, b, c) | None => Err EConsistency end | None => Err EConsistency end | None => Err EConsistency end = Ok (mtn, ed, mtv)).
      { destruct t as [|t|t]; try discriminate Pe. repeat (destruct t as [t|t|]; try discriminate Pe). exact Pe. }
      destruct (scan_hhu2 s) as [[x1 s1]|] eqn:S1; [|discriminate]. destruct (scan_hhu2 s1) as [[x2 s2]|] eqn:S2; [|discriminate]. destruct (scan_hhu2 s2) as [[x3 s3]|] eqn:S3; [|discriminate].
      exists s, x1, s1, x2, s2, x3, s3. repeat split; congruence. }
    destruct X as (s & x1 & s1 & x2 & s2 & x3 & s3 & S1 & S2 & S3 & -> & -> & ->). apply scanned_range in S1, S2, S3.
    repeat (apply Forall_cons; [lia|]). apply Forall_nil.
  - unfold parse_atable in Pa. cbv zeta in Pa. destruct (Nat.eqb _ _).
    + assert (cat = u8 (u32 (fst (c_strtoul (skipn 1 (cstr w2)))))) as -> by congruence. assert (sub = 255) as -> by congruence. assert (subl = 0) as -> by congruence.
      unfold u8. split; [apply Z.mod_pos_bound; reflexivity|lia].
    + destruct (Nat.eqb _ _); [|discriminate].
      assert (cat = u8 (u32 (fst (c_strtoul (skipn 1 (cstr w2)))) / 1000)) as -> by congruence.
      assert (sub = u8 (u32 (fst (c_strtoul (skipn 1 (cstr w2)))) mod 1000)) as -> by congruence. assert (subl = 255) as -> by congruence.
      unfold u8. split; [apply Z.mod_pos_bound; reflexivity|]. split; [apply Z.mod_pos_bound; reflexivity|lia].
Qed.

(** Whatever the variables are: same text, same header and descriptors. *)
Theorem C61_crex_header_text : forall fixed full bt dt bt' dt' x x' b b' t,
  good_path bt -> good_path dt -> good_path bt' -> good_path dt' ->
  Forall (fun n => 0 <= n) [ch_category (cb_header b); ch_subcategory (cb_header b); ch_subcategory_local (cb_header b); ot_centre x; ot_subcentre x;
    ot_year x; ot_month x; ot_day x; ot_hour x; ot_minute x; ot_second x; ot_update x] ->
  Forall (fun n => 0 <= n) [ch_category (cb_header b'); ch_subcategory (cb_header b'); ch_subcategory_local (cb_header b'); ot_centre x'; ot_subcentre x';
    ot_year x'; ot_month x'; ot_day x'; ot_hour x'; ot_minute x'; ot_second x'; ot_update x'] ->
  Forall (fun n => 0 <= n) [ch_edition (cb_header b); ch_mtn (cb_header b); ch_mtv (cb_header b); ch_mtv_local (cb_header b); ch_mtv_bufr (cb_header b)] ->
  Forall (fun n => 0 <= n) [ch_edition (cb_header b'); ch_mtn (cb_header b'); ch_mtv (cb_header b'); ch_mtv_local (cb_header b'); ch_mtv_bufr (cb_header b')] ->
  Forall in_u16 (cb_datadesc b) -> Forall in_u16 (cb_datadesc b') ->
  print_crex fixed full bt dt x b = Ok t -> print_crex fixed full bt' dt' x' b' = Ok t ->
  cb_header b = cb_header b' /\ x = x' /\ cb_datadesc b = cb_datadesc b'.
Proof.
  intros fixed full bt dt bt' dt' x x' b b' t G1 G2 G3 G4 H H' K K' D D' T T'. unfold print_crex in T, T'.
  destruct (subsets_text fixed full 0 (cb_subsets b)) as [v| |]; try discriminate T. destruct (subsets_text fixed full 0 (cb_subsets b')) as [v'| |]; try discriminate T'. cbn [bind] in T, T'.
  rewrite <- T' in T. clear T' t. apply (f_equal (get_ok [])) in T. cbn [get_ok] in T.
  apply first_line_then in T as (E & En & T); [|exact H|exact H'].
  apply tables_then in T; [|assumption..]. unfold descriptors_text in T. rewrite <- !app_assoc in T. apply app_inv_head in T. apply app_inv_head in T.
  apply descriptors_then in T as [Ed2 T]; [|exact D|exact D'|discriminate|discriminate].
  repeat match goal with X : Forall _ (_ :: _) |- _ => apply Forall_cons_iff in X as [? X] end.
  unfold crex_details in T. repeat rewrite <- app_assoc in T. apply app_inv_head in T.
  apply padded_then in T as [Q1 T]; [|assumption|assumption|reflexivity|reflexivity]. apply app_inv_head in T.
  apply padded_then in T as [Q2 T]; [|assumption|assumption|reflexivity|reflexivity]. apply app_inv_head in T.
  apply padded_then in T as [Q3 T]; [|assumption|assumption|reflexivity|reflexivity]. apply app_inv_head in T.
  apply padded_then in T as [Q4 T]; [|assumption|assumption|reflexivity|reflexivity]. apply app_inv_head in T.
  apply padded_then in T as [Q5 T]; [|assumption|assumption|reflexivity|reflexivity]. apply app_inv_head in T.
  assert (Cp : ch_check (cb_header b) = ch_check (cb_header b')).
  { apply (f_equal (hd 0)) in T. cbn [app hd] in T. destruct (ch_check (cb_header b)), (ch_check (cb_header b')); try reflexivity; discriminate T. }
  split; [|split; [|exact Ed2]].
  - destruct (cb_header b), (cb_header b'). cbn in *. injection E. intros. subst. reflexivity.
  - destruct x, x'. cbn in *. injection E. intros. subst. reflexivity.
Qed.

Lemma same_definitions B s s' : Forall (Forall (from_table B)) s -> Forall (Forall (from_table B)) s' -> same_subsets s s' -> s = s'.
Proof.
  intros F F' Ss. apply C61_same_values; [exact Ss|]. revert F F'. induction Ss as [|vars vars' s s' Sv Ss IH]; intros F F'; [constructor|]. inversion F as [|? ? H1 F1]; inversion F' as [|? ? H2 F2]; subst. constructor; [|auto].
  clear -Sv H1 H2. revert H1 H2. induction Sv as [|v w l m Svw Sv IH]; intros A A'; [constructor|]. inversion A as [|? ? [Q N] A2]; inversion A' as [|? ? [Q' N'] A2']; subst. constructor; [|auto].
  unfold cells in *. rewrite N, N' in *. cbn [map]. unfold same_var, cells in Svw. rewrite N, N' in Svw. inversion Svw as [|? ? ? ? [Sc _] _]; subst. rewrite Sc in Q. congruence.
Qed.

(** ** The variables of templates without operators *)
Section Plain.
Context (o : options) (HO : strict_options o) (T : tables) (ops : list Z).
Context (HP : forall code, appears T ops code -> var_f code <> 2).

Lemma read_info i c n v c' : read_variable o i c = Ok (n, v, c') -> c_info v = i.
Proof.
  unfold read_variable. intros E. inv_bind E. destruct a as [[here field] c1]. destruct (hd 0 here =? 47).
  - apply ok_inj in Hk. assert (v = fresh i) as -> by congruence. reflexivity.
  - assert (A : forall k, of_outcome (seti o (fresh i) k) = Ok v -> c_info v = i).
    { intros k Q. unfold of_outcome in Q. destruct (seti o (fresh i) k) as [w| |] eqn:W; try discriminate. apply (seti_plain o i k w HO) in W as (_ & _ & ->). assert (v = mkcell i (Some (VInt k))) as -> by congruence. reflexivity. }
    assert (B : of_outcome (setc o (fresh i) (field ++ [0])) = Ok v -> vi_type i = TString -> c_info v = i).
    { intros Q Y. unfold of_outcome, setc in Q. cbn [fresh c_info] in Q. rewrite Y in Q. destruct (assign_c_checked (fresh i) (field ++ [0]) (ilen i)) as [w| |] eqn:W; try discriminate.
      assert (v = w) as -> by congruence. apply (assign_c_info (fresh i) (field ++ [0]) (ilen i)). rewrite W. reflexivity. }
    destruct (vi_type i) eqn:Y; inv_bind Hk; match goal with X : Ok _ = Ok (n, v, c') |- _ => apply ok_inj in X; assert (a = v) by congruence; subst a end; eauto.
Qed.

Lemma crex_plain_subset fuel s st' s' : Forall (from_table (tb_b T)) (cd_vars s) -> run (c_decoder o) T fuel ops (ist_init, s) = Ok (st', s') -> Forall (from_table (tb_b T)) (cd_vars s').
Proof.
  assert (Step : forall code i a n a', query (tb_b T) code = Ok i -> Forall (from_table (tb_b T)) (cd_vars a) -> cd_read o i a = Ok (n, a') -> Forall (from_table (tb_b T)) (cd_vars a')).
  { intros code i a n a' Q Fa Ea. unfold cd_read in Ea. inv_bind Ea. destruct a0 as [[n1 v] c1]. apply ok_inj in Hk. assert (a' = mkcdec c1 (cd_vars a ++ [mkvar v []]) (cd_lt a)) as -> by congruence.
    cbn [cd_vars]. apply Forall_app. split; [exact Fa|]. constructor; [|constructor]. split; [|reflexivity]. cbn [v_cell]. apply read_info in Hb. unfold c_code. rewrite Hb, (query_code _ _ _ Q). exact Q. }
  intros F E. eapply (plain_run_inv (c_decoder o) T ops (fun s => Forall (from_table (tb_b T)) (cd_vars s)) HP); [| |apply appears_here|exact F|exact E].
  - intros code i a a' Q Fa Ea. cbn [on_var c_decoder] in Ea. unfold cd_var in Ea. inv_bind Ea. destruct a0 as [n s1]. apply ok_inj in Hk. subst s1. eapply Step; eauto.
  - intros code i a n a' Q Fa Ea. cbn [on_factor c_decoder] in Ea. eapply Step; eauto.
Qed.

Lemma crex_plain_subsets fuel fuel' : forall lt c gots c', decode_csubsets o T fuel ops fuel' lt c = Ok (gots, c') -> Forall (Forall (from_table (tb_b T))) gots.
Proof.
  induction fuel' as [|k IH]; intros lt c gots c' E; cbn [decode_csubsets] in E; [discriminate|]. inv_bind E. destruct a as [st s]. cbv zeta in Hk.
  assert (F : Forall (from_table (tb_b T)) (cd_vars s)) by (eapply crex_plain_subset; [|exact Hb]; constructor).
  inv_bind Hk. destruct (negb _); [discriminate|]. inv_bind Hk0. match type of Hk with (if ?b then _ else _) = _ => destruct b end.
  - apply ok_inj in Hk. assert (gots = [cd_vars s]) as -> by congruence. constructor; [exact F|constructor].
  - inv_bind Hk. destruct a1 as [rest c3]. apply ok_inj in Hk0. assert (gots = cd_vars s :: rest) as -> by congruence. constructor; [exact F|]. eapply IH; eassumption.
Qed.
End Plain.

(** In a message without operators every variable has the definition of the table, and no attributes. *)
Theorem C61_decoded_crex_definitions : forall o load fuel data b T, strict_options o ->
  decode_crex o load fuel data = Ok b -> load (cb_header b) = Ok T ->
  (forall code, appears T (cb_datadesc b) code -> var_f code <> 2) ->
  Forall (Forall (from_table (tb_b T))) (cb_subsets b).
Proof.
  intros o load fuel data b T HO E L HP. unfold decode_crex in E. inv_bind E. destruct a as [[h descs] c]. inv_bind Hk. inv_bind Hk0. apply ok_inj in Hk. subst b. cbn [cb_header cb_subsets cb_datadesc] in *.
  assert (a = T) by congruence. subst a. unfold decode_cdata in Hb1. destruct (check_eof c); [|discriminate|discriminate]. cbn [bind] in Hb1.
  destruct (decode_csubsets o T fuel descs (S (length (ci_rest c))) empty_local c) as [[gots c1]| |] eqn:D; [|discriminate|discriminate]. cbn [bind] in Hb1. cbv zeta in Hb1.
  apply (crex_plain_subsets o HO T descs HP) in D.
  match goal with X : bind _ _ = Ok ?z |- _ => assert (Q : z = gots); [|rewrite Q; exact D]; revert X end. clear.
  repeat match goal with |- bind ?m _ = _ -> _ => destruct m; [cbn [bind]|discriminate|discriminate] end.
  match goal with |- (if ?b then _ else _) = _ -> _ => destruct b; [|discriminate] end. intros X. apply ok_inj in X. auto.
Qed.

(** ** Same text, same message

    [x] are the fields of a bulletin that a CREX message does not have and that are printed nevertheless. *)
Theorem C61_decoded_crex_text : forall fixed full, printf_correct fixed -> forall opt load fuel d d' b b' T bt dt bt' dt' x x' t,
  strict_options opt -> decode_crex opt load fuel d = Ok b -> decode_crex opt load fuel d' = Ok b' ->
  load (cb_header b) = Ok T -> table_ok (tb_b T) -> defs_ok (tb_b T) -> neat_table full (tb_b T) ->
  (forall code, appears T (cb_datadesc b) code -> var_f code <> 2) ->
  good_path bt -> good_path dt -> good_path bt' -> good_path dt' ->
  Forall (fun n => 0 <= n) [ot_centre x; ot_subcentre x; ot_year x; ot_month x; ot_day x; ot_hour x; ot_minute x; ot_second x; ot_update x] ->
  Forall (fun n => 0 <= n) [ot_centre x'; ot_subcentre x'; ot_year x'; ot_month x'; ot_day x'; ot_hour x'; ot_minute x'; ot_second x'; ot_update x'] ->
  Forall (Forall legible) (cb_subsets b) -> Forall (Forall legible) (cb_subsets b') ->
  print_crex fixed full bt dt x b = Ok t -> print_crex fixed full bt' dt' x' b' = Ok t ->
  b' = b /\ x' = x.
Proof.
  intros fixed full P opt load fuel d d' b b' T bt dt bt' dt' x x' t HO E E' HT HB HD HN HP G1 G2 G3 G4 X X' L L' Pt Pt'.
  assert (Hd : forall d b, decode_crex opt load fuel d = Ok b -> exists c, decode_cheader fuel d = Ok (cb_header b, cb_datadesc b, c)).
  { clear. intros d b E. unfold decode_crex in E. inv_bind E. destruct a as [[h descs] c]. inv_bind Hk. inv_bind Hk0. apply ok_inj in Hk. subst b. cbn [cb_header cb_datadesc]. exists c. exact Hb. }
  destruct (Hd _ _ E) as (c1 & H1). destruct (Hd _ _ E') as (c1' & H1'). clear Hd.
  apply decoded_header in H1 as (U & N & C1 & C2 & C3). apply decoded_header in H1' as (U' & N' & C1' & C2' & C3').
  assert (HX : Forall (fun n => 0 <= n) [ch_category (cb_header b); ch_subcategory (cb_header b); ch_subcategory_local (cb_header b); ot_centre x; ot_subcentre x;
    ot_year x; ot_month x; ot_day x; ot_hour x; ot_minute x; ot_second x; ot_update x]) by (do 3 (apply Forall_cons; [assumption|]); exact X).
  assert (HX' : Forall (fun n => 0 <= n) [ch_category (cb_header b'); ch_subcategory (cb_header b'); ch_subcategory_local (cb_header b'); ot_centre x'; ot_subcentre x';
    ot_year x'; ot_month x'; ot_day x'; ot_hour x'; ot_minute x'; ot_second x'; ot_update x']) by (do 3 (apply Forall_cons; [assumption|]); exact X').
  destruct (C61_crex_header_text fixed full bt dt bt' dt' x x' b b' t G1 G2 G3 G4 HX HX' N N' U U' Pt Pt') as (Eh & Ex & Ed).
  assert (HK : hook_ok opt) by (destruct HO as (_ & _ & H); unfold hook_ok; rewrite H; exact Logic.I).
  assert (Cl : o_clamp opt = false) by apply HO.
  assert (HT' : load (cb_header b') = Ok T) by (rewrite <- Eh; exact HT).
  pose proof (Crex.SoundProperties.C56_crex _ _ _ _ _ _ HK E HT HB HD) as S0. pose proof (Crex.SoundProperties.C56_crex _ _ _ _ _ _ HK E' HT' HB HD) as S0'.
  pose proof (C61_decoded_crex_definitions _ _ _ _ _ _ HO E HT HP) as F. rewrite Ed in HP. pose proof (C61_decoded_crex_definitions _ _ _ _ _ _ HO E' HT' HP) as F'.
  assert (R : forall ss, Forall (Forall (from_table (tb_b T))) ss -> Forall (Forall (sound_var opt)) ss -> Forall (Forall legible) ss -> readable_subsets full (table_label full (tb_b T)) ss).
  { clear -HN Cl. intros ss F S L. rewrite Forall_forall in F, S, L. split; apply Forall_forall; intros vars I; apply (decoded_readable full (tb_b T) opt vars Cl HN (F _ I) (S _ I) (L _ I)). }
  destruct (C61_crex_text fixed full (table_label full (tb_b T)) P bt dt bt' dt' x x' b b' t G1 G2 G3 G4 HX HX' N N' U U' (R _ F S0 L) (R _ F' S0' L') Pt Pt') as (_ & _ & _ & Ss).
  assert (Es : cb_subsets b = cb_subsets b') by (eapply same_definitions; eassumption).
  destruct b as [h1 e1 s1], b' as [h2 e2 s2]. cbn [cb_header cb_datadesc cb_subsets] in *. split; congruence.
Qed.

(** ** Two texts of the same message *)
Definition ex_opts : options := mkopts false false None.
Definition ex_load_crex (_ : cheader) : res tables := Ok Crex.OperatorProperties.operator_tables.
Definition ex_crex_text1 : list Z := Crex.AgainProperties.str "CREX++ T000103 A001 B12001 B01015++ 0283 Rome ++ 7777".
Definition ex_crex_text2 : list Z := Crex.AgainProperties.str "CREX++ T000103   A001 B12001  B01015++  283 Rome ++  7777".
Definition ex_no_crex : cbulletin := mkcb (mkcheader 0 0 0 0 0 0 0 0 false) [] [].
Definition ex_crex_decoded (text : list Z) : cbulletin := get_ok ex_no_crex (decode_crex ex_opts ex_load_crex 100 text).

Lemma ex_crex_meets b : cb_datadesc b = [wr_var 0 12 1; wr_var 0 1 15] ->
  map (map (fun v => c_val (v_cell v))) (cb_subsets b) = [[Some (VInt 283); Some (VStr [82; 111; 109; 101])]] ->
  (forall code, appears Crex.OperatorProperties.operator_tables (cb_datadesc b) code -> var_f code <> 2) /\ Forall (Forall legible) (cb_subsets b).
Proof.
  intros Ed Ev. split.
  - intros code A. rewrite Ed in A. clear Ed Ev.
    assert (X : code = wr_var 0 12 1 \/ code = wr_var 0 1 15).
    { induction A as [code I|code d' body A IH F3 Q I]; [cbn [In] in I; destruct I as [<-|[<-|[]]]; auto|]. exfalso. destruct IH as [-> | ->]; discriminate F3. }
    destruct X as [-> | ->]; discriminate.
  - destruct (cb_subsets b) as [|s [|s2 l]]; try discriminate Ev. cbn [map] in Ev.
    destruct s as [|v1 [|v2 [|v3 s]]]; try discriminate Ev. cbn [map] in Ev. assert (V1 : c_val (v_cell v1) = Some (VInt 283)) by congruence. assert (V2 : c_val (v_cell v2) = Some (VStr [82; 111; 109; 101])) by congruence.
    apply Forall_cons; [|apply Forall_nil]. apply Forall_cons; [unfold legible; rewrite V1; exact Logic.I|]. apply Forall_cons; [|apply Forall_nil].
    unfold legible. rewrite V2. split; [repeat (apply Forall_cons; [discriminate|]); apply Forall_nil|discriminate].
Qed.

Example C61_decoded_crex_text_example :
  let T := Crex.OperatorProperties.operator_tables in
  table_ok (tb_b T) /\ defs_ok (tb_b T) /\ neat_table ex_full (tb_b T) /\ ex_crex_text1 <> ex_crex_text2 /\
  forall text, text = ex_crex_text1 \/ text = ex_crex_text2 ->
  exists b, decode_crex ex_opts ex_load_crex 100 text = Ok b /\
    (forall code, appears T (cb_datadesc b) code -> var_f code <> 2) /\ Forall (Forall legible) (cb_subsets b) /\
    cb_header b = mkcheader 0 1 3 0 0 1 255 0 false /\
    map (map (fun v => c_val (v_cell v))) (cb_subsets b) = [[Some (VInt 283); Some (VStr [82; 111; 109; 101])]].
Proof.
  cbv zeta. destruct Crex.SoundProperties.C56_example as (_ & _ & _ & _ & _ & K1 & K2 & _). split; [exact K1|]. split; [exact K2|]. split.
  { intros code i Q. pose proof (query_code _ _ _ Q) as Qc. pose proof (query_sure (tb_b Crex.OperatorProperties.operator_tables) code) as X. rewrite Q in X. destruct X as (e & Ie & Ei).
    assert (B : forallb (fun e => (0 <=? vi_code (be_info e)) && (vi_code (be_info e) <? 65536) && forallb (fun x => negb (x =? 10)) (chars (vi_unit (be_info e)))) (tb_b Crex.OperatorProperties.operator_tables) = true) by (vm_compute; reflexivity).
    rewrite forallb_forall in B. specialize (B e Ie). rewrite Ei, Qc in B. apply andb_true_iff in B as [B B3]. split; [unfold in_u16; lia|]. split.
    - unfold ex_full. repeat (apply Forall_cons; [discriminate|]). apply Forall_nil.
    - rewrite forallb_forall in B3. apply Forall_forall. intros x X. specialize (B3 x X). lia. }
  split. { intros E. apply (f_equal (@length Z)) in E. vm_compute in E. discriminate. }
  intros text Tx.
  assert (D : is_ok (decode_crex ex_opts ex_load_crex 100 text) = true) by (destruct Tx as [-> | ->]; vm_compute; reflexivity).
  assert (Ed : cb_datadesc (ex_crex_decoded text) = [wr_var 0 12 1; wr_var 0 1 15]) by (destruct Tx as [-> | ->]; vm_compute; reflexivity).
  assert (Eh : cb_header (ex_crex_decoded text) = mkcheader 0 1 3 0 0 1 255 0 false) by (destruct Tx as [-> | ->]; vm_compute; reflexivity).
  assert (Ev : map (map (fun v => c_val (v_cell v))) (cb_subsets (ex_crex_decoded text)) = [[Some (VInt 283); Some (VStr [82; 111; 109; 101])]]) by (destruct Tx as [-> | ->]; vm_compute; reflexivity).
  exists (ex_crex_decoded text). split; [exact (Interp.Example.get_ok_eq ex_no_crex _ D)|].
  destruct (ex_crex_meets _ Ed Ev) as [M1 M2]. split; [exact M1|]. split; [exact M2|]. split; [exact Eh|exact Ev].
Qed.

Print Assumptions C61_crex_header_text.
Print Assumptions C61_decoded_crex_definitions.
Print Assumptions C61_decoded_crex_text.

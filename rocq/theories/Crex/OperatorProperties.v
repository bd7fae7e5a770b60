(** C54: operators of table C in CREX templates.  In CREX, C01YYY replaces the width of the elements that follow with YYY
    characters and C02YYY replaces their scale with YYY.  The library gives the operators the meaning that they have in BUFR,
    and does so with definitions that have no size in bits. *)
From Coq Require Import ZArith ZifyBool ZifyNat String Sorting.Sorted.
From Verif Require Import Base Bits.Model Bits.Spec Num.Float Varcode.Model Varcode.Proofs Varinfo.Model Varinfo.Proofs Varinfo.RangeProofs
  Tables.Model Tables.Spec Tables.Proofs Tables.AlterProofs Var.Model Interp.Model Codec.Model Codec.Spec Codec.ColumnProofs Message.Model Crex.Model Crex.Spec
  Crex.UbProofs Interp.SureProofs Interp.Hom.
From Verif Require Crex.Properties Interp.Example.
Local Open Scope Z_scope.

(** Definitions of CREX tables. *)
Lemma crex_line_bits l i : crex_line l = Ok (Some i) -> vi_bit_ref i = 0 /\ vi_bit_len i = 0 /\ vi_type i <> TBinary.
Proof.
  unfold crex_line. intros H. inv_bind H. destruct (Nat.ltb _ _); [destruct (negb _); discriminate|]. cbv zeta in Hk. inv_bind Hk.
  apply ok_inj in Hk0. injection Hk0 as <-. pose proof (compute_range_fields _ _ _ _ _ _ _ _ Hb0) as (_ & E2 & _ & _ & _ & E6 & E7).
  split; [exact E6|]. split; [exact E7|]. rewrite E2. unfold crex_type. destruct (String.eqb _ _); [discriminate|]. destruct (_ =? _); discriminate.
Qed.
Lemma crex_loaded text t : load_crex text = Ok t ->
  sorted_table t /\ forall e, In e t -> vi_bit_ref (be_info e) = 0 /\ vi_bit_len (be_info e) = 0 /\ vi_type (be_info e) <> TBinary.
Proof.
  intros H. destruct (load_clines_spec _ [] t ltac:(constructor) H) as (S & t2 & E & _ & Q). cbn [app] in E. subst t2. split; [exact S|].
  intros e Ie. destruct (proj2 (Q (be_info e)) (in_map _ _ _ Ie)) as (l & _ & L). eapply crex_line_bits; eauto.
Qed.
Lemma crex_query text t code i : load_crex text = Ok t -> query t code = Ok i ->
  exists e, List.find (fun e => be_code e =? code) t = Some e /\ be_info e = i /\ vi_bit_ref i = 0 /\ vi_bit_len i = 0 /\ vi_type i <> TBinary.
Proof.
  intros L Q. destruct (crex_loaded _ _ L) as [S B]. pose proof (query_spec t code S) as X. destruct (List.find _ t) as [e|] eqn:F; [|destruct X as [X _]; congruence].
  destruct X as [X _]. exists e. split; [reflexivity|]. assert (be_info e = i) by congruence. split; [auto|]. subst i. apply B. apply find_some in F. apply F.
Qed.

(** The state of the interpreter after one operator. *)
Definition after (x y : Z) : istate :=
  if x =? 1 then with_width ist_init (if y =? 0 then 0 else y - 128) else if x =? 2 then with_scale ist_init (if y =? 0 then 0 else y - 128)
  else if x =? 7 then with_srw ist_init y else with_strlen ist_init y.

Section Operators.
Context {S : Type} (V : visitor S) (T : tables) (text : list Z) (HT : load_crex text = Ok (tb_b T)) (code : Z) (i : varinfo) (HF : var_f code = 0)
  (HQ : query (tb_b T) code = Ok i).

Lemma operator_step x y fuel rest s : In x [1; 2; 7; 8] -> 0 <= y <= 255 ->
  run V T (Datatypes.S fuel) (wr_var 2 x y :: rest) (ist_init, s) = run V T fuel rest (after x y, s).
Proof.
  intros X Y. destruct (unpack_pack 2 x y ltac:(lia)) as (_ & F & Fx & Fy); [cbn in X; lia|lia|]. cbn [run]. rewrite F. cbn [Z.eqb Pos.eqb].
  unfold c_modifier. rewrite Fx, Fy. unfold after. cbn in X. destruct X as [<-|[<-|[<-|[<-|[]]]]]; reflexivity.
Qed.
Lemma element_step x y fuel rest s : In x [1; 2; 7; 8] ->
  run V T (Datatypes.S fuel) (code :: rest) (after x y, s) =
  (j <- get_varinfo (tb_b T) (after x y) code ;; s' <- on_var V j s ;; run V T fuel rest (after x y, s')).
Proof.
  intros X. cbn [run]. rewrite HF. cbn [Z.eqb]. unfold b_variable.
  assert (A : is_refbits (after x y) = 0 /\ is_cur (after x y) = None /\ is_afbits (after x y) = 0) by (unfold after; cbn in X; destruct X as [<-|[<-|[<-|[<-|[]]]]]; repeat split; reflexivity).
  destruct A as (-> & -> & ->). cbn [Z.eqb negb]. rewrite andb_false_r. destruct (get_varinfo (tb_b T) (after x y) code) as [j|e|]; [|reflexivity|reflexivity].
  cbn [bind]. destruct (on_var V j s); reflexivity.
Qed.

End Operators.

Section Definitions.
Context (T : tables) (text : list Z) (HT : load_crex text = Ok (tb_b T)) (code : Z) (i : varinfo) (HQ : query (tb_b T) code = Ok i).

Lemma wanted_info sc bits rf : expected (tb_b T) (mkreq code sc bits rf) =
  if (vi_scale i =? sc) && (0 =? bits) && (0 =? rf) then Ok i else alter_checked i sc bits rf.
Proof.
  destruct (crex_query _ _ _ _ HT HQ) as (e & F & <- & B1 & B2 & _). unfold expected. cbn [r_code r_scale r_bits r_ref]. rewrite F, B1, B2. reflexivity.
Qed.

Lemma width_info y : 1 <= y <= 255 -> y <> 128 -> get_varinfo (tb_b T) (after 1 y) code = alter_checked i (vi_scale i) ((y - 128) mod 4294967296) 0.
Proof using HT HQ.
  intros N0 N. destruct (crex_query _ _ _ _ HT HQ) as (_ & _ & _ & B1 & B2 & Bt). unfold get_varinfo. rewrite HQ. cbn [bind].
  unfold after. cbn [Z.eqb Pos.eqb with_width is_scale is_width is_strlen is_srw is_refs ist_init]. replace (y =? 0) with false by lia.
  replace (y - 128 =? 0) with false by lia. cbn [andb]. cbv zeta. rewrite B1, B2. cbn [bind assoc].
  replace (match vi_type i with TString => 0 + (y - 128) | _ => 0 + (y - 128) end) with (y - 128) by (destruct (vi_type i); reflexivity).
  rewrite Z.add_0_r, wanted_info. unfold u32. change (2 ^ 32) with 4294967296. replace (0 =? (y - 128) mod 4294967296) with false by lia.
  rewrite andb_false_r. reflexivity.
Qed.

Lemma scale_info y : 1 <= y <= 255 -> y <> 128 -> get_varinfo (tb_b T) (after 2 y) code = alter_checked i (vi_scale i + (y - 128)) 0 0.
Proof using HT HQ.
  intros N0 N. destruct (crex_query _ _ _ _ HT HQ) as (_ & _ & _ & B1 & B2 & Bt). unfold get_varinfo. rewrite HQ. cbn [bind].
  unfold after. cbn [Z.eqb Pos.eqb with_scale is_scale is_width is_strlen is_srw is_refs ist_init]. replace (y =? 0) with false by lia.
  replace (y - 128 =? 0) with false by lia. cbn [andb]. cbv zeta. rewrite B1, B2. cbn [bind assoc].
  replace (match vi_type i with TString => 0 + 0 | _ => 0 + 0 end) with 0 by (destruct (vi_type i); reflexivity).
  change (u32 0) with 0. rewrite wanted_info. replace (vi_scale i =? vi_scale i + (y - 128)) with false by lia. reflexivity.
Qed.

Lemma strlen_info y : 1 <= y <= 255 -> vi_type i = TString -> get_varinfo (tb_b T) (after 8 y) code = alter_checked i (vi_scale i) (y * 8) 0.
Proof using HT HQ.
  intros N Ty. destruct (crex_query _ _ _ _ HT HQ) as (_ & _ & _ & B1 & B2 & Bt). unfold get_varinfo. rewrite HQ. cbn [bind].
  unfold after. cbn [Z.eqb Pos.eqb with_strlen is_scale is_width is_strlen is_srw is_refs ist_init].
  replace (y =? 0) with false by lia. cbn [andb]. cbv zeta. rewrite B1, Ty. cbn [bind assoc].
  rewrite Z.add_0_r. replace (u32 (y * 8)) with (y * 8) by (unfold u32; rewrite Z.mod_small; lia). rewrite wanted_info.
  replace (0 =? y * 8) with false by lia. rewrite andb_false_r. reflexivity.
Qed.

Lemma increase_info y : 1 <= y <= 9 -> is_numeric (vi_type i) = true -> get_varinfo (tb_b T) (after 7 y) code = alter_checked i (vi_scale i + y) ((10 * y + 2) / 3) 0.
Proof using HT HQ.
  intros N Ty. destruct (crex_query _ _ _ _ HT HQ) as (_ & _ & _ & B1 & B2 & Bt). unfold get_varinfo. rewrite HQ. cbn [bind].
  unfold after. cbn [Z.eqb Pos.eqb with_srw is_scale is_width is_strlen is_srw is_refs ist_init].
  replace (y =? 0) with false by lia. cbn [andb]. cbv zeta. rewrite B1, B2. replace (9 <? y) with false by lia. change (int_checked (0 * 10 ^ y)) with (int_checked 0).
  change (int_checked 0) with (Ok 0). cbn [bind assoc].
  assert (D : 4 <= (10 * y + 2) / 3 <= 30) by lia.
  destruct (vi_type i); try discriminate; cbn [bind assoc]; change (0 + 0 + (10 * y + 2) / 3) with ((10 * y + 2) / 3).
  all: rewrite Z.add_0_r; replace (u32 ((10 * y + 2) / 3)) with ((10 * y + 2) / 3) by (unfold u32; rewrite Z.mod_small; lia); rewrite wanted_info.
  all: replace (0 =? (10 * y + 2) / 3) with false by lia; rewrite andb_false_r; reflexivity.
Qed.
End Definitions.

Lemma text_altered i sc b r : vi_type i = TString -> exists j, alter_checked i sc b r = Ok j /\ vi_code j = vi_code i /\ vi_type j = TString /\ vi_len j = b / 8.
Proof.
  intros Ty. unfold alter_checked, alter_info. rewrite Ty. cbn [is_numeric andb bind compute_range compute_irange]. unfold compute_range, compute_irange. cbn [bind].
  eexists. split; [reflexivity|]. auto.
Qed.
Lemma number_altered i sc b r : is_numeric (vi_type i) = true -> 0 <= b -> - 2 ^ 30 <= r <= 2 ^ 30 ->
  (exists e, alter_checked i sc b r = Err e) \/
  exists j, alter_checked i sc b r = Ok j /\ vi_code j = vi_code i /\ digits_per_bits b = Ok (vi_len j).
Proof.
  intros N B R. pose proof (alter_sure i sc b r B R) as S0. destruct (alter_checked i sc b r) as [j|e|] eqn:E; [right|left; eauto|contradiction].
  exists j. split; [reflexivity|]. unfold alter_checked in E. destruct (_ && _); [discriminate|]. unfold alter_info in E. inv_bind E.
  pose proof (compute_range_fields _ _ _ _ _ _ _ _ Hk) as (E1 & _ & _ & _ & E5 & _). split; [exact E1|]. rewrite E5. destruct (vi_type i); try discriminate; exact Hb.
Qed.
Lemma digits_range b d : digits_per_bits b = Ok d -> 1 <= b <= 32 /\ 1 <= d <= 10.
Proof.
  unfold digits_per_bits. destruct ((b <=? 0) || (32 <? b)) eqn:E; [discriminate|]. intros D. apply ok_inj in D. subst d.
  split; [lia|]. repeat match goal with |- context [?x <=? ?y] => destruct (x <=? y) end; lia.
Qed.

(** What the visitor of the template is given for an element after an operator.  [V] stands for any visitor: the decoder, the
    encoder, and the others.  [r] is an error, or the visitor is called with a definition as [P] says. *)
Definition gives {S} (V : visitor S) (T : tables) (fuel : nat) (x y code : Z) (rest : list Z) (s : S) (P : varinfo -> Prop) : Prop :=
  exists j st, P j /\ run V T (Datatypes.S (Datatypes.S fuel)) (wr_var 2 x y :: code :: rest) (ist_init, s) = (s' <- on_var V j s ;; run V T fuel rest (st, s')).
Definition fails {S} (V : visitor S) (T : tables) (fuel : nat) (x y code : Z) (rest : list Z) (s : S) (e : err) : Prop :=
  run V T (Datatypes.S (Datatypes.S fuel)) (wr_var 2 x y :: code :: rest) (ist_init, s) = Err e.

(** 201YYY: the element that follows is never given the width of YYY characters, whatever the element, YYY, the table
    it comes from and what is done with the element. *)
Theorem C54_width_refuted : forall S (V : visitor S) T text code i y fuel rest s, load_crex text = Ok (tb_b T) -> var_f code = 0 ->
  query (tb_b T) code = Ok i -> 1 <= y <= 255 -> y <> 128 ->
  (exists e, fails V T fuel 1 y code rest s e) \/ gives V T fuel 1 y code rest s (fun j => vi_code j = vi_code i /\ vi_len j <> y).
Proof.
  intros S V T text code i y fuel rest s HT HF HQ Y N. unfold fails, gives. rewrite operator_step by (cbn; auto; lia).
  rewrite element_step by (auto; cbn; auto). rewrite (width_info T text HT code i HQ y) by lia.
  destruct (crex_query _ _ _ _ HT HQ) as (_ & _ & _ & _ & _ & Bt). assert (Bp : 0 <= (y - 128) mod 4294967296) by lia.
  destruct (is_numeric (vi_type i)) eqn:Nm.
  - destruct (number_altered i (vi_scale i) _ 0 Nm Bp ltac:(lia)) as [(e & ->)|(j & -> & Cj & D)]; [left; exists e; reflexivity|].
    right. exists j, (after 1 y). cbn [bind]. split; [|reflexivity]. split; [exact Cj|]. apply digits_range in D. lia.
  - assert (Ty : vi_type i = TString) by (destruct (vi_type i); try discriminate; [reflexivity|contradiction]).
    destruct (text_altered i (vi_scale i) ((y - 128) mod 4294967296) 0 Ty) as (j & -> & Cj & _ & Lj).
    right. exists j, (after 1 y). cbn [bind]. split; [|reflexivity]. split; [exact Cj|]. rewrite Lj. lia.
Qed.

(** 201YYY with YYY below 128, or above 160: no number can be read or written. *)
Theorem C54_width_fails_refuted : forall S (V : visitor S) T text code i y fuel rest s, load_crex text = Ok (tb_b T) -> var_f code = 0 ->
  query (tb_b T) code = Ok i -> is_numeric (vi_type i) = true -> 1 <= y <= 127 \/ 161 <= y <= 255 ->
  fails V T fuel 1 y code rest s EConsistency.
Proof.
  intros S V T text code i y fuel rest s HT HF HQ Nm Y. unfold fails. rewrite operator_step by (cbn; auto; lia).
  rewrite element_step by (auto; cbn; auto). rewrite (width_info T text HT code i HQ y) by lia. unfold alter_checked. rewrite Nm.
  replace (32 <? (y - 128) mod 4294967296) with true by lia. rewrite orb_true_r. reflexivity.
Qed.

(** 201YYY with YYY below 128: the width of a text wraps around. *)
Theorem C54_text_wraps_refuted : forall S (V : visitor S) T text code i y fuel rest s, load_crex text = Ok (tb_b T) -> var_f code = 0 ->
  query (tb_b T) code = Ok i -> vi_type i = TString -> 1 <= y <= 127 ->
  gives V T fuel 1 y code rest s (fun j => vi_type j = TString /\ 536870896 <= vi_len j).
Proof.
  intros S V T text code i y fuel rest s HT HF HQ Ty Y. unfold gives. rewrite operator_step by (cbn; auto; lia).
  rewrite element_step by (auto; cbn; auto). rewrite (width_info T text HT code i HQ y) by lia.
  destruct (text_altered i (vi_scale i) ((y - 128) mod 4294967296) 0 Ty) as (j & -> & _ & Tj & Lj).
  exists j, (after 1 y). cbn [bind]. split; [|reflexivity]. split; [exact Tj|]. rewrite Lj. lia.
Qed.

(** 202YYY: no number can be read or written, whatever the element and YYY; texts have no characters. *)
Theorem C54_scale_refuted : forall S (V : visitor S) T text code i y fuel rest s, load_crex text = Ok (tb_b T) -> var_f code = 0 ->
  query (tb_b T) code = Ok i -> 1 <= y <= 255 -> y <> 128 ->
  (is_numeric (vi_type i) = true -> fails V T fuel 2 y code rest s EConsistency) /\
  (vi_type i = TString -> gives V T fuel 2 y code rest s (fun j => vi_code j = vi_code i /\ vi_len j = 0)).
Proof.
  intros S V T text code i y fuel rest s HT HF HQ Y N. unfold fails, gives. rewrite operator_step by (cbn; auto; lia).
  rewrite element_step by (auto; cbn; auto). rewrite (scale_info T text HT code i HQ y) by lia. split.
  - intros Nm. unfold alter_checked, alter_info. destruct (_ && _); [reflexivity|]. destruct (vi_type i); try discriminate; reflexivity.
  - intros Ty. destruct (text_altered i (vi_scale i + (y - 128)) 0 0 Ty) as (j & -> & Cj & _ & Lj).
    exists j, (after 2 y). cbn [bind]. split; [|reflexivity]. split; [exact Cj|exact Lj].
Qed.

(** 207YYY: a number has YYY + 1 digits, whatever the element, when that is not an error. *)
Theorem C54_increase : forall S (V : visitor S) T text code i y fuel rest s, load_crex text = Ok (tb_b T) -> var_f code = 0 ->
  query (tb_b T) code = Ok i -> is_numeric (vi_type i) = true -> 1 <= y <= 9 ->
  (exists e, fails V T fuel 7 y code rest s e) \/ gives V T fuel 7 y code rest s (fun j => vi_code j = vi_code i /\ vi_scale j = vi_scale i + y /\ vi_len j = y + 1).
Proof.
  intros S V T text code i y fuel rest s HT HF HQ Nm Y. unfold fails, gives. rewrite operator_step by (cbn; auto; lia).
  rewrite element_step by (auto; cbn; auto). rewrite (increase_info T text HT code i HQ y) by auto.
  destruct (number_altered i (vi_scale i + y) ((10 * y + 2) / 3) 0 Nm ltac:(lia) ltac:(lia)) as [(e & ->)|(j & E & Cj & D)]; [left; exists e; reflexivity|].
  right. exists j, (after 7 y). rewrite E. cbn [bind]. split; [|reflexivity]. split; [exact Cj|]. split; [apply alter_checked_fields in E; tauto|].
  assert (X : y = 1 \/ y = 2 \/ y = 3 \/ y = 4 \/ y = 5 \/ y = 6 \/ y = 7 \/ y = 8 \/ y = 9) by lia. generalize dependent (vi_len j). clear - X. intros d D.
  destruct X as [->|[->|[->|[->|[->|[->|[->|[->| ->]]]]]]]]; vm_compute in D; apply ok_inj in D; subst d; reflexivity.
Qed.

(** 208YYY: a text has YYY characters. *)
Theorem C54_text_width : forall S (V : visitor S) T text code i y fuel rest s, load_crex text = Ok (tb_b T) -> var_f code = 0 ->
  query (tb_b T) code = Ok i -> vi_type i = TString -> 1 <= y <= 255 ->
  gives V T fuel 8 y code rest s (fun j => vi_code j = vi_code i /\ vi_type j = TString /\ vi_len j = y).
Proof.
  intros S V T text code i y fuel rest s HT HF HQ Ty Y. unfold gives. rewrite operator_step by (cbn; auto; lia).
  rewrite element_step by (auto; cbn; auto). rewrite (strlen_info T text HT code i HQ y) by auto.
  destruct (text_altered i (vi_scale i) (y * 8) 0 Ty) as (j & -> & Cj & Tj & Lj).
  exists j, (after 8 y). cbn [bind]. split; [|reflexivity]. split; [exact Cj|]. split; [exact Tj|]. rewrite Lj. lia.
Qed.

(** The operators with YYY = 000 change nothing by themselves, and end the effect of the same operator. *)
Theorem C54_cancel : forall S (V : visitor S) T x y fuel rest s, In x [1; 2; 7; 8] -> 0 <= y <= 255 ->
  run V T (Datatypes.S fuel) (wr_var 2 x 0 :: rest) (ist_init, s) = run V T fuel rest (ist_init, s) /\
  run V T (Datatypes.S (Datatypes.S fuel)) (wr_var 2 x y :: wr_var 2 x 0 :: rest) (ist_init, s) = run V T fuel rest (ist_init, s).
Proof.
  intros S V T x y fuel rest s X Y. split; [rewrite operator_step by (auto; lia); cbn in X; destruct X as [<-|[<-|[<-|[<-|[]]]]]; reflexivity|].
  rewrite operator_step by auto. destruct (unpack_pack 2 x 0 ltac:(lia)) as (_ & F & Fx & Fy); [cbn in X; lia|lia|]. cbn [run]. rewrite F. cbn [Z.eqb Pos.eqb].
  unfold c_modifier. rewrite Fx, Fy. unfold after. cbn in X. destruct X as [<-|[<-|[<-|[<-|[]]]]]; reflexivity.
Qed.

(** ** Messages

    A bulletin with a number after 202YYY cannot be written, and a message cannot be read, whatever there is in them. *)
Theorem C54_messages_refuted : forall o T text code i y fuel rest, load_crex text = Ok (tb_b T) -> var_f code = 0 ->
  query (tb_b T) code = Ok i -> is_numeric (vi_type i) = true -> 1 <= y <= 255 -> y <> 128 ->
  (forall lt h vars subsets,
     encode_crex o T (Datatypes.S (Datatypes.S fuel)) lt (mkcb h (wr_var 2 2 y :: code :: rest) (vars :: subsets)) = Err EConsistency) /\
  (forall data load b, decode_crex o load (Datatypes.S (Datatypes.S fuel)) data = Ok b -> load (cb_header b) = Ok T ->
     cb_datadesc b <> wr_var 2 2 y :: code :: rest).
Proof.
  intros o T text code i y fuel rest HT HF HQ Nm Y N.
  assert (R : forall S (V : visitor S) s, run V T (Datatypes.S (Datatypes.S fuel)) (wr_var 2 2 y :: code :: rest) (ist_init, s) = Err EConsistency).
  { intros S V s. destruct (C54_scale_refuted S V T text code i y fuel rest s HT HF HQ Y N) as [F _]. exact (F Nm). }
  split.
  - intros lt h vars subsets. unfold encode_crex. cbn [cb_header cb_datadesc cb_subsets].
    assert (X : exists c, encode_sec1 h (wr_var 2 2 y :: code :: rest) (raw_append (crex_start ++ [13; 13; 10]) cout_empty) = Ok c) by (unfold encode_sec1; destruct (ch_edition h =? 1); eauto).
    destruct X as (c & ->). cbn [bind encode_csubsets]. cbv zeta. rewrite R. reflexivity.
  - intros data load b D L E. unfold decode_crex in D.
    destruct (decode_cheader (Datatypes.S (Datatypes.S fuel)) data) as [[[h descs] c]|e|] eqn:H; [|discriminate|discriminate]. cbn [bind] in D.
    destruct (load h) as [T'|e|] eqn:Lh; [|discriminate|discriminate]. cbn [bind] in D. unfold decode_cdata in D.
    destruct (check_eof c) as [u|e|]; [|discriminate|discriminate]. cbn [bind] in D.
    assert (Q : h = cb_header b /\ descs = cb_datadesc b).
    { match type of D with bind ?m _ = _ => destruct m; [|discriminate|discriminate] end. cbn [bind] in D. apply ok_inj in D. subst b. auto. }
    destruct Q as [-> ->]. assert (T' = T) by congruence. subst T'. rewrite E in D. cbn [decode_csubsets] in D. rewrite R in D. discriminate.
Qed.

(** ** Examples: a table with a temperature and a name *)
Definition operator_file : list Z := concat (map render_crow
  [mkbrow (wr_var 0 1 15) [78] [67; 72; 65; 82; 65; 67; 84; 69; 82] 0 0 5; mkbrow (wr_var 0 12 1) [84] [75] 1 0 4]).
Definition operator_tables : tables := mktables (get_ok [] (load_crex operator_file)) (mkdtable [] []).
Definition named_info (x y : Z) : varinfo := get_ok Crex.Properties.block_info (query (tb_b operator_tables) (wr_var 0 x y)).
Definition crex_of (ops : list Z) (vars : list var) : res (list Z) :=
  encode_crex Crex.Properties.opts operator_tables 100 empty_local (mkcb Crex.Properties.ex_cheader ops [vars]).
Definition temperature : var := mkvar (mkcell (named_info 12 1) (Some (VInt 283))) [].
Definition name : var := mkvar (mkcell (named_info 1 15) (Some (VStr [82; 111; 109; 101]))) [].
(** The characters of the data section, that begins at the position given. *)
Definition data_of (n : nat) (m : res (list Z)) : res (list Z) := rmap (fun t => firstn (length t - n - 12) (skipn n t)) m.
Example C54_example :
  load_crex operator_file = Ok (tb_b operator_tables) /\
  query (tb_b operator_tables) (wr_var 0 12 1) = Ok (named_info 12 1) /\ query (tb_b operator_tables) (wr_var 0 1 15) = Ok (named_info 1 15) /\
  is_numeric (vi_type (named_info 12 1)) = true /\ vi_type (named_info 1 15) = TString /\ vi_len (named_info 12 1) = 4 /\
  (* without operators: 0283 *)
  data_of 33 (crex_of [wr_var 0 12 1] [temperature]) = Ok [32; 48; 50; 56; 51] /\
  (* 201006 would have six characters: an error; 201134 (6 bits): two, and all of the value *)
  crex_of [wr_var 2 1 6; wr_var 0 12 1] [temperature] = Err EConsistency /\
  data_of 40 (crex_of [wr_var 2 1 134; wr_var 0 12 1] [temperature]) = Ok [32; 50; 56; 51] /\
  (* 202002 *)
  crex_of [wr_var 2 2 2; wr_var 0 12 1] [temperature] = Err EConsistency /\
  (* 202002 with a name: nothing is written *)
  data_of 40 (crex_of [wr_var 2 2 2; wr_var 0 1 15] [name]) = Ok [32] /\
  (* 208007 with a name: seven characters *)
  data_of 40 (crex_of [wr_var 2 8 7; wr_var 0 1 15] [name]) = Ok [32; 82; 111; 109; 101; 32; 32; 32].
Proof.
  assert (L : load_crex operator_file = Ok (tb_b operator_tables)).
  { apply (Interp.Example.get_ok_eq []). vm_compute. reflexivity. }
  split; [exact L|]. split; [apply (Interp.Example.get_ok_eq Crex.Properties.block_info); vm_compute; reflexivity|].
  split; [apply (Interp.Example.get_ok_eq Crex.Properties.block_info); vm_compute; reflexivity|].
  repeat split; vm_compute; reflexivity.
Qed.

Print Assumptions C54_width_refuted.
Print Assumptions C54_width_fails_refuted.
Print Assumptions C54_text_wraps_refuted.
Print Assumptions C54_scale_refuted.
Print Assumptions C54_increase.
Print Assumptions C54_text_width.
Print Assumptions C54_cancel.
Print Assumptions C54_messages_refuted.

(** What the receiver of an ideal transmission gets. *)
From Coq Require Import ZifyBool ZifyNat.
From Verif Require Import Base Bits.Model Bits.Spec Bits.Proofs Bits.StringProofs Num.Float
  Varcode.Model Varinfo.Model Varinfo.RangeProofs Tables.Model Tables.AlterProofs Tables.LoadProofs Var.Model Var.Spec
  Var.Proofs Var.AttrProofs Var.CodecProofs Interp.Model Interp.Sim Codec.Model Codec.Spec Codec.ValueProofs Codec.Proofs.
Local Open Scope Z_scope.

(** Character data (operator 205) is padded with blanks. *)
Definition padded (sent : cell) : cell :=
  mkcell (c_info sent)
    (Some (VStr (pad_field (ilen (c_info sent)) (match c_val sent with Some (VStr s) => s | _ => [] end)))).

Definition is_chardata (c : cell) : bool := (var_f (c_code c) =? 2) && (var_x (c_code c) =? 5).

Definition received (sent got : var) : Prop :=
  v_cell got = v_cell sent \/ is_chardata (v_cell sent) = true /\ v_cell got = padded (v_cell sent).

Section Transfer.
Context (p : shift_policy) (T : tables) (skip : bool) (vars : list var).

Record tinv (s : xfer) : Prop := {
  ti_len : length (x_got s) = x_pos s;
  ti_cells : forall pos got, nth_error (x_got s) pos = Some got ->
    exists v, nth_error vars pos = Some v /\ received v got /\ sorted (v_attrs got);
  ti_asked : forall pos code v got a, In (pos, code) (x_asked s) -> nth_error vars pos = Some v ->
    nth_error (x_got s) pos = Some got -> var_enqa v code = Some a -> isset a = true -> var_enqa got code = Some a;
  ti_attrs : forall pos code v got a, nth_error vars pos = Some v -> nth_error (x_got s) pos = Some got ->
    var_enqa got code = Some a ->
    (exists b g, In (pos, (b, g)) (x_fields s) /\ x_af T skip b g v = Ok [a]) \/
    In (pos, code) (x_asked s) /\ isset a = true /\ var_enqa v code = Some a;
  ti_asked_pos : forall pos code, In (pos, code) (x_asked s) -> (pos < length (x_got s))%nat;
  ti_fields : forall pos b g, In (pos, (b, g)) (x_fields s) -> (pos < length (x_got s))%nat /\
    forall v got, nth_error vars pos = Some v -> nth_error (x_got s) pos = Some got ->
    exists attrs, x_af T skip b g v = Ok attrs /\
      forall a, In a attrs -> var_enqa got (c_code a) = Some a \/
        In (pos, c_code a) (x_asked s) /\ exists sent, var_enqa v (c_code a) = Some sent /\ isset sent = true /\
                                                       var_enqa got (c_code a) = Some sent }.

Lemma tinv_init lt : tinv (xfer_init lt).
Proof.
  constructor; cbn; auto; try (intros; contradiction); intros [|pos]; cbn; discriminate.
Qed.

Lemma tinv_tables lt s : tinv s -> tinv (x_tables lt s).
Proof. intros [H1 H2 H3 H4 H5 H6]. constructor; auto. Qed.

Lemma nth_error_snoc {A} (l : list A) x pos y : nth_error (l ++ [x]) pos = Some y ->
  (pos < length l)%nat /\ nth_error l pos = Some y \/ pos = length l /\ y = x.
Proof.
  destruct (le_gt_dec (length l) pos) as [H|H].
  - rewrite nth_error_app2 by lia. intros E. right.
    destruct (pos - length l)%nat as [|k] eqn:K; [|destruct k; discriminate]. injection E as ->. split; [lia|auto].
  - rewrite nth_error_app1 by lia. left. auto.
Qed.

Lemma tinv_give_gen c attrs flds s v : tinv s -> nth_error vars (x_pos s) = Some v -> received v (mkvar c attrs) ->
  (attrs = [] /\ flds = [] \/ exists b g, flds = [(x_pos s, (b, g))] /\ x_af T skip b g v = Ok attrs /\
                                          (attrs = [] \/ exists a, attrs = [a])) ->
  tinv (mkxfer (S (x_pos s)) (x_got s ++ [mkvar c attrs]) (x_lt s) (x_asked s) (x_fields s ++ flds)).
Proof.
  intros [H1 H2 H3 H4 H5 H6] N R A. constructor; cbn [x_got x_pos x_asked x_fields].
  - rewrite app_length. cbn [length]. lia.
  - intros pos got E. apply nth_error_snoc in E as [[L E]|[-> ->]].
    + apply H2. exact E.
    + exists v. rewrite H1. split; auto. split; auto. cbn [v_attrs].
      destruct A as [[-> _]|(b & g & _ & _ & [-> |(a & ->)])]; constructor; constructor.
  - intros pos code v' got a I N' E. apply nth_error_snoc in E as [[L E]|[-> ->]].
    + eapply H3; eauto.
    + exfalso. apply H5 in I. lia.
  - intros pos code v' got a N' E Q. apply nth_error_snoc in E as [[L E]|[-> ->]].
    + destruct (H4 pos code v' got a N' E Q) as [(b & g & F1 & F2)|F]; [left; exists b, g; split; auto; apply in_or_app; auto|auto].
    + left. assert (v' = v) as -> by congruence. unfold var_enqa in Q. cbn [v_attrs] in Q. apply enqa_in in Q.
      destruct A as [[-> _]|(b & g & -> & F & [-> |(a' & ->)])]; [contradiction|contradiction|].
      destruct Q as [->|[]]. exists b, g. split; auto. apply in_or_app. right. rewrite H1. left. reflexivity.
  - intros pos code I. rewrite app_length. apply H5 in I. lia.
  - intros pos b g I. rewrite app_length. cbn [length]. apply in_app_or in I as [I|I].
    + destruct (H6 pos b g I) as [L F]. split; [lia|]. intros v' got N' E. apply nth_error_snoc in E as [[_ E]|[-> _]]; [|lia].
      exact (F v' got N' E).
    + destruct A as [[_ ->]|(b' & g' & -> & F & S')]; [contradiction|]. destruct I as [I|[]]. injection I as <- <- <-.
      split; [lia|]. intros v' got N' E. assert (v' = v) as -> by congruence.
      apply nth_error_snoc in E as [[L _]|[_ ->]]; [lia|]. exists attrs. split; auto. intros a I. left.
      unfold var_enqa. cbn [v_attrs]. destruct S' as [-> |(a' & ->)]; [contradiction|]. destruct I as [->|[]].
      cbn. rewrite Z.eqb_refl, Z.leb_refl. reflexivity.
Qed.

Lemma tinv_give c s v : tinv s -> nth_error vars (x_pos s) = Some v -> received v (mkvar c []) -> tinv (x_give c [] s).
Proof.
  intros I N R. pose proof (tinv_give_gen c [] [] s v I N R (or_introl (conj eq_refl eq_refl))) as H.
  rewrite app_nil_r in H. exact H.
Qed.

Lemma take_inv i s v : x_take p vars i s = Ok v -> nth_error vars (x_pos s) = Some v.
Proof.
  unfold x_take. intros H. inv_bind H. apply get_var_nth in Hb. destruct (varinfo_eq_dec _ _); [|discriminate].
  inv_bind Hk. congruence.
Qed.

Lemma x_af_shape b g v attrs : x_af T skip b g v = Ok attrs -> attrs = [] \/ exists a, attrs = [a].
Proof.
  intros H. destruct attrs as [|a [|a2 l]]; [auto|right; exists a; reflexivity|exfalso].
  unfold x_af in H. inv_bind H. destruct a0 as [code|]; [|discriminate]. inv_bind Hk.
  assert (A : (if g =? 21 then if skip then Ok [] else
      _ <- guard (is_numeric (vi_type a0) && (vi_imin a0 <=? 0) && (0 <=? vi_imax a0)) ;;
      Ok [mkcell a0 (Some (VInt 0))]
    else Ok (if ((g =? 6) || (g =? 8)) && skip then [] else [fresh a0])) = Ok (a :: a2 :: l) -> False).
  { destruct (g =? 21).
    - destruct skip; [discriminate|]. intros H. inv_bind H. discriminate.
    - destruct (((g =? 6) || (g =? 8)) && skip); discriminate. }
  destruct (var_enqa v code) as [c|]; [|auto]. destruct (c_val c) as [[k|?|?]|]; try discriminate; auto.
  inv_bind Hk0. discriminate.
Qed.

Lemma update_nth {A} (l : list A) k a pos got : nth_error (update l k a) pos = Some got -> (k < length l)%nat ->
  pos = k /\ got = a \/ pos <> k /\ nth_error l pos = Some got.
Proof.
  intros E L. rewrite nth_error_update in E by exact L. destruct (Nat.eq_dec pos k) as [->|N].
  - left. split; auto. destruct (Nat.eqb_spec k k); [congruence|lia].
  - right. split; auto. destruct (Nat.eqb_spec k pos); [lia|auto].
Qed.

Lemma x_attr_inv i pos s s' : tinv s -> x_attr p vars i pos s = Ok s' -> tinv s'.
Proof.
  intros [H1 H2 H3 H4 H5 H6] E. unfold x_attr in E. inv_bind E. inv_bind Hk. rename a into v, a0 into got.
  apply get_var_nth in Hb, Hb0.
  assert (Lp : (pos < length (x_got s))%nat) by (apply nth_error_Some; congruence).
  (* a request that gives nothing *)
  assert (None' : (forall a, var_enqa v (vi_code i) = Some a -> isset a = true -> False) ->
    tinv (mkxfer (x_pos s) (x_got s) (x_lt s) (x_asked s ++ [(pos, vi_code i)]) (x_fields s))).
  { intros Hno. constructor; cbn [x_got x_pos x_asked x_fields]; auto.
    - intros pos' code v' got' a I N' G Q Qs. apply in_app_or in I as [I|[I|[]]]; [eapply H3; eauto|].
      injection I as <- <-. exfalso. assert (v' = v) as -> by congruence. eapply Hno; eauto.
    - intros pos' code v' got' a N' G Q. destruct (H4 pos' code v' got' a N' G Q) as [F|(F1 & F2 & F3)]; [auto|].
      right. split; [apply in_or_app; auto|auto].
    - intros pos' code I. apply in_app_or in I as [I|[I|[]]]; [eauto|]. injection I as <- <-. exact Lp.
    - intros pos' b g I. destruct (H6 pos' b g I) as [L F]. split; [exact L|]. intros v' got' N' G.
      destruct (F v' got' N' G) as (attrs & F1 & F2). exists attrs. split; auto. intros a Ia.
      destruct (F2 a Ia) as [Q|(Q1 & Q2)]; [auto|]. right. split; [apply in_or_app; auto|auto]. }
  destruct (var_enqa v (vi_code i)) as [a|] eqn:Qa.
  2:{ inv_bind Hk0. injection Hk as <-. apply None'. intros; discriminate. }
  destruct (varinfo_eq_dec (c_info a) i) as [Ei|]; [|discriminate]. inv_bind Hk0. injection Hk as <-.
  destruct (isset a) eqn:Sa.
  2:{ apply None'. intros b Qb Sb. congruence. }
  assert (Ca : c_code a = vi_code i) by (unfold c_code; rewrite Ei; reflexivity).
  destruct (H2 pos got Hb0) as (v0 & N0 & R0 & S0). assert (v0 = v) as -> by congruence.
  set (g' := mkvar (v_cell got) (seta a (v_attrs got))).
  assert (Q' : forall code, var_enqa g' code = if c_code a =? code then Some a else var_enqa got code).
  { intros code. unfold var_enqa, g'. cbn [v_attrs]. apply enqa_seta. exact S0. }
  constructor; cbn [x_got x_pos x_asked x_fields].
  - rewrite <- H1. clear. generalize (x_got s) as l. intros l. revert pos. induction l as [|x l IH]; intros [|pos]; cbn; auto.
  - intros pos' got' E. apply update_nth in E as [[-> ->]|[_ E]]; auto. exists v. split; auto. split; auto.
    unfold g'. cbn [v_attrs]. apply seta_sorted. exact S0.
  - intros pos' code v' got' b I N' G Qb Sb. apply update_nth in G as [[-> ->]|[Np G]]; auto.
    + assert (v' = v) as -> by congruence. rewrite Q'. destruct (Z.eqb_spec (c_code a) code) as [<-|Nc]; [congruence|].
      apply in_app_or in I as [I|[I|[]]]; [eapply H3; eauto|]. injection I as I. congruence.
    + apply in_app_or in I as [I|[I|[]]]; [eapply H3; eauto|]. congruence.
  - intros pos' code v' got' b N' G Qb. apply update_nth in G as [[-> ->]|[Np G]]; auto.
    + assert (v' = v) as -> by congruence. rewrite Q' in Qb. destruct (Z.eqb_spec (c_code a) code) as [<-|Nc].
      * injection Qb as <-. right. rewrite Ca. split; [apply in_or_app; right; left; reflexivity|]. auto.
      * destruct (H4 pos code v got b N' Hb0 Qb) as [F|(F1 & F2 & F3)]; [auto|].
        right. split; [apply in_or_app; auto|auto].
    + destruct (H4 pos' code v' got' b N' G Qb) as [F|(F1 & F2 & F3)]; [auto|].
      right. split; [apply in_or_app; auto|auto].
  - intros pos' code I. replace (length (update (x_got s) pos g')) with (length (x_got s)).
    + apply in_app_or in I as [I|[I|[]]]; [eauto|]. injection I as <- <-. exact Lp.
    + clear. generalize (x_got s) as l. intros l. revert pos. induction l as [|x l IH]; intros [|pos]; cbn; auto.
  - intros pos' b g I. replace (length (update (x_got s) pos g')) with (length (x_got s)).
    2:{ clear. generalize (x_got s) as l. intros l. revert pos. induction l as [|x l IH]; intros [|pos]; cbn; auto. }
    destruct (H6 pos' b g I) as [L F]. split; [exact L|]. intros v' got' N' G.
    apply update_nth in G as [[-> ->]|[Np G]]; auto.
    + assert (v' = v) as -> by congruence. destruct (F v got Hb Hb0) as (attrs & F1 & F2).
      exists attrs. split; auto. intros a' Ia. rewrite Q'. destruct (Z.eqb_spec (c_code a) (c_code a')) as [Ec|Nc].
      * right. rewrite <- Ec, Ca. split; [apply in_or_app; right; left; reflexivity|]. exists a. auto.
      * destruct (F2 a' Ia) as [Q|(Q1 & Q2)]; [auto|]. right. split; [apply in_or_app; auto|auto].
    + destruct (F v' got' N' G) as (attrs & F1 & F2). exists attrs. split; auto. intros a' Ia.
      destruct (F2 a' Ia) as [Q|(Q1 & Q2)]; [auto|]. right. split; [apply in_or_app; auto|auto].
Qed.

Lemma get_chardata_code lt code n i lt' : get_chardata lt code n = Ok (i, lt') -> vi_code i = code.
Proof.
  unfold get_chardata. destruct (assoc Z.eqb code (lt_chardata lt)) as [j|].
  - destruct (Z.eqb_spec (vi_code j) code); cbn [negb]; [|discriminate]. congruence.
  - intros H. inv_bind H. injection Hk as <- <-. unfold set_string in Hb.
    apply compute_range_fields in Hb. apply Hb.
Qed.

Theorem transmitter_inv : preserved (transmitter p T skip vars) tinv.
Proof.
  constructor; cbn [on_var on_var_af on_factor on_bitmap_factor on_significance on_subst on_attr on_raw on_refval on_bitmap
    on_unknown transmitter].
  - intros i s s' H E. unfold x_var in E. inv_bind E. injection Hk as <-. apply take_inv in Hb.
    eapply tinv_give; eauto. left. reflexivity.
  - intros b g i s s' _ H E. unfold x_var_af in E. inv_bind E. inv_bind Hk. injection Hk0 as <-. apply take_inv in Hb.
    apply (tinv_give_gen (v_cell a) a0 [(x_pos s, (b, g))] s a H Hb); [left; reflexivity|]. right. exists b, g.
    split; [reflexivity|]. split; [exact Hb0|]. eapply x_af_shape; eauto.
  - intros i s n s' H E. unfold x_factor in E. inv_bind E. inv_bind Hk. injection Hk0 as <- <-. apply take_inv in Hb.
    eapply tinv_give; eauto. left. reflexivity.
  - intros i s n s' H E. unfold x_bitmap_factor in E. inv_bind E. inv_bind Hk. injection Hk0 as <- <-. exact H.
  - intros i s n s' H E. unfold x_significance in E. inv_bind E. inv_bind Hk. injection Hk0 as <- <-. apply take_inv in Hb.
    eapply tinv_give; eauto. left. reflexivity.
  - intros pos s s' H E. unfold x_subst in E. inv_bind E. eapply x_attr_inv; eauto.
  - intros i pos s s' H E. eapply x_attr_inv; eauto.
  - intros c s s' F X H E. unfold x_raw in E. inv_bind E. inv_bind Hk. destruct a0 as [i lt].
    destruct (varinfo_eq_dec _ i) as [Ei|]; [|discriminate]. inv_bind Hk0. inv_bind Hk. injection Hk0 as <-.
    apply guard_ok in Hb2. apply andb_prop in Hb2 as [B1 B2]. apply get_var_nth in Hb. apply get_chardata_code in Hb0.
    apply tinv_tables. eapply tinv_give; eauto. right. unfold is_chardata, c_code. rewrite Ei, Hb0, F, X. split; [reflexivity|].
    cbn [v_cell]. unfold padded. rewrite Ei. f_equal. f_equal. f_equal. unfold ilen. replace (vi_len i) with (var_y c) by lia.
    f_equal. destruct (c_val (v_cell a)) as [[?|str|?]|]; try discriminate.
    + inv_bind Hb1. congruence.
    + congruence.
  - intros b c s n s' _ H E. unfold x_refval in E. inv_bind E. inv_bind Hk. injection Hk0 as <- <-. exact H.
  - intros c n s r s' H E. unfold x_bitmap in E. inv_bind E. destruct (c_val (v_cell a)) as [[?|chars|?]|]; try discriminate.
    inv_bind Hk. destruct a0 as [i lt]. destruct (varinfo_eq_dec _ i) as [Ei|]; [|discriminate]. inv_bind Hk0.
    injection Hk as <- <-. apply get_var_nth in Hb. apply tinv_tables. eapply tinv_give; eauto. left. reflexivity.
  - intros c b s i s' H E. unfold x_unknown in E. inv_bind E. destruct a. injection Hk as <- <-. apply tinv_tables. exact H.
Qed.

Lemma transfer_inv fuel ops lt s : transfer_state p T skip vars fuel ops lt = Ok s -> tinv s /\ x_pos s = length vars.
Proof.
  unfold transfer_state. intros H. inv_bind H. destruct a as [st s']. inv_bind Hk. injection Hk0 as <-.
  apply guard_ok in Hb0. split; [|lia].
  eapply (run_inv _ _ tinv); [exact transmitter_inv|exact ist_ok_init| |exact Hb]. apply tinv_init.
Qed.
End Transfer.

(** ** Several subsets, and bytes *)

Theorem subsets_roundtrip p o T skip fuel ops : table_ok (tb_b T) ->
  forall subsets lt lte gots lt' out, Forall (Forall var_infos_ok) subsets -> lt_unknown lte = lt_unknown lt -> wf_out out ->
  transfer_all p T skip fuel ops subsets lt = Ok (gots, lt') ->
  exists bs lte' out', encode_subsets p o T fuel ops subsets lte out = Ok (lte', out') /\ wf_out out' /\
    out_bits out' = out_bits out ++ bs /\
    forall inp rest, Forall is_byte (idata inp) -> wf_in inp -> (8 <= length rest)%nat -> in_bits inp = bs ++ rest ->
    exists inp', decode_subsets o T skip fuel ops (length subsets) lt inp = Ok (gots, lt', inp') /\
      Forall is_byte (idata inp') /\ wf_in inp' /\ in_bits inp' = rest.
Proof.
  intros TOK. induction subsets as [|vars subsets IH]; intros lt lte gots lt' out VOK L W H.
  - injection H as <- <-. exists [], lte, out. cbn [encode_subsets]. rewrite app_nil_r. repeat (split; auto).
    intros inp rest H1 H2 H3 H4. exists inp. auto.
  - inversion VOK as [|? ? V1 V2]; subst. cbn [transfer_all] in H. inv_bind H. destruct a as [got lt1]. inv_bind Hk.
    destruct a as [rest_got lt2]. injection Hk0 as <- <-. rename Hb into Ht.
    unfold transfer, transfer_state in Ht. inv_bind Ht. inv_bind Hb. destruct a0 as [st sx]. inv_bind Hk0. injection Hk1 as <-.
    injection Hk as <- <-.
    destruct (codec_run p o T skip vars V1 TOK fuel ops lt lte out st sx L W Hb1) as (bs1 & se & E1 & E2 & E3 & E4 & E5 & E6).
    destruct (IH (x_lt sx) (e_lt se) rest_got lt2 (e_out se) V2 E3 E4 Hb0) as (bs2 & lte' & out' & F1 & F2 & F3 & F4).
    exists (bs1 ++ bs2), lte', out'. cbn [encode_subsets]. rewrite E1. cbn [bind]. split; [exact F1|]. split; [exact F2|].
    split; [rewrite F3, E5, app_assoc; reflexivity|].
    intros inp rest H1 H2 H3 H4. rewrite <- app_assoc in H4.
    destruct (E6 inp (bs2 ++ rest) H1 H2 ltac:(rewrite app_length; lia) H4) as (sd & G1 & G2 & G3 & G4 & G5 & G6).
    cbn [length decode_subsets]. rewrite G1. cbn [bind].
    destruct (F4 (d_in sd) rest G4 G5 H3 G6) as (inp' & K1 & K2 & K3 & K4). rewrite G3.
    rewrite K1. cbn [bind]. rewrite G2. eauto.
Qed.

(** The data section as bytes: [pre] is what comes before it in the message, [post]
    (at least one byte) what comes after. *)
Lemma skipn_length_app {A} (l m : list A) : skipn (length l) (l ++ m) = m.
Proof. induction l; cbn; auto. Qed.

Lemma bits_of_bytes_prefix b : forall a c, Forall is_byte a -> Forall is_byte b ->
  bits_of_bytes a = bits_of_bytes b ++ c -> exists d, a = b ++ d /\ c = bits_of_bytes d.
Proof.
  induction b as [|y b IH]; intros a c Fa Fb E; [exists a; auto|].
  inversion Fb as [|? ? Hy Fb']; subst. cbn [bits_of_bytes flat_map] in E. rewrite <- app_assoc in E.
  destruct a as [|x a].
  - apply (f_equal (@length bool)) in E. rewrite app_length, bits_of_length in E. discriminate.
  - inversion Fa as [|? ? Hx Fa']; subst. cbn [bits_of_bytes flat_map] in E.
    assert (E1 : bits_of 8 x = bits_of 8 y).
    { apply (f_equal (firstn 8)) in E. rewrite !firstn_app, !bits_of_length, Nat.sub_diag, !firstn_O, !app_nil_r in E.
      rewrite !firstn_all2 in E by (rewrite bits_of_length; lia). exact E. }
    assert (x = y) as ->.
    { apply (f_equal val_of) in E1. rewrite !val_of_bits_of in E1. change (2 ^ Z.of_nat 8) with 256 in E1.
      unfold is_byte in *. rewrite !Z.mod_small in E1 by lia. exact E1. }
    apply app_inv_head in E. destruct (IH a c Fa' Fb' E) as (d & -> & ->). exists d. auto.
Qed.

Theorem bytes_roundtrip p o T skip fuel ops subsets lt lte gots lt' pre : table_ok (tb_b T) ->
  Forall (Forall var_infos_ok) subsets -> lt_unknown lte = lt_unknown lt -> Forall is_byte pre ->
  transfer_all p T skip fuel ops subsets lt = Ok (gots, lt') ->
  exists lte' out bytes, encode_subsets p o T fuel ops subsets lte (mkout pre 0 0) = Ok (lte', out) /\
    obytes (flush out) = pre ++ bytes /\ Forall is_byte bytes /\
    forall post, Forall is_byte post -> (1 <= length post)%nat ->
    exists inp', decode_subsets o T skip fuel ops (length subsets) lt (mkin (pre ++ bytes ++ post) (length pre) 0 0)
                 = Ok (gots, lt', inp').
Proof.
  intros TOK VOK L Hpre H.
  assert (W : wf_out (mkout pre 0 0)) by (unfold wf_out; cbn; repeat split; auto; lia).
  destruct (subsets_roundtrip p o T skip fuel ops TOK subsets lt lte gots lt' _ VOK L W H)
    as (bs & lte' & out & E1 & E2 & E3 & E4).
  destruct (flush_spec out E2) as (k & Hk & F1 & F2 & F3 & F4 & F5).
  unfold out_bits at 2 in E3. cbn [obytes oplen opbyte bits_of] in E3. rewrite app_nil_r in E3.
  rewrite E3, <- app_assoc in F2.
  destruct (bits_of_bytes_prefix pre (obytes (flush out)) (bs ++ repeat false k) F5 Hpre F2) as (bytes & B1 & B2).
  assert (Fb : Forall is_byte bytes) by (rewrite B1 in F5; apply Forall_app in F5; apply F5).
  exists lte', out, bytes. repeat (split; auto). intros post Fp Lp.
  destruct (E4 (mkin (pre ++ bytes ++ post) (length pre) 0 0) (repeat false k ++ bits_of_bytes post)) as (inp' & D & _).
  - cbn [idata]. apply Forall_app. split; auto. apply Forall_app. auto.
  - unfold wf_in. cbn [iplen ipbyte icur idata]. rewrite app_length. lia.
  - rewrite app_length, repeat_length. destruct post as [|b post]; [cbn in Lp; lia|]. cbn [bits_of_bytes flat_map].
    rewrite app_length, bits_of_length. lia.
  - unfold in_bits. cbn [iplen ipbyte icur idata firstn app]. rewrite skipn_length_app, bits_of_bytes_app, <- B2, <- app_assoc.
    reflexivity.
  - eauto.
Qed.

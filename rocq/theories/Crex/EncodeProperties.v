(** C53: encoding arbitrary bulletins as CREX. *)
From Coq Require Import ZifyBool ZifyNat String.
From Verif Require Import Base Bits.Model Bits.Spec Num.Float Varcode.Model Varinfo.Model Tables.Model Tables.Spec
  Var.Model Interp.Model Interp.FuelProofs Interp.Appears Interp.SureProofs Codec.Model Codec.Spec Codec.EndProofs Codec.Checked Codec.CheckedEnc Codec.CheckedEncProofs
  Message.Model Message.EncodeProperties Crex.Model Crex.Spec Crex.CheckedEnc Crex.CheckedEncProofs.
From Verif Require Crex.Properties Crex.OperatorProperties.
Local Open Scope Z_scope.

(** The bulletins of the claim: variables as the library makes them, in any number and order; they need not be
    those of the template. *)
Definition cbulletin_made (b : cbulletin) : Prop := Forall (Forall made_var) (cb_subsets b).

Lemma sec1_ok h ops c : exists c', encode_sec1 h ops c = Ok c'.
Proof. unfold encode_sec1. destruct (ch_edition h =? 1); eauto. Qed.

(** The encoder that checks has no undefined behaviour, whatever the variables. *)
Theorem C53_checked_safe : forall o T fuel lt b,
  hook_defined o -> crex_elements (tb_b T) -> calm_template T (cb_datadesc b) -> cbulletin_made b ->
  checked_crex o T fuel lt b <> UB.
Proof.
  intros o T fuel lt b H E C M. apply (sure_not_ub _ any). unfold checked_crex. eapply sure_bind with (P := any).
  { unfold encode_sec1. destruct (_ =? _); exact I. }
  intros c _. eapply sure_bind; [apply checked_csubsets_sure; auto|]. intros c1 _. exact I.
Qed.

(** The library gives what the encoder that checks gives, when that does not stop at a check. *)
Theorem C53_same_without_checks : forall o T fuel lt b,
  checked_crex o T fuel lt b <> Err EAlloc -> checked_crex o T fuel lt b <> Err EEof ->
  encode_crex o T fuel lt b = checked_crex o T fuel lt b.
Proof. intros o T fuel lt b N1 N2. destruct (crex_agree o T fuel lt b) as [X|[[_ X]|X]]; [exact X|contradiction|contradiction]. Qed.

(** The library has undefined behaviour exactly where the checks stop it, unless there is a bitmap that
    cannot be used (EEof): there it has none before it uses the bitmap. *)
Theorem C53_exactly : forall o T fuel lt b,
  hook_defined o -> hook_quiet o -> crex_elements (tb_b T) -> calm_template T (cb_datadesc b) -> cbulletin_made b ->
  checked_crex o T fuel lt b <> Err EEof ->
  (encode_crex o T fuel lt b = UB <-> checked_crex o T fuel lt b = Err EAlloc).
Proof.
  intros o T fuel lt b H Q E C M N. pose proof (C53_checked_safe o T fuel lt b H E C M) as X.
  pose proof (crex_quiet o T fuel lt b Q) as K. pose proof (crex_agree o T fuel lt b) as Y.
  revert X K Y N. generalize (encode_crex o T fuel lt b) as m, (checked_crex o T fuel lt b) as m'. clear.
  intros m m' X K [Y|[[Y Z]|Y]] N; unfold quiet in K; split; congruence.
Qed.

(** Encoding ends: with enough fuel the result does not depend on it, and is not "still running". *)
Theorem C53_encoding_ends : forall o T ops, options_end o -> well_founded (within T) ->
  exists N, forall fuel lt b, cb_datadesc b = ops -> (N <= fuel)%nat ->
    encode_crex o T fuel lt b = encode_crex o T N lt b /\ encode_crex o T fuel lt b <> Err EFuel.
Proof.
  intros o T ops O W. destruct (crex_encoding_ends o T ops O W) as (N & E). exists N. intros fuel lt b D L.
  unfold encode_crex. rewrite D. destruct (sec1_ok (cb_header b) ops (raw_append (crex_start ++ [13; 13; 10]) cout_empty)) as (c & ->). cbn [bind].
  destruct (E fuel (cb_subsets b) true lt c L) as [<- En]. split; [reflexivity|]. apply ended_bind; [exact En|]. discriminate.
Qed.

(** No check stops the encoder, and encoding is always defined, with definitions of CREX tables of no more than 254
    characters, templates without the operators of [modest], and values that can be written as texts. *)
Theorem C53_always_defined : forall o T fuel lt b,
  crex_definitions (tb_b T) -> modest_template T (cb_datadesc b) -> cbulletin_made b ->
  Forall (Forall (fun v => written_value (v_cell v))) (cb_subsets b) -> made_for_206 lt ->
  encode_crex o T fuel lt b <> UB.
Proof.
  intros o T fuel lt b E C M W G. apply (sure_not_ub _ any). unfold encode_crex. eapply sure_bind with (P := any).
  { unfold encode_sec1. destruct (_ =? _); exact I. }
  intros c _. eapply sure_bind; [apply plain_csubsets_sure; auto|]. intros c1 _. exact I.
Qed.

(** ** Examples *)
Import Crex.Properties.

Definition cwritten (T : tables) (ops : list Z) (vars : list var) : res (list Z) := encode_crex opts T 100 empty_local (mkcb ex_cheader ops [vars]).
Definition cchecked (T : tables) (ops : list Z) (vars : list var) : res (list Z) := checked_crex opts T 100 empty_local (mkcb ex_cheader ops [vars]).

(** What holds of the codes of a template without sequences holds of all that appear in it. *)
Lemma flat_template (P : Z -> bool) T ops : forallb (fun c => negb (var_f c =? 3) && P c) ops = true -> forall code, appears T ops code -> P code = true.
Proof.
  intros H code A. assert (X : negb (var_f code =? 3) && P code = true).
  { rewrite forallb_forall in H. induction A as [code I|code d body _ IH F3 _ _]; [auto|]. rewrite F3 in IH. discriminate. }
  apply andb_prop in X as [_ X]. exact X.
Qed.
Lemma calm_flat T ops : forallb (fun c => negb (var_f c =? 3) && calm c) ops = true -> calm_template T ops.
Proof. intros H code. apply flat_template. exact H. Qed.
Lemma modest_flat T ops : forallb (fun c => negb (var_f c =? 3) && modest c) ops = true -> modest_template T ops.
Proof. intros H code. apply flat_template. exact H. Qed.

Definition writtenb (c : cell) : bool := match c_val c with Some (VBin _) => false | Some (VInt v) => negb (v =? int_min) | _ => true end.
Lemma writtenb_all l : forallb (forallb (fun v => writtenb (v_cell v))) l = true -> Forall (Forall (fun v => written_value (v_cell v))) l.
Proof.
  intros H. apply Forall_forall. intros vs Iv. apply Forall_forall. intros v Ix. rewrite forallb_forall in H. specialize (H vs Iv).
  rewrite forallb_forall in H. specialize (H v Ix). unfold writtenb in H. unfold written_value. destruct (c_val (v_cell v)) as [[k|s|b]|]; try exact I; [|discriminate].
  apply negb_true_iff, Z.eqb_neq in H. exact H.
Qed.

Example C53_example :
  hook_defined opts /\ hook_quiet opts /\ options_end opts /\ well_founded (within crex_tables) /\
  crex_elements (tb_b crex_tables) /\ crex_definitions (tb_b crex_tables) /\
  calm_template crex_tables ex_cops /\ modest_template crex_tables ex_cops /\ made_for_206 empty_local /\
  cbulletin_made (mkcb ex_cheader ex_cops [ex_cvars]) /\ Forall (Forall (fun v => written_value (v_cell v))) [ex_cvars] /\
  cwritten crex_tables ex_cops ex_cvars = Ok ex_ctext /\ cchecked crex_tables ex_cops ex_cvars = Ok ex_ctext /\
  (* a number for a text, a text for a number, too few variables *)
  is_ok (cwritten crex_tables [wr_var 0 1 15] [sent block_info (Some (VInt 7))]) = true /\
  cwritten crex_tables [wr_var 0 1 1] [sent name_info (Some (VStr [65]))] = Err EType /\
  cwritten crex_tables ex_cops [] = Err EConsistency.
Proof.
  split; [exact I|]. split; [exact I|]. split; [exact I|]. split. { intros c. constructor. intros d (_ & body & X & _). vm_compute in X. discriminate. }
  split; [repeat constructor|]. split; [repeat constructor; cbn; lia|]. split; [apply calm_flat; reflexivity|]. split; [apply modest_flat; reflexivity|].
  split; [constructor|]. split; [apply madeb_all_made; vm_compute; reflexivity|]. split; [apply writtenb_all; reflexivity|].
  repeat split; vm_compute; reflexivity.
Qed.

(** ** Where encoding is undefined *)
Definition undefined_crex (T : tables) (ops : list Z) (vars : list var) : Prop :=
  crex_elements (tb_b T) /\ calm_template T ops /\ cbulletin_made (mkcb ex_cheader ops [vars]) /\
  cwritten T ops vars = UB /\ cchecked T ops vars = Err EAlloc.
Ltac undef := split; [repeat constructor|split; [apply calm_flat; reflexivity|split; [apply madeb_all_made; vm_compute; reflexivity|split; vm_compute; reflexivity]]].

(** A binary value, or the smallest int, where the template has a text. *)
Definition one_byte : varinfo := get_ok block_info (set_binary (wr_var 0 63 1) 8).
Definition ten_digits : varinfo := get_ok block_info (set_crex (wr_var 0 1 1) "CODE TABLE" 0 10).
Theorem C53_other_type_refuted :
  undefined_crex crex_tables [wr_var 0 1 15] [mkvar (mkcell one_byte (Some (VBin [65]))) []] /\
  undefined_crex crex_tables [wr_var 0 1 15] [mkvar (mkcell ten_digits (Some (VInt int_min))) []].
Proof. split; undef. Qed.

(** A text of more than 255 characters does not fit the buffer it is formatted in, whatever the text: an element of 256
    characters; 208255 with 207009, that adds three. *)
Definition long_info : varinfo := crex_info 1 15 TString 256 0 0.
Definition long_tables : tables := mktables [entry_of long_info] (mkdtable [] []).
Theorem C53_long_text_refuted :
  undefined_crex long_tables [wr_var 0 1 15] [sent long_info (Some (VStr [65]))] /\
  undefined_crex crex_tables [wr_var 2 7 9; wr_var 2 8 255; wr_var 0 1 15] [sent name_info (Some (VStr [65]))].
Proof. split; undef. Qed.

(** With 255 characters it is defined, but the last character is lost: a zero byte is written in its place. *)
Theorem C53_text_of_255_refuted : forall text i c, vi_type i = TString -> length text = 255%nat -> Forall (fun ch => ch <> 0) text -> co_check c = false ->
  vi_len i = 255 -> append_var i (mkcell i (Some (VStr text))) c = Ok (raw_append (32 :: firstn 254 text ++ [0]) c).
Proof.
  intros text i c Ty L Z0 K Ln. unfold append_var, isset. cbn [c_val negb]. cbv zeta. rewrite Ty. unfold enqc. cbn [c_val c_info]. rewrite Ty. cbn [bind].
  unfold fmt_s. rewrite ended_text. cbn [negb andb]. cbv zeta. cbn [bind].
  assert (C : cstr (text ++ [0]) = text). { clear - Z0. induction Z0 as [|ch text N F IH]; [reflexivity|]. cbn [app cstr]. replace (ch =? 0) with false by lia. rewrite IH. reflexivity. }
  rewrite C. assert (I : ilen i = 255%nat) by (unfold ilen; lia). rewrite I, firstn_all2 by lia. rewrite L. change (255 - 255)%nat with 0%nat. cbn [repeat]. rewrite app_nil_r.
  unfold raw_appendf. rewrite L. change (Nat.ltb 255 255) with false. change (Nat.eqb 255 255) with true. cbv iota. unfold encode_check_digit, raw_append. cbn [co_check co_text co_expected].
  rewrite K. cbn [co_check co_text co_expected]. rewrite <- app_assoc. reflexivity.
Qed.

(** A bitmap with fewer characters than it says. *)
Theorem C53_bitmap_refuted : undefined_crex crex_tables [wr_var 0 1 1; wr_var 2 22 0; wr_var 1 1 3; wr_var 0 31 31; wr_var 0 1 1]
  [sent block_info (Some (VInt 5)); marks 3 [43]; sent block_info (Some (VInt 5))].
Proof. undef. Qed.

(** 201YYY that takes bits away: the definitions of CREX tables have no bits, and the width of a text wraps around to more than
    five hundred million characters, whatever the text. *)
Lemma huge_text i j text c : vi_type i = TString -> vi_type j = TString -> 255 < vi_len i -> append_var i (mkcell j (Some (VStr text))) c = UB.
Proof.
  intros Ty Tj L. unfold append_var, isset. cbn [c_val negb]. cbv zeta. rewrite Ty. unfold enqc. cbn [c_val c_info]. rewrite Tj.
  cbn [bind]. unfold fmt_s. rewrite ended_text. cbn [negb andb]. cbv zeta. cbn [bind]. unfold raw_appendf.
  set (s := firstn (ilen i) (cstr (text ++ [0]))). destruct (Nat.ltb_spec 255 (length (s ++ repeat 32 (ilen i - length s)))) as [|G]; [reflexivity|].
  rewrite app_length, repeat_length in G. unfold ilen in *. lia.
Qed.
Theorem C53_narrower_text_refuted : forall o T file code i y fuel rest lt h j text vars subsets,
  load_crex file = Ok (tb_b T) -> var_f code = 0 -> query (tb_b T) code = Ok i -> vi_type i = TString -> 1 <= y <= 127 -> vi_type j = TString ->
  encode_crex o T (S (S fuel)) lt (mkcb h (wr_var 2 1 y :: code :: rest) ((sent j (Some (VStr text)) :: vars) :: subsets)) = UB.
Proof.
  intros o T file code i y fuel rest lt h j text vars subsets HT HF HQ Ty Y Tj. unfold encode_crex. cbn [cb_header cb_datadesc cb_subsets].
  destruct (sec1_ok h (wr_var 2 1 y :: code :: rest) (raw_append (crex_start ++ [13; 13; 10]) cout_empty)) as (c & ->). cbn [bind encode_csubsets]. cbv zeta.
  destruct (Crex.OperatorProperties.C54_text_wraps_refuted _ (c_encoder o (sent j (Some (VStr text)) :: vars)) T file code i y fuel rest (mkcenc 0 c lt) HT HF HQ Ty Y)
    as (k & st & (Tk & Lk) & ->).
  cbn [on_var c_encoder]. unfold ce_var, ce_next, get_var. cbn [ce_pos nth_error bind v_cell sent ce_out]. unfold ce_put. cbn [ce_out]. rewrite huge_text by (auto; lia). reflexivity.
Qed.
Example C53_narrower_text_example : encode_crex opts Crex.OperatorProperties.operator_tables 100 empty_local
  (mkcb ex_cheader [wr_var 2 1 127; wr_var 0 1 15] [[sent name_info (Some (VStr [65]))]]) = UB.
Proof.
  destruct Crex.OperatorProperties.C54_example as (L & _ & Q & _ & Ty & _).
  exact (C53_narrower_text_refuted opts Crex.OperatorProperties.operator_tables _ (wr_var 0 1 15) _ 127 98 [] empty_local ex_cheader name_info [65] [] [] L eq_refl Q Ty ltac:(lia) eq_refl).
Qed.

Print Assumptions C53_checked_safe.
Print Assumptions C53_same_without_checks.
Print Assumptions C53_exactly.
Print Assumptions C53_encoding_ends.
Print Assumptions C53_always_defined.
Print Assumptions C53_other_type_refuted.
Print Assumptions C53_long_text_refuted.
Print Assumptions C53_bitmap_refuted.
Print Assumptions C53_narrower_text_refuted.
Print Assumptions C53_text_of_255_refuted.

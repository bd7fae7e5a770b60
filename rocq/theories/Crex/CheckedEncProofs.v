(** The CREX encoder with checks agrees with that of the library unless a check throws, and it has no
    undefined behaviour; that of the library has none on bulletins without what the checks stop. *)
From Coq Require Import ZArith Lia ZifyBool ZifyNat.
From Verif Require Import Base Bits.Model Bits.Spec Num.Float Varcode.Model Varinfo.Model Varinfo.Proofs
  Varinfo.RangeProofs Tables.Model Tables.Spec Tables.Proofs Var.Model Var.TextProofs
  Interp.Model Interp.Spec Interp.ExpandProofs Interp.FuelProofs Interp.Appears Interp.SureProofs Codec.Model Codec.ColumnProofs Codec.EndProofs Codec.Checked Codec.CheckedSafe
  Codec.StepProofs Codec.CheckedEnc Codec.CheckedEncProofs Message.Model Crex.Model Crex.Spec Crex.ValueProofs Crex.UbProofs Crex.CheckedEnc.
Local Open Scope Z_scope.

#[local] Hint Resolve raised unused agree_refl enqc_agree : agree.

(** ** Agreement *)
Lemma appendf_agree s c : agree (raw_appendf s c) (sc_appendf s c).
Proof. unfold raw_appendf, sc_appendf. destruct (Nat.ltb 255 (length s)) eqn:E; [apply raised|]. unfold raw_appendf. rewrite E. apply agree_refl. Qed.
Lemma fmt_agree n b : agree (fmt_s n b) (sc_fmt_s n b).
Proof. unfold sc_fmt_s. destruct (_ && _) eqn:E; [|apply agree_refl]. unfold fmt_s. rewrite E. apply raised. Qed.
#[local] Hint Resolve appendf_agree fmt_agree : agree.
Lemma cvalue_agree i v c : agree (append_var i v c) (sc_value i v c).
Proof. unfold append_var, sc_value. ag. Qed.
#[local] Hint Resolve cvalue_agree : agree.
Lemma cput_agree s m m' : agree m m' -> agree (ce_put s m) (ce_put s m').
Proof. intros H. unfold ce_put. apply agree_bind; [exact H|]. intros. apply agree_refl. Qed.
#[local] Hint Resolve cput_agree : agree.

Lemma cencoder_agree o vars T fuel ops x : agree (run (c_encoder o vars) T fuel ops x) (run (sc_encoder o vars) T fuel ops x).
Proof.
  apply run_agree; intros; cbn [c_encoder sc_encoder on_var on_var_af on_factor on_bitmap_factor on_significance on_subst on_attr on_raw on_refval on_bitmap on_unknown];
    try apply agree_refl.
  - unfold ce_var, sc_var. ag.
  - unfold ce_factor, sc_factor. ag.
  - unfold ce_bitmap, sc_bitmap. apply agree_bind; [apply agree_refl|]. intros [v s1]. destruct (negb _); [apply agree_refl|].
    apply agree_bind; [apply bitmap_chars_agree|]. intros chars. cbv zeta. destruct (usable_bitmap _ chars); auto with agree.
Qed.

Lemma csubsets_agree o T fuel ops : forall subsets first lt c,
  agree (encode_csubsets o T fuel ops first subsets lt c) (checked_csubsets o T fuel ops first subsets lt c).
Proof.
  induction subsets as [|vars rest IH]; intros first lt c; [apply agree_refl|]. cbn [encode_csubsets checked_csubsets]. cbv zeta.
  apply agree_bind; [apply cencoder_agree|]. intros [st s]. apply IH.
Qed.

Lemma crex_agree o T fuel lt b : agree (encode_crex o T fuel lt b) (checked_crex o T fuel lt b).
Proof.
  unfold encode_crex, checked_crex. apply agree_bind; [apply agree_refl|]. intros c. apply agree_bind; [apply csubsets_agree|]. intros. apply agree_refl.
Qed.

(** ** No undefined behaviour, with checks *)
Lemma zeros_length w s : length (zeros w s) = Nat.max w (length s).
Proof. unfold zeros. rewrite app_length, repeat_length. lia. Qed.
Lemma decimal_acc_short : forall fuel n l, (length (decimal_acc fuel n l) <= fuel + length l)%nat.
Proof.
  induction fuel as [|k IH]; intros n l; cbn [decimal_acc]; [lia|]. destruct (n <? 10); [cbn [length]; lia|]. etransitivity; [apply IH|]. cbn [length]. lia.
Qed.
Lemma decimal_short n : (length (decimal n) <= 20)%nat.
Proof. unfold decimal. pose proof (decimal_acc_short 20 n []). cbn [length] in *. lia. Qed.
Lemma four_sure n c : sure (raw_appendf (zeros 4 (decimal n)) c) any.
Proof.
  unfold raw_appendf. pose proof (decimal_short n). destruct (Nat.ltb_spec 255 (length (zeros 4 (decimal n)))) as [L|]; [|exact I].
  rewrite zeros_length in L. lia.
Qed.

Lemma sc_appendf_sure s c : sure (sc_appendf s c) any.
Proof. unfold sc_appendf, raw_appendf. destruct (Nat.ltb 255 (length s)); exact I. Qed.
Lemma sc_fmt_sure n b : sure (sc_fmt_s n b) any.
Proof. unfold sc_fmt_s, fmt_s. destruct (_ && _); exact I. Qed.
Lemma sc_value_sure i v c : made v -> sure (sc_value i v c) any.
Proof.
  intros M. unfold sc_value. destruct (negb (isset v)); [exact I|]. cbv zeta. destruct (vi_type i).
  1, 2: eapply sure_bind; [apply enqi_made; exact M|]; intros k _; apply sc_appendf_sure.
  - eapply sure_bind; [apply sf_enqc_sure; exact M|]. intros b _. eapply sure_bind; [apply sc_fmt_sure|]. intros s _. apply sc_appendf_sure.
  - exact I.
Qed.

Lemma cnext_sure vars s : Forall made_var vars -> sure (ce_next vars s) (fun r => made_var (fst r) /\ In (fst r) vars).
Proof.
  intros M. unfold ce_next, get_var. destruct (nth_error vars (ce_pos s)) as [v|] eqn:N; [|exact I]. apply nth_error_In in N.
  cbn [bind sure fst]. rewrite Forall_forall in M. auto.
Qed.
Lemma cput_sure s m : sure m any -> sure (ce_put s m) any.
Proof. intros M. unfold ce_put. eapply sure_bind; [exact M|]. intros; exact I. Qed.

(** The state of the interpreter: there is something left to visit in the bitmaps. *)
Definition crex_marks (st : istate) : Prop :=
  0 <= is_srw st <= 9 /\ is_refs st = [] /\
  (forall b, is_cur st = Some b -> bm_refs b <> [] /\ bm_rest b <> []) /\ (forall l, is_last st = Some l -> l <> []).

Lemma marked_info t st code : crex_elements t -> crex_marks st -> sure (get_varinfo t st code) (fun _ => True).
Proof.
  intros E (W & R & _). apply (get_varinfo_sure t (mkist (is_scale st) (is_width st) (is_srw st) (is_strlen st) (is_refs st)
    (is_refbits st) (is_pending st) None None (is_afbits st) (is_afsig st)) code E).
  unfold crex_state. cbn. auto.
Qed.

Section Subset.
Context (o : options) (HO : hook_defined o) (T : tables) (HT : crex_elements (tb_b T)) (vars : list var) (HV : Forall made_var vars).
Let Inv (x : istate * cenc) : Prop := crex_marks (fst x).
Let V := sc_encoder o vars.

Lemma sc_var_sure i s : sure (sc_var vars i s) any.
Proof. unfold sc_var. eapply sure_bind; [apply cnext_sure; exact HV|]. intros [v s1] [[M _] _]. apply cput_sure. apply sc_value_sure. exact M. Qed.

Lemma sc_factor_sure i s : sure (sc_factor vars i s) any.
Proof.
  unfold sc_factor. eapply sure_bind; [apply cnext_sure; exact HV|]. intros [v s1] [[M _] _]. cbn [fst] in M. destruct (four_digits (vi_code i)).
  - eapply sure_bind; [apply enqi_made; exact M|]. intros n _. cbv zeta. eapply sure_bind; [apply cput_sure; apply four_sure|]. intros; exact I.
  - eapply sure_bind; [apply cput_sure; apply sc_value_sure; exact M|]. intros s2 _. destruct (isset (v_cell v)); [|exact I].
    eapply sure_bind; [apply enqi_made; exact M|]. intros; exact I.
Qed.

Lemma ce_significance_sure i s : sure (ce_significance vars i s) any.
Proof. unfold ce_significance. eapply sure_bind; [apply cnext_sure; exact HV|]. intros [v s1] _. exact I. Qed.
Lemma ce_af_sure b g i s : sure (ce_var_af vars b g i s) any.
Proof. unfold ce_var_af. eapply sure_bind; [apply cnext_sure; exact HV|]. intros [v s1] _. exact I. Qed.
Lemma ce_unknown_sure code bits s : sure (ce_unknown code bits s) any.
Proof.
  unfold ce_unknown, get_unknown. destruct (assoc Z.eqb bits (lt_unknown (ce_lt s))) as [i|]; [|exact I]. destruct (negb (vi_code i =? code)); exact I.
Qed.
Lemma ce_bitmap_factor_sure i s : sure (ce_bitmap_factor o vars i s) any.
Proof.
  unfold ce_bitmap_factor, get_var. destruct (nth_error vars (ce_pos s)) as [v|]; [|exact I]. cbn [bind].
  eapply sure_bind; [apply seti_sure; exact HO|]. intros; exact I.
Qed.

Lemma marks_next st : crex_marks st -> sure (bitmaps_next st) (fun r => crex_marks (snd r)).
Proof.
  intros (W & R & C & L). unfold bitmaps_next. destruct (is_cur st) as [b|] eqn:Ec; [|exact I]. destruct (C b eq_refl) as [C1 C2].
  destruct (bm_rest b) as [|p [|q rest]]; [congruence| |]; cbn [sure snd]; unfold crex_marks; cbn.
  - repeat (split; [assumption|]). split; [discriminate|]. intros l [= <-]. exact C1.
  - repeat (split; [assumption|]). split; [|exact L]. intros b' [= <-]. cbn. split; [exact C1|discriminate].
Qed.

Lemma checked_b code x : Inv x -> sure (b_variable V T code x) Inv.
Proof.
  destruct x as [st s]. intros Ix. unfold Inv in *. cbn [fst] in *. unfold b_variable.
  destruct (negb (is_refbits st =? 0)); [exact I|]. eapply sure_bind; [apply marked_info; eauto|]. intros i _.
  destruct (_ && _). { eapply sure_bind; [apply marks_next; exact Ix|]. intros [p st'] _. exact I. }
  destruct (negb (is_afbits st =? 0)); cbn [on_var on_var_af V sc_encoder].
  - eapply sure_bind; [apply ce_af_sure|]. intros s' _. exact Ix.
  - eapply sure_bind; [apply sc_var_sure|]. intros s' _. exact Ix.
Qed.

Lemma checked_c code next x : calm code = true -> var_f code = 2 -> Inv x ->
  sure (c_modifier V T code next x) (fun y => Inv (snd (fst y), snd y) /\ (fst (fst y) = next \/ exists c, next = c :: fst (fst y))).
Proof.
  destruct x as [st s]. intros Cm F Ix. unfold Inv in *. cbn [fst snd] in *. pose proof Ix as (W & R & C & La). unfold c_modifier.
  assert (Y : 0 <= var_y code) by (unfold var_y; apply Z.land_nonneg; lia).
  destruct (Z.eqb_spec (var_x code) 1); [cbn; auto|]. destruct (Z.eqb_spec (var_x code) 2); [cbn; auto|].
  destruct (Z.eqb_spec (var_x code) 3); [cbn; auto|]. destruct (Z.eqb_spec (var_x code) 4).
  { destruct (negb (var_y code =? 0) && negb (is_afbits st =? 0)); [exact I|]. destruct (32 <? var_y code); [exact I|].
    destruct (var_y code =? 0); [cbn; auto|]. destruct next as [|c next]; [exact I|]. cbn [pop_left bind].
    destruct (negb (c =? var_B31021)); [exact I|]. eapply sure_bind; [apply query_sure|]. intros i _. cbn [on_significance V sc_encoder].
    eapply sure_bind; [apply ce_significance_sure|]. intros [sig s'] _. cbn. eauto. }
  destruct (Z.eqb_spec (var_x code) 5); [exact I|]. destruct (Z.eqb_spec (var_x code) 6).
  { destruct next as [|c next]; [exact I|]. cbn [pop_left bind]. destruct (var_y code =? 0); [cbn; eauto|].
    eapply sure_bind; [apply contains_sure|]. intros known _.
    apply sure_bind with (P := fun _ => True).
    { destruct known; [|exact I]. eapply sure_bind; [apply marked_info; eauto|]. intros i _. exact I. }
    intros oi _. apply sure_bind with (P := fun _ => True).
    { destruct oi; [exact I|]. apply ce_unknown_sure. }
    intros [i s1] _. eapply sure_bind; [apply sc_var_sure|]. intros s2 _. cbn. eauto. }
  destruct (Z.eqb_spec (var_x code) 7).
  { unfold calm in Cm. unfold crex_marks. cbn. split; [|auto]. split; [lia|auto]. }
  destruct (Z.eqb_spec (var_x code) 8); [cbn; auto|].
  destruct (Z.eqb_spec (var_x code) 22); [destruct (negb (var_y code =? 0)); cbn; auto|].
  destruct (Z.eqb_spec (var_x code) 23).
  { destruct (var_y code =? 0); [cbn; auto|]. destruct (var_y code =? 255); [|exact I].
    eapply sure_bind; [apply marks_next; exact Ix|]. intros [p st'] _. exact I. }
  destruct (Z.eqb_spec (var_x code) 37); [|cbn; auto].
  destruct (var_y code =? 0); [|destruct (var_y code =? 255); [|exact I]]; cbn; (split; [|auto]); unfold crex_marks; cbn; do 2 (split; [assumption|]).
  - split; [|discriminate]. destruct (is_last st) as [l|] eqn:El; [|discriminate]. intros b [= <-]. cbn. auto.
  - split; [exact C|discriminate].
Qed.

Lemma checked_r code delayed body x : Inv x -> (forall y, Inv y -> sure (body y) Inv) ->
  sure (r_replication V T body code delayed x) Inv.
Proof.
  destruct x as [st s]. intros Ix Hb. unfold r_replication. apply sure_bind with (P := fun _ => True).
  { destruct (var_y code =? 0); [|exact I]. eapply sure_bind; [apply query_sure|]. intros i _. apply sc_factor_sure. }
  intros [n s1] _. apply sure_repeat; [exact Hb|exact Ix].
Qed.

Lemma checked_m code delayed ops x : Inv x -> sure (r_bitmap V T code delayed ops x) Inv.
Proof.
  destruct x as [st s]. intros Ix. unfold Inv in *. cbn [fst] in Ix. unfold r_bitmap. destruct (negb (var_x code =? 1)); [exact I|]. destruct (negb (hd 0 ops =? var_B31031)); [exact I|].
  apply sure_bind with (P := fun _ => True).
  { destruct (var_y code =? 0); [|exact I]. eapply sure_bind; [apply query_sure|]. intros i _. apply ce_bitmap_factor_sure. }
  intros [n s1] _. cbn [on_bitmap V sc_encoder].
  apply sure_bind with (P := fun r => usable_bitmap (fst (fst r)) (snd (fst r)) = true).
  { unfold sc_bitmap. eapply sure_bind; [apply cnext_sure; exact HV|]. intros [v s2] [[M _] _]. cbn [fst] in M. destruct (negb _); [exact I|].
    eapply sure_bind; [|intros chars _; cbv zeta; destruct (usable_bitmap _ chars) eqn:U; [exact U|exact I]].
    instantiate (1 := any). unfold sf_bitmap_chars. eapply sure_bind; [apply sf_enqc_sure; exact M|]. intros buf _. destruct (Nat.ltb _ _); exact I. }
  intros [[codes bits] s2] U. cbn [fst snd] in U. apply usable_points in U as (r & Er & N & _). unfold bitmaps_define. rewrite Er. cbn [bind sure fst].
  destruct Ix as (W & R & C & La). unfold crex_marks. cbn. do 2 (split; [assumption|]). split; [|exact La]. intros b [= <-]. cbn. auto.
Qed.

Lemma checked_subset_sure fuel ops s : calm_template T ops -> sure (run V T fuel ops (ist_init, s)) any.
Proof.
  intros A. apply sure_weaken with (P := Inv); [|intros; exact I].
  apply run_sure with (allowed := appears T ops).
  - intros code x _ _. apply checked_b.
  - intros code next x F C _ Ix. apply checked_c; auto.
  - intros code delayed body x _ _. apply checked_r.
  - intros code delayed ops' x _ _. apply checked_m.
  - apply appears_inside.
  - apply appears_here.
  - unfold Inv, crex_marks, ist_init. cbn. split; [lia|]. split; [reflexivity|]. split; discriminate.
Qed.
End Subset.

Lemma checked_csubsets_sure o T fuel ops : hook_defined o -> crex_elements (tb_b T) -> calm_template T ops ->
  forall subsets first lt c, Forall (Forall made_var) subsets -> sure (checked_csubsets o T fuel ops first subsets lt c) any.
Proof.
  intros HO HT A. induction subsets as [|vars rest IH]; intros first lt c F; cbn [checked_csubsets]; [exact I|]. inversion F as [|? ? F1 F2]; subst. cbv zeta.
  eapply sure_bind; [apply checked_subset_sure; eauto|]. intros [st s] _. apply IH. exact F2.
Qed.

(** ** The library's encoder throws no EAlloc, if the hook does not *)
Lemma append_quiet i v c : quiet (append_var i v c).
Proof. pose proof enqc_quiet. pose proof enqi_quiet. unfold append_var, fmt_s, raw_appendf. repeat (cbv zeta; qt_step || solve [auto]). Qed.
Lemma cencoder_quiet o vars T fuel ops x : hook_quiet o -> quiet (run (c_encoder o vars) T fuel ops x).
Proof.
  intros Hq. pose proof (fun c v => seti_quiet o c v Hq) as S1. pose proof append_quiet. pose proof enqi_quiet. pose proof enqc_quiet. pose proof get_unknown_quiet.
  apply run_quiet; intros; cbn [c_encoder on_var on_var_af on_factor on_bitmap_factor on_significance on_subst on_attr on_raw on_refval
    on_bitmap on_unknown]; unfold ce_var, ce_var_af, ce_factor, ce_bitmap_factor, ce_significance, ce_bitmap, bitmap_chars, ce_unknown, ce_put, ce_next, get_var, raw_appendf;
    repeat (cbv zeta; solve [auto] || qt_step).
Qed.
Lemma csubsets_quiet o T fuel ops : hook_quiet o -> forall subsets first lt c, quiet (encode_csubsets o T fuel ops first subsets lt c).
Proof.
  intros Hq. induction subsets as [|vars rest IH]; intros first lt c; cbn [encode_csubsets]; [discriminate|]. cbv zeta.
  apply quiet_bind; [apply cencoder_quiet; exact Hq|]. intros [st s]. apply IH.
Qed.
Lemma crex_quiet o T fuel lt b : hook_quiet o -> quiet (encode_crex o T fuel lt b).
Proof.
  intros Hq. unfold encode_crex. apply quiet_bind; [discriminate|]. intros c. apply quiet_bind; [apply csubsets_quiet; exact Hq|]. discriminate.
Qed.

(** ** Encoding ends *)
Lemma append_ended i v c : ended (append_var i v c).
Proof. pose proof enqc_ended. pose proof enqi_ended. unfold append_var, fmt_s, raw_appendf. repeat (cbv zeta; en_step || solve [auto]). Qed.
Lemma c_encoder_ends o vars : options_end o -> visitor_ends (c_encoder o vars).
Proof.
  intros O. pose proof (fun c v => seti_ended o O c v) as S1. pose proof append_ended. pose proof enqi_ended. pose proof enqc_ended. pose proof get_unknown_ended.
  constructor; intros; cbn [c_encoder on_var on_var_af on_factor on_bitmap_factor on_significance on_subst on_attr on_raw on_refval
    on_bitmap on_unknown]; unfold ce_var, ce_var_af, ce_factor, ce_bitmap_factor, ce_significance, ce_bitmap, bitmap_chars, ce_unknown, ce_put, ce_next, get_var, raw_appendf;
    repeat (cbv zeta; solve [auto] || en_step).
Qed.
Theorem crex_encoding_ends o T ops : options_end o -> well_founded (within T) ->
  exists N, forall fuel subsets first lt c, (N <= fuel)%nat ->
    encode_csubsets o T fuel ops first subsets lt c = encode_csubsets o T N ops first subsets lt c /\
    ended (encode_csubsets o T fuel ops first subsets lt c).
Proof.
  intros O W. destruct (template_done T ops W) as (N1 & D). destruct (template_settles T ops W) as (N2 & P).
  exists (N1 + N2)%nat. intros fuel subsets first lt c L.
  assert (R1 : forall S (V : visitor S) x, run V T fuel ops x = run V T (N1 + N2) ops x)
    by (intros S V x; rewrite (P S V fuel), (P S V (N1 + N2)%nat) by lia; reflexivity).
  assert (R2 : forall S (V : visitor S) x, visitor_ends V -> ended (run V T fuel ops x)) by (intros S V x E; apply D; auto; lia).
  revert first lt c. induction subsets as [|vars rest IH]; intros first lt c; cbn [encode_csubsets]; [split; [auto|discriminate]|]. cbv zeta.
  match goal with |- context [run (c_encoder o vars) T fuel ops ?x] => rewrite <- (R1 _ (c_encoder o vars) x); pose proof (R2 _ (c_encoder o vars) x (c_encoder_ends o vars O)) as E;
    destruct (run (c_encoder o vars) T fuel ops x) as [[st s]|e|] end; cbn [bind];
    [|split; [auto|unfold ended in *; congruence]|split; [auto|discriminate]].
  apply IH.
Qed.

(** ** No undefined behaviour without checks *)
Lemma fmt_0d_short w (k : Z) : (w <= 254)%nat -> (length (fmt_0d (if (k <? 0)%Z then S w else w) k) <= 255)%nat.
Proof.
  intros L. unfold fmt_0d. destruct (Z.ltb_spec k 0); [|rewrite zeros_length; pose proof (decimal_short k); lia].
  cbn [length]. rewrite zeros_length. pose proof (decimal_short (- k)). lia.
Qed.
Lemma fmt_s_short n b s : fmt_s n b = Ok s -> length s = n.
Proof.
  unfold fmt_s. destruct (_ && _); [discriminate|]. cbv zeta. intros [= <-]. rewrite app_length, repeat_length, firstn_length. lia.
Qed.
Lemma ended_text s : existsb (Z.eqb 0) (s ++ [0]) = true.
Proof. rewrite existsb_app. cbn. apply orb_true_r. Qed.

Definition narrow_info (i : varinfo) : Prop := vi_type i <> TBinary -> vi_len i <= 254.

Lemma value_sure i v c : narrow_info i -> made v -> written_value v -> sure (append_var i v c) any.
Proof.
  intros N M Wv. unfold append_var. destruct (negb (isset v)) eqn:Is; [exact I|]. cbv zeta. unfold narrow_info in N.
  assert (Num : vi_len i <= 254 -> sure (k <- enqi v;; raw_appendf (fmt_0d (if k <? 0 then S (ilen i) else ilen i) k) (encode_check_digit (raw_append [32] c))) any).
  { intros L. eapply sure_bind; [apply enqi_made; exact M|]. intros k _. unfold raw_appendf. unfold ilen.
    pose proof (fmt_0d_short (Z.to_nat (vi_len i)) k ltac:(lia)) as F. destruct (Nat.ltb_spec 255 (length (fmt_0d (if k <? 0 then S (Z.to_nat (vi_len i)) else Z.to_nat (vi_len i)) k))); [lia|exact I]. }
  destruct (vi_type i) eqn:Ty; [apply Num; apply N; discriminate|apply Num; apply N; discriminate| |exact I].
  assert (L : vi_len i <= 254) by (apply N; discriminate).
  apply sure_bind with (P := fun b => existsb (Z.eqb 0) b = true).
  { destruct M as (_ & _ & M). unfold enqc, written_value in *. destruct (c_val v) as [[x|s|b]|]; [|rewrite M; apply ended_text|contradiction|exact I].
    destruct M as [Nm R]. destruct (int32_to_str_ok x ltac:(lia)) as (s & _ & _ & _ & ->).
    destruct (vi_type (c_info v)); try discriminate; cbn [bind sure]; apply ended_text. }
  intros b Eb. unfold fmt_s at 1. rewrite Eb. cbn [negb andb]. cbv zeta. cbn [bind]. unfold raw_appendf.
  destruct (Nat.ltb_spec 255 (length (firstn (ilen i) (cstr b) ++ repeat 32 (ilen i - length (firstn (ilen i) (cstr b)))))) as [G|]; [|exact I].
  rewrite app_length, repeat_length, firstn_length in G. unfold ilen in G. lia.
Qed.

(** Definitions in force. *)
Definition crex_modest (st : istate) : Prop :=
  0 <= is_srw st <= 9 /\ is_refs st = [] /\ is_cur st = None /\ is_last st = None /\ is_pending st = 0 /\
  0 <= is_width st <= 127 /\ 0 <= is_strlen st <= 251.

Lemma definitions_elements t : crex_definitions t -> crex_elements t.
Proof. intros H. eapply Forall_impl; [|exact H]. intros e (R & _). exact R. Qed.

Lemma alter_narrow i sc bits ref j : 0 <= bits <= 2039 -> alter_checked i sc bits ref = Ok j -> narrow_info j.
Proof.
  unfold alter_checked, alter_info. intros B. destruct (_ && _); [discriminate|]. intros H. inv_bind H.
  pose proof (compute_range_fields _ _ _ _ _ _ _ _ Hk) as (_ & _ & _ & _ & E5 & _). unfold narrow_info. rewrite E5. intros _. clear Hk E5.
  assert (D : digits_per_bits bits = Ok a -> a <= 10).
  { unfold digits_per_bits. destruct (_ || _); [discriminate|]. intros D. apply ok_inj in D. subst a. repeat match goal with |- context [?x <=? ?y] => destruct (x <=? y) end; lia. }
  destruct (vi_type i); try (specialize (D Hb); lia); apply ok_inj in Hb; subst a; assert (bits / 8 < 255) by (apply Z.div_lt_upper_bound; lia); lia.
Qed.

Lemma modest_info t st code : crex_definitions t -> crex_modest st -> sure (get_varinfo t st code) narrow_info.
Proof.
  intros E (W & R & C & La & Pe & Wi & St). assert (S0 : sure (get_varinfo t st code) (fun _ => True)).
  { apply get_varinfo_sure; [apply definitions_elements; exact E|]. unfold crex_state. auto. }
  destruct (get_varinfo t st code) as [i|e|] eqn:G; [|exact I|exact S0]. cbn [sure]. unfold get_varinfo in G.
  pose proof (query_sure t code) as Q. destruct (query t code) as [pk|e|]; try discriminate. cbn [bind sure] in *. destruct Q as (e & Ie & <-).
  pose proof (proj1 (Forall_forall _ _) E e Ie) as (R0 & B0 & L0).
  destruct (_ && _) in G; [apply ok_inj in G; subst i; intros _; exact L0|]. cbv zeta in G. rewrite B0, R0, R in G.
  assert (Bits : exists sc bl rf, 0 <= bl <= 2039 /\ expected t (mkreq code sc bl rf) = Ok i).
  { assert (Bl : forall x, (x = is_width st \/ x = is_strlen st * 8) -> 0 <= x + (10 * is_srw st + 2) / 3 <= 2039 /\ 0 <= x <= 2039).
    { assert (0 <= (10 * is_srw st + 2) / 3 < 31) by (split; [apply Z.div_pos; lia|apply Z.div_lt_upper_bound; lia]). intros x [-> | ->]; lia. }
    assert (X : exists x, (x = is_width st \/ x = is_strlen st * 8) /\
      match vi_type (be_info e) with TString => if is_strlen st =? 0 then 0 + is_width st else is_strlen st * 8 | _ => 0 + is_width st end = x).
    { destruct (vi_type (be_info e)); try (eexists; split; [left; reflexivity|lia]). destruct (is_strlen st =? 0); eexists; (split; [|reflexivity]); [left; lia|right; lia]. }
    destruct X as (x & Hx & Ex). rewrite Ex in G. destruct (Bl x Hx) as [B1 B2]. replace (9 <? is_srw st) with false in G by lia.
    replace (int_checked (0 * 10 ^ is_srw st)) with (Ok 0) in G by reflexivity. cbn [bind assoc] in G.
    destruct (is_srw st =? 0); cbn [bind] in G; do 3 eexists; (split; [|exact G]); unfold u32; rewrite Z.mod_small; lia. }
  destruct Bits as (sc & bl & rf & B & X). unfold expected in X. cbn [r_code r_scale r_bits r_ref] in X.
  destruct (List.find (fun e0 => be_code e0 =? code) t) as [e'|] eqn:Fe; [|discriminate]. apply find_some in Fe as [Ie' _].
  destruct (_ && _) in X; [apply ok_inj in X; subst i; intros _; apply (proj1 (Forall_forall _ _) E e' Ie')|].
  eapply alter_narrow; eauto.
Qed.

Section Plain.
Context (o : options) (T : tables) (HT : crex_definitions (tb_b T)) (vars : list var) (HV : Forall made_var vars) (HW : Forall (fun v => written_value (v_cell v)) vars).
Let good (lt : localtables) : Prop := Forall (fun q => vi_type (snd q) = TBinary) (lt_unknown lt).
Let Inv (x : istate * cenc) : Prop := crex_modest (fst x) /\ good (ce_lt (snd x)).
Let V := c_encoder o vars.

Lemma plain_next s : sure (ce_next vars s) (fun r => made (v_cell (fst r)) /\ written_value (v_cell (fst r)) /\ ce_lt (snd r) = ce_lt s).
Proof.
  unfold ce_next, get_var. destruct (nth_error vars (ce_pos s)) as [v|] eqn:N; [|exact I]. apply nth_error_In in N.
  cbn [bind sure fst snd]. rewrite Forall_forall in HV, HW. destruct (HV v N) as [M _]. auto.
Qed.
Lemma plain_put s m : sure m any -> sure (ce_put s m) (fun s' => ce_lt s' = ce_lt s).
Proof. intros M. unfold ce_put. eapply sure_bind; [exact M|]. intros; reflexivity. Qed.

Lemma plain_var i s : narrow_info i -> sure (ce_var vars i s) (fun s' => ce_lt s' = ce_lt s).
Proof.
  intros N. unfold ce_var. eapply sure_bind; [apply plain_next|]. intros [v s1] (M & Wv & E). cbn [fst snd] in *. rewrite <- E.
  apply plain_put. apply value_sure; auto.
Qed.
Lemma plain_factor i s : narrow_info i -> sure (ce_factor vars i s) (fun r => ce_lt (snd r) = ce_lt s).
Proof.
  intros N. unfold ce_factor. eapply sure_bind; [apply plain_next|]. intros [v s1] (M & Wv & E). cbn [fst snd] in *. rewrite <- E. destruct (four_digits (vi_code i)).
  - eapply sure_bind; [apply enqi_made; exact M|]. intros n _. cbv zeta. eapply sure_bind; [apply plain_put; apply four_sure|]. intros s2 E2. exact E2.
  - eapply sure_bind; [apply plain_put; apply value_sure; auto|]. intros s2 E2. destruct (isset (v_cell v)); [|exact E2].
    eapply sure_bind; [apply enqi_made; exact M|]. intros; exact E2.
Qed.
Lemma plain_unknown code bits s : good (ce_lt s) -> sure (ce_unknown code bits s) (fun r => narrow_info (fst r) /\ good (ce_lt (snd r))).
Proof.
  intros G. unfold ce_unknown, get_unknown. destruct (assoc Z.eqb bits (lt_unknown (ce_lt s))) as [i|] eqn:A.
  - destruct (negb (vi_code i =? code)); [exact I|]. apply assoc_in in A. pose proof (proj1 (Forall_forall _ _) G _ A) as B. cbn [snd] in B.
    split; [intros X; cbn [fst] in X; rewrite ?E2 in X; congruence|exact G].
  - cbn [set_binary]. destruct (set_binary code bits) as [i|e|] eqn:Sb; cbn [bind sure]; [|exact I|discriminate].
    pose proof (compute_range_fields _ _ _ _ _ _ _ _ Sb) as (_ & E2 & _). split; [intros X; cbn [fst] in X; rewrite ?E2 in X; congruence|]. constructor; [exact E2|exact G].
Qed.

Lemma plain_b code x : Inv x -> sure (b_variable V T code x) Inv.
Proof.
  destruct x as [st s]. intros [Ix G]. cbn [fst snd] in *. pose proof Ix as (W & R & C & _). unfold b_variable.
  destruct (negb (is_refbits st =? 0)); [exact I|]. eapply sure_bind; [apply modest_info; eauto|]. intros i N.
  rewrite C, andb_false_r. destruct (negb (is_afbits st =? 0)); cbn [on_var on_var_af V c_encoder].
  - apply sure_bind with (P := fun _ => False); [|contradiction]. unfold ce_var_af. eapply sure_bind; [apply plain_next|]. intros [v s1] _. exact I.
  - eapply sure_bind; [apply plain_var; exact N|]. intros s' E. split; [exact Ix|]. cbn [snd]. rewrite E. exact G.
Qed.

Lemma plain_c code next x : modest code = true -> var_f code = 2 -> Inv x ->
  sure (c_modifier V T code next x) (fun y => Inv (snd (fst y), snd y) /\ (fst (fst y) = next \/ exists c, next = c :: fst (fst y))).
Proof.
  destruct x as [st s]. intros Cm F [Ix G]. cbn [fst snd] in *. pose proof Ix as (W & R & C & La & Pe & Wi & St). unfold c_modifier.
  assert (Y : 0 <= var_y code <= 255). { unfold var_y. pose proof (Z.land_ones code 8 ltac:(lia)) as L. change (Z.ones 8) with 255 in L. rewrite L. pose proof (Z.mod_pos_bound code (2 ^ 8) eq_refl). change (2 ^ 8) with 256 in *. lia. }
  unfold modest in Cm. rewrite F in Cm. cbn [Z.eqb Pos.eqb andb negb] in Cm.
  assert (Pl : forall st', crex_modest st' -> sure (Ok (next, st', s)) (fun y => Inv (snd (fst y), snd y) /\ (fst (fst y) = next \/ exists c, next = c :: fst (fst y)))).
  { intros st' H. split; [split; [exact H|exact G]|left; reflexivity]. }
  assert (Gr : forall s' c next', next = c :: next' -> good (ce_lt s') -> sure (Ok (next', st, s')) (fun y => Inv (snd (fst y), snd y) /\ (fst (fst y) = next \/ exists c, next = c :: fst (fst y)))).
  { intros s' c next' E H. split; [split; [exact Ix|exact H]|right; exists c; exact E]. }
  assert (Wx : var_x code = 1 -> 0 <= (if var_y code =? 0 then 0 else var_y code - 128) <= 127) by (intros E1; destruct (Z.eqb_spec (var_y code) 0); lia).
  destruct (Z.eqb_spec (var_x code) 1) as [E1|E1]; [apply Pl; unfold crex_modest; cbn; auto 10|]. destruct (Z.eqb_spec (var_x code) 2); [apply Pl; unfold crex_modest; cbn; auto 10|].
  destruct (Z.eqb_spec (var_x code) 3); [apply Pl; unfold crex_modest; cbn; auto 10|]. destruct (Z.eqb_spec (var_x code) 4).
  { destruct (negb (var_y code =? 0) && negb (is_afbits st =? 0)); [exact I|]. destruct (32 <? var_y code); [exact I|].
    destruct (var_y code =? 0); [apply Pl; unfold crex_modest; cbn; auto 10|]. destruct next as [|c next]; [exact I|]. cbn [pop_left bind].
    destruct (negb (c =? var_B31021)); [exact I|]. eapply sure_bind; [apply query_sure|]. intros i _. cbn [on_significance V c_encoder].
    apply sure_bind with (P := fun _ => False); [|intros [? ?]; contradiction]. unfold ce_significance. eapply sure_bind; [apply plain_next|]. intros [v s1] _. exact I. }
  destruct (Z.eqb_spec (var_x code) 5); [exact I|]. destruct (Z.eqb_spec (var_x code) 6).
  { destruct next as [|c next]; [exact I|]. cbn [pop_left bind]. destruct (var_y code =? 0); [eapply Gr; [reflexivity|exact G]|].
    eapply sure_bind; [apply contains_sure|]. intros known _.
    apply sure_bind with (P := fun oi => match oi with Some i => narrow_info i | None => True end).
    { destruct known; [|exact I]. eapply sure_bind; [apply modest_info; eauto|]. intros i N. cbn [sure]. destruct (vi_bit_len i =? var_y code); [exact N|exact I]. }
    intros oi No. apply sure_bind with (P := fun r => narrow_info (fst r) /\ good (ce_lt (snd r))).
    { destruct oi; [split; [exact No|exact G]|]. apply plain_unknown. exact G. }
    intros [i s1] [N G1]. cbn [fst snd] in *. eapply sure_bind; [apply plain_var; exact N|]. intros s2 E2. eapply Gr; [reflexivity|]. rewrite E2. exact G1. }
  destruct (Z.eqb_spec (var_x code) 7) as [E7|E7].
  { apply Pl. unfold crex_modest. cbn. split; [lia|]. auto 10. }
  destruct (Z.eqb_spec (var_x code) 8) as [E8|E8].
  { apply Pl. unfold crex_modest. cbn. do 6 (split; [assumption|]). lia. }
  destruct (Z.eqb_spec (var_x code) 22); [lia|]. destruct (Z.eqb_spec (var_x code) 23); [lia|].
  destruct (Z.eqb_spec (var_x code) 37); [|apply Pl; exact Ix].
  destruct (var_y code =? 0); [|destruct (var_y code =? 255); [|exact I]]; apply Pl; unfold crex_modest; cbn; rewrite ?La; auto 10.
Qed.

Lemma plain_r code delayed body x : Inv x -> (forall y, Inv y -> sure (body y) Inv) ->
  sure (r_replication V T body code delayed x) Inv.
Proof.
  destruct x as [st s]. intros [Ix G] Hb. cbn [fst snd] in *. unfold r_replication. apply sure_bind with (P := fun r => ce_lt (snd r) = ce_lt s).
  { destruct (var_y code =? 0); [|reflexivity]. eapply sure_bind; [apply query_sure|]. intros i (e & Ie & <-). apply plain_factor.
    intros _. apply (proj1 (Forall_forall _ _) HT e Ie). }
  intros [n s1] E. cbn [snd] in E. apply sure_repeat; [exact Hb|]. split; [exact Ix|]. cbn [snd]. rewrite E. exact G.
Qed.

Lemma plain_subset_sure fuel ops s : modest_template T ops -> good (ce_lt s) -> sure (run V T fuel ops (ist_init, s)) (fun x => good (ce_lt (snd x))).
Proof.
  intros A G. apply sure_weaken with (P := Inv); [|intros x [_ X]; exact X].
  apply run_sure with (allowed := appears T ops).
  - intros code x _ _. apply plain_b.
  - intros code next x F C _ Ix. apply plain_c; auto.
  - intros code delayed body x _ _. apply plain_r.
  - intros code delayed ops' x _ P [Ix _]. destruct Ix as (_ & _ & _ & _ & Pe & _). contradiction.
  - apply appears_inside.
  - apply appears_here.
  - split; [|exact G]. unfold crex_modest, ist_init. cbn. repeat split; lia.
Qed.
End Plain.

Definition made_for_206 (lt : localtables) : Prop := Forall (fun q => vi_type (snd q) = TBinary) (lt_unknown lt).
Lemma plain_csubsets_sure o T fuel ops : crex_definitions (tb_b T) -> modest_template T ops ->
  forall subsets first lt c, Forall (Forall made_var) subsets -> Forall (Forall (fun v => written_value (v_cell v))) subsets -> made_for_206 lt ->
  sure (encode_csubsets o T fuel ops first subsets lt c) any.
Proof.
  intros HT A. induction subsets as [|vars rest IH]; intros first lt c F W G; cbn [encode_csubsets]; [exact I|].
  inversion F as [|? ? F1 F2]; subst. inversion W as [|? ? W1 W2]; subst. cbv zeta.
  eapply sure_bind; [apply plain_subset_sure; eauto|]. intros [st s] G'. apply IH; auto.
Qed.

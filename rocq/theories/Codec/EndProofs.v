(** No function of the decoders runs for ever: with enough fuel the templates end. *)
From Coq Require Import ZifyBool ZifyNat.
From Verif Require Import Base Bits.Model Num.Float Varcode.Model Varinfo.Model Tables.Model Tables.Spec Tables.Proofs
  Var.Model Interp.Model Interp.Spec Interp.ExpandProofs Interp.FuelProofs Codec.Model Codec.Compressed.
Local Open Scope Z_scope.

(** [EFuel] stands for "still running". *)
Definition ended {A} (m : res A) : Prop := m <> Err EFuel.

Lemma ended_bind {A B} (m : res A) (k : A -> res B) : ended m -> (forall a, m = Ok a -> ended (k a)) -> ended (bind m k).
Proof. unfold ended. destruct m; cbn [bind]; intros H1 H2; auto; congruence. Qed.

Definition not_fuel (e : err) : bool := match e with EFuel => false | _ => true end.
Definition outcome_ended {A} (r : outcome A) : Prop := match r with Thrown e _ => not_fuel e = true | _ => True end.

Lemma of_outcome_ended {A} (r : outcome A) : outcome_ended r -> ended (of_outcome r).
Proof. destruct r as [a|e c|]; unfold ended; cbn [of_outcome outcome_ended]; intros H; try discriminate. intros [= ->]. discriminate. Qed.

Ltac en_step :=
  match goal with
  | |- ended (Ok _) => discriminate
  | |- ended UB => discriminate
  | |- ended (Err _) => discriminate
  | |- ended (bind _ _) => apply ended_bind; [|intros ? _]
  | |- ended (of_outcome _) => apply of_outcome_ended
  | |- ended (let (_, _) := ?x in _) => destruct x
  | |- ended (if ?b then _ else _) => destruct b
  | |- ended (match ?x with _ => _ end) => destruct x
  | |- outcome_ended (Done _) => exact I
  | |- outcome_ended Undef => exact I
  | |- outcome_ended (Thrown _ _) => reflexivity
  | |- outcome_ended (let (_, _) := ?x in _) => destruct x
  | |- outcome_ended (if ?b then _ else _) => destruct b
  | |- outcome_ended (match ?x with _ => _ end) => destruct x
  end.
Ltac en := repeat (cbv zeta; en_step || (solve [eauto with ended])).

(** Hooks on invalid values end too. *)
Definition options_end (o : options) : Prop :=
  match o_hook o with None => True | Some h => forall c v, outcome_ended (h c v) end.

#[global] Hint Extern 1 (ended (Ok _)) => discriminate : ended.

Lemma find_code_ended codes code : ended (find_code codes code).
Proof. destruct (find_code_spec codes code) as (r & -> & _). discriminate. Qed.
#[global] Hint Resolve find_code_ended : ended.

Lemma query_ended t code : ended (query t code).
Proof. unfold query, query_entry, entry_at. en. Qed.
Lemma contains_ended t code : ended (contains t code).
Proof. unfold contains, query_entry. en. Qed.
Lemma dexpand_ended d code : ended (dexpand d code).
Proof. unfold dexpand, dquery. en. Qed.
Lemma scales_ended i : ended (scales i).
Proof. unfold scales. en. Qed.
#[global] Hint Resolve query_ended contains_ended dexpand_ended scales_ended : ended.
Lemma decode_decimal_ended s v : ended (decode_decimal s v).
Proof. unfold decode_decimal. en. Qed.
Lemma decode_binary_ended i v : ended (decode_binary i v).
Proof. unfold decode_binary. en. Qed.
Lemma int_checked_ended z : ended (int_checked z).
Proof. unfold int_checked. en. Qed.
Lemma intexp10_ended z : ended (intexp10 z).
Proof. unfold intexp10. en. Qed.
#[global] Hint Resolve decode_decimal_ended decode_binary_ended int_checked_ended intexp10_ended : ended.
Lemma compute_range_ended c t u s l r b : ended (compute_range c t u s l r b).
Proof. unfold compute_range, compute_irange. en. Qed.
#[global] Hint Resolve compute_range_ended : ended.
Lemma alter_checked_ended i s b r : ended (alter_checked i s b r).
Proof. unfold alter_checked, alter_info, digits_per_bits. en. Qed.
#[global] Hint Resolve alter_checked_ended : ended.
Lemma expected_ended t r : ended (expected t r).
Proof. unfold expected. en. Qed.
#[global] Hint Resolve expected_ended : ended.
Lemma get_varinfo_ended t st code : ended (get_varinfo t st code).
Proof. unfold get_varinfo. en. Qed.
#[global] Hint Resolve get_varinfo_ended : ended.
Lemma get_bitmap_ended l c b : ended (get_bitmap l c b).
Proof. unfold get_bitmap, set_string. en. Qed.
Lemma get_chardata_ended l c b : ended (get_chardata l c b).
Proof. unfold get_chardata, set_string. en. Qed.
Lemma get_unknown_ended l c b : ended (get_unknown l c b).
Proof. unfold get_unknown, set_binary. en. Qed.
#[global] Hint Resolve get_bitmap_ended get_chardata_ended get_unknown_ended : ended.

(** ** Bits *)

Lemma read_at_ended d i : ended (read_at d i).
Proof. unfold read_at. en. Qed.
#[global] Hint Resolve read_at_ended : ended.
Lemma pull_ended i : ended (pull_bit i).
Proof. unfold pull_bit. en. Qed.
#[global] Hint Resolve pull_ended : ended.
Lemma get_bits_loop_ended n : forall r i, ended (get_bits_loop n r i).
Proof. induction n as [|n IH]; intros r i; cbn [get_bits_loop]; en. Qed.
#[global] Hint Resolve get_bits_loop_ended : ended.
Lemma get_bits_ended n i : ended (get_bits n i).
Proof. unfold get_bits. en. Qed.
Lemma all_ones_ended n : ended (all_ones n).
Proof. unfold all_ones. en. Qed.
Lemma shl1_ended p k : ended (shl1 p k).
Proof. unfold shl1. en. Qed.
#[global] Hint Resolve get_bits_ended all_ones_ended shl1_ended : ended.
Lemma read_chars_ended fuel : forall n i, (n <= fuel)%nat -> ended (read_chars fuel n i).
Proof.
  induction fuel as [|k IH]; intros n i L; cbn [read_chars].
  - replace n with 0%nat by lia. discriminate.
  - destruct (Nat.eqb_spec n 0); en. apply IH. destruct (Nat.ltb_spec 8 n); lia.
Qed.
Lemma string_raw_ended n i : ended (decode_string_raw n i).
Proof. unfold decode_string_raw. pose proof (read_chars_ended n n i (le_n n)). en. Qed.
Lemma binary_raw_ended n i : ended (decode_binary_raw n i).
Proof. unfold decode_binary_raw. pose proof (read_chars_ended n n i (le_n n)). en. Qed.
#[global] Hint Resolve string_raw_ended binary_raw_ended : ended.

(** ** Values *)

Section Options.
Context (o : options) (O : options_end o).

Lemma hook_ended h c v : o_hook o = Some h -> outcome_ended (h c v).
Proof. intros E. unfold options_end in O. rewrite E in O. apply O. Qed.

Lemma assign_i_ended c v : outcome_ended (assign_i_checked o c v).
Proof. unfold assign_i_checked. destruct (o_hook o) eqn:E; en. all: apply hook_ended; auto. Qed.
Lemma store_d_ended c v : outcome_ended (store_d c v).
Proof. unfold store_d. en. Qed.
Lemma assign_d_ended c v : outcome_ended (assign_d_checked o c v).
Proof. pose proof (fun x => store_d_ended c x). unfold assign_d_checked. destruct (o_hook o) eqn:E; en. all: auto using hook_ended. Qed.
Lemma seti_ended c v : outcome_ended (seti o c v).
Proof. unfold seti. pose proof (assign_i_ended c v). en. Qed.
Lemma setd_ended c v : outcome_ended (setd o c v).
Proof. pose proof (fun x => assign_i_ended c x). pose proof (assign_d_ended c v). unfold setd. en. Qed.
Lemma set_number_ended c s : outcome_ended (set_number o c s).
Proof.
  pose proof (fun x => assign_i_ended c x). unfold set_number. destruct (negb _); [exact I|].
  en. all: auto.
Qed.
Lemma assign_c_ended c b n : outcome_ended (assign_c_checked c b n).
Proof. unfold assign_c_checked. cbv zeta. destruct (strncpy_str b _); exact I. Qed.
Lemma assign_b_ended c b n : outcome_ended (assign_b_checked c b n).
Proof. unfold assign_b_checked. en. Qed.
Lemma setc_ended c b : outcome_ended (setc o c b).
Proof. unfold setc. destruct (vi_type _); auto using assign_c_ended, assign_b_ended, set_number_ended. Qed.
Lemma sets_ended c b : outcome_ended (sets o c b).
Proof. unfold sets. destruct (vi_type _); auto using assign_c_ended, assign_b_ended, set_number_ended. Qed.
Lemma enqi_ended c : ended (enqi c).
Proof. unfold enqi. en. Qed.
Hint Resolve seti_ended setd_ended setc_ended sets_ended enqi_ended : ended.

Lemma af_code_ended s : ended (af_code s).
Proof. unfold af_code. en. Qed.
Hint Resolve af_code_ended : ended.
Lemma make_attribute_ended t skip b s v : ended (make_attribute o t skip b s v).
Proof. unfold make_attribute. en. Qed.
Lemma enqc_ended c : ended (enqc c).
Proof. unfold enqc, int32_to_str, uint32_to_str. en. Qed.
Hint Resolve enqc_ended : ended.
Lemma bitmap_chars_ended c : ended (bitmap_chars c).
Proof. unfold bitmap_chars. en. Qed.
Lemma decode_number_ended i inp : ended (decode_number o i inp).
Proof. unfold decode_number. en. Qed.
Hint Resolve make_attribute_ended bitmap_chars_ended decode_number_ended : ended.
Lemma decode_value_ended i inp : ended (decode_value o i inp).
Proof. unfold decode_value. en. Qed.
Hint Resolve decode_value_ended : ended.
Lemma read_bytes_ended n : forall inp, ended (read_bytes n inp).
Proof. induction n as [|n IH]; intros inp; cbn [read_bytes]; en. Qed.
Lemma read_bitmap_ended n : forall inp, ended (read_bitmap n inp).
Proof. induction n as [|n IH]; intros inp; cbn [read_bitmap]; en. Qed.
Hint Resolve read_bytes_ended read_bitmap_ended : ended.

(** ** Visitors *)

Record visitor_ends {S} (V : visitor S) : Prop := {
  en_var : forall i s, ended (on_var V i s);
  en_var_af : forall b g i s, ended (on_var_af V b g i s);
  en_factor : forall i s, ended (on_factor V i s);
  en_bitmap_factor : forall i s, ended (on_bitmap_factor V i s);
  en_significance : forall i s, ended (on_significance V i s);
  en_subst : forall p s, ended (on_subst V p s);
  en_attr : forall i p s, ended (on_attr V i p s);
  en_raw : forall c s, ended (on_raw V c s);
  en_refval : forall b c s, ended (on_refval V b c s);
  en_bitmap : forall p n s, ended (on_bitmap V p n s);
  en_unknown : forall c b s, ended (on_unknown V c b s) }.

Lemma decoder_ends T skip : visitor_ends (decoder o T skip).
Proof.
  assert (A : forall i p s, ended (d_attr o i p s)) by (intros; unfold d_attr; en).
  constructor; intros; cbn [decoder on_var on_var_af on_factor on_bitmap_factor on_significance on_subst on_attr on_raw on_refval
    on_bitmap on_unknown]; unfold d_var, d_var_af, d_factor, d_bitmap_factor, d_significance, d_subst, d_raw, d_refval, d_bitmap, d_unknown;
    en.
Qed.

Lemma raw_number_ended i v : ended (raw_number o i v).
Proof. unfold raw_number. en. Qed.
Lemma comp_base_ended i inp : ended (comp_base i inp).
Proof. unfold comp_base. en. Qed.
Hint Resolve raw_number_ended comp_base_ended : ended.
Lemma comp_diff_ended i b w inp : ended (comp_diff o i b w inp).
Proof. unfold comp_diff. en. Qed.
Hint Resolve comp_diff_ended : ended.
Lemma comp_diffs_ended i b w n : forall inp, ended (comp_diffs o i b w n inp).
Proof. induction n as [|n IH]; intros inp; cbn [comp_diffs]; en. Qed.
Hint Resolve comp_diffs_ended : ended.
Lemma comp_numbers_ended i n inp : ended (comp_numbers o i n inp).
Proof. unfold comp_numbers. en. Qed.
Lemma comp_text_ended i b inp : ended (comp_text o i b inp).
Proof. unfold comp_text. en. Qed.
Hint Resolve comp_numbers_ended comp_text_ended : ended.
Lemma comp_texts_ended i b n : forall inp, ended (comp_texts o i b n inp).
Proof. induction n as [|n IH]; intros inp; cbn [comp_texts]; en. Qed.
Hint Resolve comp_texts_ended : ended.
Lemma comp_values_ended i n inp : ended (comp_values o i n inp).
Proof. unfold comp_values, comp_strings. en. Qed.
Lemma value_equals_ended a b : ended (value_equals a b).
Proof. unfold value_equals. en. Qed.
Hint Resolve comp_values_ended value_equals_ended : ended.
Lemma var_equals_ended a b : ended (var_equals (mkvar a []) (mkvar b [])).
Proof. unfold var_equals. cbn [v_cell v_attrs chain_equals]. en. Qed.
Hint Resolve var_equals_ended : ended.
Lemma same_texts_ended i b f n : forall inp, ended (comp_same_texts o i b f n inp).
Proof. induction n as [|n IH]; intros inp; cbn [comp_same_texts]; en. Qed.
Hint Resolve same_texts_ended : ended.
Lemma comp_uniform_ended i n inp : ended (comp_uniform o i n inp).
Proof. unfold comp_uniform, comp_same_string, comp_semantic. en. Qed.
Lemma comp_fields_ended T skip b g x w n : forall inp, ended (comp_fields o T skip b g x w n inp).
Proof. induction n as [|n IH]; intros inp; cbn [comp_fields]; en. Qed.
Lemma attach_ended p vs c : ended (attach p vs c).
Proof. unfold attach. en. Qed.
Hint Resolve comp_uniform_ended comp_fields_ended attach_ended : ended.
Lemma attach_all_ended p subs : forall cs, ended (attach_all p subs cs).
Proof. induction subs as [|vs subs IH]; intros [|c cs]; cbn [attach_all]; en. Qed.
Lemma comp_bitmap_ended n : forall inp, ended (comp_bitmap n inp).
Proof. induction n as [|n IH]; intros inp; cbn [comp_bitmap]; en. Qed.
Hint Resolve attach_all_ended comp_bitmap_ended : ended.

Lemma cdecoder_ends T skip : visitor_ends (cdecoder o T skip).
Proof.
  assert (A : forall i p s, ended (k_attr o i p s)) by (intros; unfold k_attr; en).
  constructor; intros; cbn [cdecoder on_var on_var_af on_factor on_bitmap_factor on_significance on_subst on_attr on_raw on_refval
    on_bitmap on_unknown]; unfold k_var_af, k_factor, k_bitmap_factor, k_significance, k_subst, k_raw, k_refval, k_bitmap, k_unknown,
    k_var, comp_numbers_af; en.
Qed.

(** ** Templates *)

Section Run.
Context {S : Type} (V : visitor S) (E : visitor_ends V) (T : tables).

Lemma bitmaps_next_ended st : ended (bitmaps_next st).
Proof. unfold bitmaps_next. en. Qed.
Lemma bitmap_walk_ended codes r : forall n, ended (bitmap_walk codes r n).
Proof. induction r as [|b r IH]; intros n; cbn [bitmap_walk]; en. Qed.
Hint Resolve bitmaps_next_ended bitmap_walk_ended : ended.
Lemma define_ended st codes bits : ended (bitmaps_define st codes bits).
Proof.
  unfold bitmaps_define. assert (M : ended (make_bitmap codes bits)) by (unfold make_bitmap; en).
  destruct (make_bitmap codes bits); try discriminate. destruct (is_cur st); [discriminate|]. unfold ended in *. congruence.
Qed.
Hint Resolve define_ended : ended.
Hint Resolve (en_var V E) (en_var_af V E) (en_factor V E) (en_bitmap_factor V E) (en_significance V E) (en_subst V E)
  (en_attr V E) (en_raw V E) (en_refval V E) (en_bitmap V E) (en_unknown V E) : ended.

Lemma b_variable_ended c x : ended (b_variable V T c x).
Proof. unfold b_variable. en. Qed.
Lemma c_modifier_ended c next x : ended (c_modifier V T c next x).
Proof. unfold c_modifier, pop_left. destruct x. cbv zeta. en. Qed.
Lemma r_bitmap_ended c d ops x : ended (r_bitmap V T c d ops x).
Proof. unfold r_bitmap. en. Qed.
Lemma repeat_ended {A} (f : A -> res A) : (forall a, ended (f a)) -> forall n a, ended (repeat_m n f a).
Proof. intros H. induction n as [|n IH]; intros a; cbn [repeat_m]; en. Qed.
Lemma r_replication_ended body c d x : (forall y, ended (body y)) -> ended (r_replication V T body c d x).
Proof. intros H. unfold r_replication. pose proof (repeat_ended body H). en. Qed.
End Run.

End Options.

(** [done T N ops] : fuel [N] is enough for [ops]. *)
Definition done (T : tables) (N : nat) (ops : list Z) : Prop :=
  forall (S : Type) (V : visitor S) k x, visitor_ends V -> (N <= k)%nat -> ended (run V T k ops x).

Section Fuel.
Context (T : tables).

Lemma list_done : forall n ops, (length ops <= n)%nat ->
  (forall d body, In d ops -> var_f d = 3 -> dexpand (tb_d T) d = Ok body -> exists N, done T N body) ->
  exists N, done T N ops.
Proof.
  induction n as [|n IH]; intros ops L D.
  - destruct ops; [|cbn in L; lia]. exists 1%nat. intros S V [|k] x _ Lk; [lia|]. discriminate.
  - destruct ops as [|cur rest]. { exists 1%nat. intros S V [|k] x _ Lk; [lia|]. discriminate. }
    assert (Sub : forall l, (length l <= n)%nat -> incl l rest -> exists N, done T N l).
    { intros l Ll Il. apply IH; auto. intros d body Hd. apply D. right. apply Il. exact Hd. }
    cbn [length] in L.
    destruct (Sub rest ltac:(lia) (incl_refl _)) as (N1 & S1).
    destruct (Sub (tl rest) ltac:(destruct rest; cbn in *; lia) ltac:(destruct rest; [apply incl_refl|apply incl_tl, incl_refl])) as (N2 & S2).
    destruct (delayed_code cur rest) as [delayed rest1] eqn:Dc.
    assert (I1 : incl rest1 rest /\ (length rest1 <= length rest)%nat).
    { apply delayed_code_cases in Dc as [(_ & _ & ->)|[(_ & _ & ->)|(_ & _ & -> & _)]]; split; auto using incl_refl, incl_tl. cbn. lia. }
    destruct I1 as [I1 L1].
    destruct (Sub (firstn (Z.to_nat (var_x cur)) rest1)) as (N3 & S3).
    { rewrite firstn_length. lia. }
    { intros z Hz. apply I1. rewrite <- (firstn_skipn (Z.to_nat (var_x cur))). apply in_app_iff. auto. }
    destruct (Sub (skipn (Z.to_nat (var_x cur)) rest1)) as (N4 & S4).
    { rewrite skipn_length. lia. }
    { intros z Hz. apply I1. rewrite <- (firstn_skipn (Z.to_nat (var_x cur))). apply in_app_iff. auto. }
    assert (S5 : exists N5, forall body, var_f cur = 3 -> dexpand (tb_d T) cur = Ok body -> done T N5 body).
    { destruct (Z.eqb_spec (var_f cur) 3) as [F|F]; [|exists 0%nat; intros; contradiction].
      destruct (dexpand (tb_d T) cur) as [body| |] eqn:X; [|exists 0%nat; discriminate|exists 0%nat; discriminate].
      destruct (D cur body (or_introl eq_refl) F X) as (N5 & H5). exists N5. intros body' _ [= <-]. exact H5. }
    destruct S5 as (N5 & S5). set (M := (N1 + N2 + N3 + N4 + N5)%nat). exists (S M).
    intros S V [|k] x E Lk; [lia|]. cbn [run]. cbv zeta.
    destruct (Z.eqb_spec (var_f cur) 0) as [|F0].
    { apply ended_bind; [apply b_variable_ended; auto|]. intros y _. apply S1; auto; lia. }
    destruct (Z.eqb_spec (var_f cur) 1) as [|F1].
    { rewrite Dc. destruct (Nat.ltb (length rest1) (Z.to_nat (var_x cur))); [discriminate|].
      apply ended_bind.
      - destruct (is_pending (fst x) =? 0); [|apply r_bitmap_ended; auto]. apply r_replication_ended; auto.
        intros y. apply S3; auto; lia.
      - intros y _. apply S4; auto; lia. }
    destruct (Z.eqb_spec (var_f cur) 2) as [|F2].
    { apply ended_bind; [apply c_modifier_ended; auto|]. intros [[r st] s] C.
      destruct (c_modifier_rest _ _ _ _ _ _ _ _ C) as [-> | ->]; [apply S1|apply S2]; auto; lia. }
    apply ended_bind; [apply dexpand_ended|]. intros body X. pose proof (var_f_range cur) as R.
    apply ended_bind; [|intros y _; apply S1; auto; lia]. apply (S5 body ltac:(lia) X); auto; lia.
Qed.

Theorem template_done ops : well_founded (within T) -> exists N, done T N ops.
Proof.
  intros W.
  assert (D : forall d body, var_f d = 3 -> dexpand (tb_d T) d = Ok body -> exists N, done T N body).
  { intros d. induction d as [d IH] using (well_founded_induction W). intros body F X.
    apply (list_done (length body)); auto. intros e b He Fe Xe. apply (IH e); auto. split; auto. exists body. auto. }
  apply (list_done (length ops)); auto. intros d body _. apply D.
Qed.
End Fuel.

(** ** The data of a message *)

Theorem decoding_ends o T skip ops : options_end o -> well_founded (within T) ->
  exists N, forall fuel n lt inp, (N <= fuel)%nat ->
    (decode_subsets o T skip fuel ops n lt inp = decode_subsets o T skip N ops n lt inp /\
     ended (decode_subsets o T skip fuel ops n lt inp)) /\
    decode_compressed o T skip fuel ops n lt inp = decode_compressed o T skip N ops n lt inp /\
    ended (decode_compressed o T skip fuel ops n lt inp).
Proof.
  intros O W. destruct (template_done T ops W) as (N1 & D). destruct (template_settles T ops W) as (N2 & P).
  exists (N1 + N2)%nat. intros fuel n lt inp L.
  assert (R1 : forall S (V : visitor S) x, run V T fuel ops x = run V T (N1 + N2) ops x)
    by (intros S V x; rewrite (P S V fuel), (P S V (N1 + N2)%nat) by lia; reflexivity).
  assert (R2 : forall S (V : visitor S) x, visitor_ends V -> ended (run V T fuel ops x)) by (intros S V x E; apply D; auto; lia).
  split.
  - revert lt inp. induction n as [|n IH]; intros lt inp; cbn [decode_subsets]; [split; [auto|discriminate]|].
    rewrite <- R1. pose proof (R2 _ (decoder o T skip) (ist_init, mkdec inp [] lt) (decoder_ends o O T skip)) as E.
    destruct (run (decoder o T skip) T fuel ops (ist_init, mkdec inp [] lt)) as [[st s]|e|]; cbn [bind]; [|split; [auto|unfold ended in *; congruence]|split; [auto|discriminate]].
    destruct (IH (d_lt s) (d_in s)) as [<- E2]. split; [auto|].
    destruct (decode_subsets o T skip fuel ops n (d_lt s) (d_in s)) as [[[a b] c]|e|]; cbn [bind]; unfold ended in *; congruence.
  - unfold decode_compressed. rewrite <- R1. split; [reflexivity|].
    apply ended_bind; [apply R2, cdecoder_ends; auto|]. intros [st s] _. discriminate.
Qed.

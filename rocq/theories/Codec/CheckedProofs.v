(** The decoder and the decoder with checks agree unless one of the checks throws. *)
From Verif Require Import Base Bits.Model Num.Float Varcode.Model Varinfo.Model Tables.Model
  Var.Model Interp.Model Codec.Model Codec.Compressed Codec.Checked Codec.CheckedComp.
Local Open Scope Z_scope.

Definition agree {A} (m m' : res A) : Prop := m' = Err EEof \/ m' = Err EAlloc \/ m = m'.

Lemma agree_refl {A} (m : res A) : agree m m.
Proof. right. right. reflexivity. Qed.
Lemma agree_bind {A B} (m m' : res A) (k k' : A -> res B) : agree m m' -> (forall a, agree (k a) (k' a)) ->
  agree (bind m k) (bind m' k').
Proof. intros [->|[->| ->]] K; [left; reflexivity|right; left; reflexivity|]. destruct m'; cbn [bind]; [apply K|apply agree_refl|apply agree_refl]. Qed.

Ltac agree_step :=
  match goal with
  | |- agree ?m ?m => apply agree_refl
  | |- agree (bind _ _) (bind _ _) => apply agree_bind; [|intros ?]
  | |- agree (let (_, _) := ?x in _) _ => destruct x
  | |- agree (if ?b then _ else _) _ => destruct b
  | |- agree (match ?x with _ => _ end) _ => destruct x
  end.
Ltac ag := repeat (cbv zeta; first [solve [eauto with agree] | agree_step]).

Lemma bits_agree n i : agree (get_bits n i) (take_bits n i).
Proof. unfold take_bits. destruct (Nat.ltb (unread_bits i) n); [left|right; right]; reflexivity. Qed.
#[local] Hint Resolve bits_agree : agree.

Lemma chars_agree : forall fuel n i, agree (read_chars fuel n i) (ck_read_chars fuel n i).
Proof. induction fuel as [|k IH]; intros n i; cbn [read_chars ck_read_chars]; ag. Qed.
#[local] Hint Resolve chars_agree : agree.

Lemma string_agree n i : agree (decode_string_raw n i) (ck_decode_string_raw n i).
Proof. unfold decode_string_raw, ck_decode_string_raw. ag. Qed.
Lemma binary_agree n i : agree (decode_binary_raw n i) (ck_decode_binary_raw n i).
Proof. unfold decode_binary_raw, ck_decode_binary_raw. ag. Qed.
#[local] Hint Resolve string_agree binary_agree : agree.

Lemma bytes_agree : forall n i, agree (read_bytes n i) (ck_read_bytes n i).
Proof. induction n as [|k IH]; intros i; cbn [read_bytes ck_read_bytes]; ag. Qed.
Lemma bitmap_bits_agree : forall n i, agree (read_bitmap n i) (ck_read_bitmap n i).
Proof. induction n as [|k IH]; intros i; cbn [read_bitmap ck_read_bitmap]; ag. Qed.
#[local] Hint Resolve bytes_agree bitmap_bits_agree : agree.

(** ** Templates *)
Section Run.
Context {S : Type} (V W : visitor S) (T : tables).
Context (H1 : forall i s, agree (on_var V i s) (on_var W i s)).
Context (H2 : forall b g i s, agree (on_var_af V b g i s) (on_var_af W b g i s)).
Context (H3 : forall i s, agree (on_factor V i s) (on_factor W i s)).
Context (H4 : forall i s, agree (on_bitmap_factor V i s) (on_bitmap_factor W i s)).
Context (H5 : forall i s, agree (on_significance V i s) (on_significance W i s)).
Context (H6 : forall p s, agree (on_subst V p s) (on_subst W p s)).
Context (H7 : forall i p s, agree (on_attr V i p s) (on_attr W i p s)).
Context (H8 : forall c s, agree (on_raw V c s) (on_raw W c s)).
Context (H9 : forall b c s, agree (on_refval V b c s) (on_refval W b c s)).
Context (H10 : forall p n s, agree (on_bitmap V p n s) (on_bitmap W p n s)).
Context (H11 : forall c b s, agree (on_unknown V c b s) (on_unknown W c b s)).

Lemma repeat_agree {A} (f g : A -> res A) : (forall a, agree (f a) (g a)) -> forall n a, agree (repeat_m n f a) (repeat_m n g a).
Proof. intros F. induction n as [|n IH]; intros a; cbn [repeat_m]; [apply agree_refl|]. apply agree_bind; auto. Qed.

Lemma run_agree : forall fuel ops x, agree (run V T fuel ops x) (run W T fuel ops x).
Proof.
  induction fuel as [|k IH]; intros ops [st s]; [apply agree_refl|]. destruct ops as [|cur rest]; [apply agree_refl|]. cbn [run].
  destruct (var_f cur =? 0).
  { apply agree_bind; [unfold b_variable; ag|]. intros a. apply IH. }
  destruct (var_f cur =? 1).
  { destruct (delayed_code cur rest) as [d rest1]. cbv zeta. destruct (Nat.ltb _ _); [apply agree_refl|].
    apply agree_bind; [|intros a; apply IH]. cbn [fst]. destruct (is_pending st =? 0); [unfold r_replication|unfold r_bitmap].
    - apply agree_bind; [ag|]. intros [n s1]. apply repeat_agree. intros a. apply IH.
    - ag. }
  destruct (var_f cur =? 2).
  { apply agree_bind; [|intros [[r st'] s']; apply IH]. unfold c_modifier, pop_left. ag. }
  apply agree_bind; [apply agree_refl|]. intros body. apply agree_bind; [apply IH|]. intros a. apply IH.
Qed.
End Run.

Section Decoder.
Context (o : options) (T : tables) (skip : bool).

Lemma number_agree i inp : agree (decode_number o i inp) (ck_decode_number o i inp).
Proof. unfold decode_number, ck_decode_number. ag. Qed.
#[local] Hint Resolve number_agree : agree.
Lemma value_agree i inp : agree (decode_value o i inp) (ck_decode_value o i inp).
Proof. unfold decode_value, ck_decode_value. ag. Qed.
#[local] Hint Resolve value_agree : agree.
Lemma attr_agree i p s : agree (d_attr o i p s) (ck_attr o i p s).
Proof. unfold d_attr, ck_attr. ag. Qed.
#[local] Hint Resolve attr_agree : agree.

Lemma decoder_agree fuel ops x : agree (run (decoder o T skip) T fuel ops x) (run (ck_decoder o T skip) T fuel ops x).
Proof.
  apply run_agree; intros; cbn [decoder ck_decoder on_var on_var_af on_factor on_bitmap_factor on_significance on_subst on_attr on_raw on_refval on_bitmap on_unknown].
  - unfold d_var, ck_var. ag.
  - unfold d_var_af, ck_var_af. ag.
  - unfold d_factor, ck_factor. ag.
  - unfold d_bitmap_factor, ck_bitmap_factor. ag.
  - unfold d_significance, ck_significance. ag.
  - unfold d_subst, ck_subst. ag.
  - ag.
  - unfold d_raw, ck_raw. ag.
  - unfold d_refval, ck_refval. ag.
  - unfold d_bitmap, ck_bitmap. do 3 (apply agree_bind; [ag|intros ?; repeat match goal with |- agree (let (_, _) := ?x in _) _ => destruct x end]).
    cbv zeta. apply agree_bind; [ag|]. intros bits. destruct (usable_bitmap _ bits); [apply agree_refl|right; left; reflexivity].
  - ag.
Qed.

Lemma subsets_agree fuel ops : forall n lt inp,
  agree (decode_subsets o T skip fuel ops n lt inp) (ck_subsets o T skip fuel ops n lt inp).
Proof.
  induction n as [|n IH]; intros lt inp; [apply agree_refl|]. cbn [decode_subsets ck_subsets].
  apply agree_bind; [apply decoder_agree|]. intros [st s]. apply agree_bind; [apply IH|]. intros a. apply agree_refl.
Qed.
End Decoder.

(** ** Compressed data *)
Section CDecoder.
Context (o : options) (T : tables) (skip : bool).

Lemma base_agree i inp : agree (comp_base i inp) (kk_base i inp).
Proof. unfold comp_base, kk_base. ag. Qed.
Lemma diff_agree i base width inp : agree (comp_diff o i base width inp) (kk_diff o i base width inp).
Proof. unfold comp_diff, kk_diff. destruct (32 <? width); [right; left; reflexivity|]. ag. Qed.
#[local] Hint Resolve base_agree diff_agree : agree.
Lemma diffs_agree i base width : forall n inp, agree (comp_diffs o i base width n inp) (kk_diffs o i base width n inp).
Proof. induction n as [|n IH]; intros inp; cbn [comp_diffs kk_diffs]; ag. Qed.
#[local] Hint Resolve diffs_agree : agree.
Lemma numbers_agree i n inp : agree (comp_numbers o i n inp) (kk_numbers o i n inp).
Proof. unfold comp_numbers, kk_numbers. ag. Qed.
Lemma text_agree i bits inp : agree (comp_text o i bits inp) (kk_text o i bits inp).
Proof. unfold comp_text, kk_text. ag. Qed.
#[local] Hint Resolve numbers_agree text_agree : agree.
Lemma texts_agree i bits : forall n inp, agree (comp_texts o i bits n inp) (kk_texts o i bits n inp).
Proof. induction n as [|n IH]; intros inp; cbn [comp_texts kk_texts]; ag. Qed.
#[local] Hint Resolve texts_agree : agree.
Lemma strings_agree i n inp : agree (comp_strings o i n inp) (kk_strings o i n inp).
Proof. unfold comp_strings, kk_strings. ag. Qed.
#[local] Hint Resolve strings_agree : agree.
Lemma values_agree i n inp : agree (comp_values o i n inp) (kk_values o i n inp).
Proof. unfold comp_values, kk_values. ag. Qed.
Lemma semantic_agree i inp : agree (comp_semantic o i inp) (kk_semantic o i inp).
Proof. unfold comp_semantic, kk_semantic. ag. Qed.
Lemma same_texts_agree i bits c : forall n inp, agree (comp_same_texts o i bits c n inp) (kk_same_texts o i bits c n inp).
Proof. induction n as [|n IH]; intros inp; cbn [comp_same_texts kk_same_texts]; ag. Qed.
#[local] Hint Resolve values_agree semantic_agree same_texts_agree : agree.
Lemma same_string_agree i n inp : agree (comp_same_string o i n inp) (kk_same_string o i n inp).
Proof. unfold comp_same_string, kk_same_string. ag. Qed.
#[local] Hint Resolve same_string_agree : agree.
Lemma uniform_agree i n inp : agree (comp_uniform o i n inp) (kk_uniform o i n inp).
Proof. unfold comp_uniform, kk_uniform. ag. Qed.
Lemma fields_agree bits sig base width : forall n inp,
  agree (comp_fields o T skip bits sig base width n inp) (kk_fields o T skip bits sig base width n inp).
Proof. induction n as [|n IH]; intros inp; cbn [comp_fields kk_fields]; ag. Qed.
#[local] Hint Resolve uniform_agree fields_agree : agree.
Lemma numbers_af_agree bits sig i n inp : agree (comp_numbers_af o T skip bits sig i n inp) (kk_numbers_af o T skip bits sig i n inp).
Proof. unfold comp_numbers_af, kk_numbers_af. ag. Qed.
Lemma comp_bitmap_agree : forall n inp, agree (comp_bitmap n inp) (kk_read_bitmap n inp).
Proof. induction n as [|n IH]; intros inp; cbn [comp_bitmap kk_read_bitmap]; ag. Qed.
#[local] Hint Resolve numbers_af_agree comp_bitmap_agree : agree.
Lemma k_var_agree i s : agree (k_var o i s) (kk_var o i s).
Proof. unfold k_var, kk_var. ag. Qed.
Lemma k_attr_agree i p s : agree (k_attr o i p s) (kk_attr o i p s).
Proof. unfold k_attr, kk_attr. ag. Qed.
#[local] Hint Resolve k_var_agree k_attr_agree : agree.

Lemma compressed_agree fuel ops n lt inp :
  agree (decode_compressed o T skip fuel ops n lt inp) (kk_subsets o T skip fuel ops n lt inp).
Proof.
  unfold decode_compressed, kk_subsets. apply agree_bind; [|intros a; apply agree_refl].
  apply run_agree; intros; cbn [cdecoder kk_decoder on_var on_var_af on_factor on_bitmap_factor on_significance on_subst on_attr on_raw on_refval on_bitmap on_unknown].
  - ag.
  - unfold k_var_af, kk_var_af. ag.
  - unfold k_factor, kk_factor. ag.
  - unfold k_bitmap_factor, kk_bitmap_factor. ag.
  - unfold k_significance, kk_significance. ag.
  - unfold k_subst, kk_subst. ag.
  - ag.
  - ag.
  - ag.
  - unfold k_bitmap, kk_bitmap. do 3 (apply agree_bind; [ag|intros ?; repeat match goal with |- agree (let (_, _) := ?x in _) _ => destruct x end]).
    cbv zeta. apply agree_bind; [ag|]. intros bits. destruct (push_all _ _) as [|vars ?]; [apply agree_refl|].
    destruct (usable_bitmap _ bits); [apply agree_refl|right; left; reflexivity].
  - ag.
Qed.
End CDecoder.

(** Whole messages, telling or not. *)
From Coq Require Import ZArith Lia ZifyBool ZifyNat String.
From Verif Require Import Base Bits.Model Num.Float Varcode.Model Varinfo.Model Varinfo.RangeProofs Tables.Model Tables.Spec Tables.Proofs Tables.LoadProofs
  Var.Model Var.Spec Var.AttrProofs Var.FormatSpec Var.Format Interp.Model Interp.Hom Interp.SureProofs Interp.ExpandProofs Interp.Holds
  Codec.Model Codec.Compressed Codec.CompressedProofs Codec.ColumnProofs Codec.StepProofs Codec.AgainSteps Codec.AgainProperties Codec.Sound Codec.SoundProofs Codec.SoundRuns
  Message.Model Listing.Model Verbose.Model Verbose.Proofs Verbose.Runs.
Local Open Scope Z_scope.

Section Same.
Context (fixed : nat -> f64 -> list Z) (full : varinfo -> list Z) (path : list Z) (o : options) (HO : hook_ok o) (T : tables)
  (HT : table_ok (tb_b T)) (HD : defs_ok (tb_b T)) (skip : bool).

Lemma marks_init n : marks ist_init n.
Proof. split; discriminate. Qed.

(** What was decoded, without the text. *)
Definition no_text {A} (x : A * list Z) : A := fst x.

Lemma rmap_ok {A B} (f : A -> B) m b : rmap f m = Ok b -> exists a, m = Ok a /\ f a = b.
Proof. destruct m as [a| |]; cbn; try discriminate. intros E. apply same_ok in E. exists a. split; [reflexivity|exact E]. Qed.

Lemma tell_one fuel ops inp lt : locals_ok lt ->
  rmap snd (tell full path (one_by_one fixed o T skip) T fuel ops (mkdec inp [] lt)) =
  rmap snd (run (decoder o T skip) T fuel ops (ist_init, mkdec inp [] lt)).
Proof.
  intros L. unfold tell.
  pose proof (one_by_one_agree fixed full path o HO T HT HD skip fuel ops ist_init (mktelling 0 [] (mkdec inp [] lt)) calm_init (marks_init _)
    (conj (Forall_nil _) L)) as H. cbn [te_s] in H. rewrite <- H.
  destruct (walk _ T fuel ops _) as [[st w]| |]; reflexivity.
Qed.
Lemma tell_one_keeps fuel ops inp lt t s : locals_ok lt ->
  tell full path (one_by_one fixed o T skip) T fuel ops (mkdec inp [] lt) = Ok (t, s) -> locals_ok (d_lt s).
Proof.
  intros L E. pose proof (tell_one fuel ops inp lt L) as H. rewrite E in H. cbn [rmap snd] in H.
  destruct (run _ T fuel ops _) as [[st s']| |] eqn:R; try discriminate. cbn [rmap snd] in H. apply same_ok in H. change (s = s') in H. rewrite <- H in R.
  pose proof (decoder_keeps o HO T HT HD skip fuel ops _ (mkdec inp [] lt) _ _ (conj (Forall_nil _) L) calm_init R) as [[_ K] _]. exact K.
Qed.

Lemma tell_subsets_same fuel ops : forall n lt inp, locals_ok lt ->
  rmap no_text (tell_subsets fixed full path o T skip fuel ops n lt inp) = decode_subsets o T skip fuel ops n lt inp.
Proof.
  induction n as [|n IH]; intros lt inp L; cbn [tell_subsets decode_subsets]; [reflexivity|].
  pose proof (tell_one fuel ops inp lt L) as H. pose proof (tell_one_keeps fuel ops inp lt) as K.
  destruct (tell _ _ _ T fuel ops _) as [[t s]| |]; destruct (run _ T fuel ops _) as [[st s']| |]; cbn [rmap snd] in H; try discriminate; cbn [bind];
    try (injection H as <-; reflexivity); try reflexivity.
  apply same_ok in H. change (s = s') in H. rewrite <- H. specialize (K t s L eq_refl). rewrite <- (IH _ _ K).
  destruct (tell_subsets _ _ _ _ _ _ _ _ n _ _) as [[[[rest lt'] inp'] u]| |]; reflexivity.
Qed.

Lemma tell_compressed_same fuel ops n lt inp : (0 < n)%nat -> locals_ok lt ->
  rmap no_text (tell_compressed fixed full path o T skip fuel ops n lt inp) = decode_compressed o T skip fuel ops n lt inp.
Proof.
  intros Hn L. unfold tell_compressed, decode_compressed, tell.
  assert (HL : levelled o (mkcdec inp (repeat [] n) lt)).
  { split; [split; [apply repeat_all; constructor|exact L]|]. cbn [k_subs]. split; [destruct n; [lia|discriminate]|].
    destruct n as [|n]; [lia|]. cbn [hd repeat]. apply Forall_forall. intros l [<-|I]; [reflexivity|]. apply repeat_spec in I. subst. reflexivity. }
  pose proof (together_agree fixed full path o HO T HT HD skip fuel ops ist_init (mktelling 0 [] (mkcdec inp (repeat [] n) lt)) calm_init (marks_init _) HL) as H.
  cbn [te_s] in H. rewrite <- H. destruct (walk _ T fuel ops _) as [[st w]| |]; reflexivity.
Qed.

Lemma tell_data_same fuel d l : 0 <= l_expected l -> rmap no_text (tell_data fixed full path o T skip fuel d l) = decode_data o T skip fuel d l.
Proof.
  intros Hl. unfold tell_data, decode_data. destruct (l_expected l =? 0) eqn:E0; [reflexivity|].
  assert (HH : rmap no_text (if l_compression l
     then tell_compressed fixed full path o T skip fuel (l_datadesc l) (Z.to_nat (l_expected l)) empty_local (mkin d (s4 (l_sections l) + 4) 0 0)
     else tell_subsets fixed full path o T skip fuel (l_datadesc l) (Z.to_nat (l_expected l)) empty_local (mkin d (s4 (l_sections l) + 4) 0 0)) =
    (if l_compression l
     then decode_compressed o T skip fuel (l_datadesc l) (Z.to_nat (l_expected l)) empty_local (mkin d (s4 (l_sections l) + 4) 0 0)
     else decode_subsets o T skip fuel (l_datadesc l) (Z.to_nat (l_expected l)) empty_local (mkin d (s4 (l_sections l) + 4) 0 0))).
  { destruct (l_compression l); [|apply tell_subsets_same, C48_no_local_definitions].
    apply tell_compressed_same; [lia|apply C48_no_local_definitions]. }
  rewrite <- HH. clear HH.
  match goal with |- rmap _ (bind ?m _) = _ => destruct m as [[[[subs lt] inp] t]| |] end; cbn [bind rmap no_text fst]; [|reflexivity|reflexivity].
  destruct (Nat.ltb (length d) (s5 (l_sections l) + 4)); [reflexivity|].
  destruct (zlist_is d (s5 (l_sections l)) _) as [ok| |]; [|reflexivity|reflexivity]. cbn [bind]. destruct ok; reflexivity.
Qed.
End Same.

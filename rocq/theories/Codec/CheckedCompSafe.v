(** The checked decoder of compressed data has no undefined behaviour on tame templates. *)
From Coq Require Import ZArith Lia ZifyBool ZifyNat Reals.
From Flocq Require Import BinarySingleNaN.
From Verif Require Import Base Bits.Model Bits.Spec Bits.Proofs Num.Float Num.FloatProofs Varcode.Model Varinfo.Model Varinfo.Proofs
  Varinfo.RangeProofs Tables.Model Tables.Spec Tables.Proofs Tables.AlterProofs Tables.LoadProofs Var.Model Var.Spec Var.Proofs Var.CodecProofs
  Interp.Model Interp.Appears Interp.SureProofs Codec.Model Codec.Proofs Codec.Compressed Codec.Checked Codec.CheckedComp Codec.StepProofs Codec.CheckedSafe.
Local Open Scope Z_scope.

(** ** Columns *)
Definition column (i : varinfo) (n : nat) (cs : list cell) : Prop := length cs = n /\ Forall (kept (fresh i)) cs.

Lemma column_repeat i n c : kept (fresh i) c -> column i n (repeat c n).
Proof. intros K. split; [apply repeat_length|]. apply Forall_forall. intros x I. apply repeat_spec in I as ->. exact K. Qed.
Lemma column_cons i n c cs : kept (fresh i) c -> column i n cs -> column i (S n) (c :: cs).
Proof. intros K [L F]. split; [cbn; lia|constructor; assumption]. Qed.

Section Column.
Context (o : options) (HO : hook_safe o).

Definition numeric_info (i : varinfo) : Prop := info_ok i /\ is_numeric (vi_type i) = true /\ 1 <= vi_bit_len i <= 32.

Lemma raw_sure i v : numeric_info i -> 0 <= v < 2 ^ 32 -> sure (raw_number o i v) (kept (fresh i)).
Proof.
  intros (Hi & Ht & Hb) Hv. unfold raw_number. destruct (info_ok_numeric _ Hi Ht) as (Hs & _). pose proof Hi as [_ Hr _ _ _ _].
  destruct (decode_binary_ok i v) as (d & -> & Fd & Ed); auto; try lia. cbn [bind]. eapply setd_sure; eauto. unfold int_min, int_max in Hr. lia.
Qed.

Lemma ones_sure i : numeric_info i -> sure (all_ones (bit_len_nat i)) (fun _ => True).
Proof. intros (_ & _ & Hb). apply all_ones_sure. unfold bit_len_nat. lia. Qed.

Ltac take F := eapply sure_bind; [apply take_bits_sure; exact F|].

Lemma base_sure i inp : numeric_info i -> fine inp ->
  sure (kk_base i inp) (fun r => fine (snd r) /\ 0 <= snd (fst (fst r)) < 2 ^ 32 /\ 0 <= snd (fst r) < 2 ^ 32).
Proof.
  intros N F. unfold kk_base. take F. intros [b inp1] (F1 & Hb & _). eapply sure_bind; [apply ones_sure; exact N|]. intros ones _.
  cbn [fst snd] in *. take F1. intros [wd inp2] (F2 & Hw & _). cbn [fst snd] in *. destruct (_ && _); [exact I|]. cbn. auto.
Qed.

Lemma diff_sure i base width inp : numeric_info i -> 1 <= width -> fine inp ->
  sure (kk_diff o i base width inp) (fun r => kept (fresh i) (fst r) /\ fine (snd r)).
Proof.
  intros N W F. unfold kk_diff. destruct (Z.ltb_spec 32 width); [exact I|]. take F. intros [d inp1] (F1 & Hd & _). cbn [fst snd] in *.
  eapply sure_bind; [apply ones_sure; exact N|]. intros ones _. eapply sure_bind; [apply all_ones_sure; lia|]. intros dones _.
  destruct (_ || _); [split; [apply kept_fresh|exact F1]|]. cbv zeta. destruct (_ =? ones); [split; [apply kept_fresh|exact F1]|].
  eapply sure_bind; [apply raw_sure; [exact N|apply u32_range]|]. intros c K. split; [exact K|exact F1].
Qed.

Lemma diffs_sure i base width : numeric_info i -> 1 <= width -> forall n inp, fine inp ->
  sure (kk_diffs o i base width n inp) (fun r => column i n (fst r) /\ fine (snd r)).
Proof.
  intros N W. induction n as [|n IH]; intros inp F; cbn [kk_diffs]; [split; [split; [reflexivity|constructor]|exact F]|].
  eapply sure_bind; [apply diff_sure; auto|]. intros [c inp1] [K F1]. cbn [fst snd] in *. eapply sure_bind; [apply IH; exact F1|].
  intros [cs inp2] [C F2]. split; [apply column_cons; assumption|exact F2].
Qed.

Lemma numbers_sure i n inp : numeric_info i -> fine inp ->
  sure (kk_numbers o i n inp) (fun r => column i n (fst (fst r)) /\ fine (snd r)).
Proof.
  intros N F. unfold kk_numbers. eapply sure_bind; [apply base_sure; auto|]. intros [[[m b] wd] inp1] (F1 & Hb & Hw). cbn [fst snd] in *.
  destruct m; [split; [apply column_repeat, kept_fresh|exact F1]|]. destruct (Z.eqb_spec wd 0).
  - eapply sure_bind; [apply raw_sure; auto|]. intros c K. split; [apply column_repeat; exact K|exact F1].
  - eapply sure_bind; [apply diffs_sure; auto; lia|]. intros [cs inp2] [C F2]. split; [exact C|exact F2].
Qed.

(** Texts *)
Definition textual (i : varinfo) (c : cell) : Prop := c_info c = i /\ (c_val c = None \/ exists s, c_val c = Some (VStr s)).
Lemma textual_kept i c : vi_type i = TString -> textual i c -> kept (fresh i) c.
Proof. intros T [E [V|[s V]]]; (split; [|exact E]); unfold shaped; rewrite V; [exact I|]. rewrite E, T. reflexivity. Qed.

Lemma raw_text_sure bits inp : fine inp -> sure (ck_decode_string_raw bits inp) (fun r => fine (snd r)).
Proof.
  intros F. unfold ck_decode_string_raw. eapply sure_bind; [apply chars_sure; [apply le_n|exact F]|]. intros [cs i1] (F1 & _). cbn [snd] in F1.
  match goal with |- context [if ?b then _ else _] => destruct b end; exact F1.
Qed.

Lemma set_text_sure i s : vi_type i = TString -> sure (of_outcome (setc o (fresh i) (s ++ [0]))) (textual i).
Proof. intros T. rewrite setc_string by exact T. split; [reflexivity|]. right. eexists. reflexivity. Qed.
Lemma textual_fresh i : textual i (fresh i).
Proof. split; [reflexivity|]. left. reflexivity. Qed.

Lemma text_sure i bits inp : vi_type i = TString -> fine inp -> sure (kk_text o i bits inp) (fun r => textual i (fst r) /\ fine (snd r)).
Proof.
  intros T F. unfold kk_text. eapply sure_bind; [apply raw_text_sure; exact F|]. intros [r inp1] F1. cbn [snd] in F1.
  destruct r as [s|]; [|split; [apply textual_fresh|exact F1]]. eapply sure_bind; [apply set_text_sure; exact T|]. intros c C. split; [exact C|exact F1].
Qed.

Lemma texts_sure i bits : vi_type i = TString -> forall n inp, fine inp -> sure (kk_texts o i bits n inp) (fun r => column i n (fst r) /\ fine (snd r)).
Proof.
  intros T. induction n as [|n IH]; intros inp F; cbn [kk_texts]; [split; [split; [reflexivity|constructor]|exact F]|].
  eapply sure_bind; [apply text_sure; auto|]. intros [c inp1] [K F1]. cbn [fst snd] in *. eapply sure_bind; [apply IH; exact F1|].
  intros [cs inp2] [C F2]. split; [apply column_cons; [apply textual_kept|]; assumption|exact F2].
Qed.

Lemma strings_sure i n inp : vi_type i = TString -> fine inp -> sure (kk_strings o i n inp) (fun r => column i n (fst r) /\ fine (snd r)).
Proof.
  intros T F. unfold kk_strings. eapply sure_bind; [apply raw_text_sure; exact F|]. intros [r inp1] F1. cbn [snd] in F1.
  take F1. intros [wd inp2] (F2 & _). cbn [fst snd] in *. destruct (wd =? 0).
  - destruct r as [s|]; [|split; [apply column_repeat, kept_fresh|exact F2]]. eapply sure_bind; [apply set_text_sure; exact T|].
    intros c C. split; [apply column_repeat, textual_kept; assumption|exact F2].
  - destruct (_ <? _); [exact I|]. apply texts_sure; assumption.
Qed.

Lemma readable_numeric i : readable i -> vi_type i = TInteger \/ vi_type i = TDecimal -> numeric_info i.
Proof. unfold readable, numeric_info. intros R [E|E]; rewrite E in *; (split; [apply R|split; [reflexivity|apply R]]). Qed.

Lemma values_sure i n inp : readable i -> fine inp -> sure (kk_values o i n inp) (fun r => column i n (fst r) /\ fine (snd r)).
Proof.
  intros R F. unfold kk_values. destruct (vi_type i) eqn:T.
  - eapply sure_bind; [apply numbers_sure; [apply readable_numeric; auto|exact F]|]. intros [[cs b] inp1] [C F1]. split; [exact C|exact F1].
  - eapply sure_bind; [apply numbers_sure; [apply readable_numeric; auto|exact F]|]. intros [[cs b] inp1] [C F1]. split; [exact C|exact F1].
  - apply strings_sure; assumption.
  - exact I.
Qed.

Lemma semantic_sure i inp : numeric_info i -> fine inp -> sure (kk_semantic o i inp) (fun r => kept (fresh i) (fst r) /\ fine (snd r)).
Proof.
  intros N F. unfold kk_semantic. take F. intros [b inp1] (F1 & Hb & _). eapply sure_bind; [apply ones_sure; exact N|]. intros ones _.
  cbn [fst snd] in *. take F1. intros [wd inp2] (F2 & _). cbn [fst snd] in *. destruct (negb (wd =? 0)); [exact I|].
  destruct (b =? ones); [split; [apply kept_fresh|exact F2]|]. eapply sure_bind; [apply raw_sure; auto|]. intros c K. split; [exact K|exact F2].
Qed.

Lemma equal_sure i a b : vi_type i = TString -> textual i a -> textual i b -> sure (var_equals (mkvar a []) (mkvar b [])) (fun _ => True).
Proof.
  intros T [Ea Va] [Eb Vb]. unfold var_equals. cbn [v_cell v_attrs chain_equals]. destruct (negb _); [exact I|]. unfold value_equals. rewrite Ea, T.
  destruct Va as [->|[s ->]], Vb as [->|[s' ->]]; cbn; try exact I. destruct (list_eqb s s'); exact I.
Qed.

Lemma same_texts_sure i bits c : vi_type i = TString -> textual i c -> forall n inp, fine inp -> sure (kk_same_texts o i bits c n inp) fine.
Proof.
  intros T C. induction n as [|n IH]; intros inp F; cbn [kk_same_texts]; [exact F|].
  eapply sure_bind; [apply text_sure; auto|]. intros [c' inp1] [K F1]. cbn [fst snd] in *. eapply sure_bind; [eapply equal_sure; eauto|].
  intros e _. destruct e; [apply IH; exact F1|exact I].
Qed.

Lemma same_string_sure i n inp : vi_type i = TString -> fine inp -> sure (kk_same_string o i n inp) (fun r => kept (fresh i) (fst r) /\ fine (snd r)).
Proof.
  intros T F. unfold kk_same_string. eapply sure_bind; [apply raw_text_sure; exact F|]. intros [r inp1] F1. cbn [snd] in F1.
  take F1. intros [wd inp2] (F2 & _). cbn [fst snd] in *. destruct (wd =? 0).
  - destruct r as [s|]; [|split; [apply kept_fresh|exact F2]]. eapply sure_bind; [apply set_text_sure; exact T|].
    intros c C. split; [apply textual_kept; assumption|exact F2].
  - destruct (_ <? _); [exact I|]. eapply sure_bind; [apply text_sure; auto|]. intros [c inp3] [K F3]. cbn [fst snd] in *.
    eapply sure_bind; [apply same_texts_sure; eauto|]. intros inp4 F4. split; [apply textual_kept; assumption|exact F4].
Qed.

Lemma uniform_sure i n inp : readable i -> fine inp -> sure (kk_uniform o i n inp) (fun r => kept (fresh i) (fst r) /\ fine (snd r)).
Proof.
  intros R F. unfold kk_uniform. destruct (vi_type i) eqn:T.
  - apply semantic_sure; [apply readable_numeric; auto|exact F].
  - apply semantic_sure; [apply readable_numeric; auto|exact F].
  - apply same_string_sure; assumption.
  - exact I.
Qed.
End Column.

(** ** The visitor *)
Definition csize (s : cdec) : nat := match k_subs s with [] => 0%nat | vars :: _ => length vars end.
Definition subs_fine (n : nat) (subs : list (list var)) : Prop := Forall (fun vars => vars_fine vars /\ length vars = n) subs.
Definition cdec_fine (s : cdec) : Prop :=
  fine (k_in s) /\ local_fine (k_lt s) /\ k_subs s <> [] /\ subs_fine (csize s) (k_subs s).
Local Notation grown := (StepProofs.grown cdec_fine csize).

Lemma push_fine vs : forall n subs, length vs = length subs -> Forall (fun v => readable (c_info (v_cell v))) vs -> subs_fine n subs ->
  subs_fine (S n) (push_all subs vs) /\ length (push_all subs vs) = length subs.
Proof.
  intros n subs L R F. unfold push_all. split; [|rewrite map_length, combine_length; lia]. unfold subs_fine.
  revert vs L R. induction F as [|vars subs [V1 V2] F IH]; intros [|v vs] L R; try discriminate; cbn; constructor.
  - inversion R; subst. split; [apply Forall_app; split; [exact V1|constructor; [assumption|constructor]]|]. rewrite app_length. cbn. lia.
  - inversion R; subst. apply IH; [cbn in L; lia|assumption].
Qed.

Lemma pushed inp lt vs s : fine inp -> local_fine lt -> cdec_fine s -> length vs = ksize s -> Forall (fun v => readable (c_info (v_cell v))) vs ->
  grown s (mkcdec inp (push_all (k_subs s) vs) lt) /\ csize (mkcdec inp (push_all (k_subs s) vs) lt) = S (csize s).
Proof.
  intros F L (_ & _ & N & S0) Lv R. destruct (push_fine vs _ _ Lv R S0) as [S1 L1].
  assert (E : csize (mkcdec inp (push_all (k_subs s) vs) lt) = S (csize s)).
  { unfold csize at 1. cbn [k_subs]. destruct (push_all (k_subs s) vs) as [|v0 r] eqn:P; [destruct (k_subs s); [congruence|discriminate]|].
    inversion S1 as [|? ? [_ X] _]; subst. exact X. }
  split; [|exact E]. split; [|lia]. unfold cdec_fine. cbn [k_in k_lt]. split; [exact F|]. split; [exact L|]. rewrite E. cbn [k_subs]. split; [|exact S1].
  intros X. rewrite X in L1. destruct (k_subs s); [congruence|discriminate].
Qed.

Lemma column_readable i n cs : readable i -> column i n cs -> Forall (fun v => readable (c_info (v_cell v))) (map (fun c => mkvar c []) cs).
Proof. intros R [_ F]. apply Forall_map. eapply Forall_impl; [|exact F]. cbv beta. intros c [_ E]. cbn [v_cell]. rewrite E. exact R. Qed.

Lemma push_column i cs inp s : readable i -> column i (ksize s) cs -> fine inp -> cdec_fine s -> grown s (k_push cs inp s).
Proof.
  intros R C F D. unfold k_push. apply pushed; auto; [apply D|rewrite map_length; apply C|eapply column_readable; eauto].
Qed.

Section Subset.
Context (o : options) (HO : hook_safe o) (T : tables) (skip : bool).

Lemma kvar_sure i s : readable i -> cdec_fine s -> sure (kk_var o i s) (grown s).
Proof.
  intros R D. unfold kk_var. eapply sure_bind; [apply values_sure; auto; apply D|]. intros [cs inp] [C F]. eapply push_column; eauto.
Qed.

Lemma fields_sure bits sig base width : 1 <= bits <= 32 -> forall n inp, fine inp ->
  sure (kk_fields o T skip (Z.to_nat bits) sig base width n inp) (fun r => length (fst r) = n /\ fine (snd r)).
Proof.
  intros B. induction n as [|n IH]; intros inp F; cbn [kk_fields]; [split; [reflexivity|exact F]|].
  eapply sure_bind; [apply take_bits_sure; exact F|]. intros [d inp1] (F1 & _). cbn [snd] in F1.
  eapply sure_bind; [apply attribute_sure; auto|]. intros a _. eapply sure_bind; [apply IH; exact F1|]. intros [l inp2] [L F2].
  split; [cbn in *; lia|exact F2].
Qed.

Lemma give_length k : forall l attrs, length (give_fields k attrs l) = length l.
Proof. induction l as [|a l IH]; intros attrs; cbn [give_fields length]; [reflexivity|]. rewrite IH. reflexivity. Qed.

Lemma numbers_af_sure bits sig i n inp : 1 <= bits <= 32 -> numeric_info i -> readable i -> fine inp ->
  sure (kk_numbers_af o T skip bits sig i n inp) (fun r => (length (fst r) = n /\ Forall (fun v => readable (c_info (v_cell v))) (fst r)) /\ fine (snd r)).
Proof.
  intros B N R F. unfold kk_numbers_af. eapply sure_bind; [apply take_bits_sure; exact F|]. intros [ab inp1] (F1 & _). cbn [fst snd] in *.
  eapply sure_bind; [apply take_bits_sure; exact F1|]. intros [aw inp2] (F2 & _). cbn [fst snd] in *.
  eapply sure_bind; [apply all_ones_sure; lia|]. intros ones _. destruct (ab =? ones).
  - eapply sure_bind; [apply numbers_sure; auto|]. intros [[cs k] inp3] [C F3]. cbn [fst snd] in *.
    split; cbn [fst snd]; [split; [rewrite map_length; apply C|eapply column_readable; eauto]|exact F3].
  - eapply sure_bind; [apply fields_sure; auto|]. intros [afs inp3] [La F3]. cbn [fst snd] in *.
    eapply sure_bind; [apply numbers_sure; auto|]. intros [[cs k] inp4] [[Lc C] F4]. cbn [fst snd] in *.
    cbn [sure fst snd]. split; [|exact F4]. split; [rewrite map_length, combine_length, give_length; lia|]. apply Forall_map, Forall_forall. intros [c l] Ic.
    cbn [fst snd v_cell]. apply in_combine_l in Ic. rewrite Forall_forall in C. destruct (C _ Ic) as [_ ->]. exact R.
Qed.

Lemma kvar_af_sure bits sig i s : 1 <= bits <= 32 -> readable i -> cdec_fine s -> sure (kk_var_af o T skip bits sig i s) (grown s).
Proof.
  intros B R D. unfold kk_var_af. destruct (vi_type i) eqn:Ti; [| |apply kvar_sure; assumption|exact I].
  - eapply sure_bind; [apply numbers_af_sure; auto; [apply readable_numeric; auto|apply D]|]. intros [vs inp] [[L Rv] F]. apply pushed; auto. apply D.
  - eapply sure_bind; [apply numbers_af_sure; auto; [apply readable_numeric; auto|apply D]|]. intros [vs inp] [[L Rv] F]. apply pushed; auto. apply D.
Qed.

Lemma kfactor_sure i s : readable i -> cdec_fine s -> sure (kk_factor o i s) (fun r => grown s (snd r)).
Proof.
  intros R D. unfold kk_factor. eapply sure_bind; [apply uniform_sure; auto; apply D|]. intros [c inp] [K F]. cbn [fst snd] in *.
  eapply sure_bind; [apply enqi_sure; apply K|]. intros n _. eapply push_column; eauto. apply column_repeat. exact K.
Qed.

Lemma ksignificance_sure i s : readable i -> cdec_fine s -> sure (kk_significance o i s) (fun r => grown s (snd r)).
Proof.
  intros R D. unfold kk_significance. eapply sure_bind; [apply uniform_sure; auto; apply D|]. intros [c inp] [K F]. cbn [fst snd] in *.
  apply sure_bind with (P := fun _ => True); [destruct (isset c); [apply enqi_sure; apply K|exact I]|]. intros n _. eapply push_column; eauto. apply column_repeat. exact K.
Qed.

Lemma kbitmap_factor_sure i s : readable i -> cdec_fine s -> sure (kk_bitmap_factor o i s) (fun r => grown s (snd r)).
Proof.
  intros R D. unfold kk_bitmap_factor. eapply sure_bind; [apply uniform_sure; auto; apply D|]. intros [c inp] [K F]. cbn [fst snd] in *.
  eapply sure_bind; [apply enqi_sure; apply K|]. intros n _. destruct D as (_ & L & N & S0). split; [split; [exact F|split; [exact L|split; assumption]]|apply le_n].
Qed.

Lemma attach_sure p n vars c : (p < n)%nat -> vars_fine vars /\ length vars = n -> sure (attach p vars c) (fun v => vars_fine v /\ length v = n).
Proof.
  intros P [V L]. unfold attach. destruct (negb (isset c)); [split; assumption|].
  destruct (nth_error vars p) as [v|] eqn:N; [|apply nth_error_None in N; lia]. apply nth_error_In in N. pose proof (proj1 (Forall_forall _ _) V v N) as Rv.
  split; [apply update_forall; [exact V|exact Rv]|rewrite update_length; exact L].
Qed.

Lemma attach_all_sure p n : (p < n)%nat -> forall subs cs, length cs = length subs -> subs_fine n subs ->
  sure (attach_all p subs cs) (fun r => subs_fine n r /\ length r = length subs).
Proof.
  intros P subs. induction subs as [|vars subs IH]; intros [|c cs] L F; try discriminate; cbn [attach_all]; [split; [constructor|reflexivity]|].
  inversion F; subst. eapply sure_bind; [apply attach_sure; eauto|]. intros v Hv. eapply sure_bind; [apply IH; [cbn in L; lia|assumption]|].
  intros r [F1 L1]. split; [constructor; assumption|cbn; lia].
Qed.

Lemma kattr_sure i p s : readable i -> (p < csize s)%nat -> cdec_fine s -> sure (kk_attr o i p s) (grown s).
Proof.
  intros R P D. pose proof D as (_ & L & N & S0). unfold kk_attr. eapply sure_bind; [apply values_sure; auto; apply D|]. intros [cs inp] [[Lc C] F]. cbn [fst snd] in *.
  eapply sure_bind; [apply attach_all_sure; eauto|]. intros subs [S1 L1].
  assert (N1 : subs <> []) by (intros ->; destruct (k_subs s); [congruence|discriminate]).
  assert (E : csize (mkcdec inp subs (k_lt s)) = csize s).
  { unfold csize at 1. cbn [k_subs]. destruct subs; [congruence|]. inversion S1 as [|? ? [_ X] _]; subst. exact X. }
  split; [|lia]. unfold cdec_fine. rewrite E. auto.
Qed.

Lemma ksubst_sure p s : (p < csize s)%nat -> cdec_fine s -> sure (kk_subst o p s) (grown s).
Proof.
  intros P D. pose proof D as (_ & _ & N & S0). unfold kk_subst. unfold csize in P. destruct (k_subs s) as [|vars subs] eqn:E; [congruence|].
  destruct (nth_error vars p) as [v|] eqn:Nv; [|apply nth_error_None in Nv; lia]. apply nth_error_In in Nv. inversion S0 as [|? ? [V _] _]; subst.
  apply kattr_sure; [apply (proj1 (Forall_forall _ _) V v Nv)|unfold csize; rewrite E; exact P|exact D].
Qed.

Lemma kunknown_sure code bits s : 1 <= bits -> cdec_fine s -> sure (k_unknown code bits s) (fun r => readable (fst r) /\ grown s (snd r)).
Proof.
  intros B (F & L & N & S0).
  assert (D : dec_fine (mkdec (k_in s) [] (k_lt s))) by (split; [exact F|split; [exact L|constructor]]).
  pose proof (unknown_sure code bits _ B D) as H. unfold k_unknown. unfold d_unknown in H. cbn [d_lt d_in] in H.
  destruct (get_unknown (k_lt s) code bits) as [[i lt]|e|]; cbn [bind sure fst snd] in *; auto. destruct H as [R [(_ & L1 & _) _]].
  split; [exact R|]. split; [split; [exact F|split; [exact L1|split; assumption]]|apply le_n].
Qed.

Lemma kraw_sure code s : sure (k_raw code s) (grown s).
Proof.
  unfold k_raw. apply sure_bind with (P := fun _ => True); [|intros; exact I]. unfold get_chardata. destruct (assoc Z.eqb code _); [destruct (negb _); exact I|].
  destruct (set_string code (var_y code)) eqn:E; try exact I. discriminate.
Qed.

Lemma kbits_sure : forall n i, fine i ->
  sure (kk_read_bitmap n i) (fun r => fine (snd r) /\ length (fst r) = n /\ Forall (fun c => c <> 0) (fst r)).
Proof.
  induction n as [|n IH]; intros i F; cbn [kk_read_bitmap]; [split; [exact F|split; [reflexivity|constructor]]|].
  eapply sure_bind; [apply take_bits_sure; exact F|]. intros [c i1] (F1 & _). cbn [snd] in *.
  eapply sure_bind; [apply take_bits_sure; exact F1|]. intros [wd i2] (F2 & _). cbn [snd] in *. destruct (negb (wd =? 0)); [exact I|].
  eapply sure_bind; [apply IH; exact F2|]. intros [cs i3] (F3 & L2 & N2). cbn [fst snd] in *.
  split; [exact F3|]. split; [cbn; lia|]. constructor; [destruct (c =? 0); lia|exact N2].
Qed.

Lemma kbitmap_sure pending size s : cdec_fine s -> sure (kk_bitmap o pending size s)
  (fun r => grown s (snd r) /\ usable_bitmap (fst (fst r)) (snd (fst r)) = true /\ length (fst (fst r)) = csize (snd r)).
Proof.
  intros D. pose proof D as (F & (L0 & L1 & L2) & N & S0). unfold kk_bitmap. eapply sure_bind; [apply kbits_sure; exact F|]. intros [chars inp] (F1 & Lc & Nc). cbn [fst snd] in *.
  apply sure_bind with (P := fun r => (vi_type (fst r) = TString /\ vi_len (fst r) = Z.of_nat (length chars)) /\ local_fine (snd r)).
  { unfold get_bitmap. destruct (assoc zlist_eqb chars (lt_bitmaps (k_lt s))) as [i|] eqn:E.
    - destruct (negb (vi_code i =? pending)); [exact I|]. split; [|split; [|split]; assumption].
      apply assoc_bits in E. rewrite Forall_forall in L0. apply (L0 _ E).
    - destruct (set_string pending (Z.of_nat (length chars))) as [i|e|] eqn:Sb; cbn [bind sure]; [|exact I|discriminate]. apply string_info in Sb as [Ti Tl].
      split; [auto|]. split; [constructor; [auto|exact L0]|]. split; assumption. }
  intros [i lt] [[Ti Tl] Lt]. cbn [fst snd] in *. rewrite sets_string by exact Ti. cbn [of_outcome bind]. cbv zeta.
  cbn [fresh c_info]. assert (Ei : ilen i = length chars) by (unfold ilen; rewrite Tl; lia).
  rewrite Ei, cstr_whole, firstn_all by exact Nc.
  apply sure_bind with (P := fun _ => True).
  { destruct (vi_len i =? 0); [exact I|]. unfold bitmap_chars, enqc. cbn [with_val fresh c_val c_info]. rewrite Ti. cbn [bind].
    rewrite Ei, app_length. replace (Nat.ltb (length chars + length [0%Z]) (length chars)) with false by (symmetry; apply Nat.ltb_ge; lia). exact I. }
  intros bits _. set (vs := repeat _ (ksize s)).
  assert (Rv : Forall (fun v => readable (c_info (v_cell v))) vs).
  { apply Forall_forall. intros v Iv. apply repeat_spec in Iv as ->. cbn. unfold readable. rewrite Ti. exact I. }
  destruct (pushed inp lt vs s F1 Lt D (repeat_length _ _) Rv) as [G _].
  destruct (push_all (k_subs s) vs) as [|v0 r] eqn:P; [destruct G as [(_ & _ & X & _) _]; exact (X eq_refl)|].
  destruct (usable_bitmap (codes_of v0) bits) eqn:U; [|exact I]. cbn [sure fst snd]. split; [exact G|]. split; [exact U|].
  unfold codes_of, csize. cbn [k_subs]. apply map_length.
Qed.

Lemma column_run_sure fuel ops s : tame T ops -> cdec_fine s -> sure (run (kk_decoder o T skip) T fuel ops (ist_init, s)) (fun x => cdec_fine (snd x)).
Proof.
  intros (w & Hw & HW & H12 & H21) D. apply sure_weaken with (P := run_fine cdec_fine csize w); [|intros x [_ X]; exact X].
  apply template_sure with (good := cdec_fine) (size := csize) (w := w); auto;
    cbn [kk_decoder on_var on_var_af on_factor on_bitmap_factor on_significance on_subst on_attr on_raw on_refval on_bitmap on_unknown]; intros.
  - apply kvar_sure; auto.
  - apply kvar_af_sure; auto.
  - apply kfactor_sure; auto.
  - apply kbitmap_factor_sure; auto.
  - apply ksignificance_sure; auto.
  - apply ksubst_sure; auto.
  - apply kattr_sure; auto.
  - apply kraw_sure.
  - exact I.
  - apply kbitmap_sure; auto.
  - apply kunknown_sure; auto.
Qed.
End Subset.

Lemma compressed_sure o T skip fuel ops n lt inp : hook_safe o -> tame T ops -> (0 < n)%nat -> fine inp -> local_fine lt ->
  sure (kk_subsets o T skip fuel ops n lt inp) (fun _ => True).
Proof.
  intros HO Ht N F L. unfold kk_subsets. eapply sure_bind; [eapply column_run_sure; eauto|intros [st s] _; exact I].
  destruct n as [|n]; [lia|]. split; [exact F|]. split; [exact L|]. split; [discriminate|]. cbn [k_subs csize repeat length].
  apply Forall_forall. intros vars Iv. change ([] :: repeat [] n) with (repeat (@nil var) (S n)) in Iv. apply repeat_spec in Iv as ->. split; [constructor|reflexivity].
Qed.

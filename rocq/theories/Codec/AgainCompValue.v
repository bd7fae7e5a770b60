(** What decoding a column gives can be written in the fields, one by one. *)
From Coq Require Import ZArith Lia ZifyBool ZifyNat.
From Verif Require Import Base Bits.Model Bits.Spec Bits.Proofs Bits.StringProofs Num.Float
  Varcode.Model Varinfo.Model Varinfo.Proofs Varinfo.RangeProofs Tables.Model Tables.AlterProofs Tables.LoadProofs Var.Model Var.Spec
  Var.Proofs Var.AttrProofs Var.CodecProofs Interp.Model Codec.Model Codec.Compressed Codec.Spec Codec.ValueProofs Codec.Proofs Codec.ColumnProofs
  Codec.Again Codec.AgainValue Codec.AgainComp Codec.Sound Codec.SoundProofs.
Local Open Scope Z_scope.

Section Value.
Context (o : options) (HO : strict_options o) (p : shift_policy).

Definition reads (i : varinfo) (c : cell) : Prop :=
  c_info c = i /\ (roomy i -> neat p i (c_val c) -> inside i (c_val c) -> field_ok p i (c_val c) = true).

Lemma strict_hook : hook_ok o.
Proof. destruct HO as (_ & _ & H). unfold hook_ok. rewrite H. exact I. Qed.

Lemma fresh_reads i : reads i (fresh i).
Proof.
  split; [reflexivity|]. cbn [fresh c_val]. unfold roomy, neat, inside, field_ok. destruct (vi_type i) eqn:Ty; cbn [is_numeric].
  - intros R _ N. rewrite (N eq_refl). cbn [negb]. lia.
  - intros R _ N. rewrite (N eq_refl). cbn [negb]. lia.
  - intros R [N| ->] _; lia.
  - intros R N _. lia.
Qed.

Lemma number_reads i raw c : info_ok i -> is_numeric (vi_type i) = true -> raw_number o i raw = Ok c -> reads i c.
Proof.
  intros K N E. unfold raw_number in E. inv_bind E.
  assert (Q : cell_ok c).
  { destruct (setd_sound o strict_hook (fresh i) a c (fresh_ok i K) Hk) as [Q|(C & _)]; [exact Q|]. destruct HO as (_ & Oc & _). congruence. }
  assert (Ci : c_info c = i).
  { change i with (c_info (fresh i)). apply (setd_info o (fresh i) a c strict_hook (fresh_ok i K)). apply done_after. exact Hk. }
  split; [exact Ci|]. destruct Q as [_ Q]. rewrite Ci in Q. intros R _ In. unfold roomy in R. unfold field_ok, number_fits, inside, value_ok in *.
  destruct (vi_type i) eqn:Ty; try discriminate N; destruct (c_val c) as [[k|s|b]|]; try contradiction;
    try (destruct (no_missing (vi_code i)); lia); rewrite (In N); cbn [negb]; lia.
Qed.

Lemma diff_reads i base width inp c inp' : info_ok i -> is_numeric (vi_type i) = true -> comp_diff o i base width inp = Ok (c, inp') -> reads i c.
Proof.
  intros K N E. unfold comp_diff in E. inv_bind E. destruct a as [diff i1]. inv_bind Hk. inv_bind Hk0. cbv zeta in Hk.
  destruct ((base =? a) || (diff =? a0)); [apply ok_inj in Hk; injection Hk as <- _; apply fresh_reads|].
  destruct (u32 (base + diff) =? a); [apply ok_inj in Hk; injection Hk as <- _; apply fresh_reads|].
  inv_bind Hk. apply ok_inj in Hk0. injection Hk0 as <- _. eapply number_reads; eauto.
Qed.
Lemma diffs_reads i base width : info_ok i -> is_numeric (vi_type i) = true -> forall n inp cs inp', comp_diffs o i base width n inp = Ok (cs, inp') ->
  Forall (reads i) cs /\ length cs = n.
Proof.
  intros K N. induction n as [|n IH]; intros inp cs inp' E; cbn [comp_diffs] in E.
  - apply ok_inj in E. injection E as <- _. auto.
  - inv_bind E. destruct a as [c i1]. inv_bind Hk. destruct a as [rest i2]. apply ok_inj in Hk0. injection Hk0 as <- _. destruct (IH _ _ _ Hb0) as [I1 I2].
    split; [constructor; [eapply diff_reads; eauto|exact I1]|cbn [length]; lia].
Qed.
Lemma repeat_reads i c n : reads i c -> Forall (reads i) (repeat c n) /\ length (repeat c n) = n.
Proof. intros R. split; [|apply repeat_length]. apply Forall_forall. intros x Hx. apply repeat_spec in Hx. subst x. exact R. Qed.

Lemma numbers_reads i n inp cs k inp' : info_ok i -> is_numeric (vi_type i) = true -> comp_numbers o i n inp = Ok (cs, k, inp') ->
  Forall (reads i) cs /\ length cs = n.
Proof.
  intros K N E. unfold comp_numbers in E. inv_bind E. destruct a as [[[m base] width] i1]. destruct m.
  - apply ok_inj in Hk. injection Hk as <- _ _. apply repeat_reads, fresh_reads.
  - destruct (width =? 0).
    + inv_bind Hk. apply ok_inj in Hk0. injection Hk0 as <- _ _. apply repeat_reads. eapply number_reads; eauto.
    + inv_bind Hk. destruct a as [cs' i2]. apply ok_inj in Hk0. injection Hk0 as <- _ _. eapply diffs_reads; eauto.
Qed.

(** Texts: the fields of the differences may be narrower. *)
Lemma narrow_text i s cs : info_ok i -> 8 <= vi_bit_len i -> vi_bit_len i mod 8 = 0 ->
  s = firstn (ilen i) (cstr (trim_tail cs)) -> Z.of_nat (length cs) <= vi_bit_len i / 8 ->
  Forall (fun c => 0 <= c < 256) cs -> forallb (fun c => (c =? 255) || (c =? 0)) cs = false ->
  s <> [] -> last_is_blank s = false \/ s = [32] -> text_fits i s = true.
Proof.
  intros K B1 B2 Es Lc Fc Nm Ne Nb.
  destruct (trim_tail_prefix cs) as [t1 E1]. destruct (cstr_prefix (trim_tail cs)) as [t2 E2]. destruct (firstn_prefix (ilen i) (cstr (trim_tail cs))) as [t3 E3].
  assert (E : exists t, cs = s ++ t). { exists (t3 ++ t2 ++ t1). rewrite E1 at 1. rewrite E2 at 1. rewrite E3 at 1. rewrite <- Es, !app_assoc. reflexivity. }
  destruct E as [t E]. assert (Ls : (length s <= ilen i)%nat) by (rewrite Es, firstn_length; lia).
  unfold ilen in Ls. pose proof K as [_ _ _ Kl _ _].
  assert (Nz : Forall (fun c => c <> 0) s) by (rewrite Es; apply Forall_firstn, cstr_nonzero).
  assert (Fs : Forall (fun c => 0 <= c < 256) s) by (rewrite E in Fc; apply Forall_app in Fc as [Fc _]; exact Fc).
  assert (L0 : (1 <= length s)%nat) by (destruct s; [contradiction|cbn; lia]).
  assert (Lst : (length s + length t)%nat = length cs) by (rewrite E, app_length; reflexivity).
  assert (L8 : vi_bit_len i = 8 * (vi_bit_len i / 8)) by (pose proof (Z.div_mod (vi_bit_len i) 8 ltac:(lia)); lia).
  assert (Q1 : forallb (fun ch => (1 <=? ch) && (ch <? 256)) s = true).
  { apply forallb_forall. rewrite Forall_forall in Nz, Fs. intros c Ic. specialize (Nz c Ic). specialize (Fs c Ic). cbv beta in Nz, Fs. lia. }
  assert (Q2 : (negb (last_is_blank s) || zlist_eqb s [32])%bool = true).
  { destruct Nb as [->| ->]; [reflexivity|]. apply orb_true_r. }
  assert (Q3 : negb ((8 * Z.of_nat (length s) =? vi_bit_len i) && forallb (Z.eqb 255) s) = true).
  { destruct (Z.eqb_spec (8 * Z.of_nat (length s)) (vi_bit_len i)) as [Eb|Eb]; [|reflexivity]. cbn [andb].
    assert (t = []) as -> by (destruct t; [reflexivity|cbn [length] in Lst; lia]). rewrite app_nil_r in E. subst cs.
    destruct (forallb (Z.eqb 255) s) eqn:A; [|reflexivity]. exfalso.
    assert (X : forallb (fun c => (c =? 255) || (c =? 0)) s = true); [|congruence].
    rewrite forallb_forall in *. intros c Ic. specialize (A c Ic). lia. }
  unfold text_fits. rewrite Q1, Q2, Q3. replace (1 <=? Z.of_nat (length s)) with true by lia. replace (Z.of_nat (length s) <=? vi_len i) with true by lia.
  replace (8 * Z.of_nat (length s) <=? vi_bit_len i) with true by lia. reflexivity.
Qed.

Lemma string_reads i bits inp r inp' : info_ok i -> vi_type i = TString -> Z.of_nat bits <= vi_bit_len i -> decode_string_raw bits inp = Ok (r, inp') ->
  match r with None => True | Some s => reads i (mkcell i (Some (VStr (firstn (ilen i) (cstr s))))) end.
Proof.
  intros K Ty Lb E. unfold decode_string_raw in E. inv_bind E. destruct a as [cs i2].
  apply read_chars_range in Hb as (Lc & Fc & _). destruct (forallb (fun c => (c =? 255) || (c =? 0)) cs) eqn:Nm; apply ok_inj in Hk; injection Hk as <- _; [exact I|].
  split; [reflexivity|]. cbn [c_val]. unfold roomy, neat, field_ok. rewrite Ty. intros [R1 R2] [N1 N2] _.
  replace (8 <=? vi_bit_len i) with true by lia. replace (vi_bit_len i mod 8 =? 0) with true by lia. cbn [andb].
  eapply narrow_text; eauto. rewrite Lc. pose proof (Z.div_mod (vi_bit_len i) 8 ltac:(lia)).
  apply Z.lt_succ_r. apply Z.div_lt_upper_bound; lia.
Qed.

Lemma text_reads i bits inp c inp' : info_ok i -> vi_type i = TString -> Z.of_nat bits <= vi_bit_len i -> comp_text o i bits inp = Ok (c, inp') -> reads i c.
Proof.
  intros K Ty Lb E. unfold comp_text in E. inv_bind E. destruct a as [r i1]. pose proof (string_reads i bits inp r i1 K Ty Lb Hb) as Q. destruct r as [s|].
  - rewrite setc_string in Hk by exact Ty. cbn [of_outcome bind] in Hk. apply ok_inj in Hk. injection Hk as <- _. exact Q.
  - apply ok_inj in Hk. injection Hk as <- _. apply fresh_reads.
Qed.
Lemma texts_reads i bits : info_ok i -> vi_type i = TString -> Z.of_nat bits <= vi_bit_len i -> forall n inp cs inp', comp_texts o i bits n inp = Ok (cs, inp') ->
  Forall (reads i) cs /\ length cs = n.
Proof.
  intros K Ty Lb. induction n as [|n IH]; intros inp cs inp' E; cbn [comp_texts] in E.
  - apply ok_inj in E. injection E as <- _. auto.
  - inv_bind E. destruct a as [c i1]. inv_bind Hk. destruct a as [rest i2]. apply ok_inj in Hk0. injection Hk0 as <- _. destruct (IH _ _ _ Hb0) as [I1 I2].
    split; [constructor; [eapply text_reads; eauto|exact I1]|cbn [length]; lia].
Qed.

Lemma bits_room i : info_ok i -> Z.of_nat (bit_len_nat i) <= vi_bit_len i.
Proof. intros K. pose proof K as [_ _ _ _ Kb _]. unfold bit_len_nat. lia. Qed.

Lemma values_reads i n inp cs inp' : info_ok i -> comp_values o i n inp = Ok (cs, inp') -> Forall (reads i) cs /\ length cs = n.
Proof.
  intros K E. unfold comp_values in E. destruct (vi_type i) eqn:Ty; [| | |discriminate].
  - inv_bind E. destruct a as [[cs' k] i1]. apply ok_inj in Hk. injection Hk as <- _. eapply numbers_reads; eauto. rewrite Ty. reflexivity.
  - inv_bind E. destruct a as [[cs' k] i1]. apply ok_inj in Hk. injection Hk as <- _. eapply numbers_reads; eauto. rewrite Ty. reflexivity.
  - unfold comp_strings in E. inv_bind E. destruct a as [r i1]. inv_bind Hk. destruct a as [width i2]. pose proof (get_bits_range _ _ _ _ Hb0) as [Wr _]. destruct (width =? 0).
    + pose proof (string_reads i _ inp r i1 K Ty (bits_room i K) Hb) as Q. destruct r as [s|].
      * rewrite setc_string in Hk0 by exact Ty. cbn [of_outcome bind] in Hk0. apply ok_inj in Hk0. injection Hk0 as <- _. apply repeat_reads. exact Q.
      * apply ok_inj in Hk0. injection Hk0 as <- _. apply repeat_reads, fresh_reads.
    + destruct (Z.ltb_spec (vi_bit_len i) (width * 8)) as [|L]; [discriminate|]. eapply texts_reads; [exact K|exact Ty| |exact Hk0]. lia.
Qed.

Lemma semantic_number i inp c inp' : info_ok i -> is_numeric (vi_type i) = true -> roomy i -> comp_semantic o i inp = Ok (c, inp') ->
  c_val c = None \/ exists k, c_val c = Some (VInt k) /\ vi_bit_ref i <= k < vi_bit_ref i + 2 ^ vi_bit_len i - 1.
Proof.
  intros K N R E. unfold comp_semantic in E. inv_bind E. destruct a as [base i1]. inv_bind Hk. rename a into ones. inv_bind Hk0. destruct a as [width i2].
  destruct (negb (width =? 0)); [discriminate|]. destruct (Z.eqb_spec base ones) as [|Ne]; [apply ok_inj in Hk; injection Hk as <- _; left; reflexivity|].
  inv_bind Hk. apply ok_inj in Hk0. injection Hk0 as <- _. right.
  assert (R' : 1 <= vi_bit_len i <= 32 /\ vi_bit_ref i + 2 ^ vi_bit_len i <= 2 ^ 31) by (unfold roomy in R; destruct (vi_type i); try discriminate N; exact R). destruct R' as [R1 R2].
  apply get_bits_range in Hb as [V1 V2]. unfold bit_len_nat in V1. rewrite Z2Nat.id in V1 by lia.
  assert (Ao : all_ones (bit_len_nat i) = Ok (2 ^ vi_bit_len i - 1)).
  { unfold all_ones, bit_len_nat. replace (Nat.leb 1 (Z.to_nat (vi_bit_len i)) && Nat.leb (Z.to_nat (vi_bit_len i)) 32)%bool with true by lia.
    rewrite Z2Nat.id by lia. reflexivity. }
  rewrite Ao in Hb0. apply ok_inj in Hb0. subst ones. unfold raw_number in Hb2.
  destruct (info_ok_numeric _ K N) as (Hs & _). pose proof K as [_ Kr _ _ _ _].
  destruct (decode_binary_ok i base) as (d & D1 & D2 & D3); auto; try lia. rewrite D1 in Hb2. cbn [bind] in Hb2.
  assert (Ik : int_min <= base + vi_bit_ref i <= int_max) by (unfold int_min, int_max in *; lia).
  destruct HO as (Os & Oc & Oh).
  destruct (Z_le_dec (vi_imin i) (base + vi_bit_ref i)) as [L1|L1]; [destruct (Z_le_dec (base + vi_bit_ref i) (vi_imax i)) as [L2|L2]|].
  2,3: rewrite (setd_scaled_refused o (fresh i) (base + vi_bit_ref i) d) in Hb2 by (auto; cbn [fresh c_info]; auto; lia); rewrite Os in Hb2; discriminate Hb2.
  rewrite (setd_scaled o (fresh i) (base + vi_bit_ref i) d) in Hb2 by (auto; cbn [fresh c_info]; auto). cbn [of_outcome] in Hb2. apply ok_inj in Hb2. subst a.
  exists (base + vi_bit_ref i). split; [reflexivity|lia].
Qed.

Lemma semantic_reads i inp c inp' : info_ok i -> is_numeric (vi_type i) = true -> comp_semantic o i inp = Ok (c, inp') -> reads i c.
Proof.
  intros K N E. unfold comp_semantic in E. inv_bind E. destruct a as [base i1]. inv_bind Hk. rename a into ones. inv_bind Hk0. destruct a as [width i2].
  destruct (negb (width =? 0)); [discriminate|]. destruct (base =? ones); [apply ok_inj in Hk; injection Hk as <- _; apply fresh_reads|].
  inv_bind Hk. apply ok_inj in Hk0. injection Hk0 as <- _. eapply number_reads; eauto.
Qed.

Lemma uniform_reads i n inp c inp' : info_ok i -> comp_uniform o i n inp = Ok (c, inp') -> reads i c.
Proof.
  intros K E. unfold comp_uniform in E. destruct (vi_type i) eqn:Ty; [| | |discriminate].
  - eapply semantic_reads; eauto. rewrite Ty. reflexivity.
  - eapply semantic_reads; eauto. rewrite Ty. reflexivity.
  - unfold comp_same_string in E. inv_bind E. destruct a as [r i1]. inv_bind Hk. destruct a as [width i2]. pose proof (get_bits_range _ _ _ _ Hb0) as [Wr _]. destruct (width =? 0).
    + pose proof (string_reads i _ inp r i1 K Ty (bits_room i K) Hb) as Q. destruct r as [s|].
      * rewrite setc_string in Hk0 by exact Ty. cbn [of_outcome bind] in Hk0. apply ok_inj in Hk0. injection Hk0 as <- _. exact Q.
      * apply ok_inj in Hk0. injection Hk0 as <- _. apply fresh_reads.
    + destruct (Z.ltb_spec (vi_bit_len i) (width * 8)) as [|L]; [discriminate|]. inv_bind Hk0. destruct a as [c0 i3]. inv_bind Hk. apply ok_inj in Hk0. injection Hk0 as <- _.
      eapply text_reads; [exact K|exact Ty| |exact Hb1]. lia.
Qed.
End Value.

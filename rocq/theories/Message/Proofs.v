(** Proofs about whole messages: what the encoder writes and how it is read back. *)
From Coq Require Import ZifyBool ZifyNat.
From Verif Require Import Base Bits.Model Bits.Spec Bits.Proofs Num.Float Varcode.Model Varinfo.Model Tables.Model
  Var.Model Interp.Model Interp.Sim Codec.Model Codec.Compressed Codec.Spec Codec.TransferProofs Message.Model Message.Spec.
Local Open Scope Z_scope.

(** ** The encoder only appends *)

Definition grows (o o' : bufout) : Prop := wf_out o -> wf_out o' /\ exists bs, out_bits o' = out_bits o ++ bs.

Lemma grows_refl o : grows o o.
Proof. intros W. split; auto. exists []. rewrite app_nil_r. reflexivity. Qed.

Lemma grows_trans a b c : grows a b -> grows b c -> grows a c.
Proof.
  intros H1 H2 W. destruct (H1 W) as (W1 & bs1 & E1). destruct (H2 W1) as (W2 & bs2 & E2).
  split; auto. exists (bs1 ++ bs2). rewrite E2, E1, app_assoc. reflexivity.
Qed.

Lemma grows_push b o : grows o (push_bit b o).
Proof. intros W. destruct (push_bit_spec b o W) as [E W']. split; auto. exists [b]. exact E. Qed.

Lemma grows_loop n : forall m v o, grows o (add_bits_loop n m v o).
Proof.
  induction n as [|n IH]; intros m v o; cbn [add_bits_loop]; [apply grows_refl|].
  eapply grows_trans; [apply grows_push|apply IH].
Qed.

Lemma grows_add p v n o o' : add_bits p v n o = Ok o' -> grows o o'.
Proof. unfold add_bits. intros H. inv_bind H. injection Hk as <-. apply grows_loop. Qed.

Lemma grows_string p fuel : forall n s o o', append_string_loop p fuel n s o = Ok o' -> grows o o'.
Proof.
  induction fuel as [|k IH]; intros n s o o' H; cbn [append_string_loop] in H.
  - destruct (Nat.eqb n 0); [|discriminate]. injection H as <-. apply grows_refl.
  - destruct (Nat.eqb n 0); [injection H as <-; apply grows_refl|].
    destruct (Nat.leb 8 n).
    + assert (Hb : forall c s', (o1 <- append_byte p c o ;; append_string_loop p k (n - 8) s' o1) = Ok o' -> grows o o').
      { intros c s' E. inv_bind E. eapply grows_trans; [eapply grows_add; exact Hb|eauto]. }
      destruct s as [|c s']; [eapply Hb; exact H|]. destruct (c =? 0); eapply Hb; exact H.
    + eapply grows_add; eauto.
Qed.

Lemma grows_binary p fuel : forall n s o o', append_binary_loop p fuel n s o = Ok o' -> grows o o'.
Proof.
  induction fuel as [|k IH]; intros n s o o' H; cbn [append_binary_loop] in H.
  - destruct (Nat.eqb n 0); [|discriminate]. injection H as <-. apply grows_refl.
  - destruct (Nat.eqb n 0); [injection H as <-; apply grows_refl|].
    destruct s as [|c s']; [discriminate|]. destruct (Nat.leb 8 n).
    + inv_bind H. eapply grows_trans; [eapply grows_add; exact Hb|eauto].
    + eapply grows_add; eauto.
Qed.

Lemma grows_chars p buf n o o' : append_chars p buf n o = Ok o' -> grows o o'.
Proof.
  unfold append_chars. destruct (_ && _); [discriminate|]. apply grows_string.
Qed.

Lemma grows_var p i c o o' : append_var p i c o = Ok o' -> grows o o'.
Proof.
  unfold append_var. destruct (negb (isset c)); [apply grows_add|].
  destruct (vi_type i); intros H; inv_bind H.
  - inv_bind Hk. eapply grows_add; eauto.
  - inv_bind Hk. eapply grows_add; eauto.
  - eapply grows_chars; eauto.
  - eapply grows_binary; eauto.
Qed.

Lemma grows_put p chars : forall o o', put_bitmap p chars o = Ok o' -> grows o o'.
Proof.
  induction chars as [|c cs IH]; intros o o' H; cbn [put_bitmap] in H; [injection H as <-; apply grows_refl|].
  inv_bind H. eapply grows_trans; [eapply grows_add; exact Hb|auto].
Qed.

Lemma e_put_inv s r s' : e_put s r = Ok s' -> r = Ok (e_out s') /\ e_pos s' = e_pos s.
Proof. unfold e_put. intros H. inv_bind H. injection Hk as <-. auto. Qed.

Lemma e_next_inv vars s v s' : e_next vars s = Ok (v, s') -> e_out s' = e_out s.
Proof. unfold e_next. intros H. inv_bind H. injection Hk as <- <-. reflexivity. Qed.

Lemma encoder_grows p o T vars out0 : preserved (encoder p o T vars) (fun s => grows out0 (e_out s)).
Proof.
  assert (Af : forall b g v s s', e_af p b g v s = Ok s' -> grows (e_out s) (e_out s')).
  { intros b g v s s' E. unfold e_af in E. inv_bind E. destruct a as [c|].
    - destruct (isset c).
      + inv_bind Hk. apply e_put_inv in Hk0 as [E _]. eapply grows_add; eauto.
      + apply e_put_inv in Hk as [E _]. eapply grows_add; exact E.
    - apply e_put_inv in Hk as [E _]. eapply grows_add; exact E. }
  assert (At : forall i pos code s s', e_attr_code p vars i pos code s = Ok s' -> grows (e_out s) (e_out s')).
  { intros i pos code s s' E. unfold e_attr_code in E. inv_bind E. destruct (var_enqa a code) as [c|].
    - apply e_put_inv in Hk as [E _]. eapply grows_var; exact E.
    - apply e_put_inv in Hk as [E _]. eapply grows_add; exact E. }
  constructor; cbn [on_var on_var_af on_factor on_bitmap_factor on_significance on_subst on_attr on_raw on_refval on_bitmap
    on_unknown encoder].
  - intros i s s' H E. eapply grows_trans; [exact H|]. unfold e_var in E. inv_bind E. destruct a as [v s1].
    apply e_next_inv in Hb. apply e_put_inv in Hk as [E _]. rewrite Hb in E. eapply grows_var; eauto.
  - intros b g i s s' _ H E. eapply grows_trans; [exact H|]. unfold e_var_af in E. inv_bind E. destruct a as [v s1].
    apply e_next_inv in Hb. inv_bind Hk. apply e_put_inv in Hk0 as [E _]. apply Af in Hb0. rewrite Hb in Hb0.
    eapply grows_trans; [exact Hb0|]. eapply grows_var; eauto.
  - intros i s n s' H E. eapply grows_trans; [exact H|]. unfold e_factor in E. inv_bind E. destruct a as [v s1].
    apply e_next_inv in Hb. inv_bind Hk. inv_bind Hk0. injection Hk as <- <-.
    apply e_put_inv in Hb0 as [E _]. rewrite Hb in E. eapply grows_var; eauto.
  - intros i s n s' H E. eapply grows_trans; [exact H|]. unfold e_bitmap_factor in E. inv_bind E. cbv zeta in Hk. inv_bind Hk.
    inv_bind Hk0. injection Hk as <- <-. apply e_put_inv in Hb1 as [E _]. eapply grows_var; eauto.
  - intros i s n s' H E. eapply grows_trans; [exact H|]. unfold e_significance in E. inv_bind E. destruct a as [v s1].
    apply e_next_inv in Hb. inv_bind Hk. inv_bind Hk0. injection Hk as <- <-.
    apply e_put_inv in Hb0 as [E _]. rewrite Hb in E. eapply grows_var; eauto.
  - intros pos s s' H E. eapply grows_trans; [exact H|]. unfold e_subst in E. destruct (nth_error vars pos); [|discriminate].
    eapply At; eauto.
  - intros i pos s s' H E. eapply grows_trans; [exact H|]. eapply At; eauto.
  - intros c s s' _ _ H E. eapply grows_trans; [exact H|]. unfold e_raw in E. inv_bind E. destruct a as [v s1].
    apply e_next_inv in Hb. inv_bind Hk. apply e_put_inv in Hk0 as [E _]. rewrite Hb in E. eapply grows_chars; eauto.
  - intros b c s n s' _ H E. eapply grows_trans; [exact H|]. unfold e_refval in E. inv_bind E. inv_bind Hk. destruct a0 as [enc w].
    destruct (b <? w + 1); [discriminate|]. inv_bind Hk0. injection Hk as <- <-.
    apply e_put_inv in Hb1 as [E _]. eapply grows_add; eauto.
  - intros c n s r s' H E. eapply grows_trans; [exact H|]. unfold e_bitmap in E. inv_bind E. destruct a as [v s1].
    apply e_next_inv in Hb. destruct (negb (var_f _ =? 2)); [discriminate|]. destruct (negb (vi_len _ =? n)); [discriminate|].
    inv_bind Hk. inv_bind Hk0. injection Hk as <- <-. apply e_put_inv in Hb1 as [E _]. rewrite Hb in E. eapply grows_put; eauto.
  - intros c b s i s' H E. unfold e_unknown in E. inv_bind E. destruct a. injection Hk as <- <-. exact H.
Qed.

Lemma encode_subsets_grows p o T fuel ops subsets : forall lt out lt' out',
  encode_subsets p o T fuel ops subsets lt out = Ok (lt', out') -> grows out out'.
Proof.
  induction subsets as [|vars rest IH]; intros lt out lt' out' H; cbn [encode_subsets] in H.
  - injection H as <- <-. apply grows_refl.
  - inv_bind H. destruct a as [st s].
    eapply grows_trans; [|eapply IH; exact Hk].
    refine (run_inv _ _ _ fuel ops _ (mkenc 0 out lt) _ _ (encoder_grows p o T vars out) ist_ok_init _ Hb). apply grows_refl.
Qed.

(** ** Bytes *)

Lemma be_length k v : length (be k v) = k.
Proof. induction k; cbn [be length]; auto. Qed.

Lemma be_bytes k v : Forall is_byte (be k v).
Proof.
  induction k; cbn [be]; constructor; auto. unfold is_byte. apply Z.mod_pos_bound. lia.
Qed.

Lemma bits_be k v : bits_of (8 * k) v = bits_of_bytes (be k v).
Proof.
  induction k as [|k IH]; [reflexivity|]. cbn [be bits_of_bytes flat_map].
  fold (bits_of_bytes (be k v)). rewrite <- IH.
  replace (8 * S k)%nat with (8 + 8 * k)%nat by lia. rewrite bits_of_app. f_equal.
  change 256 with (2 ^ Z.of_nat 8). rewrite bits_of_mod by lia. f_equal. f_equal.
  rewrite <- Z.pow_mul_r by lia. f_equal. lia.
Qed.

Lemma bits_inj l : forall m, Forall is_byte l -> Forall is_byte m -> bits_of_bytes l = bits_of_bytes m -> l = m.
Proof.
  induction l as [|x l IH]; intros m Fl Fm E.
  - destruct m as [|y m]; auto. apply (f_equal (@length bool)) in E. rewrite !bits_of_bytes_length in E. cbn in E. lia.
  - destruct (bits_of_bytes_prefix (x :: l) m [] Fm Fl) as (d & -> & Hd); [rewrite app_nil_r; auto|].
    destruct d as [|y d]; [rewrite app_nil_r; auto|].
    apply (f_equal (@length bool)) in Hd. rewrite bits_of_bytes_length in Hd. cbn in Hd. lia.
Qed.

(** An output whose pending byte is empty. *)
Definition aligned (l : list Z) : bufout := mkout l 0 0.

Lemma wf_aligned l : Forall is_byte l -> wf_out (aligned l).
Proof. intros F. unfold wf_out, aligned. cbn. repeat split; auto; lia. Qed.

Lemma aligned_bits l : out_bits (aligned l) = bits_of_bytes l.
Proof. unfold out_bits, aligned. cbn. apply app_nil_r. Qed.

Lemma aligned_eq o l : wf_out o -> Forall is_byte l -> out_bits o = bits_of_bytes l -> o = aligned l.
Proof.
  intros (Hl & Hp & Hb) F E. destruct o as [ob pb pl]. cbn [oplen opbyte obytes] in *.
  assert (pl = 0)%nat.
  { apply (f_equal (@length bool)) in E. unfold out_bits in E. cbn [oplen opbyte obytes] in E.
    rewrite app_length, !bits_of_bytes_length, bits_of_length in E. lia. }
  subst pl. cbn in Hp. assert (pb = 0) by lia. subst pb. unfold aligned. f_equal.
  apply bits_inj; auto. unfold out_bits in E. cbn [oplen opbyte obytes bits_of] in E. rewrite app_nil_r in E. exact E.
Qed.

Definition whole_bytes (fs : list (Z * nat)) : Prop :=
  Forall (fun f => exists k, snd f = (8 * k)%nat /\ (1 <= k <= 4)%nat) fs.
Definition fields_bytes (fs : list (Z * nat)) : list Z := flat_map (fun f => be (Nat.div (snd f) 8) (fst f)) fs.

Lemma fields_bytes_ok fs : Forall is_byte (fields_bytes fs).
Proof. induction fs; cbn [fields_bytes flat_map]; auto. apply Forall_app. split; auto using be_bytes. Qed.

Lemma fields_bytes_app a b : fields_bytes (a ++ b) = fields_bytes a ++ fields_bytes b.
Proof. apply flat_map_app. Qed.

Lemma fields_bytes_bits fs : whole_bytes fs -> fields_bits fs = bits_of_bytes (fields_bytes fs).
Proof.
  induction fs as [|[v n] fs IH]; intros W; [reflexivity|].
  apply Forall_cons_iff in W as [(k & E & _) W]. cbn [snd] in E. subst n.
  cbn [fields_bits fields_bytes flat_map fst snd]. fold (fields_bytes fs) (fields_bits fs).
  rewrite bits_of_bytes_app, <- IH by auto.
  replace (8 * k / 8)%nat with k by (rewrite Nat.mul_comm, Nat.div_mul; lia). rewrite bits_be. reflexivity.
Qed.

Lemma write_aligned p fs l : whole_bytes fs -> Forall is_byte l ->
  write_fields p fs (aligned l) = Ok (aligned (l ++ fields_bytes fs)).
Proof.
  intros W F. destruct (write_fields_spec p fs (aligned l)) as (o' & E & B & W').
  - eapply Forall_impl; [|exact W]. cbn. intros f (k & -> & Hk). lia.
  - apply wf_aligned; auto.
  - rewrite E. f_equal. apply aligned_eq; auto.
    + apply Forall_app. split; auto using fields_bytes_ok.
    + rewrite B, aligned_bits, bits_of_bytes_app, fields_bytes_bits by auto. reflexivity.
Qed.

Lemma be_one v : be 1 v = [v mod 256].
Proof. unfold be. change (256 ^ Z.of_nat 0) with 1. rewrite Z.div_1_r. reflexivity. Qed.

Lemma byte_aligned p v l : Forall is_byte l -> append_byte p v (aligned l) = Ok (aligned (l ++ [u8 v])).
Proof.
  intros F. change (append_byte p v (aligned l)) with (add_bits p (u8 v) 8 (aligned l)).
  assert (E := write_aligned p [byte v] l). cbn [write_fields byte] in E.
  destruct (add_bits p (u8 v) 8 (aligned l)) as [o| |] eqn:A; cbn [bind] in E.
  - rewrite E; auto.
    + f_equal. f_equal. f_equal. change (fields_bytes [byte v]) with (be 1 (u8 v) ++ []). rewrite app_nil_r, be_one.
      unfold u8. change (2 ^ 8) with 256. rewrite Zmod_mod. reflexivity.
    + constructor; auto. exists 1%nat. split; [reflexivity|lia].
  - exfalso. assert (X : @Err bufout e = Ok (aligned (l ++ fields_bytes [byte v]))).
    { apply E; auto. constructor; auto. exists 1%nat. split; [reflexivity|lia]. }
    discriminate X.
  - exfalso. assert (X : @UB bufout = Ok (aligned (l ++ fields_bytes [byte v]))).
    { apply E; auto. constructor; auto. exists 1%nat. split; [reflexivity|lia]. }
    discriminate X.
Qed.

Lemma raw_aligned s l : raw_append s (aligned l) = aligned (l ++ s).
Proof. reflexivity. Qed.

Lemma be3_be v : 0 <= v -> be3 v = be 3 v.
Proof.
  intros H. unfold be3, be, u8. change (256 ^ Z.of_nat 2) with 65536. change (256 ^ Z.of_nat 1) with 256.
  change (256 ^ Z.of_nat 0) with 1. rewrite Z.div_1_r. reflexivity.
Qed.

Lemma be_mod k v m : (8 * Z.of_nat k <= m) -> be k (v mod 2 ^ m) = be k v.
Proof.
  intros Hm. apply bits_inj; auto using be_bytes. rewrite <- !bits_be. apply bits_of_mod_Z. lia.
Qed.

Lemma be_u32 k v : (k <= 4)%nat -> be k (u32 v) = be k v.
Proof. intros. apply be_mod. lia. Qed.

Lemma patch_mid a b c x : length b = length x -> patch (a ++ b ++ c) (length a) x = a ++ x ++ c.
Proof.
  intros E. unfold patch. rewrite firstn_app, Nat.sub_diag, firstn_O, app_nil_r, firstn_all. f_equal. f_equal.
  rewrite <- E. rewrite skipn_app. rewrite skipn_all2 by lia. cbn [app].
  replace (length a + length b - length a)%nat with (length b) by lia.
  apply skipn_length_app.
Qed.

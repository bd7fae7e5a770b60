(** A value that fits in its field survives encoding and decoding. *)
From Coq Require Import ZifyBool ZifyNat.
From Verif Require Import Base Bits.Model Bits.Spec Bits.Proofs Bits.StringProofs Num.Float Num.FloatProofs
  Varcode.Model Varinfo.Model Varinfo.Proofs Varinfo.RangeProofs Tables.Model Var.Model Var.Spec Var.Proofs
  Var.AttrProofs Var.CodecProofs Interp.Model Codec.Model Codec.Spec.
Local Open Scope Z_scope.

Lemma forallb_Forall {A} (f : A -> bool) (P : A -> Prop) l :
  (forall a, f a = true -> P a) -> forallb f l = true -> Forall P l.
Proof.
  intros H E. apply Forall_forall. intros x Hx. apply H. eapply forallb_forall in E; eauto.
Qed.

(** What decoding [bs] followed by anything does. *)
Definition reads {A} (bs : list bool) (f : input -> res (A * input)) (a : A) : Prop :=
  forall inp rest, Forall is_byte (idata inp) -> wf_in inp -> (8 <= length rest)%nat -> in_bits inp = bs ++ rest ->
  exists inp', f inp = Ok (a, inp') /\ in_bits inp' = rest /\ wf_in inp' /\ idata inp' = idata inp.

Definition writes (bs : list bool) (f : bufout -> res bufout) : Prop :=
  forall out, wf_out out -> exists out', f out = Ok out' /\ out_bits out' = out_bits out ++ bs /\ wf_out out'.

Lemma get_bits_reads n v : (n <= 32)%nat -> reads (bits_of n v) (get_bits n) (v mod 2 ^ Z.of_nat n).
Proof.
  intros Hn inp rest Hb W Hr E. destruct (get_bits_val n v inp rest Hb W Hn E) as (i' & ? & ? & ? & ?); eauto.
  rewrite app_length. lia.
Qed.

Lemma add_bits_writes p v n : (1 <= n <= 32)%nat -> writes (bits_of n v) (add_bits p v n).
Proof. intros Hn out W. destruct (add_bits_spec p v n out Hn W) as (o' & ? & ? & ?); eauto. Qed.

Lemma mask_groups_last bs : forall n, length bs = ngroups n -> Forall is_byte bs ->
  (n mod 8 = 0)%nat \/ last bs 0 < 2 ^ Z.of_nat (n mod 8) -> mask_groups n bs = bs.
Proof.
  induction bs as [|b bs IH]; intros n L F H; [reflexivity|]. cbn [mask_groups].
  inversion F as [|? ? Fb Fbs]; subst. unfold is_byte in Fb.
  destruct bs as [|b2 bs].
  - cbn [length] in L. unfold ngroups in L.
    assert (Hn : (1 <= n <= 8)%nat).
    { pose proof (Nat.div_mod (n + 7) 8). pose proof (Nat.mod_upper_bound (n + 7) 8). lia. }
    f_equal. cbn [last] in H. rewrite Nat.min_r by lia. apply Z.mod_small.
    destruct (Nat.eq_dec n 8) as [->|N]; [change (2 ^ Z.of_nat 8) with 256; lia|].
    rewrite Nat.mod_small in H by lia. lia.
  - assert (Hn : (n > 8)%nat).
    { cbn [length] in L. unfold ngroups in L. destruct (le_gt_dec n 8); [|lia].
      assert ((n + 7) / 8 < 2)%nat by (apply Nat.div_lt_upper_bound; lia). lia. }
    rewrite Nat.min_l by lia. change (2 ^ Z.of_nat 8) with 256. rewrite Z.mod_small by lia. f_equal.
    assert (Em : ((n - 8) mod 8 = n mod 8)%nat).
    { replace n with (n - 8 + 1 * 8)%nat at 2 by lia. rewrite Nat.mod_add by lia. reflexivity. }
    apply IH; auto.
    + unfold ngroups in *. cbn [length] in *. replace (n + 7)%nat with (n - 8 + 7 + 1 * 8)%nat in L by lia.
      rewrite Nat.div_add in L by lia. lia.
    + rewrite Em. exact H.
Qed.

Lemma append_missing_writes p k : (1 <= k)%nat -> (k <= 4)%nat \/ p = X86 ->
  exists a b, (a + b = k)%nat /\ (1 <= a)%nat /\
    writes (bits_of_bytes (repeat 255 a ++ repeat 0 b)) (append_missing p (8 * k)).
Proof.
  intros Hk Hp. destruct (Nat.leb_spec k 4) as [L|L].
  - exists k, 0%nat. split; [lia|]. split; [lia|]. intros o W.
    destruct (append_missing_spec p (8 * k) o) as (o' & E & B & W'); auto; try lia.
    exists o'. split; auto. split; auto.
    rewrite B. rewrite <- bytes_ones_zeros. cbn [Nat.mul repeat]. rewrite app_nil_r. reflexivity.
  - destruct Hp as [Hp| ->]; [lia|].
    exists (((8 * k - 1) mod 32 + 1) / 8)%nat, (k - ((8 * k - 1) mod 32 + 1) / 8)%nat.
    assert (((8 * k - 1) mod 32 + 1) = 8 * (((8 * k - 1) mod 32 + 1) / 8))%nat as H8 by lia.
    split; [lia|]. split; [lia|]. intros o W.
    destruct (append_missing_x86 (8 * k) o) as (o' & E & B & W'); auto; try lia.
    exists o'. split; auto. split; auto.
    rewrite B. f_equal. rewrite <- bytes_ones_zeros. rewrite <- H8. f_equal. f_equal. lia.
Qed.

Lemma zlist_eqb_eq a : forall b, zlist_eqb a b = true -> a = b.
Proof.
  induction a as [|x a IH]; destruct b as [|y b]; cbn; intros H; try discriminate; auto.
  apply andb_prop in H as [H1 H2]. f_equal; [lia|auto].
Qed.

Section Value.
Context (p : shift_policy) (o : options).

Lemma number_roundtrip i v : v = None \/ info_ok i -> is_numeric (vi_type i) = true -> field_ok p i v = true ->
  exists bs, writes bs (append_var p i (mkcell i v)) /\ reads bs (decode_number o i) (mkcell i v).
Proof.
  intros K N F. unfold field_ok in F.
  assert (F' : (1 <=? vi_bit_len i) && (vi_bit_len i <=? 32) &&
    match v with None => negb (no_missing (vi_code i)) | Some (VInt k) => number_fits i k | Some _ => false end = true)
    by (destruct (vi_type i); try discriminate; exact F).
  clear F. apply andb_prop in F' as [B F]. 
  assert (Hn : (1 <= bit_len_nat i <= 32)%nat) by (unfold bit_len_nat; lia).
  assert (Hz : Z.of_nat (bit_len_nat i) = vi_bit_len i) by (unfold bit_len_nat; lia).
  destruct v as [[k|s|b]|]; try discriminate.
  - destruct K as [|K]; [discriminate|]. unfold number_fits in F.
    assert (Hrange : vi_imin i <= k <= vi_imax i) by lia.
    assert (Hfit : 0 <= k - vi_bit_ref i < 2 ^ vi_bit_len i) by (destruct (no_missing (vi_code i)); lia).
    assert (Hmiss : no_missing (vi_code i) = false -> k - vi_bit_ref i <> 2 ^ vi_bit_len i - 1)
      by (intros X; rewrite X in F; lia).
    destruct (info_ok_numeric i K N) as (_ & M1 & M2 & _).
    exists (bits_of (bit_len_nat i) (k - vi_bit_ref i)). split.
    + intros out W. unfold append_var. cbn [isset c_val negb c_info].
      pose proof (encode_cell (mkcell i (Some (VInt k))) k K N ltac:(cbn; lia) ltac:(lia) eq_refl) as E.
      cbn [c_info] in E. replace (k <? vi_bit_ref i) with false in E by lia.
      assert (E2 : (d <- enqd (mkcell i (Some (VInt k)));; n <- encode_binary i d;; add_bits p n (bit_len_nat i) out)
                   = add_bits p (k - vi_bit_ref i) (bit_len_nat i) out).
      { transitivity (n <- (d <- enqd (mkcell i (Some (VInt k)));; encode_binary i d);; add_bits p n (bit_len_nat i) out).
        - symmetry. apply bind_assoc.
        - rewrite E. reflexivity. }
      destruct (vi_type i); try discriminate; rewrite E2; apply add_bits_writes; auto.
    + intros inp rest Hb W Hr E. unfold decode_number.
      destruct (get_bits_reads (bit_len_nat i) (k - vi_bit_ref i) ltac:(lia) inp rest Hb W Hr E) as (i' & G & R1 & R2 & R3).
      rewrite G. cbn [bind]. rewrite Hz, Z.mod_small by lia.
      assert (Em : (if no_missing (vi_code i) then Ok false
        else m <- all_ones (bit_len_nat i);; Ok (k - vi_bit_ref i =? m)) = Ok false).
      { destruct (no_missing (vi_code i)); [reflexivity|]. specialize (Hmiss eq_refl). unfold all_ones.
        replace ((1 <=? bit_len_nat i)%nat && (bit_len_nat i <=? 32)%nat) with true by lia. cbn [bind]. f_equal. rewrite Hz. lia. }
      rewrite Em. cbn [bind].
      assert (P32 : 2 ^ vi_bit_len i <= 2 ^ 32) by (apply Z.pow_le_mono_r; lia).
      destruct (raw_var_roundtrip o i (k - vi_bit_ref i) K N ltac:(lia) ltac:(lia) ltac:(lia))
        as (d & c & D1 & D2 & D3 & _).
      rewrite D1. cbn [bind]. rewrite D2. cbn [of_outcome bind].
      replace (k - vi_bit_ref i + vi_bit_ref i) with k in D3 by lia. subst c. eauto.
  - exists (repeat true (bit_len_nat i)). split.
    + intros out W. unfold append_var. cbn [isset c_val negb].
      destruct (append_missing_spec p (bit_len_nat i) out Hn W) as (o' & ? & ? & ?). eauto.
    + intros inp rest Hb W Hr E. unfold decode_number.
      rewrite <- (bits_of_all_ones (bit_len_nat i)) in E by lia.
      destruct (get_bits_reads (bit_len_nat i) _ ltac:(lia) inp rest Hb W Hr E) as (i' & G & R1 & R2 & R3).
      rewrite G. cbn [bind].
      assert (Em : (2 ^ 32 - 1) mod 2 ^ Z.of_nat (bit_len_nat i) = 2 ^ Z.of_nat (bit_len_nat i) - 1).
      { symmetry. apply Z.mod_unique with (q := 2 ^ (32 - Z.of_nat (bit_len_nat i)) - 1).
        - left. pose proof (Z.pow_pos_nonneg 2 (Z.of_nat (bit_len_nat i))). lia.
        - replace 32 with (Z.of_nat (bit_len_nat i) + (32 - Z.of_nat (bit_len_nat i))) at 1 by lia.
          rewrite Z.pow_add_r by lia. ring. }
      rewrite Em. destruct (no_missing (vi_code i)); [discriminate|]. unfold all_ones.
      replace ((1 <=? bit_len_nat i)%nat && (bit_len_nat i <=? 32)%nat) with true by lia. cbn [bind].
      rewrite Z.eqb_refl. unfold fresh. eauto.
Qed.

Lemma pad_field_nil k : pad_field k [] = repeat 32 k.
Proof. unfold pad_field. cbn [cstr app]. rewrite <- (repeat_length 32 k) at 1. apply firstn_all. Qed.

Lemma Forall_repeat {A} (P : A -> Prop) a n : P a -> Forall P (repeat a n).
Proof. intros H. apply Forall_forall. intros x Hx. apply repeat_spec in Hx. subst. exact H. Qed.

Lemma string_roundtrip i v : vi_type i = TString -> field_ok p i v = true ->
  exists bs, writes bs (append_var p i (mkcell i v)) /\ reads bs (decode_value o i) (mkcell i v).
Proof.
  intros N F. unfold field_ok in F. rewrite N in F. apply andb_prop in F as [B F].
  assert (Hk : exists k, bit_len_nat i = (8 * k)%nat /\ (1 <= k)%nat /\ vi_bit_len i = 8 * Z.of_nat k).
  { exists (Z.to_nat (vi_bit_len i / 8)). unfold bit_len_nat.
    pose proof (Z.div_mod (vi_bit_len i) 8). lia. }
  destruct Hk as (k & Hk & Hk1 & Hkz).
  destruct v as [[n|s|b]|]; try discriminate.
  - unfold text_fits in F. rewrite !andb_true_iff in F. destruct F as (((((F1 & F2) & F3) & F4) & F5) & F6).
    assert (P : printable_str s) by (eapply forallb_Forall; [|exact F4]; cbv beta; intros; lia).
    assert (Pad : pad_field k s = s ++ repeat 32 (k - length s)) by (apply pad_field_fit; auto; lia).
    exists (bits_of_bytes (pad_field k s)). split.
    + intros out W. unfold append_var. cbn [isset c_val negb]. rewrite N.
      unfold enqc. cbn [c_val c_info]. rewrite N. cbn [bind]. unfold append_chars.
      rewrite existsb_app. cbn [existsb]. rewrite Z.eqb_refl, orb_true_r. cbn [negb andb].
      destruct (append_string_spec p (s ++ [0]) (bit_len_nat i) out W) as (o' & A1 & A2 & A3).
      exists o'. split; auto. split; auto. rewrite A2, Hk. f_equal.
      rewrite (Nat.mul_comm 8 k), Nat.div_mul, Nat.mod_mul by lia. cbn [repeat]. rewrite app_nil_r. f_equal.
      unfold pad_field. f_equal. f_equal. clear -P. induction P as [|c s Hc P IH]; cbn [cstr app]; [reflexivity|].
      replace (c =? 0) with false by lia. f_equal. exact IH.
    + intros inp rest Hb W Hr E. unfold decode_value. rewrite N.
      assert (Lk : length (pad_field k s) = k) by (rewrite Pad, app_length, repeat_length; lia).
      assert (Hbytes : Forall is_byte (pad_field k s)).
      { rewrite Pad. apply Forall_app. split; [|apply Forall_repeat; unfold is_byte; lia].
        eapply Forall_impl; [|exact P]. unfold is_byte. cbv beta. intros; lia. }
      destruct (decode_string_raw_spec (bit_len_nat i) (pad_field k s) inp rest ltac:(lia) Hbytes Hb W E Hr)
        as (i' & D & R1 & R2 & R3).
      rewrite D. clear D. cbn [bind].
      assert (Hnm : forallb (fun c => (c =? 255) || (c =? 0)) (pad_field k s) = false).
      { destruct (forallb _ (pad_field k s)) eqn:X; auto. rewrite Pad, forallb_app in X. apply andb_prop in X as [X1 X2].
        destruct (k - length s)%nat eqn:Y; [|discriminate].
        assert (forallb (Z.eqb 255) s = true).
        { apply forallb_forall. intros c Hc. apply forallb_forall with (x := c) in X1; auto.
          assert (1 <= c < 256) by (eapply Forall_forall in P; eauto). lia. }
        rewrite H in F6. assert (Y2 : 8 * Z.of_nat (length s) =? vi_bit_len i = true) by lia. rewrite Y2 in F6. discriminate. }
      rewrite Hnm. rewrite setc_string by (unfold fresh; exact N). cbn [of_outcome bind].
      assert (T : trim_tail (pad_field k s) = s).
      { rewrite Pad. destruct (last_is_blank s) eqn:Y.
        - cbn [negb orb] in F5. apply zlist_eqb_eq in F5. subst s. cbn [length app].
          change (32 :: repeat 32 (k - 1)) with (repeat 32 (S (k - 1))). apply trim_tail_blanks.
        - apply trim_tail_padded; auto. intros ->. cbn in F1. lia. }
      rewrite T, cstr_id by exact P. rewrite firstn_all2 by (unfold ilen, fresh; cbn [c_info]; lia). eauto.
  - assert (Hp : (k <= 4)%nat \/ p = X86) by (destruct p; [left; lia|right; reflexivity]).
    destruct (append_missing_writes p k Hk1 Hp) as (a & b & Hab & Ha & Wm).
    exists (bits_of_bytes (repeat 255 a ++ repeat 0 b)). split.
    + intros out W. unfold append_var. cbn [isset c_val negb]. rewrite Hk. apply Wm; auto.
    + intros inp rest Hb W Hr E. unfold decode_value. rewrite N.
      destruct (decode_string_raw_spec (bit_len_nat i) (repeat 255 a ++ repeat 0 b) inp rest) as (i' & D & R1 & R2 & R3); auto.
      { rewrite app_length, !repeat_length. lia. }
      { apply Forall_app. split; apply Forall_repeat; unfold is_byte; lia. }
      rewrite D. cbn [bind].
      assert (Hm : forallb (fun c => (c =? 255) || (c =? 0)) (repeat 255 a ++ repeat 0 b) = true).
      { apply forallb_forall. intros c Hc. apply in_app_or in Hc as [Hc|Hc]; apply repeat_spec in Hc; subst; reflexivity. }
      rewrite Hm. unfold fresh. eauto.
Qed.

Lemma binary_roundtrip i v : vi_type i = TBinary -> field_ok p i v = true ->
  exists bs, writes bs (append_var p i (mkcell i v)) /\ reads bs (decode_value o i) (mkcell i v).
Proof.
  intros N F. unfold field_ok in F. rewrite N in F. rewrite !andb_true_iff in F. destruct F as ((B1 & B2) & F).
  assert (Hng : Z.of_nat (ngroups (bit_len_nat i)) = vi_len i).
  { unfold ngroups, bit_len_nat. rewrite Nat2Z.inj_div, Nat2Z.inj_add, Z2Nat.id by lia. lia. }
  destruct v as [[n|s|b]|]; try discriminate.
  - unfold binary_fits in F. rewrite !andb_true_iff in F. destruct F as (((F1 & F2) & F3) & F4).
    assert (P : Forall is_byte b) by (eapply forallb_Forall; [|exact F2]; unfold is_byte; cbv beta; intros; lia).
    assert (M : mask_groups (bit_len_nat i) b = b).
    { apply mask_groups_last; auto; [lia|]. unfold bit_len_nat.
      assert (Em : Z.of_nat (Z.to_nat (vi_bit_len i) mod 8) = vi_bit_len i mod 8)
        by (rewrite Nat2Z.inj_mod, Z2Nat.id by lia; reflexivity).
      rewrite Em. destruct (Z.eqb_spec (vi_bit_len i mod 8) 0); [left; lia|right]. cbn [orb] in F3. lia. }
    exists (groups_bits (bit_len_nat i) b). split.
    + intros out W. unfold append_var. cbn [isset c_val negb]. rewrite N. unfold enqc. cbn [c_val c_info]. rewrite N.
      cbn [bind]. destruct (append_binary_spec p (bit_len_nat i) b out W ltac:(lia)) as (o' & A1 & A2 & A3).
      exists o'. rewrite firstn_all2 in A2 by lia. auto.
    + intros inp rest Hb W Hr E. unfold decode_value. rewrite N.
      destruct (decode_binary_raw_spec (bit_len_nat i) b inp rest ltac:(lia) Hb W E Hr) as (i' & D & R1 & R2 & R3).
      rewrite D, M. cbn [bind].
      assert (Hnm : forallb (fun c => c =? 255) b = false).
      { destruct (forallb (fun c => c =? 255) b) eqn:X; auto.
        assert (forallb (Z.eqb 255) b = true) as H.
        { apply forallb_forall. intros c Hc. apply forallb_forall with (x := c) in X; auto. lia. }
        rewrite H in F4. discriminate. }
      rewrite Hnm. unfold setc, fresh. cbn [c_info]. rewrite N.
      unfold assign_b_checked. cbn [c_info].
      assert (Lb : length b = ilen i) by (unfold ilen; lia).
      rewrite Lb, !Nat.ltb_irrefl. rewrite firstn_all2 by lia.
      assert (Hl : (1 <= length b)%nat).
      { unfold ngroups in Hng. pose proof (Nat.div_le_mono 8 (bit_len_nat i + 7) 8). unfold bit_len_nat in *. lia. }
      replace (ilen i =? 0)%nat with false by lia. rewrite andb_false_r. cbn [of_outcome bind].
      assert (Hml : mask_last i b = b).
      { unfold mask_last. destruct (Z.eqb_spec (vi_bit_len i mod 8) 0) as [|Hm]; [reflexivity|].
        cbn [orb] in F3.
        destruct (rev b) as [|x r] eqn:Er.
        - apply (f_equal (@length Z)) in Er. rewrite rev_length in Er. cbn in Er. lia.
        - assert (Eb : b = rev r ++ [x]) by (rewrite <- (rev_involutive b), Er; reflexivity).
          rewrite Eb in F3 |- *. rewrite last_last in F3. cbn [rev]. f_equal. f_equal.
          pose proof (Z.mod_pos_bound (vi_bit_len i) 8 ltac:(lia)).
          replace (2 ^ (vi_bit_len i mod 8) - 1) with (Z.ones (vi_bit_len i mod 8)) by (rewrite Z.ones_equiv; lia).
          rewrite Z.land_ones by lia. apply Z.mod_small.
          assert (is_byte x) by (rewrite Eb in P; apply Forall_app in P as [_ P]; inversion P; auto).
          unfold is_byte in *. lia. }
      rewrite Hml. unfold with_val. cbn [c_info]. eauto.
  - apply andb_prop in F as [F1 F2].
    assert (Hk : exists k, bit_len_nat i = (8 * k)%nat /\ (1 <= k <= 4)%nat).
    { exists (Z.to_nat (vi_bit_len i / 8)). unfold bit_len_nat. pose proof (Z.div_mod (vi_bit_len i) 8). lia. }
    destruct Hk as (k & Hk & Hk4).
    assert (Lk : ngroups (bit_len_nat i) = k).
    { rewrite Hk. unfold ngroups. rewrite Nat.mul_comm, Nat.div_add_l by lia. cbn. lia. }
    exists (groups_bits (bit_len_nat i) (repeat 255 k)).
    assert (Hbytes : Forall is_byte (repeat 255 k)) by (apply Forall_repeat; unfold is_byte; lia).
    assert (L8 : bit_len_nat i = (8 * length (repeat 255%Z k))%nat) by (rewrite repeat_length; exact Hk).
    split.
    + intros out W. unfold append_var. cbn [isset c_val negb].
      destruct (append_missing_spec p (bit_len_nat i) out ltac:(lia) W) as (o' & A1 & A2 & A3).
      exists o'. split; auto. split; auto. rewrite A2. f_equal. rewrite groups_bits_bytes by exact L8.
      rewrite Hk. pose proof (bytes_ones_zeros k 0) as H. cbn [Nat.mul repeat] in H. rewrite !app_nil_r in H. exact H.
    + intros inp rest Hb W Hr E. unfold decode_value. rewrite N.
      destruct (decode_binary_raw_spec (bit_len_nat i) (repeat 255 k) inp rest) as (i' & D & R1 & R2 & R3); auto.
      { rewrite repeat_length. lia. }
      rewrite D. rewrite mask_groups_bytes by auto. cbn [bind].
      assert (Hm : forallb (fun c => c =? 255) (repeat 255 k) = true).
      { apply forallb_forall. intros c Hc. apply repeat_spec in Hc; subst; reflexivity. }
      rewrite Hm. unfold fresh. eauto.
Qed.

Theorem value_roundtrip i v : v = None \/ info_ok i -> field_ok p i v = true ->
  exists bs, writes bs (append_var p i (mkcell i v)) /\ reads bs (decode_value o i) (mkcell i v).
Proof.
  intros K F.
  assert (Num : is_numeric (vi_type i) = true ->
    exists bs, writes bs (append_var p i (mkcell i v)) /\ reads bs (decode_value o i) (mkcell i v)).
  { intros N. destruct (number_roundtrip i v K N F) as (bs & W & R). exists bs. split; auto.
    intros inp rest H1 H2 H3 H4. unfold decode_value. destruct (vi_type i); try discriminate; apply R; auto. }
  destruct (vi_type i) eqn:N; auto.
  - apply string_roundtrip; auto.
  - apply binary_roundtrip; auto.
Qed.

(** Writing "missing" in place of a value that is not there. *)
Lemma missing_append i : append_var p i (fresh i) = append_missing p (bit_len_nat i).
Proof. reflexivity. Qed.
End Value.

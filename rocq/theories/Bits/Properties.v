(** Properties C03 (bit fields), C04 (bounds), C39 (strings and binary data). *)
From Coq Require Import ZifyBool ZifyNat.
From Verif Require Import Base Bits.Model Bits.Spec Bits.Proofs Bits.StringProofs.
Local Open Scope Z_scope.

Definition widths_1_32 (fs : list (Z * nat)) : Prop :=
  forall v w, In (v, w) fs -> (1 <= w <= 32)%nat.

Lemma widths_1_32_ok fs : widths_1_32 fs -> widths_ok fs.
Proof.
  intros H. unfold widths_ok. apply Forall_forall. intros (v, w) Hin. cbn. eauto.
Qed.

(** C03, writer: any sequence of fields is written as the concatenation of their
    bits; flushing pads with fewer than 8 zero bits up to a byte boundary. *)
Theorem C03_writer_concatenates : forall p fs, widths_1_32 fs ->
  exists o, write_fields p fs out_empty = Ok o /\
  exists k, (k < 8)%nat /\
    bits_of_bytes (obytes (flush o)) = fields_bits fs ++ repeat false k /\
    Forall is_byte (obytes (flush o)).
Proof.
  intros p fs Hf.
  destruct (write_fields_spec p fs out_empty (widths_1_32_ok _ Hf) wf_out_empty) as (o & E & B & W).
  exists o. split; auto. destruct (flush_spec o W) as (k & Hk & _ & F & _ & _ & HB).
  exists k. split; auto. split; auto. rewrite F, B. reflexivity.
Qed.

(** C03, round trip: the bytes written, preceded by any bytes and followed by at
    least one byte (in a message: the "7777" trailer), are read back as the
    fields modulo their widths; no error, no undefined behaviour. *)
Theorem C03_bit_fields_roundtrip : forall p fs before after, widths_1_32 fs ->
  Forall is_byte before -> Forall is_byte after -> after <> [] ->
  exists o, write_fields p fs out_empty = Ok o /\
  exists i, read_fields (map snd fs) (mkin (before ++ obytes (flush o) ++ after) (length before) 0 0)
    = Ok (map (fun f => fst f mod 2 ^ Z.of_nat (snd f)) fs, i).
Proof.
  intros p fs before after Hf Hb Ha Hne.
  destruct (C03_writer_concatenates p fs Hf) as (o & E & k & Hk & B & HB).
  exists o. split; auto.
  destruct (read_fields_spec fs (mkin (before ++ obytes (flush o) ++ after) (length before) 0 0)
      (repeat false k ++ bits_of_bytes after)) as (i & R & _).
  - cbn [idata]. repeat (apply Forall_app; split); auto.
  - unfold wf_in. cbn [iplen ipbyte icur idata]. rewrite app_length. lia.
  - apply widths_1_32_ok; auto.
  - unfold in_bits. cbn [iplen firstn app icur idata].
    rewrite skipn_app, skipn_all, Nat.sub_diag. cbn [skipn app].
    rewrite bits_of_bytes_app, B, <- app_assoc. reflexivity.
  - rewrite app_length, bits_of_bytes_length. destruct after; [congruence|]. cbn [length]. lia.
  - exists i. exact R.
Qed.

Example C03_example :
  let fs := [(5, 3%nat); (1000, 7%nat); (123456789, 32%nat); (1, 1%nat)] in
  widths_1_32 fs /\
  (o <- write_fields Strict fs out_empty ;;
   '(vs, _) <- read_fields [3; 7; 32; 1]%nat (mkin ([66] ++ obytes (flush o) ++ [55]) 1 0 0) ;; Ok vs)
  = Ok [5; 104; 123456789; 1].
Proof.
  split.
  - intros v w H. repeat (destruct H as [H|H]; [injection H as <- <-; lia|]). destruct H.
  - vm_compute. reflexivity.
Qed.

(** C04, positive part: as long as at least [max 8 n] bits are left in the buffer,
    reading [n] bits returns them. *)
Theorem C04_get_bits_inside_partial : forall n i, (n <= 32)%nat ->
  Forall is_byte (idata i) -> wf_in i ->
  (n <= length (in_bits i))%nat -> (8 <= length (in_bits i))%nat ->
  exists i', get_bits n i = Ok (val_of (firstn n (in_bits i)), i') /\
             in_bits i' = skipn n (in_bits i) /\ idata i' = idata i /\ wf_in i'.
Proof.
  intros n i Hn HB W Hlen H8.
  assert (L : length (firstn n (in_bits i)) = n) by (rewrite firstn_length; lia).
  destruct (get_bits_spec (firstn n (in_bits i)) i (skipn n (in_bits i))) as (i' & E & R & W' & D); auto.
  { symmetry. apply firstn_skipn. } { rewrite firstn_skipn. auto. }
  rewrite L in E. exists i'. rewrite E. split; auto.
  f_equal. f_equal. unfold u32. apply Z.mod_small.
  pose proof (val_of_range (firstn n (in_bits i))) as R'. rewrite L in R'.
  assert (2 ^ Z.of_nat n <= 2 ^ 32) by (apply Z.pow_le_mono_r; lia). lia.
Qed.

(** C04, exact condition of the out-of-bounds read: the cursor is not at the end
    when the call starts and the request goes more than a byte (the string
    terminator) past the end. *)
Theorem C04_get_bits_out_of_bounds_iff : forall n i, Forall is_byte (idata i) -> wf_in i ->
  (get_bits n i = UB <-> icur i <> length (idata i) /\ (length (in_bits i) + 8 < n)%nat).
Proof. exact get_bits_ub_iff. Qed.

(** C04 is false of the code: a 32-bit read with one byte left reads out of the
    buffer. *)
Theorem C04_get_bits_safe_refuted :
  exists i n, Forall is_byte (idata i) /\ wf_in i /\ (n <= 32)%nat /\ get_bits n i = UB.
Proof.
  exists (mkin [1] 0 0 0), 32%nat. repeat split; try (cbn; lia).
  constructor; auto. unfold is_byte; lia.
Qed.

(** ... and with bits still unread in the last byte, it reports an end of buffer
    although the requested bits are there. *)
Theorem C04_get_bits_spurious_eof_refuted :
  exists i n, Forall is_byte (idata i) /\ wf_in i /\ (n <= length (in_bits i))%nat /\
              get_bits n i = Err EParse.
Proof.
  exists (mkin [255] 1 254 7), 3%nat. repeat split; try (cbn; lia); try reflexivity.
  constructor; auto. unfold is_byte; lia.
Qed.

(** C39, strings: a string of characters 1..255 that fits a field of [k] bytes,
    does not end with a blank and is not made only of 0xff is read back
    identical. *)
Theorem C39_string_roundtrip : forall p k s before after,
  Forall (fun c => 1 <= c < 256) s -> (length s <= k)%nat -> s <> [] ->
  last_is_blank s = false -> (exists c, In c s /\ c <> 255) ->
  Forall is_byte before -> Forall is_byte after -> after <> [] ->
  exists o, append_string p s (8 * k) out_empty = Ok o /\
  exists i, decode_string_raw (8 * k) (mkin (before ++ obytes (flush o) ++ after) (length before) 0 0)
    = Ok (Some s, i).
Proof.
  intros p k s before after Hs Hl Hne Hb [c [Hc Hc255]] Hbf Haf Hane.
  destruct (append_string_spec p s (8 * k) out_empty wf_out_empty) as (o & E & B & W).
  exists o. split; auto.
  destruct (flush_spec o W) as (j & Hj & Hj8 & F & _ & _ & HB).
  assert (D8 : (8 * k / 8 = k)%nat) by (rewrite Nat.mul_comm; apply Nat.div_mul; lia).
  assert (M8 : ((8 * k) mod 8 = 0)%nat) by (rewrite Nat.mul_comm; apply Nat.mod_mul; lia).
  rewrite D8, M8 in B. cbn [repeat] in B. rewrite app_nil_r in B.
  rewrite pad_field_fit in B by auto. cbn in B.
  set (cs := s ++ repeat 32 (k - length s)) in *.
  assert (Lcs : length cs = k) by (unfold cs; rewrite app_length, repeat_length; lia).
  destruct (decode_string_raw_spec (8 * k) cs
    (mkin (before ++ obytes (flush o) ++ after) (length before) 0 0)
    (repeat false j ++ bits_of_bytes after)) as (i & R & _).
  - lia.
  - apply Forall_app. split.
    + eapply Forall_impl; [|exact Hs]. unfold is_byte. cbn. lia.
    + apply Forall_forall. intros x Hx. apply repeat_spec in Hx. subst x. unfold is_byte; lia.
  - cbn [idata]. repeat (apply Forall_app; split); auto.
  - unfold wf_in. cbn [iplen ipbyte icur idata]. rewrite app_length. lia.
  - unfold in_bits. cbn [iplen firstn app icur idata].
    rewrite skipn_app, skipn_all, Nat.sub_diag. cbn [skipn app].
    rewrite bits_of_bytes_app, F, B, <- app_assoc. reflexivity.
  - rewrite app_length, bits_of_bytes_length. destruct after; [congruence|]. cbn [length]. lia.
  - exists i. rewrite R. f_equal. f_equal.
    assert (N : forallb (fun c => (c =? 255) || (c =? 0)) cs = false).
    { apply Bool.not_true_iff_false. intros H. rewrite forallb_forall in H.
      specialize (H c). rewrite Forall_forall in Hs. specialize (Hs c Hc).
      assert (In c cs) by (unfold cs; apply in_or_app; auto). specialize (H H0). lia. }
    rewrite N. f_equal. unfold cs. apply trim_tail_padded; auto.
Qed.

Example C39_string_example :
  Forall (fun c => 1 <= c < 256) [72; 105; 32; 255] /\ last_is_blank [72; 105; 32; 255] = false /\
  (o <- append_string Strict [72; 105; 32; 255] 48 out_empty ;;
   '(s, _) <- decode_string_raw 48 (mkin (obytes (flush o) ++ [55]) 0 0 0) ;; Ok s)
  = Ok (Some [72; 105; 32; 255]).
Proof. repeat split; try reflexivity. repeat constructor; lia. Qed.

(** The full property is false: the empty string is read back as one blank, and a
    string of 0xff that fills its field is read back as missing. *)
Theorem C39_string_roundtrip_refuted :
  (exists k i, (exists o, append_string Strict [] (8 * k) out_empty = Ok o /\
     decode_string_raw (8 * k) (mkin (obytes (flush o) ++ [55]) 0 0 0) = Ok (Some [32], i))) /\
  (exists k i, (exists o, append_string Strict [255; 255] (8 * k) out_empty = Ok o /\
     decode_string_raw (8 * k) (mkin (obytes (flush o) ++ [55]) 0 0 0) = Ok (None, i))).
Proof.
  split; [exists 3%nat|exists 2%nat]; eexists; eexists; (split; [vm_compute; reflexivity|vm_compute; reflexivity]).
Qed.

(** C39, missing strings: a missing string of [k] bytes is read back as missing,
    when its width is at most 32 bits or shifts behave as on x86. *)
Theorem C39_missing_string_roundtrip : forall p k before after,
  (1 <= k)%nat -> (k <= 4 \/ p = X86)%nat ->
  Forall is_byte before -> Forall is_byte after -> after <> [] ->
  exists o, append_missing p (8 * k) out_empty = Ok o /\
  exists i, decode_string_raw (8 * k) (mkin (before ++ obytes (flush o) ++ after) (length before) 0 0)
    = Ok (None, i).
Proof.
  intros p k before after Hk Hp Hbf Haf Hane.
  destruct (append_missing_bytes p k out_empty Hk Hp wf_out_empty) as (o & a & b & E & Hab & Ha1 & B & W).
  exists o. split; auto.
  destruct (flush_spec o W) as (j & Hj & Hj8 & F & _ & _ & HB).
  destruct (decode_string_raw_spec (8 * k) (repeat 255 a ++ repeat 0 b)
    (mkin (before ++ obytes (flush o) ++ after) (length before) 0 0)
    (repeat false j ++ bits_of_bytes after)) as (i & R & _).
  - rewrite app_length, !repeat_length. lia.
  - apply Forall_app. split; apply Forall_forall; intros x Hx; apply repeat_spec in Hx; subst; unfold is_byte; lia.
  - cbn [idata]. repeat (apply Forall_app; split); auto.
  - unfold wf_in. cbn [iplen ipbyte icur idata]. rewrite app_length. lia.
  - unfold in_bits. cbn [iplen firstn app icur idata].
    rewrite skipn_app, skipn_all, Nat.sub_diag. cbn [skipn app].
    rewrite (bits_of_bytes_app (obytes (flush o))), F, B. cbn [out_bits out_empty obytes opbyte oplen bits_of bits_of_bytes flat_map app].
    rewrite <- app_assoc. reflexivity.
  - rewrite app_length, bits_of_bytes_length. destruct after; [congruence|]. cbn [length]. lia.
  - exists i. rewrite R. f_equal. f_equal.
    rewrite (proj2 (forallb_forall _ _)); auto.
    intros x Hx. apply in_app_or in Hx. destruct Hx as [Hx|Hx]; apply repeat_spec in Hx; subst; reflexivity.
Qed.

(** Writing a missing value wider than 32 bits is undefined behaviour in C++. *)
Theorem C39_missing_wide_is_ub : forall n o, (32 < n)%nat -> append_missing Strict n o = UB.
Proof. intros. unfold append_missing. apply add_bits_strict_ub. lia. Qed.

(** C39, binary data of [n] bits held in [ceil(n/8)] bytes, the last byte using
    its low bits: read back bit for bit unless every byte is 0xff. *)
Theorem C39_binary_roundtrip : forall p n s before after,
  length s = ngroups n -> mask_groups n s = s -> (exists c, In c s /\ c <> 255) ->
  Forall is_byte before -> Forall is_byte after -> after <> [] ->
  exists o, append_binary p s n out_empty = Ok o /\
  exists i, decode_binary_raw n (mkin (before ++ obytes (flush o) ++ after) (length before) 0 0)
    = Ok (Some s, i).
Proof.
  intros p n s before after Hl Hm [c [Hc Hc255]] Hbf Haf Hane.
  destruct (append_binary_spec p n s out_empty wf_out_empty) as (o & E & B & W); [lia|].
  exists o. split; auto. rewrite <- Hl, firstn_all in B.
  destruct (flush_spec o W) as (j & Hj & Hj8 & F & _ & _ & HB).
  destruct (decode_binary_raw_spec n s
    (mkin (before ++ obytes (flush o) ++ after) (length before) 0 0)
    (repeat false j ++ bits_of_bytes after)) as (i & R & _); auto.
  - cbn [idata]. repeat (apply Forall_app; split); auto.
  - unfold wf_in. cbn [iplen ipbyte icur idata]. rewrite app_length. lia.
  - unfold in_bits. cbn [iplen firstn app icur idata].
    rewrite skipn_app, skipn_all, Nat.sub_diag. cbn [skipn app].
    rewrite bits_of_bytes_app, F, B. cbn [out_bits out_empty obytes opbyte oplen bits_of bits_of_bytes flat_map app].
    rewrite <- app_assoc. reflexivity.
  - rewrite app_length, bits_of_bytes_length. destruct after; [congruence|]. cbn [length]. lia.
  - exists i. rewrite R, Hm. f_equal. f_equal.
    assert (N : forallb (fun c => c =? 255) s = false).
    { apply Bool.not_true_iff_false. intros H. rewrite forallb_forall in H. specialize (H c Hc). lia. }
    rewrite N. reflexivity.
Qed.

Example C39_binary_example :
  length [171; 5] = ngroups 11 /\ mask_groups 11 [171; 5] = [171; 5].
Proof. split; reflexivity. Qed.

(** Missing binary data is not read back as missing when the width is not a
    multiple of 8. *)
Theorem C39_missing_binary_refuted :
  exists o i, append_missing Strict 12 out_empty = Ok o /\
    decode_binary_raw 12 (mkin (obytes (flush o) ++ [55]) 0 0 0) = Ok (Some [255; 15], i).
Proof. eexists; eexists; (split; [vm_compute; reflexivity|vm_compute; reflexivity]). Qed.

Print Assumptions C03_writer_concatenates.
Print Assumptions C03_bit_fields_roundtrip.
Print Assumptions C04_get_bits_inside_partial.
Print Assumptions C04_get_bits_out_of_bounds_iff.
Print Assumptions C39_string_roundtrip.
Print Assumptions C39_missing_string_roundtrip.
Print Assumptions C39_binary_roundtrip.

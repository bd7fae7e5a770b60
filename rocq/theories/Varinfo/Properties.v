(** Properties C05, C06 (raw fields) and C38. *)
From Coq Require Import String Reals.
From Flocq Require Import Core BinarySingleNaN.
From Verif Require Import Base Num.Float Varcode.Model Varinfo.Model Varinfo.Proofs Varinfo.RangeProofs.
Local Open Scope Z_scope.

(** C05: every 32-bit integer survives decode_decimal then encode_decimal, for
    every scale in -16..16, in binary64 arithmetic. *)
Theorem C05_decimal_roundtrip : forall s k, -16 <= s <= 16 -> - 2 ^ 31 <= k <= 2 ^ 31 - 1 ->
  exists d, decode_decimal s k = Ok d /\ encode_decimal s d = Ok k.
Proof. exact encode_decode_decimal. Qed.

(** C05: rounding a value that the variable can represent does not change it. *)
Theorem C05_round_decimal_id : forall s k, -16 <= s <= 16 -> Z.abs k <= 2 ^ 34 ->
  exists d r, decode_decimal s k = Ok d /\ round_decimal s d = Ok r /\ feq r d = true.
Proof. exact round_decode. Qed.

(** C05: encoding any double gives the nearest integer multiple (up to the
    rounding error of one multiplication or division, far below 1/10000). *)
Theorem C05_encode_nearest : forall s (d : f64), -16 <= s <= 16 -> is_finite d = true ->
  let x := if 0 <=? s then (B2R d * IZR (10 ^ s))%R else (B2R d / IZR (10 ^ (- s)))%R in
  (Rabs x <= 2147483647)%R ->
  exists n, encode_decimal s d = Ok n /\ (Rabs (IZR n - x) <= / 2 + / 100000)%R.
Proof. exact encode_decimal_nearest. Qed.

(** The order of the decoded doubles is the order of the integers. *)
Theorem C05_decimal_order : forall s a b da db, -16 <= s <= 16 ->
  - 2 ^ 31 <= a <= 2 ^ 31 - 1 -> - 2 ^ 31 <= b <= 2 ^ 31 - 1 ->
  decode_decimal s a = Ok da -> decode_decimal s b = Ok db ->
  flt da db = (a <? b).
Proof.
  intros s a b da db Hs Ha Hb Ea Eb.
  destruct (decode_decimal_ok s a) as (x & X & Fx & Rx); [auto|lia|].
  destruct (decode_decimal_ok s b) as (y & Y & Fy & Ry); [auto|lia|].
  rewrite X in Ea. injection Ea as <-. rewrite Y in Eb. injection Eb as <-.
  apply (flt_scaled s); auto; lia.
Qed.

(** Outside -16..16 the conversion reads past the table of powers of ten. *)
Theorem C05_scale_out_of_bounds : forall s k, (s < -16 \/ 16 < s) -> decode_decimal s k = UB.
Proof.
  intros s k H. unfold decode_decimal, scales.
  destruct (Z.ltb_spec 0 s); [|destruct (Z.ltb_spec s 0); [|lia]].
  - destruct (Z.leb_spec s 16); [lia|]. rewrite andb_false_r. reflexivity.
  - destruct (Z.leb_spec (- s) 16); [lia|]. rewrite andb_false_r. reflexivity.
Qed.

(** C06, raw fields: decoding a raw field and encoding the double gives the raw
    field back, for every scale, reference value and raw value. *)
Theorem C06_raw_field_roundtrip : forall i raw,
  vi_bit_len i <> 0 -> -16 <= vi_scale i <= 16 -> - 2 ^ 31 <= vi_bit_ref i <= 2 ^ 31 - 1 ->
  0 <= raw < 2 ^ 32 ->
  exists d, decode_binary i raw = Ok d /\ encode_binary i d = Ok raw.
Proof. intros. apply encode_decode_binary; auto. Qed.

(** B12101 TEMPERATURE, K, scale 2, 16 bits, and B05001 LATITUDE, scale 5,
    reference -9000000, 25 bits. *)
Definition b12101 : res varinfo := set_bufr (wr_var 0 12 101) "K" 2 5 0 16.
Definition b05001 : res varinfo := set_bufr (wr_var 0 5 1) "DEGREE" 5 8 (-9000000) 25.

Example C06_example : exists i d, b05001 = Ok i /\ decode_binary i 13450312 = Ok d /\
  encode_binary i d = Ok 13450312 /\ encode_decimal 5 d = Ok 4450312.
Proof.
  destruct (res_view (i <- b05001 ;; d <- decode_binary i 13450312 ;; Ok (i, d))
    (fun '(i, d) => (encode_binary i d, encode_decimal 5 d)) (Ok 13450312, Ok 4450312)
    ltac:(vm_compute; reflexivity)) as ([i d] & E & V).
  exists i, d. inv_bind E. inv_bind Hk. injection Hk0 as <- <-. injection V as V1 V2. auto.
Qed.

(** C38: every integer in the declared range of a definition encodes to a field
    that fits the bit length and is not the all-ones missing value. *)
Theorem C38_range_encodable_partial : forall i k, info_ok i -> is_numeric (vi_type i) = true ->
  vi_len i < 10 -> vi_bit_len i <> 0 -> var_x (vi_code i) <> 31 ->
  vi_imin i <= k <= vi_imax i ->
  0 <= k - vi_bit_ref i < 2 ^ vi_bit_len i - 1.
Proof. exact range_encodable. Qed.

(** C38: ... and is a decimal number that fits the CREX length and differs from
    the all-nines value. *)
Theorem C38_range_crex_partial : forall i k, info_ok i -> is_numeric (vi_type i) = true ->
  vi_len i < 10 -> vi_imin i <= k <= vi_imax i ->
  Z.abs k < 10 ^ vi_len i /\ k <> 10 ^ vi_len i - 1.
Proof. exact range_crex. Qed.

(** Definitions made from a table satisfy the hypotheses. *)
Theorem C38_bufr_definition_ok : forall c u s l r b i,
  int_min <= r <= int_max -> int_min <= s <= int_max -> 0 <= l < 2 ^ 32 -> 0 <= b < 2 ^ 32 ->
  set_bufr c u s l r b = Ok i -> info_ok i.
Proof. exact set_bufr_ok. Qed.

Example C38_example : exists i, b12101 = Ok i /\ is_numeric (vi_type i) = true /\ vi_len i < 10 /\
  vi_bit_len i <> 0 /\ var_x (vi_code i) <> 31 /\ vi_imin i = 0 /\ vi_imax i = 65534.
Proof.
  destruct (res_view b12101 (fun i => (vi_type i, vi_len i, vi_bit_len i, var_x (vi_code i), vi_imin i, vi_imax i))
    (TDecimal, 5, 16, 12, 0, 65534) ltac:(vm_compute; reflexivity)) as (i & E & V).
  injection V as V1 V2 V3 V4 V5 V6. exists i. rewrite V1, V2, V3, V4, V5, V6. repeat split; auto; discriminate.
Qed.

(** C38 is false for class 31: B31001 (8 bits) accepts 256, whose field does not
    fit, and 255, which is the missing value. *)
Theorem C38_class31_refuted : exists i, set_bufr (wr_var 0 31 1) "NUMERIC" 0 3 0 8 = Ok i /\
  vi_imin i <= 256 <= vi_imax i /\ ~ (256 - vi_bit_ref i < 2 ^ vi_bit_len i).
Proof.
  destruct (res_view (set_bufr (wr_var 0 31 1) "NUMERIC" 0 3 0 8)
    (fun i => (vi_imin i, vi_imax i, vi_bit_ref i, vi_bit_len i)) (0, 256, 0, 8)
    ltac:(vm_compute; reflexivity)) as (i & E & V).
  injection V as V1 V2 V3 V4. exists i. rewrite V1, V2, V3, V4. repeat split; auto; discriminate.
Qed.

(** C38 is false for definitions with 10 or more digits (31 and 32 bits wide): the
    range is the whole int range whatever the reference value. *)
Theorem C38_wide_refuted : exists i, set_bufr (wr_var 0 2 121) "Hz" (-8) 10 0 32 = Ok i /\
  vi_imin i <= -1 <= vi_imax i /\ -1 - vi_bit_ref i < 0.
Proof.
  destruct (res_view (set_bufr (wr_var 0 2 121) "Hz" (-8) 10 0 32)
    (fun i => (vi_imin i, vi_imax i, vi_bit_ref i)) (int_min, int_max, 0)
    ltac:(vm_compute; reflexivity)) as (i & E & V).
  injection V as V1 V2 V3. exists i. rewrite V1, V2, V3. repeat split; auto; discriminate.
Qed.

Print Assumptions C05_decimal_roundtrip.
Print Assumptions C05_round_decimal_id.
Print Assumptions C05_encode_nearest.
Print Assumptions C05_decimal_order.
Print Assumptions C05_scale_out_of_bounds.
Print Assumptions C06_raw_field_roundtrip.
Print Assumptions C38_range_encodable_partial.
Print Assumptions C38_range_crex_partial.
Print Assumptions C38_class31_refuted.
Print Assumptions C38_wide_refuted.

(** C39: definitions of binary data have room for the last, partial byte; those of
    character data are as many bytes as characters. *)
Theorem C39_binary_definition : forall code n i, set_binary code n = Ok i ->
  vi_type i = TBinary /\ vi_bit_len i = n /\ 8 * (vi_len i - 1) < n <= 8 * vi_len i.
Proof.
  unfold set_binary. intros code n i H. apply compute_range_fields in H as (_ & E2 & _ & _ & E5 & _ & E7).
  rewrite E5, E7. pose proof (Z.div_mod (n + 7) 8 ltac:(lia)). pose proof (Z.mod_pos_bound (n + 7) 8 ltac:(lia)).
  split; auto. split; auto. lia.
Qed.

Theorem C39_string_definition : forall code n i, 0 <= n < 2 ^ 29 -> set_string code n = Ok i ->
  vi_type i = TString /\ vi_len i = n /\ vi_bit_len i = 8 * n.
Proof.
  unfold set_string. intros code n i Hn H. apply compute_range_fields in H as (_ & E2 & _ & _ & E5 & _ & E7).
  rewrite E5, E7. unfold u32. rewrite Z.mod_small by lia. split; auto. split; auto. lia.
Qed.

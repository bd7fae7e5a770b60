(** C67: the numbers of a definition, seen from Python. *)
From Coq Require Import ZArith String Lia.
From Verif Require Import Base Varcode.Model Varinfo.Model Python.Model Python.Info Python.Properties.
Local Open Scope Z_scope.

Lemma range_fields code t unit scale len bit_ref bit_len i : compute_range code t unit scale len bit_ref bit_len = Ok i ->
  vi_code i = code /\ vi_type i = t /\ vi_unit i = unit /\ vi_scale i = scale /\ vi_len i = len /\ vi_bit_ref i = bit_ref /\ vi_bit_len i = bit_len.
Proof.
  unfold compute_range. destruct (compute_irange t code len bit_ref bit_len) as [[imin imax]| |]; cbn [bind]; try discriminate.
  destruct t; try (destruct (decode_decimal scale imin) as [dmin| |]; cbn [bind]; try discriminate; destruct (decode_decimal scale imax) as [dmax| |]; cbn [bind]; try discriminate);
    intros E; injection E as <-; repeat split.
Qed.

(** A definition made from the numbers of a line of a table shows those numbers; len and bit_len are unsigned. *)
Theorem C67_info_numbers : forall code unit scale len bit_ref bit_len i, set_bufr code unit scale len bit_ref bit_len = Ok i ->
  0 <= len < 2 ^ 32 -> 0 <= bit_len < 2 ^ 32 ->
  info_scale i = PInt scale /\ info_len i = PInt len /\ info_bit_ref i = PInt bit_ref /\ info_bit_len i = PInt bit_len /\
  info_code i = py_varcode code.
Proof.
  intros code unit scale len bit_ref bit_len i E Rl Rb. destruct (range_fields _ _ _ _ _ _ _ _ E) as (E1 & E2 & E3 & E4 & E5 & E6 & E7).
  unfold info_scale, info_len, info_bit_ref, info_bit_len, info_code, u32. rewrite E1, E4, E5, E6, E7, !Z.mod_small by lia. auto.
Qed.
Print Assumptions C67_info_numbers.

(** The same for a definition of CREX, where the two numbers of bits are zero. *)
Theorem C67_info_numbers_crex : forall code unit scale len i, set_crex code unit scale len = Ok i -> 0 <= len < 2 ^ 32 ->
  info_scale i = PInt scale /\ info_len i = PInt len /\ info_bit_ref i = PInt 0 /\ info_bit_len i = PInt 0 /\ info_code i = py_varcode code.
Proof.
  intros code unit scale len i E Rl. destruct (range_fields _ _ _ _ _ _ _ _ E) as (E1 & E2 & E3 & E4 & E5 & E6 & E7).
  unfold info_scale, info_len, info_bit_ref, info_bit_len, info_code, u32. rewrite E1, E4, E5, E6, E7, !Z.mod_small by lia. auto.
Qed.
Print Assumptions C67_info_numbers_crex.

Definition latitude : res varinfo := set_bufr 1281 "DEGREE" 5 7 (-9000000) 25.
(** The latitude with five decimals. *)
Example C67_info_numbers_example : exists i, set_bufr 1281 "DEGREE" 5 7 (-9000000) 25 = Ok i /\
  info_scale i = PInt 5 /\ info_len i = PInt 7 /\ info_bit_ref i = PInt (-9000000) /\ info_bit_len i = PInt 25.
Proof.
  get_info latitude (fun i => vi_code i) 1281. unfold latitude in E. exists i. split; [exact E|].
  destruct (C67_info_numbers _ _ _ _ _ _ _ E) as (A & B & C & D & _); [lia..|]. auto.
Qed.

From Coq Require Import ZArith Bool Reals Lra Psatz ZifyBool String.
From Flocq Require Import Core BinarySingleNaN.
From Verif Require Import Base Num.Float Num.FloatProofs Varcode.Model Varinfo.Model Varinfo.Proofs.
Local Open Scope Z_scope.

(** The derived fields are the ones compute_range computes. *)
Definition built (i : varinfo) : Prop :=
  compute_range (vi_code i) (vi_type i) (vi_unit i) (vi_scale i) (vi_len i) (vi_bit_ref i) (vi_bit_len i) = Ok i.

(** A definition as the library creates them: the fields fit their C++ types,
    the type agrees with the scale and the range has been computed. *)
Record info_ok (i : varinfo) : Prop := {
  io_built : built i;
  io_ref : int_min <= vi_bit_ref i <= int_max;
  io_scale : int_min <= vi_scale i <= int_max;
  io_len : 0 <= vi_len i < 2 ^ 32;
  io_bit_len : 0 <= vi_bit_len i < 2 ^ 32;
  io_int : vi_type i = TInteger -> vi_scale i = 0 }.

Lemma compute_range_fields c t u s l r b i : compute_range c t u s l r b = Ok i ->
  vi_code i = c /\ vi_type i = t /\ vi_unit i = u /\ vi_scale i = s /\ vi_len i = l /\
  vi_bit_ref i = r /\ vi_bit_len i = b.
Proof.
  unfold compute_range. intros H. inv_bind H. destruct a as [mn mx].
  destruct t; [inv_bind Hk; inv_bind Hk0; injection Hk as <-
              |inv_bind Hk; inv_bind Hk0; injection Hk as <-
              |injection Hk as <- |injection Hk as <-]; cbn; auto 10.
Qed.

Lemma compute_range_built c t u s l r b i : compute_range c t u s l r b = Ok i -> built i.
Proof.
  intros H. pose proof (compute_range_fields _ _ _ _ _ _ _ _ H) as (E1 & E2 & E3 & E4 & E5 & E6 & E7).
  unfold built. rewrite E1, E2, E3, E4, E5, E6, E7. exact H.
Qed.

Lemma set_bufr_ok c u s l r b i : int_min <= r <= int_max -> int_min <= s <= int_max ->
  0 <= l < 2 ^ 32 -> 0 <= b < 2 ^ 32 -> set_bufr c u s l r b = Ok i -> info_ok i.
Proof.
  unfold set_bufr. intros Hr Hs Hl Hb H. pose proof (compute_range_fields _ _ _ _ _ _ _ _ H) as (A & B & C & D & E & F & G).
  constructor; try (rewrite ?D, ?E, ?F, ?G; assumption).
  - eapply compute_range_built; eauto.
  - rewrite B, D. unfold bufr_type. destruct (String.eqb u "CCITTIA5"); [discriminate|].
    destruct (Z.eqb_spec s 0); auto. discriminate.
Qed.

Lemma decode_decimal_scale_ok s k d : decode_decimal s k = Ok d -> scale_ok s.
Proof.
  unfold decode_decimal, scales, scale_ok.
  destruct (Z.ltb_spec 0 s); [|destruct (Z.ltb_spec s 0)]; intros E.
  - destruct ((0 <=? s) && (s <=? 16)) eqn:Q; [lia|discriminate].
  - destruct ((0 <=? - s) && (- s <=? 16)) eqn:Q; [lia|discriminate].
  - lia.
Qed.

Lemma pow10_9 l : 0 <= l <= 9 -> 1 <= 10 ^ l <= 1000000000.
Proof.
  intros H. split.
  - assert (0 < 10 ^ l) by (apply Z.pow_pos_nonneg; lia). lia.
  - change 1000000000 with (10 ^ 9). apply Z.pow_le_mono_r; lia.
Qed.

Lemma intexp10_ok l p : intexp10 l = Ok p -> 0 <= l <= 9 /\ p = 10 ^ l.
Proof.
  unfold intexp10. destruct ((0 <=? l) && (l <=? 9)) eqn:Q; [|discriminate].
  intros [= <-]. lia.
Qed.

Lemma int_checked_ok z r : int_checked z = Ok r -> r = z /\ int_min <= z <= int_max.
Proof.
  unfold int_checked, in_int. destruct ((int_min <=? z) && (z <=? int_max)) eqn:Q; [|discriminate].
  intros [= <-]. split; [reflexivity|lia].
Qed.

(** What compute_irange returns, by cases. *)
Lemma compute_irange_cases t c l r b mn mx : is_numeric t = true -> compute_irange t c l r b = Ok (mn, mx) ->
  (10 <= l /\ mn = int_min /\ mx = int_max) \/
  (0 <= l <= 9 /\ b = 0 /\ mn = - (10 ^ l - 1) /\ mx = 10 ^ l - 2) \/
  (0 <= l <= 9 /\ b <> 0 /\ b < 31 /\
   (2 ^ b + r <= int_max) /\ (int_min <= 2 ^ b + r - (if var_x c =? 31 then 0 else 2)) /\
   mn = Z.max r (- (10 ^ l - 1)) /\
   mx = Z.min (2 ^ b + r - (if var_x c =? 31 then 0 else 2)) (10 ^ l - 2)).
Proof.
  intros Ht H.
  assert (H' : (if 10 <=? l then Ok (int_min, int_max)
     else if b =? 0 then p <- intexp10 l ;; Ok (- (p - 1), p - 2)
     else if 31 <=? b then UB else
      bit_max0 <- int_checked (2 ^ b + r) ;;
      bit_max <- (if negb (var_x c =? 31) then int_checked (bit_max0 - 2) else Ok bit_max0) ;;
      p <- intexp10 l ;;
      Ok (Z.max r (- (p - 1)), Z.min bit_max (p - 2))) = Ok (mn, mx)).
  { destruct t; try discriminate; exact H. }
  clear H Ht.
  destruct (Z.leb_spec 10 l); [injection H' as <- <-; left; auto|right].
  destruct (Z.eqb_spec b 0).
  - left. inv_bind H'. apply intexp10_ok in Hb as [? ->]. injection Hk as <- <-. auto.
  - right. destruct (Z.leb_spec 31 b); [discriminate|].
    inv_bind H'. apply int_checked_ok in Hb as [-> ?]. inv_bind Hk.
    inv_bind Hk0. apply intexp10_ok in Hb0 as [? ->]. injection Hk as <- <-.
    destruct (Z.eqb_spec (var_x c) 31); cbn [negb] in Hb.
    + injection Hb as <-. rewrite Z.sub_0_r. repeat split; auto; lia.
    + apply int_checked_ok in Hb as [-> ?]. repeat split; auto; lia.
Qed.

Lemma compute_irange_int t c l r b mn mx : int_min <= r <= int_max ->
  compute_irange t c l r b = Ok (mn, mx) ->
  int_min <= mn <= int_max /\ int_min <= mx <= int_max.
Proof.
  intros Hr H. destruct (is_numeric t) eqn:Ht.
  - destruct (compute_irange_cases _ _ _ _ _ _ _ Ht H) as [(?&->&->)|[(?&?&->&->)|(?&?&?&?&?&->&->)]];
      unfold int_min, int_max in *; try lia.
    + pose proof (pow10_9 l ltac:(auto)). lia.
    + pose proof (pow10_9 l ltac:(auto)). lia.
  - destruct t; try discriminate; injection H as <- <-; unfold int_min, int_max; lia.
Qed.

Lemma info_ok_numeric i : info_ok i -> is_numeric (vi_type i) = true ->
  scale_ok (vi_scale i) /\
  int_min <= vi_imin i <= int_max /\ int_min <= vi_imax i <= int_max /\
  compute_irange (vi_type i) (vi_code i) (vi_len i) (vi_bit_ref i) (vi_bit_len i) = Ok (vi_imin i, vi_imax i) /\
  decode_decimal (vi_scale i) (vi_imin i) = Ok (vi_dmin i) /\
  decode_decimal (vi_scale i) (vi_imax i) = Ok (vi_dmax i) /\
  (is_finite (vi_dmin i) = true /\ B2R (vi_dmin i) = scaled (vi_scale i) (vi_imin i)) /\
  (is_finite (vi_dmax i) = true /\ B2R (vi_dmax i) = scaled (vi_scale i) (vi_imax i)).
Proof.
  intros [B R _ _ _ _] T. unfold built, compute_range in B. inv_bind B. destruct a as [mn mx].
  assert (Q : exists dmin dmax, decode_decimal (vi_scale i) mn = Ok dmin /\
     decode_decimal (vi_scale i) mx = Ok dmax /\ vi_imin i = mn /\ vi_imax i = mx /\
     vi_dmin i = dmin /\ vi_dmax i = dmax).
  { destruct (vi_type i); try discriminate; inv_bind Hk; inv_bind Hk0; exists a, a0;
    injection Hk as E; rewrite <- E; cbn; auto 10. }
  destruct Q as (dmin & dmax & D1 & D2 & <- & <- & <- & <-).
  pose proof (compute_irange_int _ _ _ _ _ _ _ R Hb) as [I1 I2].
  pose proof (decode_decimal_scale_ok _ _ _ D1) as S.
  unfold int_min, int_max in *.
  destruct (decode_decimal_ok (vi_scale i) (vi_imin i)) as (d1 & E1 & F1 & R1); auto; [lia|].
  destruct (decode_decimal_ok (vi_scale i) (vi_imax i)) as (d2 & E2 & F2 & R2); auto; [lia|].
  rewrite D1 in E1. injection E1 as <-. rewrite D2 in E2. injection E2 as <-.
  auto 15.
Qed.

(** C38: the range of a definition with known bit length and less than 10 digits
    only contains values whose binary encoding fits and is not the missing value. *)
Lemma range_encodable i k : info_ok i -> is_numeric (vi_type i) = true ->
  vi_len i < 10 -> vi_bit_len i <> 0 -> var_x (vi_code i) <> 31 ->
  vi_imin i <= k <= vi_imax i -> 0 <= k - vi_bit_ref i < 2 ^ vi_bit_len i - 1.
Proof.
  intros Hi Ht Hl Hb Hx Hk. destruct (info_ok_numeric i Hi Ht) as (_ & _ & _ & R & _).
  destruct (compute_irange_cases _ _ _ _ _ _ _ Ht R) as [(?&?&?)|[(?&?&?&?)|(?&?&?&?&?&E1&E2)]]; try lia.
  destruct (Z.eqb_spec (var_x (vi_code i)) 31); [contradiction|]. lia.
Qed.

Lemma range_crex i k : info_ok i -> is_numeric (vi_type i) = true -> vi_len i < 10 ->
  vi_imin i <= k <= vi_imax i -> Z.abs k < 10 ^ vi_len i /\ k <> 10 ^ vi_len i - 1.
Proof.
  intros Hi Ht Hl Hk. destruct (info_ok_numeric i Hi Ht) as (_ & _ & _ & R & _).
  destruct (compute_irange_cases _ _ _ _ _ _ _ Ht R) as [(?&?&?)|[(?&?&?&?)|(?&?&?&?&?&E1&E2)]]; try lia;
  pose proof (pow10_9 (vi_len i) ltac:(lia)); lia.
Qed.

Lemma range_class31 i k : info_ok i -> is_numeric (vi_type i) = true ->
  vi_len i < 10 -> vi_bit_len i <> 0 ->
  vi_imin i <= k <= vi_imax i -> 0 <= k - vi_bit_ref i <= 2 ^ vi_bit_len i.
Proof.
  intros Hi Ht Hl Hb Hk. destruct (info_ok_numeric i Hi Ht) as (_ & _ & _ & R & _).
  destruct (compute_irange_cases _ _ _ _ _ _ _ Ht R) as [(?&?&?)|[(?&?&?&?)|(?&?&?&?&?&E1&E2)]]; try lia.
  destruct (Z.eqb_spec (var_x (vi_code i)) 31); lia.
Qed.

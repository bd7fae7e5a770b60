(** C68: the flags of vertical sounding significance, bit by bit. *)
From Coq Require Import ZArith Lia ZifyBool.
From Verif Require Import Base Conv.Model.
Local Open Scope Z_scope.

(** The flags of the result that are on: [pairs] are the numbers of the bits, in the argument and in the result. *)
Definition flags_from (pairs : list (Z * Z)) (from k : Z) : bool := existsb (fun p => Z.testbit from (fst p) && (snd p =? k)) pairs.

Lemma land_power from a : 0 <= a -> negb (Z.land from (2 ^ a) =? 0) = Z.testbit from a.
Proof.
  intros Ha. destruct (Z.testbit from a) eqn:E.
  - apply negb_true_iff, Z.eqb_neq. intros X. apply (f_equal (fun z => Z.testbit z a)) in X. rewrite Z.land_spec, E, Z.pow2_bits_true, Z.bits_0 in X by exact Ha. discriminate.
  - apply negb_false_iff, Z.eqb_eq. apply Z.bits_inj'. intros k Hk. rewrite Z.land_spec, Z.bits_0, Z.pow2_bits_eqb by exact Ha.
    destruct (Z.eqb_spec a k) as [->|]; [rewrite E; reflexivity|apply andb_false_r].
Qed.

Lemma fold_flags from k : forall rules acc, Z.testbit (fold_left (set_if from) rules acc) k =
  Z.testbit acc k || existsb (fun r => negb (Z.land from (fst r) =? 0) && Z.testbit (snd r) k) rules.
Proof.
  induction rules as [|r rules IH]; intros acc; cbn [fold_left existsb]; [rewrite orb_false_r; reflexivity|]. rewrite IH. unfold set_if.
  destruct (negb _); cbn [andb orb]; [rewrite Z.lor_spec, <- orb_assoc|]; reflexivity.
Qed.

Lemma fold_powers from k pairs : Forall (fun p => 0 <= fst p /\ 0 <= snd p) pairs ->
  Z.testbit (fold_left (set_if from) (map (fun p => (2 ^ fst p, 2 ^ snd p)) pairs) 0) k = flags_from pairs from k.
Proof.
  intros F. rewrite fold_flags, Z.bits_0. cbn [orb]. unfold flags_from. induction F as [|p pairs [Ha Hb] F IH]; [reflexivity|].
  cbn [map existsb fst snd]. rewrite IH, land_power, Z.pow2_bits_eqb by assumption. reflexivity.
Qed.

Ltac powers := repeat (apply Forall_cons; [cbn [fst snd]; lia|]); apply Forall_nil.

(** From AOF: maximum wind, tropopause, standard levels below and above 100 hPa, surface, significant wind and temperature. *)
Theorem C68_aof : forall from k,
  Z.testbit (AOFVSS_to_BUFR08042 from) k = flags_from [(0, 14); (1, 15); (3, 16); (5, 16); (6, 17); (7, 11); (8, 13)] from k.
Proof. intros from k. rewrite <- fold_powers by powers. reflexivity. Qed.
Print Assumptions C68_aof.

(** From 008001 to 008042: significant wind; significant temperature or humidity, which is both; maximum wind; tropopause; standard; surface.
    The missing flag makes everything missing. *)
Theorem C68_significance_flags : forall from k,
  Z.testbit (BUFR08001_to_BUFR08042 from) k =
    if Z.testbit from 0 then (0 <=? k) && (k <? 18)
    else flags_from [(1, 11); (2, 13); (2, 12); (3, 14); (4, 15); (5, 16); (6, 17)] from k.
Proof.
  intros from k. unfold BUFR08001_to_BUFR08042. change S1_MISSING with (2 ^ 0). rewrite land_power by lia. destruct (Z.testbit from 0).
  - change S42_ALL_MISSING with (Z.ones 18). destruct (Z.leb_spec 0 k) as [H|H]; [|apply Z.testbit_neg_r; exact H].
    destruct (Z.ltb_spec k 18); [apply Z.ones_spec_low; lia|apply Z.ones_spec_high; lia].
  - rewrite fold_flags, Z.bits_0. unfold flags_from. cbn [existsb fst snd orb].
    change S1_SIGWIND with (2 ^ 1). change S1_SIGTH with (2 ^ 2). change S1_MAXWIND with (2 ^ 3). change S1_TROPO with (2 ^ 4). change S1_STD with (2 ^ 5). change S1_SURFACE with (2 ^ 6).
    rewrite !land_power by lia. rewrite Z.lor_spec.
    change S42_SIGWIND with (2 ^ 11). change S42_SIGTEMP with (2 ^ 13). change S42_SIGHUM with (2 ^ 12). change S42_MAXWIND with (2 ^ 14). change S42_TROPO with (2 ^ 15).
    change S42_STD with (2 ^ 16). change S42_SURFACE with (2 ^ 17). rewrite !Z.pow2_bits_eqb by lia. rewrite andb_orb_distrib_r, <- !orb_assoc. reflexivity.
Qed.
Print Assumptions C68_significance_flags.

Theorem C68_significance_back_flags : forall from k,
  Z.testbit (BUFR08042_to_BUFR08001 from) k =
    if Z.testbit from 0 then (0 <=? k) && (k <? 7)
    else flags_from [(11, 1); (12, 2); (13, 2); (14, 3); (15, 4); (16, 5); (17, 6)] from k.
Proof.
  intros from k. unfold BUFR08042_to_BUFR08001. change S42_MISSING with (2 ^ 0). rewrite land_power by lia. destruct (Z.testbit from 0).
  - change S1_ALL_MISSING with (Z.ones 7). destruct (Z.leb_spec 0 k) as [H|H]; [|apply Z.testbit_neg_r; exact H].
    destruct (Z.ltb_spec k 7); [apply Z.ones_spec_low; lia|apply Z.ones_spec_high; lia].
  - rewrite <- fold_powers by powers. reflexivity.
Qed.
Print Assumptions C68_significance_back_flags.

(** A tropopause that is a standard level too. *)
Example C68_flags_example : AOFVSS_to_BUFR08042 (2 + 8) = 2 ^ 15 + 2 ^ 16 /\ BUFR08042_to_BUFR08001 (2 ^ 15 + 2 ^ 16) = 2 ^ 4 + 2 ^ 5 /\
  BUFR08001_to_BUFR08042 (2 ^ 4 + 2 ^ 5) = 2 ^ 15 + 2 ^ 16.
Proof. repeat split. Qed.

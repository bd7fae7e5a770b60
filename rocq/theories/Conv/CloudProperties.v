(** C32: which values of the BUFR code tables the WMO codes become. *)
From Coq Require Import ZArith Lia ZifyBool ZifyNat.
From Verif Require Import Base Conv.Model.
Local Open Scope Z_scope.

(** Table 020012 is in groups of ten: the genus of the cloud, then high, middle and low clouds; each group has one
    more value, from 59 on, for clouds that cannot be seen. *)
Definition cloud_groups : list ((Z -> res Z) * (Z -> res Z)) :=
  [(WMO0500_to_BUFR20012, BUFR20012_to_WMO0500); (WMO0509_to_BUFR20012, BUFR20012_to_WMO0509);
   (WMO0515_to_BUFR20012, BUFR20012_to_WMO0515); (WMO0513_to_BUFR20012, BUFR20012_to_WMO0513)].

Ltac cases := repeat match goal with |- context [if ?c then _ else _] => destruct c eqn:? end; try (f_equal; lia); try lia.

Theorem C32_cloud_groups : forall k forward back, nth_error cloud_groups k = Some (forward, back) ->
  (forall d, 0 <= d <= 9 -> forward d = Ok (10 * Z.of_nat k + d) /\ back (10 * Z.of_nat k + d) = Ok d) /\
  forward (-1) = Ok (59 + Z.of_nat k) /\ back (59 + Z.of_nat k) = Ok (-1) /\
  (forall v, forward v = Err EDomain <-> v < -1 \/ 9 < v) /\
  (forall v, back v = Err EDomain <-> v <> 59 + Z.of_nat k /\ (v < 10 * Z.of_nat k \/ 10 * Z.of_nat k + 9 < v)).
Proof.
  intros k forward back H. do 4 (try destruct k as [|k]); cbn [cloud_groups nth_error] in H; try (destruct k; discriminate); injection H as <- <-;
    (split; [|split; [|split; [|split]]]; [intros d Hd; split| | |intros v|intros v]);
    unfold WMO0500_to_BUFR20012, BUFR20012_to_WMO0500, WMO0509_to_BUFR20012, BUFR20012_to_WMO0509, WMO0515_to_BUFR20012, BUFR20012_to_WMO0515, WMO0513_to_BUFR20012, BUFR20012_to_WMO0513;
    cases; split; intros X; try discriminate; try reflexivity; lia.
Qed.
Print Assumptions C32_cloud_groups.

(** The codes of the weather are those of the BUFR tables, and those above the last code of the table are refused. *)
Theorem C32_weather_codes : forall f last, In (f, last) [(WMO4677_to_BUFR20003, 99); (BUFR20003_to_WMO4677, 99); (WMO4561_to_BUFR20004, 9); (BUFR20004_to_WMO4561, 9)] ->
  (forall v, 0 <= v <= last -> f v = Ok v) /\ (forall v, last < v -> f v = Err EDomain).
Proof.
  intros f last I. cbn [In] in I. repeat (destruct I as [I|I]); try contradiction; injection I as <- <-; split; intros v H;
    unfold WMO4677_to_BUFR20003, BUFR20003_to_WMO4677, WMO4561_to_BUFR20004, BUFR20004_to_WMO4561; cases; reflexivity.
Qed.
Print Assumptions C32_weather_codes.

(** That what is not a code is refused is false of these four: a negative number is taken as it is, also the -1 that in the tables of clouds is a missing value. *)
Theorem C32_weather_negative_refuted : forall v, v < 0 -> WMO4677_to_BUFR20003 v = Ok v /\ WMO4561_to_BUFR20004 v = Ok v.
Proof. intros v H. unfold WMO4677_to_BUFR20003, WMO4561_to_BUFR20004. split; cases; reflexivity. Qed.
Print Assumptions C32_weather_negative_refuted.

(** Low clouds of code 7, and middle clouds that cannot be seen. *)
Example C32_cloud_groups_example : WMO0513_to_BUFR20012 7 = Ok 37 /\ WMO0515_to_BUFR20012 (-1) = Ok 61.
Proof. split; reflexivity. Qed.

(** C63: upper and lower case. *)
From Coq Require Import ZifyBool ZifyNat String.
From Verif Require Import Base Interp.Example Strings.Model Strings.Spec.
Open Scope list_scope.
Local Open Scope Z_scope.

(** Only letters change, each to the letter of the other case in the same place of the alphabet, and the length stays. *)
Theorem C63_case : forall s,
  length (upper s) = length s /\ length (lower s) = length s /\
  (forall n c, nth_error s n = Some c ->
    (forall k, 0 <= k < 26 -> c = 97 + k -> nth_error (upper s) n = Some (65 + k)) /\ (forall k, 0 <= k < 26 -> c = 65 + k -> nth_error (lower s) n = Some (97 + k)) /\
    (~ 97 <= c <= 122 -> nth_error (upper s) n = Some c) /\ (~ 65 <= c <= 90 -> nth_error (lower s) n = Some c)).
Proof.
  intros s. unfold upper, lower. rewrite !map_length. split; [reflexivity|]. split; [reflexivity|]. intros n c H.
  rewrite (map_nth_error c_toupper _ _ H), (map_nth_error c_tolower _ _ H). unfold c_toupper, c_tolower.
  repeat split; intros; f_equal.
  - subst c. replace ((97 <=? 97 + k) && (97 + k <=? 122))%bool with true by lia. lia.
  - subst c. replace ((65 <=? 65 + k) && (65 + k <=? 90))%bool with true by lia. lia.
  - replace ((97 <=? c) && (c <=? 122))%bool with false by lia. reflexivity.
  - replace ((65 <=? c) && (c <=? 90))%bool with false by lia. reflexivity.
Qed.
Print Assumptions C63_case.

(** Folding again changes nothing, and strings that differ only in case have the same folding. *)
Theorem C63_case_again : forall s, upper (upper s) = upper s /\ lower (lower s) = lower s /\ upper (lower s) = upper s /\ lower (upper s) = lower s.
Proof.
  intros s. unfold upper, lower. rewrite !map_map. repeat split; apply map_ext; intros c; unfold c_toupper, c_tolower;
    repeat match goal with |- context [if ?b then _ else _] => destruct b eqn:? end; lia.
Qed.
Print Assumptions C63_case_again.

Example C63_case_example : upper (chars "Bufr-4 z{"%string) = chars "BUFR-4 Z{"%string /\ lower (chars "CREX@[ a"%string) = chars "crex@[ a"%string.
Proof. split; reflexivity. Qed.

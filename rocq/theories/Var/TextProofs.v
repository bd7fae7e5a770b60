(** Integer to text and back. *)
From Coq Require Import ZifyBool ZifyNat.
From Verif Require Import Base Bits.Spec Num.Float Varinfo.Model Var.Model Var.Spec.
Local Open Scope Z_scope.
Ltac Zify.zify_post_hook ::= Z.div_mod_to_equations.

Lemma dec_value_app a s1 s2 : dec_value a (s1 ++ s2) = dec_value (dec_value a s1) s2.
Proof. unfold dec_value. apply fold_left_app. Qed.

Lemma str_to_unsigned_acc_spec s : forall a, 0 <= a < 2 ^ 32 ->
  str_to_unsigned_acc a s = dec_value a s mod 2 ^ 32.
Proof.
  induction s as [|ch s IH]; intros a Ha; cbn [str_to_unsigned_acc].
  - cbn. rewrite Z.mod_small; auto.
  - rewrite IH by (unfold u32; apply Z.mod_pos_bound; lia).
    unfold dec_value. cbn [fold_left]. fold (dec_value (u32 (a * 10 + (ch - 48))) s).
    fold (dec_value (a * 10 + (ch - 48)) s).
    generalize (a * 10 + (ch - 48)). clear. induction s as [|ch s IH]; intros x.
    + cbn. unfold u32. rewrite Z.mod_mod by lia. reflexivity.
    + unfold dec_value. cbn [fold_left]. fold (dec_value (u32 x * 10 + (ch - 48)) s).
      fold (dec_value (x * 10 + (ch - 48)) s). rewrite <- (IH (u32 x * 10 + (ch - 48))), <- (IH (x * 10 + (ch - 48))).
      f_equal. f_equal. unfold u32. rewrite <- Zplus_mod_idemp_l, Zmult_mod_idemp_l, Zplus_mod_idemp_l. reflexivity.
Qed.

Lemma uint32_digits_app fuel : forall v acc, uint32_digits fuel v acc = uint32_digits fuel v [] ++ acc.
Proof.
  induction fuel as [|k IH]; intros v acc; cbn [uint32_digits]; auto.
  destruct (100 <=? v).
  - rewrite IH. rewrite (IH (v / 100) [_; _]). rewrite <- app_assoc. reflexivity.
  - destruct (v <? 10); reflexivity.
Qed.

Lemma uint32_digits_value fuel : forall v, 0 <= v < 100 ^ Z.of_nat fuel -> dec_value 0 (uint32_digits fuel v []) = v.
Proof.
  induction fuel as [|k IH]; intros v Hv; cbn [uint32_digits].
  - cbn in *. lia.
  - rewrite Nat2Z.inj_succ, Z.pow_succ_r in Hv by lia.
    destruct (Z.leb_spec 100 v).
    + rewrite uint32_digits_app, dec_value_app, IH by lia. unfold dec_value. cbn [fold_left]. lia.
    + unfold dec_value. destruct (Z.ltb_spec v 10); cbn [fold_left]; lia.
Qed.

Lemma uint32_digits_digits fuel : forall v, 0 <= v -> forallb c_isdigit (uint32_digits fuel v []) = true.
Proof.
  induction fuel as [|k IH]; intros v Hv; cbn [uint32_digits]; auto.
  destruct (Z.leb_spec 100 v).
  - rewrite uint32_digits_app, forallb_app, IH by lia. cbn [forallb]. unfold c_isdigit. lia.
  - destruct (Z.ltb_spec v 10); cbn [forallb]; unfold c_isdigit; lia.
Qed.

Lemma count_digits_step v : 100 <= v < 10 ^ 10 -> count_digits v = S (S (count_digits (v / 100))).
Proof.
  intros Hv. change (10 ^ 10) with 10000000000 in Hv. unfold count_digits.
  repeat match goal with |- context [?a <=? ?b] => destruct (Z.leb_spec a b) end; try reflexivity; exfalso; lia.
Qed.

Lemma uint32_digits_length fuel : forall v, 0 <= v < 10 ^ 10 -> v < 100 ^ Z.of_nat fuel ->
  (0 < fuel)%nat -> length (uint32_digits fuel v []) = count_digits v.
Proof.
  induction fuel as [|k IH]; intros v Hv Hf F; [lia|]. cbn [uint32_digits].
  rewrite Nat2Z.inj_succ, Z.pow_succ_r in Hf by lia.
  destruct (Z.leb_spec 100 v).
  - rewrite uint32_digits_app, app_length. cbn [length]. rewrite count_digits_step by lia.
    destruct k as [|k]; [cbn in Hf; lia|].
    rewrite IH; try lia.
  - unfold count_digits. destruct (Z.ltb_spec v 10); cbn [length];
    repeat match goal with |- context [?a <=? ?b] => destruct (Z.leb_spec a b) end; try reflexivity; exfalso; lia.
Qed.

Lemma count_digits_le v : (1 <= count_digits v <= 10)%nat.
Proof.
  unfold count_digits.
  repeat match goal with |- context [?a <=? ?b] => destruct (Z.leb_spec a b) end; lia.
Qed.

Lemma uint32_to_str_ok v : 0 <= v < 2 ^ 32 ->
  exists s, uint32_to_str v (count_digits v) = Ok s /\ forallb c_isdigit s = true /\ dec_value 0 s = v /\
    length s = count_digits v.
Proof.
  intros Hv. exists (uint32_digits 6 v []). unfold uint32_to_str.
  assert (L : length (uint32_digits 6 v []) = count_digits v).
  { apply uint32_digits_length; [change (10 ^ 10) with 10000000000; lia| |lia].
    change (100 ^ Z.of_nat 6) with 1000000000000. lia. }
  rewrite L, Nat.eqb_refl. split; auto. split; [apply uint32_digits_digits; lia|].
  split; auto. apply uint32_digits_value. change (100 ^ Z.of_nat 6) with 1000000000000. lia.
Qed.

Lemma int32_to_str_ok v : int_min < v <= int_max ->
  exists s, forallb c_isdigit s = true /\ dec_value 0 s = Z.abs v /\ length s = count_digits (Z.abs v) /\
  int32_to_str v = Ok (if v <? 0 then 45 :: s else s).
Proof.
  unfold int_min, int_max. intros Hv. unfold int32_to_str.
  destruct (Z.ltb_spec v 0).
  - destruct (uint32_to_str_ok (- v)) as (s & E & D & V & L); [lia|].
    exists s. replace (Z.abs v) with (- v) by lia. split; auto. split; auto. split; auto.
    destruct (Z.eqb_spec v int_min); [unfold int_min in *; lia|].
    pose proof (count_digits_le (- v)). destruct (Nat.ltb_spec 18 (count_digits (- v))); [lia|].
    rewrite E. reflexivity.
  - destruct (uint32_to_str_ok v) as (s & E & D & V & L); [lia|].
    exists s. replace (Z.abs v) with v by lia. split; auto. split; auto. split; auto.
    pose proof (count_digits_le v). destruct (Nat.ltb_spec 19 (count_digits v)); [lia|]. exact E.
Qed.

Lemma digits_no_minus s : forallb c_isdigit s = true -> match s with 45 :: _ => False | _ => True end.
Proof.
  destruct s as [|z s]; auto. cbn. intros H. apply andb_prop in H as [H _].
  destruct (Z.eqb_spec z 45) as [->|]; [discriminate|].
  destruct z; auto. do 6 (try (destruct p; auto)).
Qed.

Lemma digits_cstr s : forallb c_isdigit s = true -> cstr s = s.
Proof.
  induction s as [|z s IH]; cbn; auto. intros H. apply andb_prop in H as [H1 H2].
  unfold c_isdigit in H1. replace (z =? 0) with false by lia. rewrite IH; auto.
Qed.

Lemma cstr_app_zero s : Forall (fun c => c <> 0) s -> cstr (s ++ [0]) = s.
Proof.
  induction 1 as [|c s H _ IH]; cbn; auto. replace (c =? 0) with false by lia. rewrite IH. reflexivity.
Qed.

Lemma digits_nonzero s : forallb c_isdigit s = true -> Forall (fun c => c <> 0) s.
Proof.
  intros H. apply Forall_forall. intros c Hc. rewrite forallb_forall in H. apply H in Hc.
  unfold c_isdigit in Hc. lia.
Qed.

(** Setting a number from its own text is setting the number. *)
Lemma set_number_text o c v s : int_min < v <= int_max -> int32_to_str v = Ok s ->
  set_number o c s = assign_i_checked o c v.
Proof.
  intros Hv E. destruct (int32_to_str_ok v Hv) as (t & D & V & L & E'). rewrite E in E'. injection E' as ->.
  unfold int_min, int_max in Hv. unfold set_number.
  destruct (Z.ltb_spec v 0).
  - cbn [isnumber Z.eqb Pos.eqb]. rewrite D. cbn [negb].
    f_equal. unfold str_to_unsigned. rewrite str_to_unsigned_acc_spec, V by lia.
    unfold u32, wrap_int. lia.
  - assert (N : isnumber t = true).
    { pose proof (digits_no_minus t D) as M. unfold isnumber. destruct t as [|z t]; auto.
      destruct (Z.eqb_spec z 45) as [->|]; [contradiction|auto]. }
    rewrite N. cbn [negb].
    assert (S : wrap_int (str_to_unsigned t) = v).
    { unfold str_to_unsigned. rewrite str_to_unsigned_acc_spec, V by lia. unfold wrap_int. lia. }
    pose proof (digits_no_minus t D) as M. destruct t as [|z t]; [rewrite S; reflexivity|].
    rewrite <- S. destruct z; auto. do 6 (try (destruct p; auto)). contradiction.
Qed.

Lemma int32_to_str_cstr v s : int_min < v <= int_max -> int32_to_str v = Ok s -> cstr (s ++ [0]) = s.
Proof.
  intros Hv E. destruct (int32_to_str_ok v Hv) as (t & D & V & L & E'). rewrite E in E'. injection E' as ->.
  apply cstr_app_zero. destruct (v <? 0); [constructor; [lia|]|]; apply digits_nonzero; auto.
Qed.

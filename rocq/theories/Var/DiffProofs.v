(** When the comparison of two variables finds nothing. *)
From Coq Require Import ZifyBool ZifyNat.
From Verif Require Import Base Num.Float Varcode.Model Varinfo.Model Var.Model Var.Spec Var.Proofs Var.AttrProofs.
Local Open Scope Z_scope.

(** The same code and value; where there is a value, the same type and, for binary data, the same number of bits. *)
Definition alike (a b : cell) : Prop :=
  same_cell a b /\ (isset a = true -> vi_type (c_info a) = TBinary -> vi_bit_len (c_info a) = vi_bit_len (c_info b)).

Lemma ok_inj {A} (x y : A) : Ok x = Ok y -> x = y.
Proof. congruence. Qed.
Lemma same_length {A B} (P : A -> B -> Prop) l m : Forall2 P l m -> length l = length m.
Proof. induction 1; cbn [length]; lia. Qed.

Lemma same_value_diff a b : cell_ok a -> cell_ok b -> alike a b -> isset a = true -> diff_value a b = Ok false.
Proof.
  intros [_ Ha] [_ Hb] ((_ & V & Ty) & Bi) Sa. unfold isset in *. unfold diff_value. specialize (Ty Sa). specialize (Bi Sa). rewrite <- V in *.
  destruct (c_val a) as [x|]; [|discriminate]. unfold value_ok in *. rewrite <- Ty in *. unfold ilen in *.
  destruct (vi_type (c_info a)) eqn:Ta, x; try contradiction.
  - rewrite Z.eqb_refl. reflexivity.
  - rewrite Z.eqb_refl. reflexivity.
  - rewrite list_eqb_refl. reflexivity.
  - rewrite (Bi eq_refl), Z.eqb_refl. cbn [negb]. rewrite Ha, Nat.ltb_irrefl, list_eqb_refl. reflexivity.
Qed.

Lemma alike_diff : forall k a ra b rb, (length ra < k)%nat -> Forall cell_ok (a :: ra) -> Forall cell_ok (b :: rb) ->
  alike a b -> (isset a = true -> Forall2 alike ra rb) -> diff_chain k a ra b rb = Ok 0.
Proof.
  induction k as [|k IH]; intros a ra b rb L Fa Fb A R; [lia|]. cbn [diff_chain]. pose proof A as ((Ec & V & Ty) & Bi).
  apply Forall_cons_iff in Fa as [Oa Fa]. apply Forall_cons_iff in Fb as [Ob Fb].
  rewrite Ec, Z.eqb_refl. cbn [negb]. assert (Sb : isset b = isset a) by (unfold isset; rewrite V; reflexivity). rewrite Sb.
  destruct (isset a) eqn:Sa; [|reflexivity]. rewrite (Ty eq_refl). replace (vartype_eqb (vi_type (c_info b)) (vi_type (c_info b))) with true by (destruct (vi_type (c_info b)); reflexivity).
  cbn [negb]. rewrite same_value_diff by assumption. cbn [bind]. specialize (R eq_refl).
  assert (X : forall la lb, (length la <= k)%nat -> Forall cell_ok la -> Forall cell_ok lb -> Forall2 alike la lb -> diff_loop (diff_chain k) la lb = Ok 0).
  { induction la as [|x la IHl]; intros lb Ll Fx Fy F; inversion F as [|? y ? lb' A1 F1]; subst; [reflexivity|]. cbn [diff_loop]. pose proof A1 as ((E1 & _) & _).
    rewrite E1, Z.ltb_irrefl. cbn [Z.eqb negb]. cbn [length] in Ll. assert (E2 : diff_chain k x la y lb' = Ok 0) by (apply IH; auto; lia). rewrite E2. cbn [bind Z.eqb negb].
    apply Forall_cons_iff in Fx as [_ Fx]. apply Forall_cons_iff in Fy as [_ Fy]. apply IHl; auto. lia. }
  destruct ra as [|a1 ra], rb as [|b1 rb]; [reflexivity|inversion R|inversion R|].
  rewrite (same_length _ _ _ R), Nat.eqb_refl. cbn [negb]. apply X; auto. lia.
Qed.

Lemma diff_alike : forall k a ra b rb, (length ra < k)%nat -> diff_ready (a :: ra) (b :: rb) ->
  diff_chain k a ra b rb = Ok 0 -> alike a b /\ (isset a = true -> Forall2 alike ra rb).
Proof.
  induction k as [|k IH]; intros a ra b rb L R E; [lia|].
  assert (SC : same_cell a b).
  { destruct (diff_chain_spec (S k) (S (length rb)) a ra b rb L ltac:(lia) R) as (n & N1 & _ & _ & N4). rewrite E in N1. apply N4. injection N1 as <-. reflexivity. }
  pose proof SC as (Ec & V & Ty). cbn [diff_chain] in E. rewrite Ec, Z.eqb_refl in E. cbn [negb] in E.
  pose proof R as (Ok1 & Ok2 & P1 & P2 & BC). apply Forall_cons_iff in Ok1 as [Oa Fa]. apply Forall_cons_iff in Ok2 as [Ob Fb].
  assert (Sb : isset b = isset a) by (unfold isset; rewrite V; reflexivity). rewrite Sb in E.
  destruct (isset a) eqn:Sa; [|split; [split; [exact SC|congruence]|discriminate]].
  specialize (Ty eq_refl). rewrite <- Ty in E. replace (vartype_eqb (vi_type (c_info a)) (vi_type (c_info a))) with true in E by (destruct (vi_type (c_info a)); reflexivity).
  cbn [negb] in E. destruct (diff_value_spec a b Oa Ob (BC a b (or_introl eq_refl) (or_introl eq_refl)) Ty Sa Sb) as (r & E1 & _ & Q). rewrite E1 in E. cbn [bind] in E.
  destruct r; [discriminate|]. destruct (proj1 Q eq_refl) as [_ Qb]. split; [split; [exact SC|intros _; exact Qb]|]. intros _.
  assert (RT : diff_ready ra rb) by (eapply diff_ready_tl; exact R).
  assert (X : forall la lb, (length la <= k)%nat -> length la = length lb -> diff_ready la lb -> diff_loop (diff_chain k) la lb = Ok 0 -> Forall2 alike la lb).
  { clear -IH. induction la as [|x la IHl]; intros [|y lb] Ll Le Rl El; try discriminate; [constructor|]. cbn [length] in *. cbn [diff_loop] in El.
    destruct (negb _); [discriminate|]. destruct (diff_chain k x la y lb) as [n| |] eqn:En; [|discriminate|discriminate]. cbn [bind] in El.
    destruct (Z.eqb_spec n 0) as [->|Ne]; [|exfalso; cbn [negb] in El; congruence]. cbn [negb] in El.
    constructor; [exact (proj1 (IH x la y lb ltac:(lia) Rl En))|]. apply IHl; [lia|lia|eapply diff_ready_tl; exact Rl|exact El]. }
  cbn [length] in *. destruct ra as [|a1 ra], rb as [|b1 rb]; [constructor|discriminate|discriminate|].
  destruct (Nat.eqb_spec (length (a1 :: ra)) (length (b1 :: rb))) as [Le|Ne]; cbn [negb] in E.
  - apply X; auto. cbn [length] in *. lia.
  - apply ok_inj in E. lia.
Qed.

(** A variable and its attributes, where they are looked at. *)
Definition alike_vars (x y : var) : Prop :=
  alike (v_cell x) (v_cell y) /\ (isset (v_cell x) = true -> Forall2 alike (v_attrs x) (v_attrs y)).
Definition var_ok (x : var) : Prop := Forall cell_ok (chain x).

Lemma alike_refl c : alike c c.
Proof. repeat split; auto. Qed.
Lemma alike_vars_refl x : alike_vars x x.
Proof. split; [apply alike_refl|]. intros _. induction (v_attrs x); constructor; auto using alike_refl. Qed.

Lemma var_diff_alike x y : var_ok x -> var_ok y -> alike_vars x y -> var_diff x y = Ok 0.
Proof. intros Hx Hy [A B]. unfold var_diff. apply alike_diff; auto. Qed.

Lemma var_diff_zero x y : diff_ready (chain x) (chain y) -> (var_diff x y = Ok 0 <-> alike_vars x y).
Proof.
  intros R. split; [apply diff_alike; auto|]. apply var_diff_alike; apply R.
Qed.

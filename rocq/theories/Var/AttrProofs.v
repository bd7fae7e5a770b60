(** Attribute chains, equality and diff. *)
From Coq Require Import ZifyBool ZifyNat Sorted.
From Verif Require Import Base Bits.Spec Num.Float Varinfo.Model Varinfo.RangeProofs Var.Model Var.Spec.
Local Open Scope Z_scope.

(** ** C12: the chain as a map *)

Inductive aop : Type := ASet (attr : var) | AUnset (code : Z) | AClear.

Definition run_aop (v : var) (x : aop) : var :=
  match x with
  | ASet attr => var_seta v attr
  | AUnset code => var_unseta v code
  | AClear => var_clear_attrs v
  end.

(** What a map from codes to attributes would hold. *)
Definition map_aop (code : Z) (m : option cell) (x : aop) : option cell :=
  match x with
  | ASet attr => if c_code (v_cell attr) =? code then Some (v_cell attr) else m
  | AUnset c => if c =? code then None else m
  | AClear => None
  end.

Definition sorted (l : list cell) : Prop := StronglySorted (fun a b => c_code a < c_code b) l.

Lemma seta_in a l x : In x (seta a l) -> x = a \/ In x l.
Proof.
  induction l as [|b l IH]; cbn; [intuition|].
  destruct (c_code a <? c_code b); [cbn; intuition|].
  destruct (c_code b =? c_code a); cbn; [intuition|]. intuition.
Qed.

Lemma seta_sorted a l : sorted l -> sorted (seta a l).
Proof.
  induction 1 as [|b l S IH F]; cbn; [repeat constructor|].
  destruct (Z.ltb_spec (c_code a) (c_code b)).
  - constructor; [constructor; auto|]. constructor; auto.
    eapply Forall_impl; [|exact F]. cbn. lia.
  - destruct (Z.eqb_spec (c_code b) (c_code a)).
    + constructor; auto. eapply Forall_impl; [|exact F]. cbn. lia.
    + constructor; auto. apply Forall_forall. intros x Hx. apply seta_in in Hx as [->|Hx]; [lia|].
      rewrite Forall_forall in F. auto.
Qed.

Lemma unseta_in c l x : In x (unseta c l) -> In x l.
Proof.
  induction l as [|b l IH]; cbn; [tauto|].
  destruct (c <? c_code b); [cbn; tauto|]. destruct (c_code b =? c); cbn; tauto.
Qed.

Lemma unseta_sorted c l : sorted l -> sorted (unseta c l).
Proof.
  induction 1 as [|b l S IH F]; cbn; [constructor|].
  destruct (c <? c_code b); [constructor; auto|]. destruct (c_code b =? c); auto.
  constructor; auto. apply Forall_forall. intros x Hx. apply unseta_in in Hx.
  rewrite Forall_forall in F. auto.
Qed.

Lemma enqa_below c l : Forall (fun b => c < c_code b) l -> enqa c l = None.
Proof. destruct 1; cbn; auto. destruct (Z.leb_spec (c_code x) c); auto; lia. Qed.

Lemma enqa_seta c a l : sorted l -> enqa c (seta a l) = if c_code a =? c then Some a else enqa c l.
Proof.
  induction 1 as [|b l S IH F]; cbn [seta enqa].
  - destruct (Z.leb_spec (c_code a) c); destruct (Z.eqb_spec (c_code a) c); auto; lia.
  - destruct (Z.ltb_spec (c_code a) (c_code b)).
    + cbn [enqa]. destruct (Z.leb_spec (c_code a) c); destruct (Z.eqb_spec (c_code a) c); auto; try lia.
      destruct (Z.leb_spec (c_code b) c); auto; lia.
    + destruct (Z.eqb_spec (c_code b) (c_code a)).
      * cbn [enqa]. destruct (Z.leb_spec (c_code a) c); destruct (Z.eqb_spec (c_code a) c); auto; try lia.
        -- destruct (Z.leb_spec (c_code b) c); [|lia]. destruct (Z.eqb_spec (c_code b) c); [lia|auto].
        -- destruct (Z.leb_spec (c_code b) c); auto; lia.
      * cbn [enqa]. destruct (Z.leb_spec (c_code b) c).
        -- destruct (Z.eqb_spec (c_code b) c); [|apply IH].
           destruct (Z.eqb_spec (c_code a) c); auto; lia.
        -- destruct (Z.eqb_spec (c_code a) c); auto; lia.
Qed.

Lemma enqa_unseta c d l : sorted l -> enqa c (unseta d l) = if d =? c then None else enqa c l.
Proof.
  induction 1 as [|b l S IH F]; cbn [unseta enqa].
  - destruct (d =? c); auto.
  - destruct (Z.ltb_spec d (c_code b)).
    + cbn [enqa]. destruct (Z.eqb_spec d c); auto. destruct (Z.leb_spec (c_code b) c); auto; lia.
    + destruct (Z.eqb_spec (c_code b) d).
      * destruct (Z.eqb_spec d c).
        -- apply enqa_below. eapply Forall_impl; [|exact F]. cbn. lia.
        -- destruct (Z.leb_spec (c_code b) c).
           ++ destruct (Z.eqb_spec (c_code b) c); auto; lia.
           ++ apply enqa_below. eapply Forall_impl; [|exact F]. cbn. lia.
      * cbn [enqa]. destruct (Z.leb_spec (c_code b) c).
        -- destruct (Z.eqb_spec (c_code b) c); [|apply IH].
           destruct (Z.eqb_spec d c); auto; lia.
        -- destruct (Z.eqb_spec d c); auto.
Qed.

Lemma run_aops_map ops : forall v code, sorted (v_attrs v) ->
  sorted (v_attrs (fold_left run_aop ops v)) /\
  v_cell (fold_left run_aop ops v) = v_cell v /\
  var_enqa (fold_left run_aop ops v) code = fold_left (map_aop code) ops (var_enqa v code).
Proof.
  induction ops as [|x ops IH]; intros v code S; cbn [fold_left]; auto.
  assert (S' : sorted (v_attrs (run_aop v x))).
  { destruct x; cbn; [apply seta_sorted|apply unseta_sorted|constructor]; auto. }
  assert (C : v_cell (run_aop v x) = v_cell v) by (destruct x; reflexivity).
  destruct (IH (run_aop v x) code S') as (A & B & D). split; auto. split; [congruence|].
  rewrite D. f_equal. unfold var_enqa. destruct x; cbn.
  - apply enqa_seta; auto.
  - apply enqa_unseta; auto.
  - reflexivity.
Qed.

(** ** Equality *)

Lemma list_eqb_spec a : forall b, list_eqb a b = true <-> a = b.
Proof.
  unfold list_eqb. induction a as [|x a IH]; intros [|y b]; cbn; split; intros H; try discriminate; auto.
  - specialize (IH b). destruct (Nat.eqb (length a) (length b)) eqn:L; cbn in *; [|discriminate].
    apply andb_prop in H as [H1 H2]. f_equal; [lia|]. apply IH. auto.
  - injection H as -> ->. rewrite Z.eqb_refl, Nat.eqb_refl. cbn.
    destruct (IH b) as [_ IH2]. specialize (IH2 eq_refl). apply andb_prop in IH2 as [_ IH2]. auto.
Qed.

Lemma list_eqb_refl a : list_eqb a a = true.
Proof. apply list_eqb_spec. reflexivity. Qed.

Lemma list_eqb_sym a b : list_eqb a b = list_eqb b a.
Proof.
  destruct (list_eqb a b) eqn:E.
  - apply list_eqb_spec in E as ->. symmetry. apply list_eqb_refl.
  - destruct (list_eqb b a) eqn:E'; auto. apply list_eqb_spec in E' as ->. rewrite list_eqb_refl in E. discriminate.
Qed.

(** Two cells can be compared: same code implies same definition. *)
Definition comparable (a b : cell) : Prop := c_code a = c_code b -> c_info a = c_info b.

Lemma value_equals_spec a b : cell_ok a -> cell_ok b -> c_info a = c_info b ->
  exists r, value_equals a b = Ok r /\ (r = true <-> c_val a = c_val b).
Proof.
  intros [_ Ha] [_ Hb] E. unfold value_equals. rewrite <- E in Hb.
  destruct (c_val a) as [x|], (c_val b) as [y|]; try (eexists; split; [reflexivity|split; congruence]).
  unfold value_ok in *.
  destruct (vi_type (c_info a)), x, y; try contradiction.
  - eexists. split; [reflexivity|]. rewrite Z.eqb_eq. split; congruence.
  - eexists. split; [reflexivity|]. rewrite Z.eqb_eq. split; congruence.
  - eexists. split; [reflexivity|]. rewrite list_eqb_spec. split; congruence.
  - rewrite Hb, Nat.ltb_irrefl. eexists. split; [reflexivity|].
    rewrite !firstn_all2 by lia. rewrite list_eqb_spec. split; congruence.
Qed.

Definition all_ok (v : var) : Prop := cell_ok (v_cell v) /\ Forall cell_ok (v_attrs v).

Definition chain (v : var) : list cell := v_cell v :: v_attrs v.

Definition all_comparable (l1 l2 : list cell) : Prop := forall a b, In a l1 -> In b l2 -> comparable a b.

Lemma chain_equals_spec : forall ra a b rb, cell_ok a -> Forall cell_ok ra -> cell_ok b -> Forall cell_ok rb ->
  all_comparable (a :: ra) (b :: rb) ->
  exists r, chain_equals a ra b rb = Ok r /\ (r = true <-> a :: ra = b :: rb).
Proof.
  induction ra as [|a' ra IH]; intros a b rb Ha Hra Hb Hrb C; cbn [chain_equals].
  - assert (Cab : comparable a b) by (apply C; cbn; auto). unfold comparable in Cab.
    destruct (Z.eqb_spec (c_code a) (c_code b)); cbn [negb].
    2:{ eexists. split; [reflexivity|]. split; [discriminate|]. intros E. injection E as -> <-. contradiction. }
    specialize (Cab e). destruct (value_equals_spec a b Ha Hb Cab) as (r & -> & V). cbn [bind].
    destruct r; cbn [negb].
    + assert (a = b). { destruct a, b; cbn in *. f_equal; auto. apply V; auto. } subst b.
      destruct rb; eexists; split; try reflexivity; split; auto; discriminate.
    + eexists. split; [reflexivity|]. split; [discriminate|]. intros E. injection E as -> <-.
      destruct V as [_ V]. auto.
  - assert (Cab : comparable a b) by (apply C; cbn; auto). unfold comparable in Cab.
    destruct (Z.eqb_spec (c_code a) (c_code b)); cbn [negb].
    2:{ eexists. split; [reflexivity|]. split; [discriminate|]. intros E. injection E as -> <-. contradiction. }
    specialize (Cab e). destruct (value_equals_spec a b Ha Hb Cab) as (r & -> & V). cbn [bind].
    destruct r; cbn [negb].
    + assert (a = b). { destruct a, b; cbn in *. f_equal; auto. apply V; auto. } subst b.
      destruct rb as [|b' rb]; [eexists; split; [reflexivity|]; split; discriminate|].
      inversion Hra; inversion Hrb; subst.
      destruct (IH a' b' rb) as (r & E & Q); auto.
      { intros x y Hx Hy. apply C; cbn; auto. }
      exists r. split; auto. rewrite Q. split; [intros ->; reflexivity|]. intros E'. injection E' as -> ->. reflexivity.
    + eexists. split; [reflexivity|]. split; [discriminate|]. intros E. injection E as -> <-.
      destruct V as [_ V]. auto.
Qed.

Lemma var_equals_spec a b : all_ok a -> all_ok b -> all_comparable (chain a) (chain b) ->
  exists r, var_equals a b = Ok r /\ (r = true <-> a = b).
Proof.
  intros [A1 A2] [B1 B2] C. destruct (chain_equals_spec (v_attrs a) (v_cell a) (v_cell b) (v_attrs b)) as (r & E & Q); auto.
  exists r. split; auto. rewrite Q. destruct a, b; cbn. split; intros H; injection H as -> ->; reflexivity.
Qed.

(** ** Diff *)

(** Binary definitions of the same code with the same bit length have the same
    byte length. *)
Definition bin_compat (a b : cell) : Prop :=
  vi_type (c_info a) = TBinary -> vi_type (c_info b) = TBinary ->
  vi_bit_len (c_info a) = vi_bit_len (c_info b) -> vi_len (c_info a) = vi_len (c_info b).

Lemma vartype_eqb_spec a b : vartype_eqb a b = true <-> a = b.
Proof. destruct a, b; cbn; split; intros; try discriminate; auto. Qed.

Lemma diff_value_spec a b : cell_ok a -> cell_ok b -> bin_compat a b ->
  vi_type (c_info a) = vi_type (c_info b) -> isset a = true -> isset b = true ->
  exists r, diff_value a b = Ok r /\ diff_value b a = Ok r /\
    (r = false <-> (c_val a = c_val b /\
                    (vi_type (c_info a) = TBinary -> vi_bit_len (c_info a) = vi_bit_len (c_info b)))).
Proof.
  intros [_ Ha] [_ Hb] C T Sa Sb. unfold isset in *. unfold diff_value.
  destruct (c_val a) as [x|]; [|discriminate]. destruct (c_val b) as [y|]; [|discriminate].
  unfold value_ok in *. unfold bin_compat in C. rewrite <- T in *.
  destruct (vi_type (c_info a)) eqn:Ta, x, y; try contradiction.
  - eexists. split; [reflexivity|]. split; [rewrite Z.eqb_sym; reflexivity|].
    destruct (Z.eqb_spec i i0); cbn; split; intros H; auto; try discriminate.
    + split; [congruence|discriminate].
    + destruct H. congruence.
  - eexists. split; [reflexivity|]. split; [rewrite Z.eqb_sym; reflexivity|].
    destruct (Z.eqb_spec i i0); cbn; split; intros H; auto; try discriminate.
    + split; [congruence|discriminate].
    + destruct H. congruence.
  - eexists. split; [reflexivity|]. split; [rewrite list_eqb_sym; reflexivity|].
    destruct (list_eqb s s0) eqn:E; cbn; split; intros H; auto; try discriminate.
    + apply list_eqb_spec in E. split; [congruence|discriminate].
    + destruct H as [H _]. injection H as ->. rewrite list_eqb_refl in E. discriminate.
  - rewrite (Z.eqb_sym (vi_bit_len (c_info b))).
    destruct (Z.eqb_spec (vi_bit_len (c_info a)) (vi_bit_len (c_info b))) as [E|E]; cbn [negb].
    + specialize (C eq_refl eq_refl E).
      assert (L : ilen (c_info b) = ilen (c_info a)) by (unfold ilen; congruence).
      rewrite L in *. rewrite Ha, Hb, Nat.ltb_irrefl.
      rewrite !firstn_all2 by lia. eexists. split; [reflexivity|]. split; [rewrite list_eqb_sym; reflexivity|].
      destruct (list_eqb b0 b1) eqn:Q; cbn; split; intros H; auto; try discriminate.
      * apply list_eqb_spec in Q. split; [congruence|auto].
      * destruct H as [H _]. injection H as ->. rewrite list_eqb_refl in Q. discriminate.
    + eexists. split; [reflexivity|]. split; [reflexivity|]. split; [discriminate|].
      intros [_ H]. exfalso. auto.
Qed.

(** The value is not INT_MIN (whose text conversion overflows). *)
Definition printable_cell (c : cell) : Prop := exists u, diff_log c = Ok u \/ c_val c = None.

Definition same_cell (a b : cell) : Prop :=
  c_code a = c_code b /\ c_val a = c_val b /\
  (isset a = true -> vi_type (c_info a) = vi_type (c_info b)).

Definition diff_ready (l1 l2 : list cell) : Prop :=
  Forall cell_ok l1 /\ Forall cell_ok l2 /\ Forall printable_cell l1 /\ Forall printable_cell l2 /\
  (forall a b, In a l1 -> In b l2 -> bin_compat a b).

Lemma diff_ready_tl a l1 b l2 : diff_ready (a :: l1) (b :: l2) -> diff_ready l1 l2.
Proof.
  intros (A & B & C & D & E). inversion A; inversion B; inversion C; inversion D; subst.
  repeat split; auto. intros; apply E; cbn; auto.
Qed.

(** diff is total, symmetric and zero only on identical chains (when set). *)
Lemma diff_chain_spec : forall k1 k2 a ra b rb, (length ra < k1)%nat -> (length rb < k2)%nat ->
  diff_ready (a :: ra) (b :: rb) ->
  exists n, diff_chain k1 a ra b rb = Ok n /\ diff_chain k2 b rb a ra = Ok n /\ 0 <= n /\
    (n = 0 -> same_cell a b /\ (isset a = true -> Forall2 same_cell ra rb)).
Proof.
  induction k1 as [|k1 IH]; intros k2 a ra b rb L1 L2 R; [lia|]. destruct k2 as [|k2]; [lia|].
  cbn [diff_chain]. rewrite (Z.eqb_sym (c_code b)).
  destruct (Z.eqb_spec (c_code a) (c_code b)) as [Ec|]; cbn [negb].
  2:{ exists 1. repeat split; auto; lia. }
  pose proof R as (Ok1 & Ok2 & P1 & P2 & BC).
  inversion Ok1 as [|? ? Oa Ora]; inversion Ok2 as [|? ? Ob Orb]; inversion P1 as [|? ? Pa Pra]; inversion P2 as [|? ? Pb Prb]; subst.
  destruct (isset a) eqn:Sa, (isset b) eqn:Sb.
  - assert (TE : vartype_eqb (vi_type (c_info b)) (vi_type (c_info a)) = vartype_eqb (vi_type (c_info a)) (vi_type (c_info b)))
      by (destruct (vi_type (c_info a)), (vi_type (c_info b)); reflexivity).
    rewrite TE. destruct (vartype_eqb (vi_type (c_info a)) (vi_type (c_info b))) eqn:T; cbn [negb].
    2:{ exists 1. repeat split; auto; lia. }
    apply vartype_eqb_spec in T.
    destruct (diff_value_spec a b Oa Ob (BC a b ltac:(cbn; auto) ltac:(cbn; auto)) T Sa Sb) as (r & -> & -> & V).
    cbn [bind]. destruct r.
    { exists 1. repeat split; auto; lia. }
    destruct V as [V _]. specialize (V eq_refl) as [V _].
    assert (SC : same_cell a b) by (repeat split; auto).
    destruct ra as [|a1 ra], rb as [|b1 rb].
    + exists 0. split; auto. split; auto. split; [lia|]. auto.
    + exists 1. split; auto. split; auto. lia.
    + exists 1. split; auto. split; auto. lia.
    + rewrite (Nat.eqb_sym (length (b1 :: rb))).
      destruct (Nat.eqb_spec (length (a1 :: ra)) (length (b1 :: rb))) as [LE|LE]; cbn [negb].
      2:{ eexists. split; [reflexivity|]. split; [f_equal; lia|]. lia. }
      assert (RT : diff_ready (a1 :: ra) (b1 :: rb)) by (eapply diff_ready_tl; eauto).
      clear - IH L1 L2 RT SC LE.
      assert (Loop : forall l1 l2, (length l1 <= k1)%nat -> (length l2 <= k2)%nat -> diff_ready l1 l2 -> length l1 = length l2 ->
        exists n, diff_loop (diff_chain k1) l1 l2 = Ok n /\
               diff_loop (diff_chain k2) l2 l1 = Ok n /\ 0 <= n /\ (n = 0 -> Forall2 same_cell l1 l2)).
      { induction l1 as [|x l1 IHl]; intros [|y l2] A B D E; cbn in E; try lia.
        - exists 0. repeat split; auto; lia.
        - assert (X : (if c_code y <? c_code x then c_code y else if c_code x <? c_code y then c_code x else 0)
               = (if c_code x <? c_code y then c_code x else if c_code y <? c_code x then c_code y else 0)).
          { destruct (Z.ltb_spec (c_code y) (c_code x)), (Z.ltb_spec (c_code x) (c_code y)); lia. }
          cbn [diff_loop]. rewrite X.
          destruct (negb _).
          + exists 1. repeat split; auto; lia.
          + cbn [length] in *. destruct (IH k2 x l1 y l2) as (n & -> & -> & N & Q); auto; try lia.
            cbn [bind]. destruct (Z.eqb_spec n 0) as [->|]; cbn [negb].
            * destruct (IHl l2) as (m & E1 & E2 & M & QM); try lia; [eapply diff_ready_tl; eauto|].
              exists m. rewrite E1, E2. split; auto. split; auto. split; auto.
              intros ->. constructor; auto. apply Q; auto.
            * exists n. repeat split; auto. lia. }
      destruct (Loop (a1 :: ra) (b1 :: rb)) as (n & E1 & E2 & N & Q); auto; try (cbn in *; lia).
      exists n. split; [exact E1|]. split; [exact E2|]. split; auto.
  - destruct Pa as [u [Pa|Pa]]; [|unfold isset in Sa; rewrite Pa in Sa; discriminate].
    rewrite Pa. cbn [bind]. exists 1. repeat split; auto; lia.
  - destruct Pb as [u [Pb|Pb]]; [|unfold isset in Sb; rewrite Pb in Sb; discriminate].
    rewrite Pb. cbn [bind]. exists 1. repeat split; auto; lia.
  - exists 0. split; auto. split; auto. split; [lia|]. intros _. split; [|discriminate].
    unfold isset in *. destruct (c_val a) eqn:Va; [discriminate|]. destruct (c_val b) eqn:Vb; [discriminate|].
    repeat split; auto; [congruence|]. unfold isset. rewrite Va. discriminate.
Qed.

(** diff of a variable with itself. *)
Lemma diff_chain_refl : forall k a ra, (length ra < k)%nat -> diff_ready (a :: ra) (a :: ra) ->
  diff_chain k a ra a ra = Ok 0.
Proof.
  induction k as [|k IH]; intros a ra L R; [lia|]. cbn [diff_chain]. rewrite Z.eqb_refl. cbn [negb].
  pose proof R as (Ok1 & _ & _ & _ & BC). inversion Ok1 as [|? ? Oa Ora]; subst.
  destruct (isset a) eqn:Sa; auto.
  replace (vartype_eqb (vi_type (c_info a)) (vi_type (c_info a))) with true by (destruct (vi_type (c_info a)); auto).
  cbn [negb].
  destruct (diff_value_spec a a Oa Oa (BC a a ltac:(cbn; auto) ltac:(cbn; auto)) eq_refl Sa Sa) as (r & -> & _ & V).
  cbn [bind]. destruct r; [destruct V as [_ V]; specialize (V ltac:(auto)); discriminate|].
  destruct ra as [|a1 ra]; auto. rewrite Nat.eqb_refl. cbn [negb].
  assert (RT : diff_ready (a1 :: ra) (a1 :: ra)) by (eapply diff_ready_tl; eauto).
  clear - IH L RT. cbn [length] in L.
  assert (Loop : forall l, (length l <= k)%nat -> diff_ready l l ->
    diff_loop (diff_chain k) l l = Ok 0).
  { induction l as [|x l IHl]; intros A R; auto.
    cbn [diff_loop]. rewrite Z.ltb_irrefl. cbn [negb Z.eqb].
    cbn [length] in A. rewrite IH by (auto; lia). cbn [bind Z.eqb negb]. apply IHl; [lia|eapply diff_ready_tl; eauto]. }
  apply (Loop (a1 :: ra)); auto; cbn; lia.
Qed.

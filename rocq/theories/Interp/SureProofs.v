(** Running a template without undefined behaviour. *)
From Coq Require Import ZifyBool ZifyNat.
From Verif Require Import Base Num.Float Varcode.Model Varinfo.Model Tables.Model Tables.Spec Tables.Proofs Interp.Model Interp.ExpandProofs Interp.Appears.
Local Open Scope Z_scope.

(** The call returns a value with the property, or throws. *)
Definition sure {A} (m : res A) (P : A -> Prop) : Prop :=
  match m with Ok a => P a | Err _ => True | UB => False end.

Lemma sure_bind {A B} (m : res A) (k : A -> res B) P Q : sure m P -> (forall a, P a -> sure (k a) Q) -> sure (bind m k) Q.
Proof. destruct m; cbn; auto. Qed.
Lemma sure_weaken {A} (m : res A) (P Q : A -> Prop) : sure m P -> (forall a, P a -> Q a) -> sure m Q.
Proof. destruct m; cbn; auto. Qed.
Lemma sure_not_ub {A} (m : res A) P : sure m P -> m <> UB.
Proof. intros H ->. exact H. Qed.

Lemma sure_repeat {A} (f : A -> res A) (P : A -> Prop) : (forall a, P a -> sure (f a) P) ->
  forall n a, P a -> sure (repeat_m n f a) P.
Proof.
  intros F. induction n as [|n IH]; intros a H; cbn [repeat_m]; [exact H|].
  eapply sure_bind; [apply F; exact H|]. exact IH.
Qed.

(** ** Definitions *)
Lemma query_sure t code : sure (query t code) (fun i => exists e, In e t /\ be_info e = i).
Proof.
  unfold query, query_entry, entry_at. destruct (find_code_spec (map be_code t) code) as (r & -> & A & _). cbn [bind].
  destruct r as [n|]; [|exact I]. specialize (A n eq_refl). rewrite nth_error_map in A.
  destruct (nth_error t n) as [e|] eqn:N; [|discriminate]. cbn. exists e. split; [eapply nth_error_In; eauto|reflexivity].
Qed.

Lemma contains_sure t code : sure (contains t code) (fun _ => True).
Proof. unfold contains, query_entry. destruct (find_code_spec (map be_code t) code) as (r & -> & _). exact I. Qed.

Lemma dexpand_sure d code : sure (dexpand d code) (fun _ => True).
Proof.
  unfold dexpand, dquery. destruct (find_code_spec (map de_code (dt_entries d)) code) as (r & -> & A & _). cbn [bind].
  destruct r as [n|]; [|exact I]. specialize (A n eq_refl). rewrite nth_error_map in A.
  destruct (nth_error (dt_entries d) n); [exact I|discriminate].
Qed.

Lemma decode_decimal_sure s v : -16 <= s <= 16 -> sure (decode_decimal s v) (fun _ => True).
Proof.
  intros S. unfold decode_decimal, scales. destruct (Z.ltb_spec 0 s).
  - replace ((0 <=? s) && (s <=? 16)) with true by lia. exact I.
  - destruct (Z.ltb_spec s 0); [|exact I]. replace ((0 <=? - s) && (- s <=? 16)) with true by lia. exact I.
Qed.

(** Altered definitions: fields of up to 29 bits have fewer than 10 digits. *)
Lemma alter_sure i scale bits ref : 0 <= bits -> - 2 ^ 30 <= ref <= 2 ^ 30 -> sure (alter_checked i scale bits ref) (fun _ => True).
Proof.
  intros B R. unfold alter_checked, alter_info.
  destruct (is_numeric (vi_type i) && ((scale <? -16) || (16 <? scale) || (32 <? bits))) eqn:E; [exact I|].
  assert (Str : forall t len, is_numeric t = false -> sure (compute_range (vi_code i) t (vi_unit i) scale len ref bits) (fun _ => True)).
  { intros t len. destruct t; try discriminate; intros _; exact I. }
  assert (Num : forall t, is_numeric t = true -> is_numeric (vi_type i) = true ->
    sure (len <- digits_per_bits bits ;; compute_range (vi_code i) t (vi_unit i) scale len ref bits) (fun _ => True)).
  { intros t Ht Ni. rewrite Ni in E. cbn [andb] in E. unfold digits_per_bits.
    destruct ((bits <=? 0) || (32 <? bits)) eqn:Eb; [exact I|]. cbn [bind].
    set (len := if bits <=? 3 then 1 else _).
    assert (Hl : 1 <= len <= 10 /\ (len < 10 -> bits <= 29)).
    { unfold len. repeat match goal with |- context [?a <=? ?b] => destruct (Z.leb_spec a b) end; lia. }
    clearbody len. unfold compute_range.
    apply sure_bind with (P := fun _ => True).
    2:{ intros [a b] _. assert (Hs : -16 <= scale <= 16) by lia.
        destruct t; try discriminate;
          (eapply sure_bind; [apply decode_decimal_sure; exact Hs|]; intros ? _; eapply sure_bind; [apply decode_decimal_sure; exact Hs|]; intros ? _; exact I). }
    assert (Hi : forall z, - 2 ^ 31 <= z < 2 ^ 31 -> int_checked z = Ok z).
    { intros z Hz. unfold int_checked, in_int. replace ((int_min <=? z) && (z <=? int_max)) with true; [reflexivity|]. unfold int_min, int_max. lia. }
    assert (Hp : bits <= 29 -> 2 <= 2 ^ bits <= 2 ^ 29).
    { intros L. split; [change 2 with (2 ^ 1) at 1|]; apply Z.pow_le_mono_r; lia. }
    unfold compute_irange. destruct t; try discriminate; (
      destruct (Z.leb_spec 10 len); [exact I|]; replace (bits =? 0) with false by lia; replace (31 <=? bits) with false by lia;
      specialize (Hp ltac:(lia)); change (2 ^ 29) with 536870912 in *; change (2 ^ 30) with 1073741824 in *; change (2 ^ 31) with 2147483648 in *;
      rewrite Hi by lia; cbn [bind]; destruct (negb (var_x (vi_code i) =? 31)); [rewrite Hi by lia|]; cbn [bind];
      unfold intexp10; destruct ((0 <=? len) && (len <=? 9)); exact I). }
  destruct (vi_type i) eqn:Et.
  - destruct (scale =? 0); apply Num; reflexivity.
  - destruct (scale =? 0); apply Num; reflexivity.
  - apply Str; reflexivity.
  - apply Str; reflexivity.
Qed.

Lemma expected_sure t r : 0 <= r_bits r -> - 2 ^ 30 <= r_ref r <= 2 ^ 30 -> sure (expected t r) (fun _ => True).
Proof.
  intros B R. unfold expected. destruct (List.find (fun e => be_code e =? r_code r) t) as [e|]; [|exact I].
  destruct ((vi_scale (be_info e) =? r_scale r) && (vi_bit_len (be_info e) =? r_bits r) && (vi_bit_ref (be_info e) =? r_ref r)); [exact I|].
  apply alter_sure; assumption.
Qed.

(** ** Templates *)
Section Run.
Context {S : Type} (V : visitor S) (T : tables) (Inv : istate * S -> Prop) (allowed : Z -> Prop).
Context (HB : forall code x, var_f code = 0 -> allowed code -> Inv x -> sure (b_variable V T code x) Inv).
Context (HC : forall code next x, var_f code = 2 -> allowed code -> Forall allowed next -> Inv x ->
  sure (c_modifier V T code next x) (fun y => Inv (snd (fst y), snd y) /\ (fst (fst y) = next \/ exists c, next = c :: fst (fst y)))).
Context (HR : forall code delayed body x, (var_y code = 0 -> delayed = var_B31012 \/ allowed delayed) -> is_pending (fst x) = 0 -> Inv x -> (forall x, Inv x -> sure (body x) Inv) ->
  sure (r_replication V T body code delayed x) Inv).
Context (HM : forall code delayed ops x, (var_y code = 0 -> delayed = var_B31012 \/ allowed delayed) -> is_pending (fst x) <> 0 -> Inv x -> sure (r_bitmap V T code delayed ops x) Inv).
Context (HD : forall code body, allowed code -> var_f code = 3 -> dexpand (tb_d T) code = Ok body -> Forall allowed body).

Lemma run_sure : forall fuel ops x, Forall allowed ops -> Inv x -> sure (run V T fuel ops x) Inv.
Proof.
  induction fuel as [|k IH]; intros ops x A Ix; [exact I|]. destruct ops as [|cur rest]; [exact Ix|].
  inversion A as [|? ? A1 A2]; subst. cbn [run].
  destruct (Z.eqb_spec (var_f cur) 0) as [F0|F0].
  { eapply sure_bind; [apply HB; auto|]. intros x' Ix'. apply IH; auto. }
  destruct (Z.eqb_spec (var_f cur) 1) as [F1|F1].
  { destruct (delayed_code cur rest) as [delayed rest1] eqn:Ed.
    assert (A3 : Forall allowed rest1 /\ (var_y cur = 0 -> delayed = var_B31012 \/ allowed delayed)).
    { unfold delayed_code in Ed. destruct (Z.eqb_spec (var_y cur) 0); [|injection Ed as _ <-; split; [exact A2|intros; contradiction]].
      destruct rest as [|n rest']; [injection Ed as <- <-; auto|]. inversion A2; subst.
      destruct ((var_f n =? 0) && (var_x n =? 31)); injection Ed as <- <-; auto. }
    destruct A3 as [A3 Ad].
    destruct (Nat.ltb (length rest1) (Z.to_nat (var_x cur))); [exact I|].
    rewrite <- (firstn_skipn (Z.to_nat (var_x cur)) rest1) in A3. apply Forall_app in A3 as [A4 A5].
    apply sure_bind with (P := Inv); [|intros x' Ix'; apply IH; auto].
    destruct (Z.eqb_spec (is_pending (fst x)) 0); [apply HR|apply HM]; auto. }
  destruct (Z.eqb_spec (var_f cur) 2) as [F2|F2].
  { eapply sure_bind; [apply HC; auto|]. intros [[rest' st'] s'] [Ix' Hr]. cbn [fst snd] in *. apply IH; auto.
    destruct Hr as [->|(c & ->)]; [exact A2|inversion A2; auto]. }
  pose proof (dexpand_sure (tb_d T) cur) as Ds. destruct (dexpand (tb_d T) cur) as [body|e|] eqn:De; [|exact I|destruct Ds].
  cbn [bind]. eapply sure_bind; [apply IH; [apply (HD cur); auto; pose proof (var_f_range cur); lia|exact Ix]|]. intros x' Ix'. apply IH; auto.
Qed.
End Run.

Lemma appears_here T ops : Forall (appears T ops) ops.
Proof. apply Forall_forall. intros c. apply ap_here. Qed.
Lemma appears_inside T ops code body : appears T ops code -> var_f code = 3 -> dexpand (tb_d T) code = Ok body ->
  Forall (appears T ops) body.
Proof. intros A F E. apply Forall_forall. intros c Hc. eapply ap_inside; eauto. Qed.

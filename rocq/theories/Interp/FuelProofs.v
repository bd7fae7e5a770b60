(** How much fuel a template needs. *)
From Coq Require Import ZifyBool ZifyNat Wellfounded.
From Verif Require Import Base Varcode.Model Varinfo.Model Tables.Model Tables.Spec Tables.Proofs Interp.Model Interp.Spec Interp.ExpandProofs.
Local Open Scope Z_scope.

(** [within T d e] : [e] is in the expansion of sequence [d]. *)
Definition within (T : tables) (e d : Z) : Prop :=
  var_f d = 3 /\ exists body, dexpand (tb_d T) d = Ok body /\ In e body.

(** [settles T N ops] : with fuel [N] or more, running [ops] gives one result. *)
Definition settles (T : tables) (N : nat) (ops : list Z) : Prop :=
  forall (S : Type) (V : visitor S) k x, (N <= k)%nat -> run V T k ops x = run V T N ops x.

Lemma settles_more T N M ops : settles T N ops -> (N <= M)%nat -> settles T M ops.
Proof. intros H L S V k x Lk. rewrite (H S V k x) by lia. symmetry. apply H. lia. Qed.

Lemma settles_at T N ops : settles T N ops -> forall S (V : visitor S) k j x, (N <= k)%nat -> (N <= j)%nat ->
  run V T k ops x = run V T j ops x.
Proof. intros H S V k j x Lk Lj. rewrite (H S V k x Lk), (H S V j x Lj). reflexivity. Qed.

Lemma repeat_ext {A} (f g : A -> res A) : (forall x, f x = g x) -> forall n x, repeat_m n f x = repeat_m n g x.
Proof.
  intros H. induction n as [|n IH]; intros x; cbn [repeat_m]; auto. rewrite H. destruct (g x); cbn [bind]; auto.
Qed.

Lemma c_modifier_rest {S} (V : visitor S) T c next x r st s : c_modifier V T c next x = Ok (r, st, s) -> r = next \/ r = tl next.
Proof.
  destruct (takes_arg c) eqn:A.
  - destruct next as [|a next]; [intros H; exfalso; eapply c_modifier_on_nil; eauto|]. rewrite c_modifier_on by exact A.
    intros H. inv_bind H. destruct a0 as [[? ?] ?]. injection Hk as <- _ _. auto.
  - rewrite c_modifier_plain by exact A. intros H. inv_bind H. destruct a as [[? ?] ?]. injection Hk as <- _ _. auto.
Qed.

Section Fuel.
Context (T : tables).

Lemma list_settles : forall n ops, (length ops <= n)%nat ->
  (forall d body, In d ops -> var_f d = 3 -> dexpand (tb_d T) d = Ok body -> exists N, settles T N body) ->
  exists N, settles T N ops.
Proof.
  induction n as [|n IH]; intros ops L D.
  - destruct ops; [|cbn in L; lia]. exists 1%nat. intros S V [|k] x Lk; [lia|]. reflexivity.
  - destruct ops as [|cur rest]. { exists 1%nat. intros S V [|k] x Lk; [lia|]. reflexivity. }
    assert (Sub : forall l, (length l <= n)%nat -> incl l rest -> exists N, settles T N l).
    { intros l Ll Il. apply IH; auto. intros d body Hd. apply D. right. apply Il. exact Hd. }
    cbn [length] in L.
    destruct (Sub rest ltac:(lia) (incl_refl _)) as (N1 & S1).
    destruct (Sub (tl rest) ltac:(destruct rest; cbn in *; lia) ltac:(destruct rest; [apply incl_refl|apply incl_tl, incl_refl])) as (N2 & S2).
    destruct (delayed_code cur rest) as [delayed rest1] eqn:Dc.
    assert (I1 : incl rest1 rest /\ (length rest1 <= length rest)%nat).
    { apply delayed_code_cases in Dc as [(_ & _ & ->)|[(_ & _ & ->)|(_ & _ & -> & _)]]; split; auto using incl_refl, incl_tl. cbn. lia. }
    destruct I1 as [I1 L1].
    destruct (Sub (firstn (Z.to_nat (var_x cur)) rest1)) as (N3 & S3).
    { rewrite firstn_length. lia. }
    { intros z Hz. apply I1. rewrite <- (firstn_skipn (Z.to_nat (var_x cur))). apply in_app_iff. auto. }
    destruct (Sub (skipn (Z.to_nat (var_x cur)) rest1)) as (N4 & S4).
    { rewrite skipn_length. lia. }
    { intros z Hz. apply I1. rewrite <- (firstn_skipn (Z.to_nat (var_x cur))). apply in_app_iff. auto. }
    assert (S5 : exists N5, forall body, var_f cur = 3 -> dexpand (tb_d T) cur = Ok body -> settles T N5 body).
    { destruct (Z.eqb_spec (var_f cur) 3) as [F|F]; [|exists 0%nat; intros; contradiction].
      destruct (dexpand (tb_d T) cur) as [body| |] eqn:X; [|exists 0%nat; discriminate|exists 0%nat; discriminate].
      destruct (D cur body (or_introl eq_refl) F X) as (N5 & H5). exists N5. intros body' _ [= <-]. exact H5. }
    destruct S5 as (N5 & S5). set (M := (N1 + N2 + N3 + N4 + N5)%nat). exists (S M).
    intros S V [|k] x Lk; [lia|]. cbn [run]. cbv zeta.
    destruct (Z.eqb_spec (var_f cur) 0) as [|F0]. { destruct (b_variable V T cur x); cbn [bind]; auto. apply (settles_at _ _ _ S1); lia. }
    destruct (Z.eqb_spec (var_f cur) 1) as [|F1].
    { rewrite Dc. destruct (Nat.ltb (length rest1) (Z.to_nat (var_x cur))); auto.
      assert (E : (if is_pending (fst x) =? 0 then r_replication V T (run V T k (firstn (Z.to_nat (var_x cur)) rest1)) cur delayed x
                   else r_bitmap V T cur delayed (firstn (Z.to_nat (var_x cur)) rest1) x) =
                  (if is_pending (fst x) =? 0 then r_replication V T (run V T M (firstn (Z.to_nat (var_x cur)) rest1)) cur delayed x
                   else r_bitmap V T cur delayed (firstn (Z.to_nat (var_x cur)) rest1) x)).
      { destruct (is_pending (fst x) =? 0); auto. unfold r_replication. destruct x as [st s].
        match goal with |- bind ?m _ = bind ?m _ => destruct m as [[count s1]| |] end; cbn [bind]; auto.
        apply repeat_ext. intros y. apply (settles_at _ _ _ S3); lia. }
      rewrite E. match goal with |- bind ?m _ = bind ?m _ => destruct m as [y| |] end; cbn [bind]; auto. apply (settles_at _ _ _ S4); lia. }
    destruct (Z.eqb_spec (var_f cur) 2) as [|F2].
    { destruct (c_modifier V T cur rest x) as [[[r st] s]| |] eqn:C; cbn [bind]; auto.
      destruct (c_modifier_rest _ _ _ _ _ _ _ _ C) as [-> | ->]; [apply (settles_at _ _ _ S1)|apply (settles_at _ _ _ S2)]; lia. }
    destruct (dexpand (tb_d T) cur) as [body| |] eqn:X; cbn [bind]; auto.
    pose proof (var_f_range cur) as R.
    rewrite (settles_at _ _ _ (S5 body ltac:(lia) eq_refl) S V k M x) by lia. destruct (run V T M body x) as [y| |]; cbn [bind]; auto.
    apply (settles_at _ _ _ S1); lia.
Qed.

Theorem template_settles ops : well_founded (within T) -> exists N, settles T N ops.
Proof.
  intros W.
  assert (D : forall d body, var_f d = 3 -> dexpand (tb_d T) d = Ok body -> exists N, settles T N body).
  { intros d. induction d as [d IH] using (well_founded_induction W). intros body F X.
    apply (list_settles (length body)); auto. intros e b He Fe Xe. apply (IH e); auto. split; auto. exists body. auto. }
  apply (list_settles (length ops)); auto. intros d body _. apply D.
Qed.
End Fuel.

(** A sufficient condition that can be computed: a rank that decreases. *)
Definition ranked (rank : Z -> nat) (d : dtable) : Prop :=
  Forall (fun e => Forall (fun c => (rank c < rank (de_code e))%nat) (slice (mkops (dt_codes d) (de_begin e) (de_end e)))) (dt_entries d).

Lemma ranked_well_founded rank T : ranked rank (tb_d T) -> well_founded (within T).
Proof.
  intros H. apply (wf_incl _ _ (fun e d => (rank e < rank d)%nat)).
  - intros e d (_ & body & X & I). unfold dexpand, dquery in X.
    destruct (find_code_spec (map de_code (dt_entries (tb_d T))) d) as (r & E & A & _). rewrite E in X. cbn [bind] in X.
    destruct r as [i|]; [|discriminate]. specialize (A i eq_refl). rewrite nth_error_map in A.
    destruct (nth_error (dt_entries (tb_d T)) i) as [ent|] eqn:En; [|discriminate]. cbn [option_map] in A. injection A as A.
    cbn [bind] in X. injection X as <-. unfold ranked in H. rewrite Forall_forall in H. specialize (H ent (nth_error_In _ _ En)).
    rewrite Forall_forall in H. rewrite <- A. apply H. exact I.
  - apply (well_founded_ltof Z rank).
Qed.

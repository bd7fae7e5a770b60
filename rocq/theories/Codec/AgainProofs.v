(** Decoded subsets can be transmitted, and arrive as they are. *)
From Coq Require Import ZArith Lia ZifyBool ZifyNat.
From Verif Require Import Base Bits.Model Bits.Spec Bits.Proofs Bits.StringProofs Num.Float
  Varcode.Model Varinfo.Model Varinfo.RangeProofs Tables.Model Tables.Spec Tables.AlterProofs Tables.LoadProofs Var.Model Var.Spec
  Var.Proofs Var.AttrProofs Var.CodecProofs Interp.Model Interp.Sim Interp.Follow Interp.SureProofs Codec.Model Codec.Spec
  Codec.ValueProofs Codec.Proofs Codec.TransferProofs Codec.Checked Codec.StepProofs Codec.ColumnProofs Codec.Again Codec.AgainValue.
Local Open Scope Z_scope.

(** ** The recorder is the decoder *)
Section Same.
Context (o : options) (T : tables) (skip : bool).

Lemma note_inv r m x y : note r m x = Ok y -> exists s, m = Ok s /\ y = (s, snd x ++ [r]).
Proof. unfold note. intros E. inv_bind E. injection Hk as <-. eauto. Qed.
Lemma note_with_inv {A} (r : A -> request) m x a y : note_with r m x = Ok (a, y) -> exists s, m = Ok (a, s) /\ y = (s, snd x ++ [r a]).
Proof. unfold note_with. intros E. inv_bind E. destruct a0 as [a' s]. injection Hk as <- <-. eauto. Qed.

Lemma wrap_int_range z : int_min <= wrap_int z <= int_max.
Proof. unfold wrap_int, int_min, int_max. pose proof (Z.mod_pos_bound (z + 2 ^ 31) (2 ^ 32) ltac:(lia)). lia. Qed.
Lemma refval_int bits code s r s' : d_refval bits code s = Ok (r, s') -> int_min <= r <= int_max.
Proof.
  unfold d_refval. intros E. inv_bind E. destruct a as [v i1]. inv_bind Hk. apply ok_inj, (f_equal fst) in Hk0. cbn [fst] in Hk0. rewrite <- Hk0. apply wrap_int_range.
Qed.

Lemma recorded_run fuel ops st s l st' s' : run (decoder o T skip) T fuel ops (st, s) = Ok (st', s') ->
  exists l', run (recorder o T skip) T fuel ops (st, (s, l)) = Ok (st', (s', l')).
Proof.
  intros E.
  destruct (run_follows (decoder o T skip) (recorder o T skip) T (fun _ => True) (fun _ _ => True) (fun _ => True) (fun s x => fst x = s)
    (fun _ _ => True) (fun _ => True) (fun _ _ => True)) with (fuel := fuel) (ops := ops) (st := st) (s := s) (st' := st') (s' := s') as (_ & _ & _ & K); auto.
  - intros; repeat split.
  - intros i _ a a' _ _ E1. repeat split. intros _ [b k] Eb. cbn [fst] in Eb. subst b. cbn [on_var recorder]. unfold note. cbn [fst snd].
    cbn [decoder on_var on_var_af on_factor on_significance on_attr on_raw on_refval] in E1. rewrite E1. eexists. split; reflexivity.
  - intros st0 i _ _ a a' _ _ E1. repeat split. intros _ [b k] Eb. cbn [fst] in Eb. subst b. cbn [on_var_af recorder]. unfold note. cbn [fst snd].
    cbn [decoder on_var on_var_af on_factor on_significance on_attr on_raw on_refval] in E1. rewrite E1. eexists. split; reflexivity.
  - intros i _ _ a n a' _ E1. repeat split. intros _ [b k] Eb. cbn [fst] in Eb. subst b. cbn [on_factor recorder]. unfold note_with. cbn [fst snd].
    cbn [decoder on_var on_var_af on_factor on_significance on_attr on_raw on_refval] in E1. rewrite E1. eexists. split; reflexivity.
  - intros i _ a n a' _ E1. repeat split. intros _ [b k] Eb. cbn [fst] in Eb. subst b. cbn [on_significance recorder]. unfold note_with. cbn [fst snd].
    cbn [decoder on_var on_var_af on_factor on_significance on_attr on_raw on_refval] in E1. rewrite E1. eexists. split; reflexivity.
  - intros p a a' _ _ E1. repeat split. intros _ [b k] Eb. cbn [fst] in Eb. subst b. cbn [on_subst recorder]. unfold note. cbn [fst snd].
    pose proof E1 as E2. cbn [on_subst decoder] in E2. unfold d_subst in E2. destruct (nth_error (d_vars a) p); [|discriminate].
    cbn [on_subst decoder] in E1. rewrite E1. eexists. split; reflexivity.
  - intros i p _ a a' _ _ E1. repeat split. intros _ [b k] Eb. cbn [fst] in Eb. subst b. cbn [on_attr recorder]. unfold note. cbn [fst snd].
    cbn [decoder on_var on_var_af on_factor on_significance on_attr on_raw on_refval] in E1. rewrite E1. eexists. split; reflexivity.
  - intros code a a' _ _ E1. repeat split. intros _ [b k] Eb. cbn [fst] in Eb. subst b. cbn [on_raw recorder]. unfold note. cbn [fst snd].
    cbn [decoder on_var on_var_af on_factor on_significance on_attr on_raw on_refval] in E1. rewrite E1. eexists. split; reflexivity.
  - intros st0 s0 code _ _ a r a' _ E1. split; [|repeat split].
    + cbn [on_refval decoder] in E1. eapply refval_int; eauto.
    + intros _ [b k] Eb. cbn [fst] in Eb. subst b. cbn [on_refval recorder]. unfold note_with. cbn [fst snd].
      cbn [decoder on_refval] in E1. rewrite E1. eexists. split; reflexivity.
  - intros code op _ a i a' _ E1. repeat split. intros _ [b k] Eb. cbn [fst] in Eb. subst b. cbn [on_unknown recorder]. cbn [fst snd].
    cbn [on_unknown decoder] in E1. rewrite E1. eexists. split; reflexivity.
  - intros code delayed ops0 st0 s0 st1 s1 _ _ _ E1. repeat split. intros _ [b k] Eb. cbn [fst] in Eb. subst b.
    unfold r_bitmap in *. destruct (negb (var_x code =? 1)); [discriminate|]. destruct (negb (hd 0 ops0 =? var_B31031)); [discriminate|].
    inv_bind E1. destruct a as [n s2]. inv_bind Hk. destruct a as [[codes bits] s3]. inv_bind Hk0. injection Hk as <- <-.
    assert (Q : exists k', (if var_y code =? 0 then info <- query (tb_b T) delayed;; on_bitmap_factor (recorder o T skip) info (s0, k) else Ok (var_y code, (s0, k))) = Ok (n, (s2, k'))).
    { destruct (var_y code =? 0).
      - destruct (query (tb_b T) delayed) as [i|e|]; cbn [bind] in *; try discriminate. cbn [on_bitmap_factor recorder decoder] in *. unfold note_with. cbn [fst snd].
        rewrite Hb. eexists. reflexivity.
      - injection Hb as <- <-. eexists. reflexivity. }
    destruct Q as [k' ->]. cbn [bind]. cbn [on_bitmap recorder decoder fst snd] in *. rewrite Hb0. cbn [bind]. rewrite Hb1. eexists. split; reflexivity.
  - destruct (K Logic.I (s, l) eq_refl) as ([s2 l2] & E2 & <-). exists l2. exact E2.
Qed.
End Same.

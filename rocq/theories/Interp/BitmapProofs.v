(** The positions that a bitmap refers to. *)
From Coq Require Import ZifyBool ZifyNat.
From Verif Require Import Base Varcode.Model Varinfo.Model Tables.Model Tables.Spec Interp.Model Interp.Spec.
Local Open Scope Z_scope.

Section Walk.
Context (codes : list Z).
Let dp (n : nat) : list nat := filter (fun p => var_f (nth p codes 0) =? 0) (seq 0 n).

Lemma dp_S n : dp (S n) = dp n ++ (if var_f (nth n codes 0) =? 0 then [n] else []).
Proof. unfold dp. rewrite seq_S, filter_app. reflexivity. Qed.

Lemma skip_back_dp n : match skip_back codes n with
                       | Some m => (m < n)%nat /\ dp n = dp m ++ [m]
                       | None => dp n = []
                       end.
Proof.
  induction n as [|n IH]; [reflexivity|]. cbn [skip_back]. rewrite dp_S. destruct (var_f (nth n codes 0) =? 0).
  - auto with arith.
  - rewrite app_nil_r. destruct (skip_back codes n) as [m|]; auto. destruct IH. auto.
Qed.

Definition marked (ps : list nat) (bits : list Z) : list nat :=
  map fst (filter (fun pb => snd pb =? 43) (combine ps bits)).

Lemma combine_snoc {A B} (l : list A) (m : list B) a b : length l = length m ->
  combine (l ++ [a]) (m ++ [b]) = combine l m ++ [(a, b)].
Proof.
  revert m. induction l as [|x l IH]; intros [|y m] L; cbn [length combine app] in *; try discriminate; auto.
  rewrite IH by lia. reflexivity.
Qed.

Lemma lastn_snoc {A} n (l : list A) a : (n <= length l)%nat -> lastn (S n) (l ++ [a]) = lastn n l ++ [a].
Proof.
  intros L. unfold lastn. rewrite app_length. cbn [length]. replace (length l + 1 - S n)%nat with (length l - n)%nat by lia.
  rewrite skipn_app. replace (length l - n - length l)%nat with 0%nat by lia. reflexivity.
Qed.

Lemma lastn_length {A} n (l : list A) : (n <= length l)%nat -> length (lastn n l) = n.
Proof. intros. unfold lastn. rewrite skipn_length. lia. Qed.

Lemma walk_marked rbits : forall n,
  bitmap_walk codes rbits n = if Nat.leb (length rbits) (length (dp n))
                              then Ok (marked (lastn (length rbits) (dp n)) (rev rbits)) else Err EConsistency.
Proof.
  induction rbits as [|b rest IH]; intros n; cbn [bitmap_walk length rev].
  - cbn [Nat.leb]. unfold marked. destruct (lastn 0 (dp n)); reflexivity.
  - pose proof (skip_back_dp n) as K. destruct (skip_back codes n) as [m|].
    + destruct K as [_ K]. rewrite K. rewrite app_length. cbn [length]. rewrite IH.
      replace (Nat.leb (S (length rest)) (length (dp m) + 1)) with (Nat.leb (length rest) (length (dp m))) by lia.
      destruct (Nat.leb_spec (length rest) (length (dp m))) as [L|L]; [|reflexivity]. cbn [bind].
      rewrite lastn_snoc by exact L. unfold marked. rewrite combine_snoc by (rewrite rev_length; apply lastn_length; exact L).
      rewrite filter_app, map_app. cbn [filter snd]. destruct (b =? 43); [reflexivity|]. cbn [map]. rewrite app_nil_r. reflexivity.
    + rewrite K. reflexivity.
Qed.
End Walk.

Theorem make_bitmap_present codes bits :
  make_bitmap codes bits =
    if (Nat.leb 1 (length bits) && Nat.leb (length bits) (length (data_positions codes)))%bool
    then Ok (present codes bits) else Err EConsistency.
Proof.
  unfold make_bitmap. destruct bits as [|b bits]; [reflexivity|]. rewrite walk_marked, rev_length, rev_involutive.
  change (Nat.leb 1 (length (b :: bits))) with true. reflexivity.
Qed.

(** The positions are in increasing order and within the data. *)
Lemma skipn_incl {A} n (l : list A) x : In x (skipn n l) -> In x l.
Proof. revert l. induction n as [|n IH]; intros [|a l] H; cbn in *; auto. Qed.

Lemma present_data codes bits p : In p (present codes bits) -> (p < length codes)%nat /\ var_f (nth p codes 0) = 0.
Proof.
  unfold present. rewrite in_map_iff. intros ([q b] & E & I). cbn [fst] in E. subst q. apply filter_In in I as [I _].
  apply in_combine_l in I. unfold lastn in I. apply skipn_incl in I. unfold data_positions in I. apply filter_In in I as [I F].
  apply in_seq in I. lia.
Qed.

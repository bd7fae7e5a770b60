(** Reading messages from a file. *)
From Coq Require Import ZifyBool ZifyNat.
From Verif Require Import Base Codec.ColumnProofs Codec.TransferProofs Message.Model Message.Spec Message.Proofs.
Local Open Scope Z_scope.

Definition signature : list Z := [66; 85; 70; 82].

(** What seek_past_signature remembers. *)
Definition step (got : nat) (c : Z) : nat := if c =? nth got signature 0 then S got else 0%nat.
Definition scan (s : list Z) : nat := fold_left step s 0%nat.

Lemma scan_snoc s c : scan (s ++ [c]) = step (scan s) c.
Proof. unfold scan. rewrite fold_left_app. reflexivity. Qed.

Lemma scan_suffix s : (scan s <= 4)%nat -> ends_with s (firstn (scan s) signature).
Proof.
  induction s as [|c s IH] using rev_ind; intros H; [exists []; reflexivity|].
  rewrite scan_snoc in *. unfold step in *. destruct (c =? nth (scan s) signature 0) eqn:E.
  - destruct IH as (a & Ea); [lia|]. exists a. rewrite Ea at 1. rewrite <- app_assoc. f_equal.
    apply Z.eqb_eq in E. subst c. remember (scan s) as k. clear -H.
    destruct k as [|[|[|[|k]]]]; try reflexivity. lia.
  - exists (s ++ [c]). rewrite firstn_O, app_nil_r. reflexivity.
Qed.

Lemma scan_reaches s : (4 <= scan s)%nat -> occurs signature s.
Proof.
  induction s as [|c s IH] using rev_ind; intros H; [cbn in H; lia|].
  destruct (Nat.le_gt_cases 4 (scan s)) as [G|G].
  - destruct (IH G) as (a & b & ->). exists a, (b ++ [c]). rewrite <- !app_assoc. reflexivity.
  - assert (E : scan (s ++ [c]) = 4%nat).
    { rewrite scan_snoc in *. unfold step in *. destruct (_ =? _); lia. }
    assert (K := scan_suffix (s ++ [c])). rewrite E in K. destruct K as (a & Ea); [lia|].
    exists a, []. rewrite Ea, app_nil_r. reflexivity.
Qed.

Lemma seek_scan s : forall pre rest, (forall a b, s = a ++ b -> (scan (pre ++ a) < 4)%nat) ->
  seek_signature signature (scan pre) (s ++ rest) = seek_signature signature (scan (pre ++ s)) rest.
Proof.
  induction s as [|c s IH]; intros pre rest H; [rewrite app_nil_r; reflexivity|].
  assert (H0 : (scan pre < 4)%nat) by (specialize (H [] (c :: s) eq_refl); rewrite app_nil_r in H; exact H).
  cbn [app seek_signature]. replace (Nat.leb (length signature) (scan pre)) with false by (cbn [length signature]; lia).
  assert (E : (if c =? nth (scan pre) signature 0 then seek_signature signature (S (scan pre)) (s ++ rest)
               else seek_signature signature 0 (s ++ rest)) = seek_signature signature (scan (pre ++ [c])) (s ++ rest)).
  { rewrite scan_snoc. unfold step. destruct (_ =? _); reflexivity. }
  rewrite E, IH.
  - rewrite <- app_assoc. reflexivity.
  - intros a b Ea. rewrite <- app_assoc. apply (H (c :: a) b). rewrite Ea. reflexivity.
Qed.

Lemma no_signature_scan s : ~ occurs signature s -> forall a b, s = a ++ b -> (scan a < 4)%nat.
Proof.
  intros N a b E. destruct (Nat.le_gt_cases 4 (scan a)) as [G|G]; auto. exfalso. apply N.
  destruct (scan_reaches a G) as (x & y & Ex). exists x, (y ++ b). rewrite E, Ex, <- !app_assoc. reflexivity.
Qed.

(** Separators that let the next signature be found. *)
Definition clean (s : list Z) : Prop :=
  ~ occurs signature s /\ ~ ends_with s [66] /\ ~ ends_with s [66; 85] /\ ~ ends_with s [66; 85; 70].

Lemma clean_scan s : clean s -> scan s = 0%nat.
Proof.
  intros (N & E1 & E2 & E3). assert (L := no_signature_scan s N s [] (eq_sym (app_nil_r s))).
  assert (K := scan_suffix s ltac:(lia)). remember (scan s) as k.
  destruct k as [|[|[|[|k]]]]; auto; try contradiction. lia.
Qed.

Lemma seek_done file : seek_signature signature 4 file = Some file.
Proof. destruct file; reflexivity. Qed.

Lemma seek_clean s rest : clean s -> seek_signature signature 0 (s ++ signature ++ rest) = Some rest.
Proof.
  intros C. change 0%nat with (scan []). rewrite seek_scan.
  - cbn [app]. rewrite (clean_scan s C). apply seek_done.
  - intros a b E. cbn [app]. apply (no_signature_scan s (proj1 C) a b E).
Qed.

Lemma seek_end s : ~ occurs signature s -> seek_signature signature 0 s = None.
Proof.
  intros N. rewrite <- (app_nil_r s). change 0%nat with (scan []). rewrite seek_scan.
  - cbn [app seek_signature]. assert (L := no_signature_scan s N s [] (eq_sym (app_nil_r s))).
    replace (Nat.leb (length signature) (scan s)) with false by (cbn [length signature]; lia). reflexivity.
  - intros a b E. cbn [app]. apply (no_signature_scan s N a b E).
Qed.

(** A message that declares its own length. *)
Definition sized (m : list Z) : Prop :=
  (12 <= length m)%nat /\ Z.of_nat (length m) < 2 ^ 24 /\
  exists e rest, m = signature ++ be 3 (Z.of_nat (length m)) ++ e :: rest.

Lemma read_one sep m rest : clean sep -> sized m -> read_message (sep ++ m ++ rest) = Ok (Some (m, rest)).
Proof.
  intros C (L & U & e & body & E). unfold read_message. fold signature.
  set (n := Z.of_nat (length m)) in *.
  assert (Lm : length m = (8 + length body)%nat).
  { rewrite E. cbn [signature be app length]. reflexivity. }
  rewrite E at 1. rewrite <- !app_assoc. rewrite seek_clean by exact C.
  unfold be. cbn [app]. change (256 ^ Z.of_nat 2) with 65536. change (256 ^ Z.of_nat 1) with 256. change (256 ^ Z.of_nat 0) with 1.
  rewrite Z.div_1_r.
  assert (Q : (n / 65536) mod 256 * 65536 + (n / 256) mod 256 * 256 + n mod 256 = n).
  { assert (n / 65536 = n / 256 / 256) by (rewrite Z.div_div by lia; reflexivity).
    assert (0 <= n / 65536 < 256) by (split; [apply Z.div_pos; lia|apply Z.div_lt_upper_bound; lia]).
    rewrite (Z.mod_small (n / 65536)) by lia.
    pose proof (Z.div_mod n 256). pose proof (Z.div_mod (n / 256) 256). lia. }
  rewrite Q. replace (n <? 12) with false by lia.
  replace (Z.to_nat (n - 8)) with (length body) by lia.
  replace (Nat.ltb (length (body ++ rest)) (length body)) with false by (rewrite app_length; lia).
  rewrite firstn_app, Nat.sub_diag, firstn_O, app_nil_r, firstn_all, skipn_length_app. f_equal. f_equal. f_equal.
  symmetry. rewrite E. unfold be. cbn [app signature].
  change (256 ^ Z.of_nat 2) with 65536. change (256 ^ Z.of_nat 1) with 256. change (256 ^ Z.of_nat 0) with 1.
  rewrite Z.div_1_r. reflexivity.
Qed.

Fixpoint stream (items : list (list Z * list Z)) (tail : list Z) : list Z :=
  match items with
  | [] => tail
  | (sep, m) :: rest => sep ++ m ++ stream rest tail
  end.

Theorem read_stream items tail fuel : (length items < fuel)%nat ->
  Forall (fun i => clean (fst i) /\ sized (snd i)) items -> ~ occurs signature tail ->
  read_all fuel (stream items tail) = Ok (map snd items).
Proof.
  revert fuel. induction items as [|[sep m] items IH]; intros [|fuel] L F N; cbn [length] in L; try lia.
  - cbn [read_all stream map]. unfold read_message. fold signature. rewrite seek_end by exact N. reflexivity.
  - apply Forall_cons_iff in F as [[C S] F]. cbn [fst snd] in *. cbn [read_all stream map].
    rewrite read_one by auto. cbn [bind]. rewrite IH by (auto; lia). reflexivity.
Qed.

Lemma seek_shorter sig file : forall got rest, seek_signature sig got file = Some rest -> (length rest <= length file)%nat.
Proof.
  induction file as [|c file IH]; intros got rest H; cbn [seek_signature] in H.
  - destruct (Nat.leb _ _); [injection H as <-; auto|discriminate].
  - destruct (Nat.leb _ _); [injection H as <-; auto|]. cbn [length].
    destruct (c =? nth got sig 0); apply IH in H; lia.
Qed.

Lemma read_shorter file m rest : read_message file = Ok (Some (m, rest)) -> (length rest < length file)%nat.
Proof.
  unfold read_message. intros H. destruct (seek_signature _ 0 file) as [r|] eqn:E; [|discriminate].
  apply seek_shorter in E. destruct r as [|a [|b [|c [|e r]]]]; try discriminate. cbn [length] in E.
  destruct (_ <? 12); [discriminate|]. destruct (Nat.ltb (length r) _); [discriminate|].
  injection H as <- <-. rewrite skipn_length. lia.
Qed.

Theorem read_all_ends fuel : forall file, (length file < fuel)%nat -> read_all fuel file <> Err EFuel /\ read_all fuel file <> UB.
Proof.
  induction fuel as [|k IH]; intros file L; [lia|]. cbn [read_all].
  destruct (read_message file) as [[[m rest]|]|e|] eqn:E; cbn [bind].
  - apply read_shorter in E. destruct (IH rest ltac:(lia)) as [H1 H2].
    destruct (read_all k rest); cbn [bind]; split; congruence.
  - split; discriminate.
  - split; [|discriminate]. unfold read_message in E. destruct (seek_signature _ 0 file) as [r|]; [|discriminate].
    destruct r as [|a [|b [|c [|x r]]]]; try (injection E as <-; discriminate).
    destruct (_ <? 12); [injection E as <-; discriminate|]. destruct (Nat.ltb (length r) _); [injection E as <-; discriminate|discriminate].
  - unfold read_message in E. destruct (seek_signature _ 0 file) as [r|]; [|discriminate].
    destruct r as [|a [|b [|c [|x r]]]]; try discriminate.
    destruct (_ <? 12); [discriminate|]. destruct (Nat.ltb (length r) _); discriminate.
Qed.

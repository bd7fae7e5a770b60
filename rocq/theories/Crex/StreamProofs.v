(** Reading CREX messages from a file. *)
From Coq Require Import ZifyBool ZifyNat.
From Verif Require Import Base Codec.ColumnProofs Varcode.Model Varcode.Proofs Var.Model Message.Model Message.Spec Crex.Model Crex.Spec Crex.ValueProofs Crex.Proofs
  Crex.MessageProofs.
From Verif Require Message.StreamProofs.
Local Open Scope Z_scope.

(** What seek_past_signature remembers. *)
Definition step (got : nat) (c : Z) : nat := if c =? nth got crex_start 0 then S got else 0%nat.
Definition scan (s : list Z) : nat := fold_left step s 0%nat.

Lemma scan_snoc s c : scan (s ++ [c]) = step (scan s) c.
Proof. unfold scan. rewrite fold_left_app. reflexivity. Qed.

Lemma scan_suffix s : (scan s <= 6)%nat -> ends_with s (firstn (scan s) crex_start).
Proof.
  induction s as [|c s IH] using rev_ind; intros H; [exists []; reflexivity|].
  rewrite scan_snoc in *. unfold step in *. destruct (c =? nth (scan s) crex_start 0) eqn:E.
  - destruct IH as (a & Ea); [lia|]. exists a. rewrite Ea at 1. rewrite <- app_assoc. f_equal.
    apply Z.eqb_eq in E. subst c. remember (scan s) as k. clear -H.
    destruct k as [|[|[|[|[|[|k]]]]]]; try reflexivity. lia.
  - exists (s ++ [c]). rewrite firstn_O, app_nil_r. reflexivity.
Qed.

Lemma scan_reaches s : (6 <= scan s)%nat -> occurs crex_start s.
Proof.
  induction s as [|c s IH] using rev_ind; intros H; [cbn in H; lia|].
  destruct (Nat.le_gt_cases 6 (scan s)) as [G|G].
  - destruct (IH G) as (a & b & ->). exists a, (b ++ [c]). rewrite <- !app_assoc. reflexivity.
  - assert (E : scan (s ++ [c]) = 6%nat).
    { rewrite scan_snoc in *. unfold step in *. destruct (_ =? _); lia. }
    assert (K := scan_suffix (s ++ [c])). rewrite E in K. destruct K as (a & Ea); [lia|].
    exists a, []. rewrite Ea, app_nil_r. reflexivity.
Qed.

Lemma seek_scan s : forall pre rest, (forall a b, s = a ++ b -> (scan (pre ++ a) < 6)%nat) ->
  seek_signature crex_start (scan pre) (s ++ rest) = seek_signature crex_start (scan (pre ++ s)) rest.
Proof.
  induction s as [|c s IH]; intros pre rest H; [rewrite app_nil_r; reflexivity|].
  assert (H0 : (scan pre < 6)%nat) by (specialize (H [] (c :: s) eq_refl); rewrite app_nil_r in H; exact H).
  cbn [app seek_signature]. replace (Nat.leb (length crex_start) (scan pre)) with false by (cbn [length crex_start]; lia).
  assert (E : (if c =? nth (scan pre) crex_start 0 then seek_signature crex_start (S (scan pre)) (s ++ rest)
               else seek_signature crex_start 0 (s ++ rest)) = seek_signature crex_start (scan (pre ++ [c])) (s ++ rest)).
  { rewrite scan_snoc. unfold step. destruct (_ =? _); reflexivity. }
  rewrite E, IH.
  - rewrite <- app_assoc. reflexivity.
  - intros a b Ea. rewrite <- app_assoc. apply (H (c :: a) b). rewrite Ea. reflexivity.
Qed.

Lemma no_signature_scan s : ~ occurs crex_start s -> forall a b, s = a ++ b -> (scan a < 6)%nat.
Proof.
  intros N a b E. destruct (Nat.le_gt_cases 6 (scan a)) as [G|G]; auto. exfalso. apply N.
  destruct (scan_reaches a G) as (x & y & Ex). exists x, (y ++ b). rewrite E, Ex, <- !app_assoc. reflexivity.
Qed.

(** Separators that let the next crex_start be found. *)
Definition clean (s : list Z) : Prop :=
  ~ occurs crex_start s /\ forall k, (1 <= k <= 5)%nat -> ~ ends_with s (firstn k crex_start).

Lemma clean_scan s : clean s -> scan s = 0%nat.
Proof.
  intros (N & E). assert (L := no_signature_scan s N s [] (eq_sym (app_nil_r s))).
  assert (K := scan_suffix s ltac:(lia)). remember (scan s) as k.
  destruct k as [|[|[|[|[|[|k]]]]]]; auto; try (exfalso; eapply E; [|exact K]; lia).
Qed.

Lemma seek_done file : seek_signature crex_start 6 file = Some file.
Proof. destruct file; reflexivity. Qed.

Lemma seek_clean s rest : clean s -> seek_signature crex_start 0 (s ++ crex_start ++ rest) = Some rest.
Proof.
  intros C. change 0%nat with (scan []). rewrite seek_scan.
  - cbn [app]. rewrite (clean_scan s C). apply seek_done.
  - intros a b E. cbn [app]. apply (no_signature_scan s (proj1 C) a b E).
Qed.

Lemma seek_end s : ~ occurs crex_start s -> seek_signature crex_start 0 s = None.
Proof.
  intros N. rewrite <- (app_nil_r s). change 0%nat with (scan []). rewrite seek_scan.
  - cbn [app seek_signature]. assert (L := no_signature_scan s N s [] (eq_sym (app_nil_r s))).
    replace (Nat.leb (length crex_start) (scan s)) with false by (cbn [length crex_start]; lia). reflexivity.
  - intros a b E. cbn [app]. apply (no_signature_scan s N a b E).
Qed.


(** ** The end of a message *)
Definition escan (got : nat) (s : list Z) : nat := fold_left end_step s got.

Lemma read_end_scan s : forall got rest, (forall a b, s = a ++ b -> (escan got a < 8)%nat) ->
  read_end got (s ++ rest) =
  match read_end (escan got s) rest with Some (m, r) => Some (s ++ m, r) | None => None end.
Proof.
  induction s as [|c s IH]; intros got rest H.
  - cbn [app escan fold_left]. destruct (read_end got rest) as [[m r]|]; reflexivity.
  - assert (H0 : (got < 8)%nat) by (exact (H [] (c :: s) eq_refl)).
    cbn [app read_end]. rewrite (proj2 (Nat.leb_gt 8 got)) by lia. rewrite IH.
    + unfold escan. cbn [fold_left]. destruct (read_end _ rest) as [[m r]|]; reflexivity.
    + intros a b E. apply (H (c :: a) b). rewrite E. reflexivity.
Qed.

Definition eols (s : list Z) : Prop := s <> [] /\ Forall (fun c => c = 13 \/ c = 10) s.
(** ++, the end of a line (or more) and [j] times 7. *)
Definition mark (j : nat) (e : list Z) : list Z := [43; 43] ++ e ++ firstn j [55; 55; 55; 55].

(** What the state of the search says of what was read. *)
Definition said (got : nat) (s : list Z) : Prop :=
  match got with
  | O => True
  | S O => ends_with s [43]
  | S (S O) => ends_with s [43; 43]
  | S (S (S O)) => exists e, eols e /\ ends_with s (mark 0 e)
  | S (S (S (S O))) => False
  | S (S (S (S j))) => exists e, eols e /\ ends_with s (mark j e)
  end.

Lemma escan_snoc s c : escan 0 (s ++ [c]) = end_step (escan 0 s) c.
Proof. unfold escan. rewrite fold_left_app. reflexivity. Qed.

Lemma ends_with_snoc s t c : ends_with s t -> ends_with (s ++ [c]) (t ++ [c]).
Proof. intros (a & ->). exists a. rewrite app_assoc. reflexivity. Qed.

Lemma end_step_said s c got : (got < 8)%nat -> said got s -> said (end_step got c) (s ++ [c]) /\ (end_step got c <= 8)%nat.
Proof.
  intros L. assert (One : ends_with (s ++ [c]) [c]) by (exists s; reflexivity).
  destruct got as [|[|[|[|[|[|[|[|k]]]]]]]]; try lia; unfold end_step; cbn [nth end_target said]; intros H.
  - destruct (Z.eqb_spec c 43) as [->|]; cbn; (split; [auto|lia]).
  - destruct (Z.eqb_spec c 43) as [->|]; [cbn|cbn; split; [auto|lia]]. split; [|lia]. exact (ends_with_snoc _ _ 43 H).
  - change (13 =? 13) with true. change (13 =? 10) with false. cbn [andb]. unfold is_eol.
    destruct ((c =? 13) || (c =? 10)) eqn:E; [|replace (c =? 13) with false by lia; cbn; split; [auto|lia]].
    split; [|lia]. exists [c]. split; [split; [discriminate|constructor; [lia|constructor]]|].
    unfold mark. cbn [firstn app]. exact (ends_with_snoc _ _ c H).
  - change (10 =? 13) with false. change (10 =? 10) with true. cbn [andb]. unfold is_eol.
    destruct H as (e & (N & F) & W). destruct ((c =? 13) || (c =? 10)) eqn:E.
    + split; [|lia]. exists (e ++ [c]). split; [split; [destruct e; discriminate|apply Forall_app; split; [exact F|constructor; [lia|constructor]]]|].
      unfold mark in *. cbn [firstn] in *. rewrite app_nil_r in *. rewrite app_assoc. exact (ends_with_snoc _ _ c W).
    + destruct (Z.eqb_spec c 55) as [->|]; [|replace (c =? 10) with false by lia; cbn; split; [auto|lia]].
      split; [|lia]. exists e. split; [split; auto|]. unfold mark in *. cbn [firstn] in *. rewrite app_nil_r in W.
      rewrite app_assoc. exact (ends_with_snoc _ _ 55 W).
  - contradiction.
  - destruct (Z.eqb_spec c 55) as [->|]; [cbn|cbn; split; [auto|lia]]. split; [|lia]. destruct H as (e & Fe & W). exists e. split; auto.
    unfold mark in *. cbn [firstn] in *. pose proof (ends_with_snoc _ _ 55 W) as W'. rewrite <- !app_assoc in W'. exact W'.
  - destruct (Z.eqb_spec c 55) as [->|]; [cbn|cbn; split; [auto|lia]]. split; [|lia]. destruct H as (e & Fe & W). exists e. split; auto.
    unfold mark in *. cbn [firstn] in *. pose proof (ends_with_snoc _ _ 55 W) as W'. rewrite <- !app_assoc in W'. exact W'.
  - destruct (Z.eqb_spec c 55) as [->|]; [cbn|cbn; split; [auto|lia]]. split; [|lia]. destruct H as (e & Fe & W). exists e. split; auto.
    unfold mark in *. cbn [firstn] in *. pose proof (ends_with_snoc _ _ 55 W) as W'. rewrite <- !app_assoc in W'. exact W'.
Qed.

(** A text without end marks. *)
Definition unmarked (s : list Z) : Prop := forall e, eols e -> ~ occurs (mark 4 e) s.

Lemma unmarked_scan s : unmarked s -> said (escan 0 s) s /\ forall a b, s = a ++ b -> (escan 0 a < 8)%nat.
Proof.
  induction s as [|c s IH] using rev_ind; intros U.
  - split; [exact I|]. intros a b E. symmetry in E. apply app_eq_nil in E as [-> ->]. cbn. lia.
  - assert (U' : unmarked s).
    { intros e He (a & b & ->). apply (U e He). exists a, (b ++ [c]). rewrite <- !app_assoc. reflexivity. }
    destruct (IH U') as (Sd & Lt). assert (L := Lt s [] (eq_sym (app_nil_r s))).
    destruct (end_step_said s c _ L Sd) as (Sd' & L'). rewrite <- escan_snoc in Sd', L'.
    split; [exact Sd'|]. intros a b E. destruct b as [|d b] using rev_ind.
    + rewrite app_nil_r in E. subst a. destruct (Nat.eq_dec (escan 0 (s ++ [c])) 8) as [E8|]; [|lia].
      rewrite E8 in Sd'. destruct Sd' as (e & He & x & Ex). exfalso. apply (U e He). exists x, []. rewrite app_nil_r. exact Ex.
    + rewrite app_assoc in E. apply app_inj_tail in E as [E _]. eauto.
Qed.

(** The body of a message, after CREX++: it ends at its first end mark, and what is before the
    mark does not end with the beginning of one. *)
Definition one_message (m : list Z) : Prop :=
  exists x e, m = x ++ mark 4 e /\ eols e /\ unmarked x /\ ~ ends_with x [43] /\
    forall e' j, eols e' -> (j <= 3)%nat -> ~ ends_with x (mark j e').

Lemma read_marks rest : forall e, eols e -> read_end 0 (mark 4 e ++ rest) = Some (mark 4 e, rest).
Proof.
  assert (Sevens : read_end 3 ([55; 55; 55; 55] ++ rest) = Some ([55; 55; 55; 55], rest)).
  { cbn. destruct rest; reflexivity. }
  assert (E : forall e, Forall (fun c => c = 13 \/ c = 10) e -> read_end 3 (e ++ [55; 55; 55; 55] ++ rest) = Some (e ++ [55; 55; 55; 55], rest)).
  { induction e as [|c e IH]; intros F; [exact Sevens|]. apply Forall_cons_iff in F as [Hc F].
    replace ((c :: e) ++ [55; 55; 55; 55] ++ rest) with (c :: (e ++ [55; 55; 55; 55] ++ rest)) by reflexivity.
    cbn [read_end Nat.leb]. assert (S3 : end_step 3 c = 3%nat) by (destruct Hc; subst c; reflexivity). rewrite S3, (IH F). reflexivity. }
  intros [|c e] (N & F); [contradiction|]. apply Forall_cons_iff in F as [Hc F]. unfold mark. cbn [firstn app].
  replace (c :: (e ++ [55; 55; 55; 55]) ++ rest) with (c :: (e ++ [55; 55; 55; 55] ++ rest)) by (rewrite <- app_assoc; reflexivity).
  cbn [read_end Nat.leb]. change (end_step 0 43) with 1%nat. cbn [read_end Nat.leb]. change (end_step 1 43) with 2%nat.
  assert (S2 : end_step 2 c = 3%nat) by (destruct Hc; subst c; reflexivity). rewrite S2. rewrite (E e F). reflexivity.
Qed.

Lemma read_from_zero x e rest : eols e -> escan 0 x = 0%nat -> (forall a b, x = a ++ b -> (escan 0 a < 8)%nat) ->
  read_end 0 ((x ++ mark 4 e) ++ rest) = Some (x ++ mark 4 e, rest).
Proof. intros He Z L. rewrite <- app_assoc, read_end_scan by exact L. rewrite Z, read_marks by exact He. reflexivity. Qed.

Lemma read_one_message m rest : one_message m -> read_end 0 (m ++ rest) = Some (m, rest).
Proof.
  intros (x & e & -> & He & U & N1 & Nj). destruct (unmarked_scan x U) as (Sd & L).
  apply read_from_zero; [exact He| |exact L]. assert (L8 := L x [] (eq_sym (app_nil_r x))).
  destruct (escan 0 x) as [|[|[|[|[|j]]]]]; [reflexivity|exfalso..]; cbn [said] in Sd.
  - auto.
  - apply N1. destruct Sd as (a & ->). exists (a ++ [43]). rewrite <- app_assoc. reflexivity.
  - destruct Sd as (e' & He' & W). apply (Nj e' 0%nat); auto; lia.
  - exact Sd.
  - destruct Sd as (e' & He' & W). apply (Nj e' (S j)); auto; lia.
Qed.

Theorem read_crex_stream items tail fuel : (length items < fuel)%nat ->
  Forall (fun i => clean (fst i) /\ forall rest, read_end 0 (snd i ++ rest) = Some (snd i, rest)) items -> ~ occurs crex_start tail ->
  read_all_crex fuel (fold_right (fun i rest => fst i ++ crex_start ++ snd i ++ rest) tail items) =
  Ok (map (fun i => crex_start ++ snd i) items).
Proof.
  revert fuel. induction items as [|[sep m] items IH]; intros [|fuel] L F N; cbn [length] in L; try lia.
  - cbn [read_all_crex fold_right map]. unfold read_crex. rewrite seek_end by exact N. reflexivity.
  - apply Forall_cons_iff in F as [[C R] F]. cbn [fst snd] in *. cbn [read_all_crex fold_right map].
    unfold read_crex. cbn [fst snd]. rewrite seek_clean by exact C. rewrite R. cbn [bind]. rewrite IH by (auto; lia). reflexivity.
Qed.

(** ** Encoded messages *)
Lemma escan_no_plus s : ~ In 43 s -> escan 0 s = 0%nat /\ forall a b, s = a ++ b -> escan 0 a = 0%nat.
Proof.
  intros N. assert (G : forall s, ~ In 43 s -> escan 0 s = 0%nat).
  { clear. induction s as [|c s IH]; intros N; [reflexivity|]. unfold escan in *. cbn [fold_left].
    assert (E : end_step 0 c = 0%nat).
    { unfold end_step. cbn [nth end_target]. destruct (Z.eqb_spec c 43) as [->|]; [exfalso; apply N; left; reflexivity|reflexivity]. }
    rewrite E. apply IH. intros H. apply N. right. exact H. }
  split; [auto|]. intros a b ->. apply G. intros H. apply N. apply in_app_iff. auto.
Qed.

Lemma escan_app got a b : escan got (a ++ b) = escan (escan got a) b.
Proof. unfold escan. apply fold_left_app. Qed.

(** All the states of a text after a text. *)
Lemma states_app got x y : (forall a b, x = a ++ b -> (escan got a < 8)%nat) -> (forall a b, y = a ++ b -> (escan (escan got x) a < 8)%nat) ->
  forall a b, x ++ y = a ++ b -> (escan got a < 8)%nat.
Proof.
  intros Hx Hy a b E. assert (Cs : (exists l, x = a ++ l) \/ (exists l, a = x ++ l /\ y = l ++ b)).
  { clear Hx Hy. revert a E. induction x as [|c x IH]; intros a E.
    - right. exists a. auto.
    - destruct a as [|d a]; [left; exists (c :: x); reflexivity|]. cbn [app] in E. injection E as -> E.
      destruct (IH a E) as [(l & ->)|(l & -> & ->)]; [left; exists l; reflexivity|right; exists l; auto]. }
  destruct Cs as [(l & El)|(l & -> & Ey)]; [eauto|]. rewrite escan_app. eauto.
Qed.

Lemma lead_no_plus h : crex_header_ok h = true -> ~ In 43 (lead h).
Proof.
  intros Hh. unfold crex_header_ok in Hh. rewrite !andb_true_iff, orb_true_iff, andb_true_iff in Hh.
  assert (D : forall w v, 0 <= v -> ~ In 43 (fmt_0d w v)).
  { intros w v Hv. unfold fmt_0d. replace (v <? 0) with false by lia. refine (digits_no_plus _ _). apply zeros_digits.
    unfold decimal. apply decimal_acc_digits; [lia|constructor]. }
  unfold lead. intros [E|H]; [discriminate|]. rewrite !in_app_iff in H.
  destruct H as [H|[H|[H|[H|[H|H]]]]]; try (eapply D; [|exact H]; lia).
  - cbn in H. lia.
  - destruct (ch_subcategory h =? 255); [exact H|]. eapply D; [|exact H]; lia.
Qed.

Lemma descs_no_plus ops : Forall op_ok ops -> ~ In 43 (flat_map desc_text ops).
Proof.
  intros F H. apply in_flat_map in H as (c & Hc & H). rewrite Forall_forall in F. destruct (F c Hc) as [A B].
  rewrite (desc_text_format c A B) in H. destruct H as [H|H]; [discriminate|].
  destruct (pack_unpack c A) as (Hf & Hx & Hy & _). unfold varcode_format in H.
  remember (var_f c) as f. remember (var_x c) as x. remember (var_y c) as y.
  pose proof (Z.mod_pos_bound x 10). pose proof (Z.mod_pos_bound (y / 10) 10). pose proof (Z.mod_pos_bound y 10).
  assert (0 <= x / 10) by (apply Z.div_pos; lia). assert (0 <= y / 100) by (apply Z.div_pos; lia).
  cbn [In] in H. destruct H as [H|H]; [|lia].
  assert (f = 0 \/ f = 1 \/ f = 2 \/ f = 3) as [-> | [-> | [-> | ->]]] by lia; discriminate.
Qed.

Lemma ops_ok_forall ops : crex_ops_ok ops = true -> Forall op_ok ops.
Proof.
  intros Ho. unfold crex_ops_ok in Ho. apply andb_true_iff in Ho as [_ O2].
  rewrite forallb_forall in O2. apply Forall_forall. intros c Hc. apply O2 in Hc. rewrite !andb_true_iff in Hc.
  destruct Hc as ((A & B) & C). split; [lia|]. unfold is_count. apply negb_true_iff in C. exact C.
Qed.

(** A message with at least one variable and no plus sign in its texts ends at the end of what
    was encoded. *)
Lemma encoded_is_one h ops vars ts rest : crex_header_ok h = true -> crex_ops_ok ops = true -> Forall2 good_token vars ts ->
  vars <> [] -> Forall no_plus vars ->
  read_end 0 ((body_text h ops ts ++ crex_stop) ++ rest) = Some (body_text h ops ts ++ crex_stop, rest).
Proof.
  intros Hh Ho F Ne NP.
  assert (Nt : exists c r, concat ts = c :: r /\ (c = 32 \/ c = 47) /\ ~ In 43 r).
  { destruct F as [|v t vars ts (r & -> & Hr) F]; [contradiction|]. apply Forall_cons_iff in NP as [N1 NP]. cbn [concat app].
    eexists. eexists. split; [reflexivity|]. split; [destruct (isset (v_cell v)); auto|]. rewrite in_app_iff. intros [H|H]; [exact (Hr N1 H)|].
    clear - F NP H. induction F as [|v t vars ts (r & -> & Hr) F IH]; [exact H|]. apply Forall_cons_iff in NP as [N1 NP].
    cbn [concat app] in H. destruct H as [H|H]; [destruct (isset (v_cell v)); discriminate|]. apply in_app_iff in H as [H|H]; [exact (Hr N1 H)|auto]. }
  destruct Nt as (c & r & Ec & Hc & Nr).
  set (a1 := [13; 13; 10] ++ lead h ++ flat_map desc_text ops).
  assert (N1 : ~ In 43 a1).
  { unfold a1. rewrite !in_app_iff. intros [H|[H|H]]; [cbn in H; lia|exact (lead_no_plus h Hh H)|exact (descs_no_plus ops (ops_ok_forall ops Ho) H)]. }
  assert (Eb : body_text h ops ts = a1 ++ [43; 43; 13; 13; 10; c] ++ r).
  { unfold body_text, a1. rewrite Ec, <- !app_assoc. reflexivity. }
  destruct (escan_no_plus a1 N1) as (Z1 & L1). destruct (escan_no_plus r Nr) as (Z2 & L2).
  assert (Zc : escan 0 [43; 43; 13; 13; 10; c] = 0%nat) by (destruct Hc; subst c; reflexivity).
  change crex_stop with (mark 4 [13; 13; 10]). apply read_from_zero.
  - split; [discriminate|]. do 3 (constructor; [lia|]). constructor.
  - rewrite Eb, !escan_app, Z1, Zc. exact Z2.
  - rewrite Eb. apply states_app; [intros a b E; rewrite (L1 a b E); lia|]. rewrite Z1.
    apply states_app; [|intros a b E; rewrite Zc, (L2 a b E); lia].
    intros a b E. destruct a as [|x1 [|x2 [|x3 [|x4 [|x5 [|x6 [|x7 a]]]]]]]; cbn [app] in E;
      inversion E; subst; destruct Hc; subst; cbn; lia.
Qed.

(** Reading always ends. *)
Lemma read_end_shorter file : forall got m rest, read_end got file = Some (m, rest) -> (length rest <= length file)%nat.
Proof.
  induction file as [|c file IH]; intros got m rest H; cbn [read_end] in H.
  - destruct (Nat.leb 8 got); [injection H as <- <-; auto|discriminate].
  - destruct (Nat.leb 8 got); [injection H as <- <-; auto|]. destruct (read_end _ file) as [[m' r']|] eqn:E; [|discriminate].
    injection H as <- <-. apply IH in E. cbn [length]. lia.
Qed.

Lemma seek_strict file : forall got rest, (got < length crex_start)%nat -> seek_signature crex_start got file = Some rest ->
  (length rest < length file)%nat.
Proof.
  destruct file as [|c file]; intros got rest L H; cbn [seek_signature] in H;
    rewrite (proj2 (Nat.leb_gt _ _) L) in H; [discriminate|]. cbn [length].
  destruct (c =? nth got crex_start 0); apply Message.StreamProofs.seek_shorter in H; lia.
Qed.

Theorem reading_ends fuel : forall file, (length file < fuel)%nat ->
  read_all_crex fuel file <> Err EFuel /\ read_all_crex fuel file <> UB.
Proof.
  induction fuel as [|k IH]; intros file L; [lia|]. cbn [read_all_crex]. unfold read_crex.
  destruct (seek_signature crex_start 0 file) as [r|] eqn:E; cbn [bind]; [|split; congruence].
  apply seek_strict in E; [|cbn; lia]. destruct (read_end 0 r) as [[m rest]|] eqn:E2; cbn [bind]; [|split; congruence].
  apply read_end_shorter in E2. destruct (IH rest ltac:(lia)) as [H1 H2].
  destruct (read_all_crex k rest); cbn [bind]; split; congruence.
Qed.

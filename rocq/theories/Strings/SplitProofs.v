From Coq Require Import ZifyBool ZifyNat.
From Verif Require Import Base Strings.Model Strings.Spec Strings.Proofs.
Local Open Scope Z_scope.

Lemma prefixed_iff sep s : prefixed sep s = true <-> s = sep ++ skipn (length sep) s.
Proof.
  revert s. induction sep as [|x p IH]; intros s; cbn [prefixed length skipn app]; [tauto|]. destruct s as [|y r].
  - split; intros H; discriminate H.
  - rewrite andb_true_iff, IH, Z.eqb_eq. split.
    + intros [-> E]. f_equal. exact E.
    + intros H. split; [exact (eq_sym (f_equal (hd 0) H))|exact (f_equal (@tl Z) H)].
Qed.
Lemma prefixed_app sep r : prefixed sep (sep ++ r) = true.
Proof. induction sep as [|x p IH]; [reflexivity|]. cbn [app prefixed]. rewrite Z.eqb_refl. exact IH. Qed.
Lemma skipn_sep (sep r : list Z) : skipn (length sep) (sep ++ r) = r.
Proof. rewrite skipn_app, Nat.sub_diag, skipn_all. reflexivity. Qed.

Lemma find_some_spec sep s a b : find_sep sep s = Some (a, b) ->
  s = a ++ sep ++ b /\ forall x y, a ++ sep = x ++ sep ++ y -> y = [].
Proof.
  revert a b. induction s as [|c s IH]; intros a b; cbn [find_sep]; destruct (prefixed sep _) eqn:P.
  - intros E. injection E as <- <-. apply prefixed_iff in P. split; [exact P|]. intros x y H. apply (f_equal (@length Z)) in H. rewrite !app_length in H. destruct y; [reflexivity|cbn [length] in H; lia].
  - discriminate.
  - intros E. injection E as <- <-. apply prefixed_iff in P. split; [exact P|]. intros x y H. apply (f_equal (@length Z)) in H. rewrite !app_length in H. destruct y; [reflexivity|cbn [length] in H; lia].
  - destruct (find_sep sep s) as [[a' b']|]; [|discriminate]. intros E. injection E as <- <-. destruct (IH a' b' eq_refl) as [E F].
    split; [cbn [app]; congruence|]. intros x y H. destruct x as [|z x].
    + exfalso. cbn [app] in H. assert (Q : prefixed sep (c :: s) = true); [|congruence]. 
      replace (c :: s) with ((c :: a' ++ sep) ++ b') by (rewrite E; cbn [app]; rewrite <- app_assoc; reflexivity).
      rewrite H, <- app_assoc. apply prefixed_app.
    + apply (F x y). exact (f_equal (@tl Z) H).
Qed.
Lemma find_none_spec sep s : find_sep sep s = None -> ~ contains sep s.
Proof.
  intros E (a & b & H). revert s E H. induction a as [|c a IH]; intros s E H; subst s.
  - cbn [app] in E. destruct (sep ++ b) eqn:Q; cbn [find_sep] in E; rewrite <- Q in E; rewrite prefixed_app in E; discriminate.
  - cbn [app find_sep] in E. destruct (prefixed sep _); [discriminate|]. destruct (find_sep sep (a ++ sep ++ b)) as [[? ?]|] eqn:F; [discriminate|]. exact (IH _ F eq_refl).
Qed.

Section Sep.
Context (sep : list Z) (Hs : sep <> []).

Lemma sep_pos : (0 < length sep)%nat. Proof. destruct sep; [congruence|cbn; lia]. Qed.

Lemma next_plain fuel skip s : s <> [] -> next_token fuel sep skip (Some s) =
  match find_sep sep s with
  | None => Ok (Some (s, None))
  | Some (tok, r) => if skip then r' <- skip_separators fuel sep r ;; Ok (Some (tok, match r' with [] => None | _ => Some r' end)) else Ok (Some (tok, Some r))
  end.
Proof. intros N. destruct s; [congruence|]. cbn [next_token]. destruct sep; [congruence|reflexivity]. Qed.

Lemma tokens_cut fuel : forall s, (length s + 1 < fuel)%nat -> exists l, tokens_from fuel sep false (Some s) = Ok l /\ cut_at sep s l.
Proof.
  induction fuel as [|fuel IH]; intros s L; [lia|]. cbn [tokens_from]. destruct s as [|c s].
  - cbn [next_token bind]. destruct fuel as [|fuel]; [cbn in L; lia|]. cbn [tokens_from next_token bind]. exists [[]]. split; [reflexivity|]. apply cut_last.
    intros (a & b & E). destruct a; [|discriminate]. destruct sep; [congruence|discriminate].
  - rewrite next_plain by discriminate. destruct (find_sep sep (c :: s)) as [[tok r]|] eqn:F; cbn [bind].
    + apply find_some_spec in F as [E U]. pose proof sep_pos. assert (Lr : (length r + 1 < fuel)%nat) by (rewrite E in L; rewrite !app_length in L; lia).
      destruct (IH r Lr) as (l & -> & C). cbn [bind]. exists (tok :: l). split; [reflexivity|]. rewrite E. apply cut_cons; assumption.
    + destruct fuel as [|fuel]; [cbn in L; lia|]. cbn [tokens_from next_token bind]. exists [c :: s]. split; [reflexivity|]. apply cut_last. apply find_none_spec. exact F.
Qed.

Lemma cut_sep r l : cut_at sep (sep ++ r) l -> exists l', l = [] :: l' /\ cut_at sep r l'.
Proof.
  intros C. remember (sep ++ r) as s eqn:Es. destruct C as [s N|t q l F C].
  - exfalso. apply N. subst s. exists [], r. reflexivity.
  - assert (t = []) as ->.
    { assert (E : t ++ sep = [] ++ sep ++ skipn (length sep) (t ++ sep)).
      { cbn [app]. apply prefixed_iff. assert (P : prefixed sep ((t ++ sep) ++ q) = true) by (rewrite <- app_assoc, Es; apply prefixed_app).
        apply prefixed_iff in P. apply prefixed_iff. rewrite skipn_app in P. rewrite app_length in P.
        replace (length sep - (length t + length sep))%nat with O in P by lia. rewrite skipn_O, app_assoc in P. apply app_inv_tail in P. exact P. }
      apply F in E. apply (f_equal (@length Z)) in E. rewrite skipn_length, app_length in E. cbn [length] in E. destruct t; [reflexivity|cbn [length] in E; lia]. }
    cbn [app] in Es. apply app_inv_head in Es. subst q. eauto.
Qed.

Lemma skip_spec fuel : forall s l, (length s < fuel)%nat -> cut_at sep s l -> exists s' l', skip_separators fuel sep s = Ok s' /\
  cut_at sep s' l' /\ filter nonempty l = filter nonempty l' /\ prefixed sep s' = false /\ (length s' <= length s)%nat.
Proof.
  induction fuel as [|fuel IH]; intros s l L C; [lia|]. cbn [skip_separators]. destruct (prefixed sep s) eqn:P.
  - apply prefixed_iff in P. pose proof sep_pos as Sp. rewrite P in C. apply cut_sep in C as (l1 & -> & C).
    assert (Lr : length s = (length sep + length (skipn (length sep) s))%nat) by (rewrite P at 1; apply app_length).
    assert (Lk : (length (skipn (length sep) s) < fuel)%nat) by lia. destruct (IH _ l1 Lk C) as (s' & l' & E & C' & Fl & P' & L'). exists s', l'. split; [exact E|]. split; [exact C'|]. split; [exact Fl|]. split; [exact P'|lia].
  - exists s, l. auto.
Qed.

Lemma cut_nil l : cut_at sep [] l -> filter nonempty l = [].
Proof.
  intros C. remember [] as s eqn:E. destruct C as [s N|t r l F C]; [subst; reflexivity|]. exfalso. destruct t; [|discriminate]. destruct sep; [congruence|discriminate].
Qed.

Lemma cut_unique s l : cut_at sep s l -> forall l', cut_at sep s l' -> l' = l.
Proof.
  intros C. induction C as [s N|t r l F C IH]; intros l' C'.
  - inversion C' as [? N'|t r l1 F' C1]; subst; [reflexivity|]. exfalso. apply N. exists t, r. reflexivity.
  - remember (t ++ sep ++ r) as s eqn:Es. destruct C' as [s N'|t' r' l1 F' C1].
    + exfalso. apply N'. exists t, r. exact Es.
    + assert (t' = t /\ r' = r) as [-> ->].
      { clear IH. rewrite !app_assoc in Es.
        assert (X : forall u v a b, (forall x y, u ++ sep = x ++ sep ++ y -> y = []) -> (u ++ sep) ++ a = (v ++ sep) ++ b -> (length u <= length v)%nat).
        { clear. intros u v a b F E. destruct (Nat.le_gt_cases (length u) (length v)) as [|G]; [assumption|exfalso].
          assert (Q : u ++ sep = v ++ sep ++ skipn (length (v ++ sep)) (u ++ sep)).
          { rewrite app_assoc. apply (f_equal (firstn (length (u ++ sep)))) in E. rewrite firstn_app, Nat.sub_diag, firstn_O, app_nil_r, firstn_all in E.
            rewrite firstn_app in E. rewrite (firstn_all2 (v ++ sep)) in E by (rewrite !app_length; lia).
            set (w := firstn _ b) in E. clearbody w. rewrite E. f_equal. rewrite skipn_app, Nat.sub_diag, skipn_all. reflexivity. }
          apply F in Q. apply (f_equal (@length Z)) in Q. rewrite skipn_length, !app_length in Q. cbn [length] in Q. lia. }
        pose proof (X _ _ _ _ F' Es). pose proof (X _ _ _ _ F (eq_sym Es)). assert (Lt : length t' = length t) by lia.
        rewrite <- !app_assoc in Es. assert (t' = t).
        { apply (f_equal (firstn (length t'))) in Es. rewrite firstn_app, Nat.sub_diag, firstn_O, app_nil_r, firstn_all in Es.
          rewrite firstn_app, Lt, Nat.sub_diag, firstn_O, app_nil_r, firstn_all in Es. exact Es. }
        subst t'. apply app_inv_head in Es. apply app_inv_head in Es. auto. }
      f_equal. apply IH. exact C1.
Qed.

Lemma tokens_skip fuel : forall s l, (length s + 1 < fuel)%nat -> s <> [] -> prefixed sep s = false -> cut_at sep s l ->
  tokens_from fuel sep true (Some s) = Ok (filter nonempty l).
Proof.
  induction fuel as [|fuel IH]; intros s l L N P C; [lia|]. cbn [tokens_from]. rewrite next_plain by exact N.
  destruct (find_sep sep s) as [[tok r]|] eqn:F.
  - apply find_some_spec in F as [E U]. pose proof sep_pos.
    assert (T : tok <> []). { intros ->. cbn [app] in E. rewrite E, prefixed_app in P. discriminate. }
    destruct (tokens_cut (S (S (length r))) r) as (lr & _ & Cr); [lia|].
    assert (l = tok :: lr) as -> by (eapply cut_unique; [|exact C]; rewrite E; apply cut_cons; assumption).
    assert (Lr : (length r + length sep + length tok = length s)%nat) by (rewrite E, !app_length; lia).
    destruct (skip_spec (S fuel) r lr ltac:(lia) Cr) as (s' & l' & -> & C' & Fl & P' & L'). cbn [bind].
    assert (filter nonempty (tok :: lr) = tok :: filter nonempty lr) as -> by (destruct tok; [congruence|reflexivity]). rewrite Fl.
    destruct s' as [|c s'].
    + destruct fuel as [|fuel]; [lia|]. cbn [tokens_from next_token bind]. rewrite (cut_nil _ C'). reflexivity.
    + rewrite (IH (c :: s') l'); [reflexivity|lia|discriminate|exact P'|exact C'].
  - cbn [bind]. destruct fuel as [|fuel]; [lia|]. cbn [tokens_from next_token bind].
    assert (l = [s]) as -> by (eapply cut_unique; [|exact C]; apply cut_last; apply find_none_spec; exact F). destruct s; [congruence|reflexivity].
Qed.

Lemma cut_join s l : cut_at sep s l -> join sep l = s.
Proof.
  intros C. induction C as [s N|t r l F C IH]; [reflexivity|]. cbn [join]. destruct l as [|x l]; [inversion C|]. rewrite IH. reflexivity.
Qed.

Lemma split_plain s : s <> [] -> exists l, split s sep false = Ok l /\ cut_at sep s l.
Proof. intros N. unfold split, split_with. destruct s as [|c s]; [congruence|]. cbn [bind]. apply tokens_cut. lia. Qed.

Lemma split_skip s l : s <> [] -> cut_at sep s l ->
  split s sep true = Ok (match filter nonempty l with [] => [[]] | f => f end).
Proof.
  intros N C. unfold split, split_with. destruct s as [|c s]; [congruence|]. set (fuel := S (S (S (length (c :: s))))).
  destruct (skip_spec fuel (c :: s) l ltac:(unfold fuel; lia) C) as (s' & l' & -> & C' & Fl & P' & L'). cbn [bind]. rewrite Fl.
  destruct s' as [|d s'].
  - rewrite (cut_nil _ C'). reflexivity.
  - rewrite (tokens_skip fuel (d :: s') l'); [|unfold fuel; lia|discriminate|exact P'|exact C'].
    destruct (filter nonempty l') eqn:E; [|reflexivity]. exfalso.
    remember (d :: s') as s2 eqn:E2. destruct C' as [s2 M|t r l' F C']; subst.
    + discriminate E.
    + destruct t; [|discriminate E]. cbn [app] in P'. rewrite prefixed_app in P'. discriminate.
Qed.
End Sep.

(** ** Slashes *)
Lemma pieces_none s : ~ In 47 s -> pieces s = [s].
Proof.
  induction s as [|c s IH]; intros N; [reflexivity|]. cbn [pieces]. destruct (Z.eqb_spec c 47) as [-> |]; [elim N; left; reflexivity|].
  rewrite IH by (intros H; apply N; right; exact H). reflexivity.
Qed.
Lemma pieces_app t r : ~ In 47 t -> pieces (t ++ 47 :: r) = t :: pieces r.
Proof.
  induction t as [|c t IH]; intros N; [reflexivity|]. cbn [app pieces]. destruct (Z.eqb_spec c 47) as [-> |]; [elim N; left; reflexivity|].
  rewrite IH by (intros H; apply N; right; exact H). reflexivity.
Qed.
Lemma pieces_ne s : pieces s <> [].
Proof. destruct s as [|c s]; cbn [pieces]; [discriminate|]. destruct (_ =? _); [discriminate|]. destruct (pieces s); discriminate. Qed.
Lemma pieces_hom a b : pieces (a ++ 47 :: b) = pieces a ++ pieces b.
Proof.
  induction a as [|c a IH]; [reflexivity|]. cbn [app pieces]. destruct (_ =? _); [rewrite IH; reflexivity|]. rewrite IH.
  destruct (pieces a) as [|p ps] eqn:E; [elim (pieces_ne a E)|]. reflexivity.
Qed.
Lemma no_slash_in s : Forall (fun p => ~ In 47 p) (pieces s).
Proof.
  induction s as [|c s IH]; cbn [pieces]; [constructor; [tauto|constructor]|]. destruct (Z.eqb_spec c 47); [constructor; [tauto|exact IH]|].
  destruct (pieces s) as [|p ps]; [constructor; [cbn; tauto|constructor]|]. inversion IH as [|? ? Hp Hr]; subst. constructor; [cbn; tauto|exact Hr].
Qed.

Lemma contains_in s : contains [47] s <-> In 47 s.
Proof.
  split; [intros (a & b & ->); apply in_app_iff; right; left; reflexivity|]. intros H. apply in_split in H as (a & b & ->). exists a, b. reflexivity.
Qed.
Lemma cut_pieces s l : cut_at [47] s l -> l = pieces s.
Proof.
  intros C. induction C as [s N|t r l F C IH].
  - rewrite contains_in in N. symmetry. apply pieces_none. exact N.
  - cbn [app]. rewrite pieces_app; [f_equal; exact IH|]. intros H. apply in_split in H as (a & b & ->).
    specialize (F a (b ++ [47])). assert (X : b ++ [47] = []); [apply F; rewrite <- app_assoc; reflexivity|]. destruct b; discriminate.
Qed.

Lemma pieces_cut s : cut_at [47] s (pieces s).
Proof.
  destruct s as [|c s]; [apply cut_last; intros (a & b & E); destruct a; discriminate|].
  destruct (split_plain [47] ltac:(discriminate) (c :: s) ltac:(discriminate)) as (l & _ & C). rewrite <- (cut_pieces _ _ C). exact C.
Qed.

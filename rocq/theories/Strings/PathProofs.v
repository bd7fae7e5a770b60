From Coq Require Import ZifyBool ZifyNat.
From Verif Require Import Base Strings.Model Strings.Spec Strings.Proofs Strings.SplitProofs.
Local Open Scope Z_scope.

(** Names of files and directories. *)
Definition name (c : list Z) : Prop := c <> [] /\ c <> [46] /\ c <> [46; 46] /\ ~ In 47 c.

Lemma eqb_false a b : a <> b -> str_eqb a b = false.
Proof. intros N. destruct (str_eqb a b) eqn:E; [apply str_eqb_eq in E; contradiction|reflexivity]. Qed.
Lemma eqb_refl a : str_eqb a a = true. Proof. apply str_eqb_eq. reflexivity. Qed.

Definition root (abs : bool) : list (list Z) := if abs then [[47]] else [].

Lemma norm_stack_walk abs parts : Forall (fun p => ~ In 47 p) parts -> forall here, Forall name here ->
  norm_stack (rev here ++ root abs) parts =
  match walk abs here (filter nonempty parts) with Some l => Ok (rev l ++ root abs) | None => UB end.
Proof.
  intros F. induction F as [|i parts Hi F IH]; intros here H; [reflexivity|]. cbn [norm_stack filter].
  destruct (list_eq_dec Z.eq_dec i []) as [-> |N0].
  { rewrite eqb_refl, orb_true_r. cbn [nonempty]. apply IH. exact H. }
  assert (nonempty i = true) as -> by (destruct i; [congruence|reflexivity]). cbn [walk]. rewrite (eqb_false i []) by exact N0. rewrite orb_false_r.
  destruct (list_eq_dec Z.eq_dec i [46]) as [-> |N1]; [rewrite eqb_refl; apply IH; exact H|]. rewrite (eqb_false i [46]) by exact N1.
  destruct (list_eq_dec Z.eq_dec i [46; 46]) as [-> |N2].
  - rewrite eqb_refl. destruct here as [|h here] using rev_ind.
    + cbn [rev app]. destruct abs; cbn [root]; [|reflexivity]. cbn [str_eqb Z.eqb Pos.eqb andb]. exact (IH [] (Forall_nil _)).
    + clear IHhere. apply Forall_app in H as [H Hh]. apply Forall_inv in Hh as (_ & _ & Hd & Hs). rewrite rev_app_distr. cbn [rev app].
      rewrite (eqb_false h [46; 46]) by exact Hd. rewrite (eqb_false h [47]) by (intros ->; apply Hs; left; reflexivity).
      rewrite IH by exact H. destruct (here ++ [h]) eqn:E; [destruct here; discriminate|]. rewrite <- E, removelast_last. reflexivity.
  - rewrite (eqb_false i [46; 46]) by exact N2. rewrite <- IH by (apply Forall_app; split; [exact H|constructor; [repeat split; assumption|constructor]]).
    rewrite rev_app_distr. reflexivity.
Qed.

Lemma walk_names abs comps : Forall (fun p => ~ In 47 p) comps -> Forall (fun p => p <> []) comps -> forall here l, Forall name here ->
  walk abs here comps = Some l -> Forall name l.
Proof.
  intros F. induction F as [|i parts Hi F IH]; intros Ne here l H E; cbn [walk] in E; [injection E as <-; exact H|]. inversion Ne as [|? ? N0 Ne']; subst.
  destruct (list_eq_dec Z.eq_dec i [46]) as [-> |N1]; [eapply IH; eassumption|]. destruct (list_eq_dec Z.eq_dec i [46; 46]) as [-> |N2].
  - destruct here as [|h here] using rev_ind; [destruct abs; [eapply IH; eauto|discriminate]|]. clear IHhere. apply Forall_app in H as [H _].
    destruct (here ++ [h]) eqn:Q; [destruct here; discriminate|]. rewrite <- Q, removelast_last in E. eapply IH; eassumption.
  - eapply IH; [exact Ne'| |exact E]. apply Forall_app. split; [exact H|]. constructor; [repeat split; assumption|constructor].
Qed.

Lemma filter_nonempty l : Forall (fun p => p <> []) (filter nonempty l).
Proof. induction l as [|x l IH]; [constructor|]. cbn [filter]. destruct x; [exact IH|]. constructor; [discriminate|exact IH]. Qed.
Lemma components_slash p : Forall (fun c => ~ In 47 c) (components p).
Proof. unfold components. pose proof (no_slash_in p) as F. induction F as [|x l H F IH]; [constructor|]. cbn [filter]. destruct (nonempty x); [constructor; assumption|exact IH]. Qed.

Lemma place_names p l : place p = Some l -> Forall name l.
Proof. intros E. eapply walk_names; [apply components_slash|apply filter_nonempty|constructor|exact E]. Qed.

(** ** The text of a path *)
Lemma last_app_ne (a b : list Z) : b <> [] -> last (a ++ b) 0 = last b 0.
Proof. intros N. induction a as [|x a IH]; [reflexivity|]. cbn [app]. destruct (a ++ b) eqn:E; [destruct a, b; try discriminate; congruence|]. rewrite <- IH. reflexivity. Qed.
Lemma last_in (a : list Z) : a <> [] -> In (last a 0) a.
Proof. intros N. destruct (exists_last N) as (b & x & ->). rewrite last_last. apply in_app_iff. right. left. reflexivity. Qed.

Lemma append_name d n : d <> [] -> last d 0 <> 47 -> name n -> appendpath d n = d ++ 47 :: n.
Proof.
  intros N L (Hn & _ & _ & Hs). destruct n as [|c r]; [congruence|]. cbn [appendpath]. destruct d as [|e d]; [congruence|].
  destruct (Z.eqb_spec (last (e :: d) 0) 47); [contradiction|]. destruct (Z.eqb_spec c 47) as [-> |]; [elim Hs; left; reflexivity|]. reflexivity.
Qed.

Lemma append_names l : Forall name l -> forall d, d <> [] -> last d 0 <> 47 ->
  fold_left appendpath l d = match l with [] => d | _ => d ++ 47 :: slashed l end.
Proof.
  intros F. induction F as [|n l Hn F IH]; intros d N L; [reflexivity|]. cbn [fold_left]. rewrite append_name by assumption.
  assert (Q : last (d ++ 47 :: n) 0 <> 47).
  { destruct Hn as (Hn & _ & _ & Hs). replace (d ++ 47 :: n) with ((d ++ [47]) ++ n) by (rewrite <- app_assoc; reflexivity). rewrite last_app_ne by exact Hn.
    intros E. apply Hs. rewrite <- E. apply last_in. exact Hn. }
  rewrite IH; [|destruct d; discriminate|exact Q]. destruct l as [|m l]; [reflexivity|]. cbn [slashed]. rewrite <- !app_assoc. reflexivity.
Qed.

Lemma name_last n : name n -> last n 0 <> 47.
Proof. intros (Hn & _ & _ & Hs) E. apply Hs. rewrite <- E. apply last_in. exact Hn. Qed.

Lemma rendered abs l : Forall name l -> match rev l ++ root abs with [] => Ok [46] | st => Ok (fold_left appendpath (rev st) []) end = Ok (path_to abs l).
Proof.
  intros F. assert (E : fold_left appendpath (rev (rev l ++ root abs)) [] = if abs then 47 :: slashed l else slashed l).
  { rewrite rev_app_distr, rev_involutive, fold_left_app. destruct abs; cbn [root rev app fold_left].
    - change (appendpath [] [47]) with [47]. destruct F as [|n l Hn F]; [reflexivity|]. cbn [fold_left].
      assert (appendpath [47] n = 47 :: n) as ->.
      { destruct Hn as (Hn & _ & _ & Hs). destruct n as [|c r]; [congruence|]. cbn [appendpath last Z.eqb Pos.eqb]. destruct (Z.eqb_spec c 47) as [-> |]; [elim Hs; left; reflexivity|]. reflexivity. }
      rewrite append_names; [|exact F|discriminate|].
      + destruct l; reflexivity.
      + destruct Hn as (Hn & B & C & Hs). change (47 :: n) with ([47] ++ n). rewrite last_app_ne by exact Hn. apply name_last. repeat split; assumption.
    - destruct F as [|n l Hn F]; [reflexivity|]. cbn [fold_left].
      assert (appendpath [] n = n) as -> by (destruct Hn as (Hn & _); destruct n; [congruence|reflexivity]).
      rewrite append_names; [|exact F|apply Hn|apply name_last; exact Hn]. destruct l; reflexivity. }
  destruct (rev l ++ root abs) as [|x st] eqn:Q.
  - apply app_eq_nil in Q as [Q1 Q2]. destruct abs; [discriminate|]. apply (f_equal (@rev _)) in Q1. rewrite rev_involutive in Q1. subst l. reflexivity.
  - rewrite E. unfold path_to. destruct abs; [reflexivity|]. destruct l; [discriminate Q|reflexivity].
Qed.

Lemma normpath_place p : normpath p = match place p with Some l => Ok (path_to (absolute p) l) | None => UB end.
Proof.
  destruct p as [|c p]; [reflexivity|]. unfold normpath.
  destruct (split_plain [47] ltac:(discriminate) (c :: p) ltac:(discriminate)) as (parts & -> & C). cbn [bind]. apply cut_pieces in C. subst parts.
  change (if c =? 47 then [[47]] else []) with (rev [] ++ root (absolute (c :: p))).
  rewrite norm_stack_walk; [|apply no_slash_in|constructor]. fold (components (c :: p)). change (walk _ _ _) with (place (c :: p)).
  destruct (place (c :: p)) as [l|] eqn:E; [|reflexivity]. cbn [bind].
  pose proof (rendered (absolute (c :: p)) l (place_names _ _ E)) as R. destruct (rev l ++ root (absolute (c :: p))); exact R.
Qed.

(** ** A path that was normalised *)
Lemma components_app a b : components (a ++ 47 :: b) = components a ++ components b.
Proof. unfold components. rewrite pieces_hom, filter_app. reflexivity. Qed.
Lemma components_slash_first b : components (47 :: b) = components b.
Proof. exact (components_app [] b). Qed.
Lemma components_slash_last a : components (a ++ [47]) = components a.
Proof. rewrite components_app. apply app_nil_r. Qed.
Lemma components_name n : name n -> components n = [n].
Proof. intros (Hn & _ & _ & Hs). unfold components. rewrite pieces_none by exact Hs. destruct n; [congruence|reflexivity]. Qed.
Lemma components_slashed l : Forall name l -> components (slashed l) = l.
Proof.
  intros F. induction F as [|n l Hn F IH]; [reflexivity|]. destruct l as [|m l]; [apply components_name; exact Hn|]. 
  change (slashed (n :: m :: l)) with (n ++ 47 :: slashed (m :: l)). rewrite components_app, IH, components_name by exact Hn. reflexivity.
Qed.
Lemma walk_of_names abs l : Forall name l -> forall here, walk abs here l = Some (here ++ l).
Proof.
  intros F. induction F as [|n l (N0 & N1 & N2 & _) F IH]; intros here; cbn [walk]; [rewrite app_nil_r; reflexivity|].
  destruct (list_eq_dec Z.eq_dec n [46]); [contradiction|]. destruct (list_eq_dec Z.eq_dec n [46; 46]); [contradiction|]. rewrite IH, <- app_assoc. reflexivity.
Qed.
Lemma path_absolute abs l : Forall name l -> absolute (path_to abs l) = abs.
Proof.
  intros F. unfold path_to. destruct abs; [reflexivity|]. destruct F as [|n l (N0 & _ & _ & Hs) F]; [reflexivity|].
  assert (X : absolute n = false) by (destruct n as [|c n]; [reflexivity|]; cbn [absolute]; destruct (Z.eqb_spec c 47) as [-> |]; [elim Hs; left; reflexivity|reflexivity]).
  destruct n as [|c n]; [congruence|]. destruct l; exact X.
Qed.
Lemma path_place abs l : Forall name l -> place (path_to abs l) = Some l.
Proof.
  intros F. unfold place. rewrite path_absolute by exact F. unfold path_to. destruct abs.
  - rewrite components_slash_first, components_slashed by exact F. exact (walk_of_names true l F []).
  - destruct l as [|n l]; [reflexivity|]. rewrite components_slashed by exact F. exact (walk_of_names false _ F []).
Qed.

(** ** Paths put together *)
Lemma append_components a b : components (appendpath a b) = components a ++ components b.
Proof.
  destruct b as [|c r]; [cbn [appendpath]; symmetry; apply app_nil_r|]. cbn [appendpath]. destruct a as [|x a]; [reflexivity|].
  destruct (Z.eqb_spec (last (x :: a) 0) 47) as [E|E].
  - assert (N : x :: a <> []) by discriminate. destruct (exists_last N) as (a' & y & Q). rewrite Q in *. rewrite last_last in E. subst y.
    rewrite components_slash_last. destruct (Z.eqb_spec c 47) as [-> |]; rewrite <- app_assoc; cbn [app]; rewrite components_app; [rewrite components_slash_first|]; reflexivity.
  - destruct (Z.eqb_spec c 47) as [-> |].
    + rewrite components_app, components_slash_first. reflexivity.
    + change ([47] ++ c :: r) with (47 :: c :: r). apply components_app.
Qed.
Lemma append_absolute a b : absolute (appendpath a b) = match a with [] => absolute b | _ => absolute a end.
Proof. destruct b as [|c r]; [destruct a; reflexivity|]. cbn [appendpath]. destruct a as [|x a]; [reflexivity|]. destruct (_ =? 47), (c =? 47); reflexivity. Qed.
Lemma append_nil a b : appendpath a b = [] <-> a = [] /\ b = [].
Proof.
  destruct b as [|c r]; [cbn [appendpath]; tauto|]. destruct a as [|x a]; cbn [appendpath]; [split; [discriminate|intros [_ H]; discriminate]|].
  split; [|intros [H _]; discriminate]. destruct (_ =? 47), (c =? 47); discriminate.
Qed.

Lemma join_components l : forall d, components (fold_left appendpath l d) = components d ++ flat_map components l.
Proof.
  induction l as [|x l IH]; intros d; cbn [fold_left flat_map]; [symmetry; apply app_nil_r|]. rewrite IH, append_components, app_assoc. reflexivity.
Qed.
Lemma join_absolute l : forall d, absolute (fold_left appendpath l d) = match filter nonempty (d :: l) with [] => false | x :: _ => absolute x end.
Proof.
  induction l as [|x l IH]; intros d; cbn [fold_left].
  - destruct d; reflexivity.
  - rewrite IH. pose proof (append_absolute d x) as A. pose proof (append_nil d x) as N. cbn [filter]. destruct (appendpath d x) as [|y z] eqn:E.
    + destruct (proj1 N eq_refl) as [-> ->]. reflexivity.
    + cbn [nonempty]. rewrite A. destruct d as [|u d]; [|reflexivity]. cbn [nonempty]. destruct x; [discriminate E|reflexivity].
Qed.

(** ** The name and the directory of a file *)
Lemma after_spec s : match after_slash s with Some t => (exists a, s = a ++ 47 :: t) /\ ~ In 47 t | None => ~ In 47 s end.
Proof.
  induction s as [|c s IH]; cbn [after_slash]; [tauto|]. destruct (after_slash s) as [t|].
  - destruct IH as [(a & ->) N]. split; [exists (c :: a); reflexivity|exact N].
  - destruct (Z.eqb_spec c 47) as [-> |]; [split; [exists []; reflexivity|exact IH]|]. intros [H|H]; [congruence|contradiction].
Qed.
Lemma last_piece a t : ~ In 47 t -> last (pieces (a ++ 47 :: t)) [] = t.
Proof. intros N. rewrite pieces_hom, (pieces_none t N). apply last_last. Qed.
Lemma basename_last p : basename p = last (pieces p) [].
Proof.
  unfold basename. pose proof (after_spec p) as A. destruct (after_slash p) as [t|].
  - destruct A as [(a & ->) N]. symmetry. apply last_piece. exact N.
  - rewrite pieces_none by exact A. reflexivity.
Qed.

Lemma drop_spec s : exists k, s = repeat 47 k ++ drop_slashes s /\ (match drop_slashes s with c :: _ => c <> 47 | [] => True end).
Proof.
  induction s as [|c s (k & E & H)]; [exists O; split; [reflexivity|exact I]|]. cbn [drop_slashes]. destruct (Z.eqb_spec c 47) as [-> |N].
  - exists (S k). split; [cbn [repeat app]; congruence|exact H].
  - exists O. split; [reflexivity|exact N].
Qed.
Lemma rev_repeat_z (c : Z) n : rev (repeat c n) = repeat c n.
Proof.
  induction n as [|n IH]; [reflexivity|]. cbn [repeat rev]. rewrite IH. clear IH. induction n as [|n IH]; [reflexivity|]. cbn [repeat app]. rewrite IH. reflexivity.
Qed.
Lemma trailing_spec s : exists k, s = no_trailing_slashes s ++ repeat 47 k.
Proof.
  destruct (drop_spec (rev s)) as (k & E & _). exists k. unfold no_trailing_slashes. apply (f_equal (@rev Z)) in E. rewrite rev_involutive, rev_app_distr, rev_repeat_z in E. exact E.
Qed.
Lemma trailing_none s : last s 0 <> 47 -> no_trailing_slashes s = s.
Proof.
  intros N. unfold no_trailing_slashes. destruct s as [|x s] using rev_ind; [reflexivity|]. clear IHs. rewrite last_last in N. rewrite rev_app_distr. cbn [rev app drop_slashes].
  destruct (Z.eqb_spec x 47); [contradiction|]. cbn [rev]. rewrite rev_involutive. reflexivity.
Qed.
Lemma trailing_slash s : no_trailing_slashes (s ++ [47]) = no_trailing_slashes s.
Proof. unfold no_trailing_slashes. rewrite rev_app_distr. reflexivity. Qed.
Lemma components_repeat a k : components (a ++ repeat 47 k) = components a.
Proof.
  induction k as [|k IH]; [cbn [repeat]; rewrite app_nil_r; reflexivity|].
  assert (repeat 47 (S k) = repeat 47 k ++ [47]) as -> by (clear; induction k as [|k IH]; [reflexivity|]; cbn [repeat app] in *; congruence).
  rewrite app_assoc, components_slash_last. exact IH.
Qed.

Lemma dirname_no_slash p : p <> [] -> last p 0 <> 47 -> dirname p =
  match after_slash p with
  | None => [46]
  | Some t => match no_trailing_slashes (firstn (length p - length t) p) with [] => [47] | d => d end
  end.
Proof. intros N L. unfold dirname. rewrite (trailing_none p L). destruct p; [congruence|reflexivity]. Qed.

Lemma dir_and_name p : p <> [] -> last p 0 <> 47 ->
  place (joinpath [dirname p; basename p]) = place p /\ absolute (joinpath [dirname p; basename p]) = absolute p.
Proof.
  intros N L. unfold place, joinpath. rewrite join_components, join_absolute. cbn [components pieces filter nonempty app flat_map]. rewrite app_nil_r.
  rewrite dirname_no_slash by assumption. unfold basename. pose proof (after_spec p) as A. destruct (after_slash p) as [t|].
  - destruct A as [(a & E) Nt].
    assert (F : firstn (length p - length t) p = a ++ [47]).
    { subst p. replace (a ++ 47 :: t) with ((a ++ [47]) ++ t) by (rewrite <- app_assoc; reflexivity). rewrite app_length.
      replace (length (a ++ [47%Z]) + length t - length t)%nat with (length (a ++ [47])) by lia. rewrite firstn_app, Nat.sub_diag, firstn_O, app_nil_r. apply firstn_all. }
    rewrite F, trailing_slash. destruct (trailing_spec a) as (k & Ea). destruct (no_trailing_slashes a) as [|d0 d] eqn:D.
    + assert (absolute p = true) as ->. { rewrite E, Ea. cbn [app]. destruct k; reflexivity. }
      assert (components p = components t) as ->. { rewrite E, components_app. rewrite Ea. rewrite components_repeat. reflexivity. }
      split; reflexivity.
    + assert (absolute p = absolute (d0 :: d)) as -> by (rewrite E, Ea; reflexivity).
      assert (components p = components (d0 :: d) ++ components t) as ->. { rewrite E, components_app, Ea, components_repeat. reflexivity. }
      cbn [nonempty]. split; reflexivity.
  - assert (absolute p = false) as ->. { destruct p as [|c p]; [reflexivity|]. cbn [absolute]. destruct (Z.eqb_spec c 47) as [-> |]; [elim A; left; reflexivity|reflexivity]. }
    split; reflexivity.
Qed.

Lemma trailing_last s : last (no_trailing_slashes s) 0 <> 47.
Proof.
  unfold no_trailing_slashes. destruct (drop_spec (rev s)) as (k & _ & H). destruct (drop_slashes (rev s)) as [|c r]; [cbn; discriminate|]. cbn [rev]. rewrite last_last. exact H.
Qed.

Lemma dirname_parts p : p <> [] -> last p 0 <> 47 ->
  (~ In 47 p /\ dirname p = [46] /\ basename p = p) \/
  (exists d k, p = d ++ repeat 47 (S k) ++ basename p /\ ~ In 47 (basename p) /\ last d 0 <> 47 /\ dirname p = match d with [] => [47] | _ => d end).
Proof.
  intros N L. rewrite dirname_no_slash by assumption. unfold basename. pose proof (after_spec p) as A. destruct (after_slash p) as [t|]; [|left; auto].
  right. destruct A as [(a & E) Nt].
  assert (F : firstn (length p - length t) p = a ++ [47]).
  { subst p. replace (a ++ 47 :: t) with ((a ++ [47]) ++ t) by (rewrite <- app_assoc; reflexivity). rewrite app_length.
    replace (length (a ++ [47%Z]) + length t - length t)%nat with (length (a ++ [47])) by lia. rewrite firstn_app, Nat.sub_diag, firstn_O, app_nil_r. apply firstn_all. }
  rewrite F, trailing_slash. destruct (trailing_spec a) as (k & Ea). exists (no_trailing_slashes a), k. split; [|split; [exact Nt|split; [apply trailing_last|destruct (no_trailing_slashes a); reflexivity]]].
  assert (repeat 47 (S k) = repeat 47 k ++ [47]) as -> by (clear; induction k as [|k IH]; [reflexivity|]; cbn [repeat app] in *; congruence).
  rewrite E at 1. rewrite <- app_assoc. cbn [app]. rewrite app_assoc, <- Ea. reflexivity.
Qed.

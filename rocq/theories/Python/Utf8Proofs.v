(** UTF-8: what is written is read back, and what a cut does to it. *)
From Coq Require Import ZifyBool ZifyNat.
From Verif Require Import Base Python.Model.
Local Open Scope Z_scope.
Ltac Zify.zify_post_hook ::= Z.to_euclidean_division_equations.

Lemma utf8_char_spec c : scalar c = true -> 
  (0 <= c < 128 /\ utf8_char c = [c]) \/
  (exists x y, c = (x - 192) * 64 + (y - 128) /\ 192 <= x < 224 /\ 128 <= y < 192 /\ 128 <= c /\ utf8_char c = [x; y]) \/
  (exists x y z, c = (x - 224) * 4096 + (y - 128) * 64 + (z - 128) /\ 224 <= x < 240 /\ 128 <= y < 192 /\ 128 <= z < 192 /\
     2048 <= c /\ utf8_char c = [x; y; z]) \/
  (exists x y z w, c = (x - 240) * 262144 + (y - 128) * 4096 + (z - 128) * 64 + (w - 128) /\ 240 <= x < 248 /\
     128 <= y < 192 /\ 128 <= z < 192 /\ 128 <= w < 192 /\ 65536 <= c /\ utf8_char c = [x; y; z; w]).
Proof.
  intros S. unfold scalar in S. unfold utf8_char.
  destruct (Z.ltb_spec c 128); [left; split; [lia|reflexivity]|].
  destruct (Z.ltb_spec c 2048).
  { right; left. exists (192 + c / 64), (128 + c mod 64). repeat split; lia. }
  destruct (Z.ltb_spec c 65536).
  { right; right; left. exists (224 + c / 4096), (128 + (c / 64) mod 64), (128 + c mod 64). repeat split; lia. }
  right; right; right. exists (240 + c / 262144), (128 + (c / 4096) mod 64), (128 + (c / 64) mod 64), (128 + c mod 64).
  repeat split; lia.
Qed.

Lemma decode_char c t : scalar c = true -> utf8_decode (utf8_char c ++ t) = option_map (cons c) (utf8_decode t).
Proof.
  intros S. destruct (utf8_char_spec c S) as [(R & ->)|[(x & y & E & R1 & R2 & R3 & ->)|[(x & y & z & E & R1 & R2 & R3 & R4 & ->)|
    (x & y & z & w & E & R1 & R2 & R3 & R4 & R5 & ->)]]]; cbn [app utf8_decode].
  - replace (c <? 128) with true by lia. reflexivity.
  - replace (x <? 128) with false by lia. replace ((192 <=? x) && (x <? 224)) with true by lia. rewrite <- E. unfold cont.
    replace ((128 <=? y) && (y <? 192) && (128 <=? c)) with true by lia. reflexivity.
  - replace (x <? 128) with false by lia. replace ((192 <=? x) && (x <? 224)) with false by lia.
    replace ((224 <=? x) && (x <? 240)) with true by lia. rewrite <- E, S. unfold cont.
    replace ((128 <=? y) && (y <? 192) && ((128 <=? z) && (z <? 192)) && (2048 <=? c) && true) with true by lia. reflexivity.
  - replace (x <? 128) with false by lia. replace ((192 <=? x) && (x <? 224)) with false by lia.
    replace ((224 <=? x) && (x <? 240)) with false by lia. replace ((240 <=? x) && (x <? 248)) with true by lia. rewrite <- E, S. unfold cont.
    replace ((128 <=? y) && (y <? 192) && ((128 <=? z) && (z <? 192)) && ((128 <=? w) && (w <? 192)) && (65536 <=? c) && true) with true by lia.
    reflexivity.
Qed.

Lemma decode_part c k : scalar c = true -> (0 < k < length (utf8_char c))%nat -> utf8_decode (firstn k (utf8_char c)) = None.
Proof.
  intros S. destruct (utf8_char_spec c S) as [(R & ->)|[(x & y & E & R1 & R2 & R3 & ->)|[(x & y & z & E & R1 & R2 & R3 & R4 & ->)|
    (x & y & z & w & E & R1 & R2 & R3 & R4 & R5 & ->)]]]; cbn [length]; intros K.
  - lia.
  - destruct k as [|[|k]]; try lia. cbn [firstn utf8_decode].
    replace (x <? 128) with false by lia. replace ((192 <=? x) && (x <? 224)) with true by lia. reflexivity.
  - assert (k = 1%nat \/ k = 2%nat) as [->| ->] by lia; cbn [firstn utf8_decode];
      replace (x <? 128) with false by lia; replace ((192 <=? x) && (x <? 224)) with false by lia;
      replace ((224 <=? x) && (x <? 240)) with true by lia; reflexivity.
  - assert (k = 1%nat \/ k = 2%nat \/ k = 3%nat) as [->|[->| ->]] by lia; cbn [firstn utf8_decode];
      replace (x <? 128) with false by lia; replace ((192 <=? x) && (x <? 224)) with false by lia;
      replace ((224 <=? x) && (x <? 240)) with false by lia; replace ((240 <=? x) && (x <? 248)) with true by lia; reflexivity.
Qed.

Lemma decode_app s t : forallb scalar s = true -> utf8_decode (utf8 s ++ t) = option_map (app s) (utf8_decode t).
Proof.
  unfold utf8. induction s as [|c s IH]; cbn [forallb flat_map app]; intros H.
  - destruct (utf8_decode t); reflexivity.
  - apply andb_prop in H as [H1 H2]. rewrite <- app_assoc, decode_char, IH by auto. destruct (utf8_decode t); reflexivity.
Qed.

Lemma decode_utf8 s : forallb scalar s = true -> utf8_decode (utf8 s) = Some s.
Proof. intros H. rewrite <- (app_nil_r (utf8 s)), decode_app by auto. cbn. rewrite app_nil_r. reflexivity. Qed.

Lemma utf8_app s t : utf8 (s ++ t) = utf8 s ++ utf8 t.
Proof. unfold utf8. apply flat_map_app. Qed.

Lemma cut_spec s : forall n, forallb scalar s = true ->
  exists p t, s = p ++ t /\ (length (utf8 p) <= n)%nat /\
    ((t = [] /\ firstn n (utf8 s) = utf8 s) \/
     (exists c t', t = c :: t' /\ (n - length (utf8 p) < length (utf8_char c))%nat /\
        firstn n (utf8 s) = utf8 p ++ firstn (n - length (utf8 p)) (utf8_char c))).
Proof.
  induction s as [|c s IH]; intros n H.
  - exists [], []. split; auto. split; [cbn; lia|]. left. split; auto. apply firstn_nil.
  - cbn [forallb] in H. apply andb_prop in H as [H1 H2]. change (utf8 (c :: s)) with (utf8_char c ++ utf8 s).
    destruct (Nat.leb_spec (length (utf8_char c)) n) as [L|L].
    + destruct (IH (n - length (utf8_char c))%nat H2) as (p & t & E & Lp & D). exists (c :: p), t.
      split; [cbn; f_equal; auto|]. change (utf8 (c :: p)) with (utf8_char c ++ utf8 p). rewrite app_length.
      split; [lia|]. rewrite firstn_app, (firstn_all2 (utf8_char c)) by lia. destruct D as [(D1 & D2)|(d & t' & D1 & D2 & D3)].
      * left. split; auto. rewrite D2. reflexivity.
      * right. exists d, t'. split; auto. replace (n - (length (utf8_char c) + length (utf8 p)))%nat with (n - length (utf8_char c) - length (utf8 p))%nat by lia.
        split; auto. rewrite D3, app_assoc. reflexivity.
    + exists [], (c :: s). split; auto. split; [cbn; lia|]. right. exists c, s. split; auto. cbn [utf8 flat_map length].
      split; [lia|]. rewrite firstn_app. replace (n - length (utf8_char c))%nat with 0%nat by lia. rewrite firstn_O, app_nil_r, Nat.sub_0_r. reflexivity.
Qed.

(** A cut that falls between two characters leaves a text, any other cut does not. *)
Lemma decode_cut s n : forallb scalar s = true -> (n <= length (utf8 s))%nat ->
  (forall p t, s = p ++ t -> length (utf8 p) = n -> utf8_decode (firstn n (utf8 s)) = Some p) /\
  ((forall p t, s = p ++ t -> length (utf8 p) <> n) -> utf8_decode (firstn n (utf8 s)) = None).
Proof.
  intros H L. split.
  - intros p t -> E. rewrite utf8_app, firstn_app, <- E, firstn_all, Nat.sub_diag, firstn_O, app_nil_r.
    apply decode_utf8. rewrite forallb_app in H. apply andb_prop in H as [H _]. exact H.
  - intros N. destruct (cut_spec s n H) as (p & t & E & Lp & D). specialize (N p t E) as Np. destruct D as [(D1 & D2)|(c & t' & D1 & D2 & D3)].
    + exfalso. subst t. rewrite app_nil_r in E. subst p. lia.
    + rewrite D3. subst s t. rewrite forallb_app in H. cbn [forallb] in H. apply andb_prop in H as [H1 H]. apply andb_prop in H as [H2 _].
      rewrite decode_app, decode_part by (auto; lia). reflexivity.
Qed.

(** Whatever is read is a text, and writing it gives the same bytes. *)
Lemma decode_sound n : forall b s, (length b <= n)%nat -> Forall (fun x => 0 <= x) b -> utf8_decode b = Some s ->
  forallb scalar s = true /\ utf8 s = b.
Proof.
  induction n as [|n IH]; intros b s L P D.
  { destruct b; cbn in L; [|lia]. cbn in D. injection D as <-. split; reflexivity. }
  destruct b as [|x r]; [cbn in D; injection D as <-; split; reflexivity|].
  cbn [utf8_decode] in D. cbn [length] in L. inversion P as [|? ? P1 P2]; subst.
  destruct (Z.ltb_spec x 128).
  { destruct (utf8_decode r) as [s'|] eqn:E; [|discriminate]. cbn in D. injection D as <-.
    destruct (IH r s') as (A & B); auto; [lia|]. split; [cbn [forallb]; rewrite A; unfold scalar; lia|].
    unfold utf8 in *. cbn [flat_map]. rewrite B. unfold utf8_char. replace (x <? 128) with true by lia. reflexivity. }
  destruct ((192 <=? x) && (x <? 224)) eqn:E2.
  { destruct r as [|y r']; [discriminate|]. cbv zeta in D. cbn [length] in L. unfold cont in D. inversion P2; subst.
    destruct (((128 <=? y) && (y <? 192)) && (128 <=? (x - 192) * 64 + (y - 128))) eqn:E3; [|discriminate].
    destruct (utf8_decode r') as [s'|] eqn:E; [|discriminate]. cbn in D. injection D as <-.
    destruct (IH r' s') as (A & B); auto; [lia|]. split; [cbn [forallb]; rewrite A; unfold scalar; lia|].
    unfold utf8 in *. cbn [flat_map]. rewrite B. unfold utf8_char. set (c := (x - 192) * 64 + (y - 128)) in *.
    replace (c <? 128) with false by lia. replace (c <? 2048) with true by lia. replace (192 + c / 64) with x by lia.
    replace (128 + c mod 64) with y by lia. reflexivity. }
  destruct ((224 <=? x) && (x <? 240)) eqn:E3.
  { destruct r as [|y [|z r']]; try discriminate. cbv zeta in D. cbn [length] in L. unfold cont in D. inversion P2 as [|? ? ? P3]; subst. inversion P3; subst.
    set (c := (x - 224) * 4096 + (y - 128) * 64 + (z - 128)) in *.
    destruct (((128 <=? y) && (y <? 192)) && ((128 <=? z) && (z <? 192)) && (2048 <=? c) && scalar c) eqn:E4; [|discriminate].
    destruct (utf8_decode r') as [s'|] eqn:E; [|discriminate]. cbn in D. injection D as <-.
    destruct (IH r' s') as (A & B); auto; [lia|]. split; [cbn [forallb]; rewrite A; apply andb_prop in E4 as [_ E4]; rewrite E4; reflexivity|].
    unfold utf8 in *. cbn [flat_map]. rewrite B. apply andb_prop in E4 as [E4 _]. unfold utf8_char.
    replace (c <? 128) with false by lia. replace (c <? 2048) with false by lia. replace (c <? 65536) with true by lia.
    replace (224 + c / 4096) with x by lia. replace (128 + (c / 64) mod 64) with y by lia.
    replace (128 + c mod 64) with z by lia. reflexivity. }
  destruct ((240 <=? x) && (x <? 248)) eqn:E4; [|discriminate].
  destruct r as [|y [|z [|w r']]]; try discriminate. cbv zeta in D. cbn [length] in L. unfold cont in D.
  inversion P2 as [|? ? ? P3]; subst. inversion P3 as [|? ? ? P4]; subst. inversion P4; subst.
  set (c := (x - 240) * 262144 + (y - 128) * 4096 + (z - 128) * 64 + (w - 128)) in *.
  destruct (((128 <=? y) && (y <? 192)) && ((128 <=? z) && (z <? 192)) && ((128 <=? w) && (w <? 192)) && (65536 <=? c) && scalar c) eqn:E5; [|discriminate].
  destruct (utf8_decode r') as [s'|] eqn:E; [|discriminate]. cbn in D. injection D as <-.
  destruct (IH r' s') as (A & B); auto; [lia|]. split; [cbn [forallb]; rewrite A; apply andb_prop in E5 as [_ E5]; rewrite E5; reflexivity|].
  unfold utf8 in *. cbn [flat_map]. rewrite B. apply andb_prop in E5 as [E5 _]. unfold utf8_char.
  replace (c <? 128) with false by lia. replace (c <? 2048) with false by lia. replace (c <? 65536) with false by lia.
  replace (240 + c / 262144) with x by lia. replace (128 + (c / 4096) mod 64) with y by lia. replace (128 + (c / 64) mod 64) with z by lia.
  replace (128 + c mod 64) with w by lia. reflexivity.
Qed.

(** NULs stay NULs. *)
Lemma utf8_no_zero s : forallb scalar s = true -> Forall (fun c => c <> 0) s -> Forall (fun c => c <> 0) (utf8 s).
Proof.
  unfold utf8. induction s as [|c s IH]; cbn [forallb flat_map]; intros H F; auto. apply andb_prop in H as [H1 H2]. inversion F; subst.
  apply Forall_app; split; auto.
  destruct (utf8_char_spec c H1) as [(R & ->)|[(x & y & E & R1 & R2 & R3 & ->)|[(x & y & z & E & R1 & R2 & R3 & R4 & ->)|
    (x & y & z & w & E & R1 & R2 & R3 & R4 & R5 & ->)]]]; repeat constructor; lia.
Qed.

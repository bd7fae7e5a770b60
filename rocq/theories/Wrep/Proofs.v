(** Proofs about the command line program. *)
From Coq Require Import String.
From Verif Require Import Base Num.Float Varcode.Model Varcode.Proofs Varinfo.Model Var.Model Var.Format Interp.Model Message.Model Message.StreamProofs
  Crex.Model Crex.StreamProofs Listing.Model Wrep.Model Wrep.Spec.
From Coq Require Import ZifyBool ZifyNat.
Local Open Scope Z_scope.

Lemma bind_ok {A B} (r : res A) (f : A -> res B) b : bind r f = Ok b -> exists a, r = Ok a /\ f a = Ok b.
Proof. destruct r; cbn; intros H; try discriminate. eauto. Qed.

(** ** Reading *)

Lemma firstn_snoc (sig : list Z) got : (got < length sig)%nat -> firstn (S got) sig = firstn got sig ++ [nth got sig 0].
Proof.
  revert got. induction sig as [|a sig IH]; intros got L; [cbn in L; lia|].
  destruct got; [reflexivity|]. cbn [firstn nth app]. rewrite <- (IH got) by (cbn in L; lia). reflexivity.
Qed.

Lemma seek_split sig file : forall got rest, (got <= length sig)%nat -> seek_signature sig got file = Some rest ->
  exists gap, firstn got sig ++ file = gap ++ sig ++ rest.
Proof.
  induction file as [|c file IH]; intros got rest L H; cbn [seek_signature] in H.
  - destruct (Nat.leb_spec (length sig) got) as [G|G]; [|discriminate]. injection H as <-.
    exists []. rewrite firstn_all2 by lia. reflexivity.
  - destruct (Nat.leb_spec (length sig) got) as [G|G].
    + injection H as <-. exists []. rewrite firstn_all2 by lia. reflexivity.
    + destruct (Z.eqb_spec c (nth got sig 0)) as [E|E].
      * destruct (IH (S got) rest ltac:(lia) H) as (gap & Hg). exists gap. rewrite <- Hg, (firstn_snoc sig got G), <- app_assoc, <- E. reflexivity.
      * destruct (IH 0%nat rest ltac:(lia) H) as (gap & Hg). cbn [firstn app] in Hg. exists (firstn got sig ++ [c] ++ gap).
        rewrite <- !app_assoc. cbn [app]. rewrite <- Hg. reflexivity.
Qed.

Lemma seek_here sig rest : seek_signature sig (length sig) rest = Some rest.
Proof. destruct rest; cbn [seek_signature]; rewrite Nat.leb_refl; reflexivity. Qed.

Lemma seek_now sig post : forall pre rest, sig = pre ++ post -> seek_signature sig (length pre) (post ++ rest) = Some rest.
Proof.
  induction post as [|c post IH]; intros pre rest ->.
  - rewrite app_nil_r. apply seek_here.
  - cbn [app seek_signature]. rewrite app_length. cbn [length].
    replace (Nat.leb (length pre + S (length post)) (length pre)) with false by lia.
    rewrite app_nth2, Nat.sub_diag by lia. cbn [nth]. rewrite Z.eqb_refl.
    specialize (IH (pre ++ [c]) rest). rewrite <- app_assoc, app_length in IH. cbn [length app] in IH.
    rewrite Nat.add_1_r in IH. apply IH. reflexivity.
Qed.

Lemma seek_first sig rest : seek_signature sig 0 (sig ++ rest) = Some rest.
Proof. exact (seek_now sig sig [] rest eq_refl). Qed.

Lemma read_message_inv file m rest : read_message file = Ok (Some (m, rest)) ->
  exists gap, file = gap ++ m ++ rest /\ (0 < length m)%nat /\ forall x, read_message (m ++ x) = Ok (Some (m, x)).
Proof.
  unfold read_message. destruct (seek_signature _ 0 file) as [r|] eqn:E; [|discriminate].
  destruct (seek_split _ _ _ _ (Nat.le_0_l _) E) as (gap & Hg). cbn [firstn app] in Hg.
  destruct r as [|a [|b [|c [|e r]]]]; try discriminate.
  destruct (Z.ltb_spec (a * 65536 + b * 256 + c) 12) as [S|S]; [discriminate|].
  destruct (Nat.ltb_spec (length r) (Z.to_nat (a * 65536 + b * 256 + c - 8))) as [L|L]; [discriminate|].
  intros H. apply (f_equal (fun r => match r with Ok (Some p) => p | _ => ([], []) end)) in H.
  apply pair_equal_spec in H as [<- <-].
  set (n := Z.to_nat (a * 65536 + b * 256 + c - 8)) in *.
  exists gap. split; [|split].
  - rewrite Hg. cbn [app]. rewrite firstn_skipn. reflexivity.
  - cbn [app length]. lia.
  - intros x. cbn [app]. change (66 :: 85 :: 70 :: 82 :: ?l) with ([66; 85; 70; 82] ++ l).
    rewrite (seek_first [66; 85; 70; 82]).
    replace (a * 65536 + b * 256 + c <? 12) with false by lia. fold n.
    assert (Ln : length (firstn n r) = n) by (apply firstn_length_le; exact L).
    replace (Nat.ltb (length (firstn n r ++ x)) n) with false by (rewrite app_length; lia).
    rewrite <- Ln at 1 3. rewrite firstn_app, skipn_app, Nat.sub_diag, firstn_all, skipn_all. cbn [firstn skipn app].
    rewrite app_nil_r. reflexivity.
Qed.

Lemma read_end_inv file : forall got m rest, read_end got file = Some (m, rest) ->
  file = m ++ rest /\ forall x, read_end got (m ++ x) = Some (m, x).
Proof.
  induction file as [|c file IH]; intros got m rest H; cbn [read_end] in H.
  - destruct (Nat.leb 8 got) eqn:G; [|discriminate]. injection H as <- <-. split; [reflexivity|].
    intros x. destruct x; cbn [app read_end]; rewrite G; reflexivity.
  - destruct (Nat.leb 8 got) eqn:G.
    + injection H as <- <-. split; [reflexivity|]. intros x. destruct x; cbn [app read_end]; rewrite G; reflexivity.
    + destruct (read_end (end_step got c) file) as [[m' r']|] eqn:E; [|discriminate]. injection H as <- <-.
      destruct (IH _ _ _ E) as [-> Hx]. split; [reflexivity|]. intros x. cbn [app read_end]. rewrite G, Hx. reflexivity.
Qed.

Lemma read_crex_inv file m rest : read_crex file = Ok (Some (m, rest)) ->
  exists gap, file = gap ++ m ++ rest /\ (0 < length m)%nat /\ forall x, read_crex (m ++ x) = Ok (Some (m, x)).
Proof.
  unfold read_crex. destruct (seek_signature crex_start 0 file) as [r|] eqn:E; [|discriminate].
  destruct (seek_split _ _ _ _ (Nat.le_0_l _) E) as (gap & Hg). cbn [firstn app] in Hg.
  destruct (read_end 0 r) as [[m' r']|] eqn:E2; [|discriminate].
  intros H. apply (f_equal (fun r => match r with Ok (Some p) => p | _ => ([], []) end)) in H.
  apply pair_equal_spec in H as [<- <-]. destruct (read_end_inv _ _ _ _ E2) as [-> Hx].
  exists gap. split; [|split].
  - rewrite Hg, <- app_assoc. reflexivity.
  - rewrite app_length. cbn [length crex_start]. lia.
  - intros x. rewrite <- app_assoc, seek_first, Hx. reflexivity.
Qed.

Lemma read_inv crex file m rest : read_of crex file = Ok (Some (m, rest)) ->
  exists gap, file = gap ++ m ++ rest /\ (0 < length m)%nat /\ forall x, read_of crex (m ++ x) = Ok (Some (m, x)).
Proof. destruct crex; [apply read_crex_inv|apply read_message_inv]. Qed.

Lemma read_no_ub crex file : read_of crex file <> UB.
Proof.
  destruct crex; cbn [read_of]; unfold read_crex, read_message.
  - destruct (seek_signature _ _ _); [|discriminate]. destruct (read_end _ _) as [[? ?]|]; discriminate.
  - destruct (seek_signature _ _ _) as [r|]; [|discriminate]. destruct r as [|a [|b [|c [|e r]]]]; try discriminate.
    destruct (_ <? _); [discriminate|]. destruct (Nat.ltb _ _); discriminate.
Qed.

Lemma read_no_fuel crex file : read_of crex file <> Err EFuel.
Proof.
  destruct crex; cbn [read_of]; unfold read_crex, read_message.
  - destruct (seek_signature _ _ _); [|discriminate]. destruct (read_end _ _) as [[? ?]|]; discriminate.
  - destruct (seek_signature _ _ _) as [r|]; [|discriminate]. destruct r as [|a [|b [|c [|e r]]]]; try discriminate.
    destruct (_ <? _); [discriminate|]. destruct (Nat.ltb _ _); discriminate.
Qed.

Lemma delivers_total crex : forall n file pos, (length file < n)%nat -> exists ms e, delivers (read_of crex) pos file ms e.
Proof.
  induction n as [|n IH]; intros file pos L; [lia|].
  destruct (read_of crex file) as [[[m rest]|]| |] eqn:E.
  - destruct (read_inv _ _ _ _ E) as (gap & Hf & Lm & _).
    destruct (IH rest (pos + Z.of_nat (length gap) + Z.of_nat (length m))) as (ms & e & D).
    { rewrite Hf, !app_length in L. lia. }
    eexists _, _. eapply dl_message; eassumption.
  - eexists _, _. apply dl_end. exact E.
  - eexists _, _. eapply dl_error. exact E.
  - destruct (read_no_ub _ _ E).
Qed.

Lemma app_same_length {A} (a b c d : list A) : length a = length c -> a ++ b = c ++ d -> a = c /\ b = d.
Proof.
  revert c. induction a as [|x a IH]; intros [|y c] L E; cbn in *; try discriminate; [auto|].
  injection E as <- E. destruct (IH c) as [-> ->]; auto.
Qed.

Lemma delivers_fun crex : forall ms pos file e, delivers (read_of crex) pos file ms e ->
  forall ms' e', delivers (read_of crex) pos file ms' e' -> ms' = ms /\ e' = e.
Proof.
  intros ms pos file e H. induction H as [pos file R|pos file e R|pos file gap m rest ms e R F D IH]; intros ms' e' H'.
  - inversion H'; subst; try congruence. auto.
  - inversion H'; subst; try congruence. split; congruence.
  - inversion H' as [? ? R'|? ? ? R'|? ? gap' m' rest' ms2 ? R' F' D']; subst; try congruence.
    rewrite R in R'. injection R' as <- <-.
    assert (L : length gap = length gap').
    { apply (f_equal (@length Z)) in F'. rewrite !app_length in F'. lia. }
    rewrite L in *. destruct (IH _ _ D') as [-> ->]. auto.
Qed.

(** What was delivered is read again, one message after the other. *)
Lemma delivers_again crex pos file ms e : delivers (read_of crex) pos file ms e ->
  forall ms0, incl ms0 ms -> forall p0, exists ms1, delivers (read_of crex) p0 (concat (map snd ms0)) ms1 None /\ map snd ms1 = map snd ms0.
Proof.
  intros D. assert (R : forall om, In om ms -> forall x, read_of crex (snd om ++ x) = Ok (Some (snd om, x))).
  { induction D as [| |pos file gap m rest ms e R F D IH]; intros om Hin; [destruct Hin|destruct Hin|].
    destruct Hin as [<-|Hin]; [|apply IH; exact Hin]. destruct (read_inv _ _ _ _ R) as (_ & _ & _ & Hx). exact Hx. }
  induction ms0 as [|[o m] ms0 IH]; intros I p0.
  - exists []. split; [|reflexivity]. apply dl_end. destruct crex; reflexivity.
  - destruct (IH (fun x Hx => I x (or_intror Hx)) (p0 + Z.of_nat (@length Z []) + Z.of_nat (length m))) as (ms1 & D1 & E1).
    exists ((p0 + Z.of_nat (@length Z []), m) :: ms1). split; [|cbn [map snd]; rewrite E1; reflexivity].
    cbn [map snd concat]. apply (dl_message _ p0 _ [] m (concat (map snd ms0))); [|reflexivity|exact D1].
    apply (R (o, m)). apply I. left. reflexivity.
Qed.

(** ** The loops *)
Section Loops.
Context (fixed : nat -> f64 -> list Z) (W : world).

Fixpoint each (o : wopts) (name : list Z) (titled : bool) (ms : list (Z * list Z)) : res (bool * list Z * list complaint) :=
  match ms with
  | [] => Ok (titled, [], [])
  | (off, m) :: rest =>
    ' (t1, o1, c1) <- handle fixed W o name titled off m ;;
    ' (t2, o2, c2) <- each o name t1 rest ;;
    Ok (t2, o1 ++ o2, c1 ++ c2)
  end.

Definition last_words (name : list Z) (e : option err) : list complaint :=
  match e with None => [] | Some e => [InFile name e] end.

Lemma reader_read o : reader o = read_of (w_crex o).
Proof. unfold reader, read_of. destruct (w_crex o); reflexivity. Qed.

Lemma feed_each o name pos file ms e : delivers (read_of (w_crex o)) pos file ms e ->
  forall fuel titled, (length file < fuel)%nat ->
  feed fixed W fuel o name titled pos file =
  (' (t, o1, c1) <- each o name titled ms ;; Ok (t, o1, c1 ++ last_words name e)).
Proof.
  intros D. induction D as [pos file R|pos file e R|pos file gap m rest ms e R F D IH]; intros fuel titled L;
    (destruct fuel as [|fuel]; [lia|]); cbn [feed each]; rewrite reader_read, R.
  - reflexivity.
  - reflexivity.
  - destruct (read_inv _ _ _ _ R) as (gap' & F' & Lm & _).
    assert (Len : length file = (length gap + (length m + length rest))%nat) by (rewrite F, !app_length; reflexivity).
    replace (pos + Z.of_nat (length file) - Z.of_nat (length rest) - Z.of_nat (length m)) with (pos + Z.of_nat (length gap)) by lia.
    replace (pos + Z.of_nat (length file) - Z.of_nat (length rest)) with (pos + Z.of_nat (length gap) + Z.of_nat (length m)) by lia.
    destruct (handle fixed W o name titled (pos + Z.of_nat (length gap)) m) as [[[t1 o1] c1]| |]; cbn [bind]; try reflexivity.
    rewrite IH by lia.
    destruct (each o name t1 ms) as [[[t2 o2] c2]| |]; cbn [bind]; try reflexivity.
    rewrite app_assoc. reflexivity.
Qed.

Fixpoint all_jobs (o : wopts) (titled : bool) (jobs : list job) : res (list Z * list complaint) :=
  match jobs with
  | [] => Ok ([], [])
  | j :: rest =>
    ' (t1, o1, c1) <- each o (j_name j) titled (j_messages j) ;;
    ' (o2, c2) <- all_jobs o t1 rest ;;
    Ok (o1 ++ o2, (c1 ++ j_trouble j) ++ c2)
  end.

Lemma process_jobs o jobs : Forall (job_of W (w_crex o)) jobs -> forall titled,
  process fixed W o titled (map j_name jobs) = all_jobs o titled jobs.
Proof.
  intros H. induction H as [|j jobs J H IH]; intros titled; [reflexivity|].
  cbn [map process all_jobs]. destruct j as [[n ms] tr]. unfold job_of in J. cbn [j_name j_messages j_trouble fst snd] in *.
  inversion J as [n' F|n' f ms' F D|n' f ms' e F D]; subst; rewrite F.
  - cbn [each bind]. rewrite IH. cbn [app]. destruct (all_jobs o titled jobs) as [[? ?]| |]; reflexivity.
  - rewrite (feed_each _ _ _ _ _ _ D) by lia. destruct (each o n titled ms) as [[[t1 o1] c1]| |]; cbn [bind]; try reflexivity.
    rewrite IH. destruct (all_jobs o t1 jobs) as [[? ?]| |]; cbn [bind last_words]; reflexivity.
  - rewrite (feed_each _ _ _ _ _ _ D) by lia. destruct (each o n titled ms) as [[[t1 o1] c1]| |]; cbn [bind]; try reflexivity.
    rewrite IH. destruct (all_jobs o t1 jobs) as [[? ?]| |]; cbn [bind last_words]; reflexivity.
Qed.

(** ** -U *)
Lemma guarded_returns {A} (r : res A) : returns r ->
  guarded (_ <- r ;; Ok tt) = Ok (match r with Err e => inr e | _ => inl tt end).
Proof. intros [U F]. destruct r as [a|e|]; cbn; try reflexivity; [|congruence]. destruct e; try reflexivity. congruence. Qed.

Lemma handle_unparsable o name titled off m : w_action o = UNPARSABLE -> decides W (w_crex o) m ->
  exists c, handle fixed W o name titled off m = Ok (titled, (if refused W (w_crex o) m then m else []), c).
Proof.
  intros A D. unfold handle, decides, refused in *. rewrite A. destruct (w_crex o);
    rewrite (guarded_returns _ D); cbn [bind]; [destruct (full_crex W m)|destruct (full_bufr W m)]; cbn [fails]; eauto.
Qed.

Lemma each_unparsable o name ms : w_action o = UNPARSABLE -> Forall (fun om => decides W (w_crex o) (snd om)) ms ->
  forall titled, exists c, each o name titled ms = Ok (titled, concat (filter (refused W (w_crex o)) (map snd ms)), c).
Proof.
  intros A H. induction H as [|[off m] ms D H IH]; intros titled; [exists []; reflexivity|].
  cbn [each]. cbn [snd] in D. destruct (handle_unparsable o name titled off m A D) as (c1 & ->). cbn [bind].
  destruct (IH titled) as (c2 & ->). cbn [bind map snd filter].
  destruct (refused W (w_crex o) m); cbn [concat app]; eauto.
Qed.

Lemma all_unparsable o jobs : w_action o = UNPARSABLE ->
  Forall (fun j => Forall (fun om => decides W (w_crex o) (snd om)) (j_messages j)) jobs ->
  forall titled, exists log, all_jobs o titled jobs =
    Ok (concat (map (fun j => concat (filter (refused W (w_crex o)) (map snd (j_messages j)))) jobs), log) /\
    (forall j c, In j jobs -> In c (j_trouble j) -> In c log).
Proof.
  intros A H. induction H as [|j jobs D H IH]; intros titled.
  - exists []. split; [reflexivity|]. intros j c [].
  - cbn [all_jobs]. destruct (each_unparsable o (j_name j) _ A D titled) as (c1 & ->). cbn [bind].
    destruct (IH titled) as (c2 & -> & T). cbn [bind map concat]. exists ((c1 ++ j_trouble j) ++ c2).
    split; [reflexivity|]. intros j' c [<-|I] Hc; apply in_or_app; [left; apply in_or_app; right; exact Hc|right; eapply T; eassumption].
Qed.

(** ** --print *)
Lemma find_varcode_first vars c v : find_varcode vars c = Some v <-> first_with c vars v.
Proof.
  unfold find_varcode, first_with. split.
  - induction vars as [|w vars IH]; cbn [find]; [discriminate|].
    destruct (Z.eqb_spec (c_code (v_cell w)) c) as [E|E].
    + intros H. injection H as <-. exists [], vars. repeat split; auto.
    + intros H. destruct (IH H) as (b & a & -> & Hc & F). exists (w :: b), a. repeat split; auto.
  - intros (b & a & -> & Hc & F). induction F as [|w b N F IH]; cbn [app find].
    + rewrite Hc, Z.eqb_refl. reflexivity.
    + destruct (Z.eqb_spec (c_code (v_cell w)) c) as [E|E]; [congruence|exact IH].
Qed.

Lemma find_varcode_none vars c : find_varcode vars c = None <-> Forall (fun w => c_code (v_cell w) <> c) vars.
Proof.
  unfold find_varcode. induction vars as [|w vars IH]; cbn [find].
  - split; auto.
  - destruct (Z.eqb_spec (c_code (v_cell w)) c) as [E|E]; split; intros H.
    + discriminate.
    + inversion H; subst; congruence.
    + constructor; [exact E|]. apply IH. exact H.
    + inversion H; subst. apply IH. assumption.
Qed.

Lemma print_codes_columns vars codes cols : columns fixed vars codes cols ->
  print_codes fixed codes vars = Ok (flat_map (fun s => 9 :: s) cols).
Proof.
  induction 1 as [|c cs v s cols F E C IH|c cs cols N C IH]; cbn [print_codes].
  - reflexivity.
  - apply find_varcode_first in F. rewrite F, E. cbn [bind]. rewrite IH. reflexivity.
  - apply find_varcode_none in N. rewrite N. cbn [bind]. rewrite IH. reflexivity.
Qed.

Lemma print_subsets_lines name codes ss colss : Forall2 (fun vars cols => columns fixed vars codes cols) ss colss ->
  forall n, print_subsets fixed name codes (Z.of_nat n) ss = Ok (print_lines name n colss).
Proof.
  induction 1 as [|vars cols ss colss C H IH]; intros n; cbn [print_subsets print_lines]; [reflexivity|].
  rewrite (print_codes_columns _ _ _ C). cbn [bind].
  replace (Z.of_nat n + 1) with (Z.of_nat (S n)) by lia. rewrite IH. cbn [bind]. unfold print_line.
  change (chars ":"%string) with [58]. rewrite <- !app_assoc. reflexivity.
Qed.

Lemma subsets_of_eq (crex : bool) m :
  (if crex then b <- full_crex W m ;; Ok (cb_subsets b) else b <- full_bufr W m ;; Ok (b_subsets b)) = subsets_of W crex m.
Proof. unfold subsets_of. destruct crex; [destruct (full_crex W m)|destruct (full_bufr W m)]; reflexivity. Qed.

Lemma handle_print o name titled om t c : w_action o = PRINT_VARS -> printed fixed W (w_crex o) (w_codes o) name om t c ->
  handle fixed W o name titled (fst om) (snd om) = Ok (titled, t, c).
Proof.
  intros A H. unfold handle. rewrite A, subsets_of_eq. destruct H as [off m ss colss S C|off m e S F]; cbn [fst snd]; rewrite S; cbn [bind].
  - change 1 with (Z.of_nat 1). rewrite (print_subsets_lines _ _ _ _ C). reflexivity.
  - destruct e; try reflexivity. congruence.
Qed.

(** ** One message after the other *)
Lemma each_one_by_one o (P : list Z -> Z * list Z -> list Z -> list complaint -> Prop) name ms t c :
  (forall titled om t c, P name om t c -> handle fixed W o name titled (fst om) (snd om) = Ok (titled, t, c)) ->
  one_by_one (P name) ms t c -> forall titled, each o name titled ms = Ok (titled, t, c).
Proof.
  intros HP H. induction H as [|[off m] t c l ts cs H1 H IH]; intros titled; cbn [each]; [reflexivity|].
  assert (HP' := HP titled _ _ _ H1). cbn [fst snd] in HP'. rewrite HP'. cbn [bind]. rewrite IH. reflexivity.
Qed.

Lemma all_one_by_one o (P : list Z -> Z * list Z -> list Z -> list complaint -> Prop) jobs t c :
  (forall name titled om t c, P name om t c -> handle fixed W o name titled (fst om) (snd om) = Ok (titled, t, c)) ->
  one_by_one (in_job P) jobs t c -> forall titled, all_jobs o titled jobs = Ok (t, c).
Proof.
  intros HP H. induction H as [|j t c l ts cs (c' & H1 & ->) H IH]; intros titled; cbn [all_jobs]; [reflexivity|].
  rewrite (each_one_by_one o P _ _ _ _ (HP _) H1). cbn [bind]. rewrite IH. reflexivity.
Qed.
End Loops.

(** ** The command line *)
Lemma scan_operand n rest : operand n -> scan_args (n :: rest) = let (es, names) := scan_args rest in (es, n :: names).
Proof.
  intros O. destruct n as [|c0 n]; [reflexivity|].
  destruct (Z.eq_dec c0 45) as [->|N].
  - destruct n as [|c1 n]; [reflexivity|contradiction].
  - cbn [scan_args]. destruct c0 as [|p|p]; try reflexivity.
    repeat (destruct p as [p|p|]; try reflexivity). congruence.
Qed.

Lemma scan_operands names : Forall operand names -> scan_args names = ([], names).
Proof. induction 1 as [|n names O H IH]; [reflexivity|]. rewrite (scan_operand n names O), IH. reflexivity. Qed.

Lemma after_comma_format c x : 0 <= c < 2 ^ 16 -> after_comma (varcode_format c ++ 44 :: x) = Some x.
Proof.
  intros R. assert (P := pack_unpack c R). unfold varcode_format.
  assert (Hx : 0 <= var_x c / 10 <= 6 /\ 0 <= var_x c mod 10 <= 9) by (Z.to_euclidean_division_equations; lia).
  assert (Hy : 0 <= var_y c / 100 <= 2 /\ 0 <= (var_y c / 10) mod 10 <= 9 /\ 0 <= var_y c mod 10 <= 9)
    by (Z.to_euclidean_division_equations; lia).
  assert (Hf : nth (Z.to_nat (var_f c)) [66; 82; 67; 68] 0 <> 44).
  { assert (E : (Z.to_nat (var_f c) < 4)%nat) by lia. destruct (Z.to_nat (var_f c)) as [|[|[|[|k]]]]; cbn; lia. }
  cbn [app after_comma].
  destruct (Z.eqb_spec (nth (Z.to_nat (var_f c)) [66; 82; 67; 68] 0) 44); [congruence|].
  repeat match goal with |- context [if ?a =? 44 then _ else _] => replace (a =? 44) with false by lia end.
  reflexivity.
Qed.

Lemma after_comma_none c : 0 <= c < 2 ^ 16 -> after_comma (varcode_format c) = None.
Proof.
  intros R. assert (P := pack_unpack c R). unfold varcode_format.
  assert (Hx : 0 <= var_x c / 10 <= 6 /\ 0 <= var_x c mod 10 <= 9) by (Z.to_euclidean_division_equations; lia).
  assert (Hy : 0 <= var_y c / 100 <= 2 /\ 0 <= (var_y c / 10) mod 10 <= 9 /\ 0 <= var_y c mod 10 <= 9)
    by (Z.to_euclidean_division_equations; lia).
  assert (Hf : nth (Z.to_nat (var_f c)) [66; 82; 67; 68] 0 <> 44).
  { assert (E : (Z.to_nat (var_f c) < 4)%nat) by lia. destruct (Z.to_nat (var_f c)) as [|[|[|[|k]]]]; cbn; lia. }
  cbn [after_comma].
  destruct (Z.eqb_spec (nth (Z.to_nat (var_f c)) [66; 82; 67; 68] 0) 44); [congruence|].
  repeat match goal with |- context [if ?a =? 44 then _ else _] => replace (a =? 44) with false by lia end.
  reflexivity.
Qed.

Lemma parse_prefix a b c d e f x : varcode_parse (Some (a :: b :: c :: d :: e :: f :: x)) = varcode_parse (Some [a; b; c; d; e; f]).
Proof. reflexivity. Qed.

Lemma parse_format_app c x : 0 <= c < 2 ^ 16 -> varcode_parse (Some (varcode_format c ++ x)) = Ok c.
Proof. intros R. rewrite <- (parse_format c R). unfold varcode_format. cbn [app]. apply parse_prefix. Qed.

Lemma codes_from_list codes : Forall (fun c => 0 <= c < 2 ^ 16) codes -> forall fuel, (length (code_list codes) < fuel)%nat ->
  codes_from fuel (code_list codes) = Ok codes.
Proof.
  induction 1 as [|c codes R H IH]; intros fuel L; (destruct fuel as [|fuel]; [lia|]); [reflexivity|].
  destruct codes as [|c2 codes].
  - cbn [code_list codes_from]. change (Nat.ltb (length (varcode_format c)) 6) with false. cbv iota.
    rewrite (parse_format c R). cbn [bind]. rewrite (after_comma_none c R). reflexivity.
  - change (code_list (c :: c2 :: codes)) with (varcode_format c ++ 44 :: code_list (c2 :: codes)) in *.
    cbn [codes_from]. change (Nat.ltb (length (varcode_format c ++ 44 :: code_list (c2 :: codes))) 6) with false. cbv iota.
    rewrite (parse_format_app c _ R). cbn [bind]. rewrite (after_comma_format c _ R).
    rewrite IH by (rewrite app_length in L; cbn [length] in L; lia). reflexivity.
Qed.

Lemma init_varcodes_list codes : Forall (fun c => 0 <= c < 2 ^ 16) codes -> init_varcodes (Some (code_list codes)) = Ok codes.
Proof. intros H. apply codes_from_list; [exact H|lia]. Qed.

Lemma after_comma_shorter s x : after_comma s = Some x -> (length x < length s)%nat.
Proof. induction s as [|c s IH]; cbn [after_comma]; [discriminate|]. destruct (c =? 44); [intros H; injection H as <-; cbn; lia|intros H; apply IH in H; cbn; lia]. Qed.

Lemma parse_long_defined s : (6 <= length s)%nat -> (exists c, varcode_parse (Some s) = Ok c) \/ varcode_parse (Some s) = Err EConsistency.
Proof.
  intros L. do 6 (destruct s as [|? s]; [cbn in L; lia|]). rewrite parse_prefix.
  unfold varcode_parse. cbn [cchar nth_error bind].
  destruct (_ =? 0); [auto|]. cbn [check_digits cchar nth_error bind].
  repeat match goal with |- context [if negb (?a =? 0) && ?b then _ else _] => destruct (negb (a =? 0) && b); [cbn [bind]; auto|] end.
  cbn [bind]. eauto.
Qed.

Lemma codes_from_defined : forall fuel s, (length s < fuel)%nat ->
  (exists cs, codes_from fuel s = Ok cs) \/ codes_from fuel s = Err EConsistency.
Proof.
  induction fuel as [|fuel IH]; intros s L; [lia|]. cbn [codes_from].
  destruct (Nat.ltb_spec (length s) 6) as [G|G]; [eauto|].
  destruct (parse_long_defined s G) as [(c & ->)| ->]; cbn [bind]; [|auto].
  destruct (after_comma s) as [x|] eqn:E; [|eauto]. apply after_comma_shorter in E.
  destruct (IH x ltac:(lia)) as [(cs & ->)| ->]; cbn [bind]; eauto.
Qed.

Lemma init_varcodes_defined a : (exists cs, init_varcodes a = Ok cs) \/ init_varcodes a = Err EConsistency.
Proof. destruct a as [s|]; cbn [init_varcodes]; [apply codes_from_defined; lia|eauto]. Qed.

Lemma set_options_defined es : forall o, (exists r, set_options o es = Ok r) \/ set_options o es = Err EConsistency.
Proof.
  induction es as [|[c a|] es IH]; intros o; cbn [set_options]; eauto.
  destruct (c =? 99); [cbn [bind]; apply IH|]. destruct (c =? 118); [cbn [bind]; apply IH|].
  destruct (c =? 100); [cbn [bind]; apply IH|]. destruct (c =? 116); [cbn [bind]; apply IH|].
  destruct (c =? 115); [cbn [bind]; apply IH|]. destruct (c =? 68); [cbn [bind]; apply IH|].
  destruct (c =? 112).
  - destruct (init_varcodes_defined a) as [(cs & ->)| ->]; cbn [bind]; [apply IH|auto].
  - repeat match goal with |- context [if ?b then _ else _] => destruct b; [cbn [bind]; apply IH|] end. cbn [bind]. eauto.
Qed.

(** ** -T *)
Section Tables.
Context (fixed : nat -> f64 -> list Z) (W : world).

Lemma tabbed_eq l : tabbed l = tab_separated l.
Proof.
  destruct l as [|f l]; [reflexivity|]. cbn [tabbed]. revert f. induction l as [|g l IH]; intros f.
  - cbn [flat_map tab_separated]. apply app_nil_r.
  - cbn [flat_map]. change (tab_separated (f :: g :: l)) with (f ++ [9] ++ tab_separated (g :: l)). rewrite <- IH. reflexivity.
Qed.

Lemma table_line_eq (crex : bool) name om :
  (if crex then b <- full_crex W (snd om) ;; Ok (crex_title, crex_row name (fst om) b)
   else b <- head_bufr W (snd om) ;; Ok (bufr_title name, bufr_row name (fst om) b)) = table_line W crex name om.
Proof.
  unfold table_line, crex_title, crex_row, bufr_title, bufr_row.
  destruct crex; [destruct (full_crex W (snd om))|destruct (head_bufr W (snd om))]; cbn [bind]; try reflexivity; rewrite !tabbed_eq; reflexivity.
Qed.

Definition found_lines (crex : bool) (name : list Z) (ms : list (Z * list Z)) : list (list Z * list Z) :=
  flat_map (fun om => match table_line W crex name om with Ok x => [x] | _ => [] end) ms.

Definition some_line (l : list (list Z * list Z)) : bool := match l with [] => false | _ => true end.

Lemma some_line_app a b : some_line (a ++ b) = some_line a || some_line b.
Proof. destruct a; reflexivity. Qed.

Definition titled_text (titled : bool) (l : list (list Z * list Z)) : list Z :=
  if titled then concat (map snd l) else with_title l.

Lemma titled_text_app titled a b :
  titled_text titled (a ++ b) = titled_text titled a ++ titled_text (titled || some_line a) b.
Proof.
  unfold titled_text. destruct titled; cbn [orb].
  - rewrite map_app, concat_app. reflexivity.
  - destruct a as [|[t r] a]; [reflexivity|]. cbn [app with_title some_line map concat snd].
    rewrite map_app, concat_app, <- !app_assoc. reflexivity.
Qed.

Lemma guarded_ok {A} (r : res A) : returns r -> guarded r = Ok (match r with Ok a => inl a | Err e => inr e | UB => inr EFuel end).
Proof. intros [U F]. destruct r as [a|e|]; cbn; try reflexivity; [|congruence]. destruct e; try reflexivity. congruence. Qed.

Lemma handle_tables o name titled om : w_action o = TABLES -> returns (table_line W (w_crex o) name om) ->
  exists c, handle fixed W o name titled (fst om) (snd om) =
    Ok (titled || some_line (found_lines (w_crex o) name [om]), titled_text titled (found_lines (w_crex o) name [om]), c).
Proof.
  intros A R. unfold handle. rewrite A, table_line_eq, (guarded_ok _ R).
  unfold found_lines. cbn [flat_map bind]. destruct (table_line W (w_crex o) name om) as [[t r]|e|]; cbn [bind app some_line].
  - eexists. unfold titled_text, with_title. cbn [map concat snd]. rewrite app_nil_r.
    destruct titled; cbn [orb]; reflexivity.
  - rewrite orb_false_r. eexists. destruct titled; reflexivity.
  - destruct R as [[] _]. reflexivity.
Qed.

Lemma each_tables o name ms : w_action o = TABLES -> Forall (fun om => returns (table_line W (w_crex o) name om)) ms ->
  forall titled, exists c, each fixed W o name titled ms =
    Ok (titled || some_line (found_lines (w_crex o) name ms), titled_text titled (found_lines (w_crex o) name ms), c).
Proof.
  intros A H. induction H as [|[off m] ms D H IH]; intros titled.
  - exists []. cbn [each found_lines flat_map some_line]. rewrite orb_false_r. destruct titled; reflexivity.
  - cbn [each]. destruct (handle_tables o name titled (off, m) A D) as (c1 & H1). cbn [fst snd] in H1. rewrite H1. cbn [bind].
    destruct (IH (titled || some_line (found_lines (w_crex o) name [(off, m)]))) as (c2 & ->). cbn [bind]. exists (c1 ++ c2).
    assert (E : found_lines (w_crex o) name ((off, m) :: ms) = found_lines (w_crex o) name [(off, m)] ++ found_lines (w_crex o) name ms)
      by (unfold found_lines; cbn [flat_map]; rewrite app_nil_r; reflexivity).
    rewrite E, titled_text_app, some_line_app, orb_assoc. reflexivity.
Qed.

Lemma all_tables o jobs : w_action o = TABLES ->
  Forall (fun j => Forall (fun om => returns (table_line W (w_crex o) (j_name j) om)) (j_messages j)) jobs ->
  forall titled, exists log, all_jobs fixed W o titled jobs = Ok (titled_text titled (table_lines W (w_crex o) jobs), log).
Proof.
  intros A H. induction H as [|j jobs D H IH]; intros titled.
  - exists []. destruct titled; reflexivity.
  - cbn [all_jobs]. destruct (each_tables o (j_name j) _ A D titled) as (c1 & ->). cbn [bind].
    destruct (IH (titled || some_line (found_lines (w_crex o) (j_name j) (j_messages j)))) as (c2 & ->). cbn [bind].
    eexists. unfold table_lines at 2. cbn [flat_map]. fold (table_lines W (w_crex o) jobs). rewrite titled_text_app. reflexivity.
Qed.
End Tables.

(** ** The command lines of the theorems *)
Section Lines.
Context (fixed : nat -> f64 -> list Z) (W : world).

Definition with_action (crex : bool) (a : action) (codes : list Z) : wopts := mkwopts crex false a codes.

Definition on_files (a : action) : bool := match a with HELP | INFO | LIST_TABLES => false | _ => true end.

Lemma wrep_files args es names o : scan_args args = (es, names) -> set_options wopts_init es = Ok (Some o) ->
  names <> [] -> on_files (w_action o) = true ->
  wrep fixed W args = (' (out, log) <- process fixed W o false names ;; Ok (Exit 0 out log)).
Proof.
  intros S O N A. unfold wrep. rewrite S, O. cbn [guarded bind].
  destruct names; [congruence|]. destruct (w_action o); try discriminate; reflexivity.
Qed.

Lemma scan_crex crex rest : scan_args (crex_flag crex ++ rest) =
  let (es, names) := scan_args rest in ((if crex then [Opt 99 None] else []) ++ es, names).
Proof. destruct crex; cbn [crex_flag app]; [reflexivity|destruct (scan_args rest); reflexivity]. Qed.

Lemma scan_unparsable rest : scan_args (chars "-U"%string :: rest) = let (es, names) := scan_args rest in (Opt 85 None :: es, names).
Proof. reflexivity. Qed.

Lemma scan_tables rest : scan_args (chars "-T"%string :: rest) = let (es, names) := scan_args rest in (Opt 84 None :: es, names).
Proof. reflexivity. Qed.

Lemma scan_print v rest : scan_args ((chars "--print="%string ++ v) :: rest) =
  let (es, names) := scan_args rest in (Opt 112 (Some v) :: es, names).
Proof. reflexivity. Qed.

Lemma wrep_unparsable crex names : Forall operand names -> names <> [] ->
  wrep fixed W (crex_flag crex ++ chars "-U"%string :: names) =
  (' (out, log) <- process fixed W (with_action crex UNPARSABLE []) false names ;; Ok (Exit 0 out log)).
Proof.
  intros O N. eapply wrep_files; [| |exact N|reflexivity].
  - rewrite scan_crex, scan_unparsable, (scan_operands names O). reflexivity.
  - destruct crex; reflexivity.
Qed.

Lemma wrep_tables crex names : Forall operand names -> names <> [] ->
  wrep fixed W (crex_flag crex ++ chars "-T"%string :: names) =
  (' (out, log) <- process fixed W (with_action crex TABLES []) false names ;; Ok (Exit 0 out log)).
Proof.
  intros O N. eapply wrep_files; [| |exact N|reflexivity].
  - rewrite scan_crex, scan_tables, (scan_operands names O). reflexivity.
  - destruct crex; reflexivity.
Qed.

Lemma wrep_print crex codes names : Forall (fun c => 0 <= c < 2 ^ 16) codes -> Forall operand names -> names <> [] ->
  wrep fixed W (crex_flag crex ++ (chars "--print="%string ++ code_list codes) :: names) =
  (' (out, log) <- process fixed W (with_action crex PRINT_VARS codes) false names ;; Ok (Exit 0 out log)).
Proof.
  intros C O N. eapply (wrep_files _ ((if crex then [Opt 99 None] else []) ++ [Opt 112 (Some (code_list codes))])); [| |exact N|reflexivity].
  - rewrite scan_crex, scan_print, (scan_operands names O). reflexivity.
  - assert (E := init_varcodes_list codes C). destruct crex; cbn [app set_options wopts_init w_crex w_verbose w_action w_codes bind Z.eqb Pos.eqb];
      rewrite E; reflexivity.
Qed.
End Lines.

(** ** Always an end *)
Section Ends.
Context (fixed : nat -> f64 -> list Z) (W : world) (B : comes_back fixed W).

Lemma print_codes_ok codes vars : (forall v, In v vars -> exists s, format fixed (v_cell v) [] = Ok s) ->
  exists t, print_codes fixed codes vars = Ok t.
Proof.
  intros H. induction codes as [|c codes (t & IH)]; cbn [print_codes]; [eauto|]. rewrite IH.
  destruct (find_varcode vars c) as [v|] eqn:F; cbn [bind]; [|eauto].
  apply find_some in F as [F _]. destruct (H v F) as (s & ->). cbn [bind]. eauto.
Qed.

Lemma print_subsets_ok name codes ss : (forall vars v, In vars ss -> In v vars -> exists s, format fixed (v_cell v) [] = Ok s) ->
  forall n, exists t, print_subsets fixed name codes n ss = Ok t.
Proof.
  induction ss as [|vars ss IH]; intros H n; cbn [print_subsets]; [eauto|].
  destruct (print_codes_ok codes vars (fun v => H vars v (or_introl eq_refl))) as (l & ->). cbn [bind].
  destruct (IH (fun vars v I => H vars v (or_intror I)) (n + 1)) as (t & ->). cbn [bind]. eauto.
Qed.

Lemma line_ok (r : res (list Z)) (titled : bool) name off : returns r -> exists x,
  (g <- guarded r ;; match g with inl t => Ok (titled, t, []) | inr e => Ok (titled, [], [InMessage name off e]) end) = Ok x.
Proof. intros R. rewrite (guarded_ok _ R). cbn [bind]. destruct r; eauto. Qed.

Lemma handle_ok o name titled off m : exists x, handle fixed W o name titled off m = Ok x.
Proof.
  unfold handle. destruct (w_action o);
    try (destruct (cb_other _ _ B DUMP (w_crex o) name off m) as ([t e] & ->); cbn [bind]; eauto; fail);
    try (destruct (cb_other _ _ B DUMP_STRUCTURE (w_crex o) name off m) as ([t e] & ->); cbn [bind]; eauto; fail);
    try (destruct (cb_other _ _ B DUMP_DDS (w_crex o) name off m) as ([t e] & ->); cbn [bind]; eauto; fail);
    try (destruct (cb_other _ _ B TRACE (w_crex o) name off m) as ([t e] & ->); cbn [bind]; eauto; fail);
    try (destruct (cb_other _ _ B INFO (w_crex o) name off m) as ([t e] & ->); cbn [bind]; eauto; fail);
    try (destruct (cb_other _ _ B LIST_TABLES (w_crex o) name off m) as ([t e] & ->); cbn [bind]; eauto; fail);
    try (destruct (cb_other _ _ B HELP (w_crex o) name off m) as ([t e] & ->); cbn [bind]; eauto; fail).
  - rewrite subsets_of_eq. apply line_ok. assert (F := cb_format _ _ B (w_crex o) m).
    assert (R : returns (subsets_of W (w_crex o) m)).
    { assert (R1 := cb_full_bufr _ _ B m). assert (R2 := cb_full_crex _ _ B m). unfold subsets_of, returns in *. destruct (w_crex o).
      - destruct (full_crex W m); destruct R2; split; congruence.
      - destruct (full_bufr W m); destruct R1; split; congruence. }
    destruct (subsets_of W (w_crex o) m) as [ss|e|]; cbn [bind].
    + destruct (print_subsets_ok name (w_codes o) ss (fun vars v => F ss vars v eq_refl) 1) as (t & P).
      unfold returns. rewrite P. split; discriminate.
    + destruct R as [_ R]. split; [discriminate|]. intros E. apply R. injection E as ->. reflexivity.
    + destruct R as [[] _]. reflexivity.
  - destruct (w_crex o).
    + rewrite (guarded_returns _ (cb_full_crex _ _ B m)). cbn [bind]. destruct (full_crex W m); eauto.
    + rewrite (guarded_returns _ (cb_full_bufr _ _ B m)). cbn [bind]. destruct (full_bufr W m); eauto.
  - assert (X := table_line_eq W (w_crex o) name (off, m)). cbn [fst snd] in X. rewrite X.
    assert (R : returns (table_line W (w_crex o) name (off, m))).
    { assert (R1 := cb_head_bufr _ _ B m). assert (R2 := cb_full_crex _ _ B m). unfold table_line, returns in *. cbn [snd]. destruct (w_crex o).
      - destruct (full_crex W m); destruct R2; split; congruence.
      - destruct (head_bufr W m); destruct R1; split; congruence. }
    rewrite (guarded_ok _ R). cbn [bind]. destruct (table_line W (w_crex o) name (off, m)) as [[? ?]| |]; eauto.
  - apply line_ok. assert (R := cb_features _ _ B (w_crex o) m). unfold returns in *.
    destruct (features W (w_crex o) m); cbn [bind]; destruct R; split; congruence.
Qed.

Lemma feed_ok o name : forall fuel titled pos file, (length file < fuel)%nat -> exists x, feed fixed W fuel o name titled pos file = Ok x.
Proof.
  intros fuel titled pos file L. destruct (delivers_total (w_crex o) (S (length file)) file pos ltac:(lia)) as (ms & e & D).
  rewrite (feed_each fixed W o name pos file ms e D fuel titled L).
  assert (E : forall titled, exists x, each fixed W o name titled ms = Ok x).
  { clear - B. induction ms as [|[off m] ms IH]; intros titled; cbn [each]; [eauto|].
    destruct (handle_ok o name titled off m) as ([[t1 o1] c1] & ->). cbn [bind]. destruct (IH t1) as ([[t2 o2] c2] & ->). cbn [bind]. eauto. }
  destruct (E titled) as ([[t o1] c1] & ->). cbn [bind]. eauto.
Qed.

Lemma process_ok o names : forall titled, exists x, process fixed W o titled names = Ok x.
Proof.
  induction names as [|n names IH]; intros titled; cbn [process]; [eauto|].
  destruct (files W n) as [f|].
  - destruct (feed_ok o n (S (length f)) titled 0 f ltac:(lia)) as ([[t1 o1] c1] & ->). cbn [bind].
    destruct (IH t1) as ([o2 c2] & ->). cbn [bind]. eauto.
  - cbn [bind]. destruct (IH titled) as ([o2 c2] & ->). cbn [bind]. eauto.
Qed.

Lemma wrep_ends args : (exists status out log, wrep fixed W args = Ok (Exit status out log) /\ (status = 0 \/ status = 1)) \/
  wrep fixed W args = Ok (Terminated EConsistency).
Proof.
  unfold wrep. destruct (scan_args args) as [es names].
  destruct (set_options_defined es wopts_init) as [(r & ->)| ->]; cbn [guarded bind]; [|auto]. left.
  destruct r as [o|]; [|eexists _, _, _; split; [reflexivity|auto]].
  destruct (process_ok o names false) as ([out log] & P).
  destruct (w_action o); try (eexists _, _, _; split; [reflexivity|auto]; fail);
    (destruct names as [|n names]; [eexists _, _, _; split; [reflexivity|auto]|]); rewrite P; cbn [bind];
    eexists _, _, _; (split; [reflexivity|auto]).
Qed.
End Ends.

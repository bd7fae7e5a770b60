(** Table D: loading a file and looking up codes. *)
From Coq Require Import Sorting.Sorted ZifyBool ZifyNat String.
From Verif Require Import Base Bits.Spec Varcode.Model Varcode.Proofs Varinfo.Model Tables.Model Tables.Spec Tables.Proofs.
Local Open Scope Z_scope.

Definition good_line (l : list Z) : Prop :=
  exists b, l = b ++ [10] /\ Forall (fun c => c <> 10 /\ c <> 0) b /\ (length b <= 198)%nat.

Lemma fgets_good b rest : Forall (fun c => c <> 10 /\ c <> 0) b -> forall n, (length b < n)%nat ->
  fgets_line n ((b ++ [10]) ++ rest) = (b ++ [10], rest).
Proof.
  induction 1 as [|c b [H _] F IH]; intros n L; destruct n as [|n]; cbn in *; try lia; auto.
  replace (c =? 10) with false by lia. rewrite IH by lia. reflexivity.
Qed.

Lemma cstr_good b : Forall (fun c => c <> 10 /\ c <> 0) b -> cstr (b ++ [10]) = b ++ [10].
Proof.
  induction 1 as [|c b [_ H] F IH]; cbn; auto. replace (c =? 0) with false by lia. rewrite IH. reflexivity.
Qed.

Lemma fgets_all_lines ls : Forall good_line ls -> forall fuel, (length (concat ls) <= fuel)%nat ->
  fgets_all fuel (concat ls) = ls.
Proof.
  induction 1 as [|l ls (b & -> & F & L) G IH]; intros fuel Hf; cbn [concat] in *; [destruct fuel; reflexivity|].
  rewrite app_length, app_length in Hf. cbn in Hf. destruct fuel as [|fuel]; [lia|].
  cbn [fgets_all]. rewrite (fgets_good b) by (auto; lia).
  destruct ((b ++ [10]) ++ concat ls) eqn:E.
  { apply (f_equal (@length Z)) in E. rewrite !app_length in E. cbn in E. lia. }
  rewrite cstr_good by auto. rewrite IH; auto. lia.
Qed.

Lemma file_lines_spec ls : Forall good_line ls -> file_lines (concat ls) = ls.
Proof. intros H. apply fgets_all_lines; auto. Qed.

(** Characters of a formatted code. *)
Lemma format_chars c : 0 <= c < 2 ^ 16 -> length (varcode_format c) = 6%nat /\
  Forall (fun ch => 48 <= ch <= 82) (varcode_format c).
Proof.
  intros H. split; [reflexivity|]. unfold varcode_format.
  destruct (pack_unpack c H) as (Hf & Hx & Hy & _).
  assert (nth (Z.to_nat (var_f c)) [66; 82; 67; 68] 0 = 66 \/ nth (Z.to_nat (var_f c)) [66; 82; 67; 68] 0 = 82 \/
    nth (Z.to_nat (var_f c)) [66; 82; 67; 68] 0 = 67 \/ nth (Z.to_nat (var_f c)) [66; 82; 67; 68] 0 = 68).
  { destruct (Z.eq_dec (var_f c) 0) as [->|]; [auto|]. destruct (Z.eq_dec (var_f c) 1) as [->|]; [auto|].
    destruct (Z.eq_dec (var_f c) 2) as [->|]; [auto|]. replace (var_f c) with 3 by lia. auto. }
  assert (forall a, 0 <= a mod 10 < 10) by (intros; apply Z.mod_pos_bound; lia).
  assert (0 <= var_x c / 10 <= 6). { split; [apply Z.div_pos; lia|]. apply Z.lt_succ_r. apply Z.div_lt_upper_bound; lia. }
  assert (0 <= var_y c / 100 <= 2). { split; [apply Z.div_pos; lia|]. apply Z.lt_succ_r. apply Z.div_lt_upper_bound; lia. }
  pose proof (H1 (var_x c)). pose proof (H1 (var_y c)). pose proof (H1 (var_y c / 10)).
  repeat constructor; lia.
Qed.

Lemma cchar_app s t i : (i < length s)%nat -> cchar (s ++ t) i = cchar s i.
Proof.
  intros H. unfold cchar. rewrite nth_error_app1 by auto. destruct (nth_error s i) eqn:E; auto.
  apply nth_error_None in E. lia.
Qed.

Lemma parse_app s t : (6 <= length s)%nat -> varcode_parse (Some (s ++ t)) = varcode_parse (Some s).
Proof.
  intros H. unfold varcode_parse. cbn [check_digits]. rewrite !cchar_app by lia. reflexivity.
Qed.

Lemma parse_format_app c t : 0 <= c < 2 ^ 16 -> varcode_parse (Some (varcode_format c ++ t)) = Ok c.
Proof. intros H. rewrite parse_app by reflexivity. apply parse_format. auto. Qed.

Lemma skip_space_chars s t : Forall (fun ch => 48 <= ch <= 82) s -> s <> [] -> skip_space (s ++ t) = s ++ t.
Proof.
  intros F N. destruct s as [|c s]; [congruence|]. inversion F; subst. cbn.
  unfold c_isspace. replace ((c =? 32) || (9 <=? c) && (c <=? 13)) with false by lia. reflexivity.
Qed.

Lemma strtoul_dec3 n rest : 1 <= n <= 999 -> c_strtoul (dec3 n ++ 32 :: rest) = (n, 32 :: rest).
Proof.
  intros H. unfold dec3.
  assert (Dig : forall a, 0 <= a < 10 -> c_isdigit (48 + a) = true) by (intros; unfold c_isdigit; lia).
  assert (Nsp : forall a, 0 <= a < 10 -> c_isspace (48 + a) = false) by (intros; unfold c_isspace; lia).
  pose proof (Z.div_mod n 10 ltac:(lia)). pose proof (Z.mod_pos_bound n 10 ltac:(lia)).
  pose proof (Z.div_mod (n / 10) 10 ltac:(lia)). pose proof (Z.mod_pos_bound (n / 10) 10 ltac:(lia)).
  assert (n / 100 = n / 10 / 10) by (rewrite Z.div_div by lia; reflexivity).
  destruct (Z.ltb_spec n 10); [|destruct (Z.ltb_spec n 100)].
  - unfold c_strtoul. cbn [app skip_space]. change (c_isspace 32) with true. cbv iota.
    rewrite Nsp by lia. replace (48 + n =? 45) with false by lia. replace (48 + n =? 43) with false by lia.
    rewrite Dig by lia. cbn [scan_digits]. rewrite Dig by lia. cbn [scan_digits]. change (c_isdigit 32) with false.
    cbv iota. replace (2 ^ 64 <=? 0 * 10 + (48 + n - 48)) with false by lia. f_equal. lia.
  - unfold c_strtoul. cbn [app skip_space]. change (c_isspace 32) with true. cbv iota.
    rewrite Nsp by lia. replace (48 + n / 10 =? 45) with false by lia. replace (48 + n / 10 =? 43) with false by lia.
    rewrite Dig by lia. cbn [scan_digits]. rewrite !Dig by lia. cbn [scan_digits]. change (c_isdigit 32) with false.
    cbv iota.
    match goal with |- context [2 ^ 64 <=? ?x] => replace x with n by lia end.
    replace (2 ^ 64 <=? n) with false by lia. reflexivity.
  - unfold c_strtoul. cbn [app skip_space].
    rewrite Nsp by lia. replace (48 + n / 100 =? 45) with false by lia. replace (48 + n / 100 =? 43) with false by lia.
    rewrite Dig by lia. cbn [scan_digits]. rewrite !Dig by lia. cbn [scan_digits]. change (c_isdigit 32) with false.
    cbv iota.
    match goal with |- context [2 ^ 64 <=? ?x] => replace x with n by lia end.
    replace (2 ^ 64 <=? n) with false by lia. reflexivity.
Qed.

Lemma dec3_chars n : 1 <= n <= 999 -> length (dec3 n) = 3%nat /\ Forall (fun ch => ch <> 10 /\ ch <> 0) (dec3 n).
Proof.
  intros H. unfold dec3.
  pose proof (Z.mod_pos_bound n 10 ltac:(lia)). pose proof (Z.mod_pos_bound (n / 10) 10 ltac:(lia)).
  assert (0 <= n / 10) by (apply Z.div_pos; lia). assert (0 <= n / 100) by (apply Z.div_pos; lia).
  destruct (n <? 10); [|destruct (n <? 100)]; split; auto; repeat constructor; lia.
Qed.

(** ** The loader on the text of a list of blocks *)

Fixpoint entries_of (off : nat) (bs : list dblock) : list dentry :=
  match bs with
  | [] => []
  | (c, cs) :: rest => mkdentry c off (off + length cs) :: entries_of (off + length cs) rest
  end.

Lemma entries_of_app bs b : forall off, entries_of off (bs ++ [b]) =
  entries_of off bs ++ [mkdentry (fst b) (off + length (concat (map snd bs))) (off + length (concat (map snd bs)) + length (snd b))].
Proof.
  induction bs as [|[c cs] bs IH]; intros off; cbn [entries_of app map concat].
  - destruct b as [c cs]. cbn. rewrite !Nat.add_0_r. reflexivity.
  - rewrite IH. cbn [app]. f_equal. f_equal. f_equal. rewrite app_length. cbn [snd]. f_equal; lia.
Qed.

Lemma lines_good b : dblock_ok b -> Forall good_line (render_block b).
Proof.
  destruct b as [c cs]. intros (_ & Hc & Hl & F). cbn in *. unfold render_block. cbn [fst snd].
  destruct cs as [|c1 cs]; [constructor|]. inversion F as [|? ? H1 F']; subst.
  destruct (format_chars c Hc) as [L0 F0]. destruct (format_chars c1 H1) as [L1 F1].
  set (n := Z.of_nat (length (c1 :: cs))) in *.
  destruct (dec3_chars n) as [L2 F2]; [unfold n; lia|]. clearbody n.
  assert (W : forall s, Forall (fun ch => 48 <= ch <= 82) s -> Forall (fun ch => ch <> 10 /\ ch <> 0) s).
  { intros s Hs. eapply Forall_impl; [|exact Hs]. cbn. intros; lia. }
  constructor.
  - exists (32 :: varcode_format c ++ dec3 n ++ 32 :: varcode_format c1).
    split; [cbn [app]; rewrite <- !app_assoc; cbn [app]; reflexivity|]. split.
    + constructor; [lia|]. apply Forall_app. split; auto. apply Forall_app. split; auto. constructor; auto. lia.
    + cbn [length]. rewrite !app_length. cbn [length]. rewrite L0, L1, L2. lia.
  - apply Forall_map. eapply Forall_impl; [|exact F']. cbn. intros ch Hch.
    destruct (format_chars ch Hch) as [L F3]. exists (repeat 32 11 ++ varcode_format ch).
    split; [rewrite <- app_assoc; reflexivity|]. split.
    + apply Forall_app. split; auto. apply Forall_forall. intros x Hx. apply repeat_spec in Hx. lia.
    + rewrite app_length, repeat_length, L. lia.
Qed.

Lemma render_lines_good bs : Forall dblock_ok bs -> Forall good_line (concat (map render_block bs)).
Proof.
  induction 1 as [|b bs H F IH]; cbn; [constructor|]. apply Forall_app. split; auto. apply lines_good; auto.
Qed.

Lemma dtable_lines_app d l1 l2 : dtable_lines d (l1 ++ l2) = d' <- dtable_lines d l1 ;; dtable_lines d' l2.
Proof.
  revert d. induction l1 as [|l l1 IH]; intros d; cbn; auto.
  destruct (dtable_line d l); cbn; auto.
Qed.

(** Continuation lines. *)
Lemma cont_lines cs : Forall (fun c => 0 <= c < 2 ^ 16) cs -> forall codes entries code begin check,
  codes <> [] -> (begin <= length codes)%nat ->
  Z.of_nat (length codes) - Z.of_nat begin + Z.of_nat (length cs) <= check ->
  dtable_lines (mkdload codes entries code begin check) (map (fun c => repeat 32 11 ++ varcode_format c ++ [10]) cs)
  = Ok (mkdload (codes ++ cs) entries code begin check).
Proof.
  induction 1 as [|c cs Hc F IH]; intros codes entries code begin check N Hb Hk; cbn [map dtable_lines].
  - rewrite app_nil_r. reflexivity.
  - cbn [length] in Hk. unfold dtable_line at 1.
    replace (Nat.ltb (length (repeat 32 11 ++ varcode_format c ++ [10])) 18) with false by reflexivity.
    cbn [nth repeat app]. cbn [Z.eqb Pos.eqb orb].
    replace (is_prefix _ _) with true by reflexivity. cbn [dl_codes].
    destruct codes as [|x codes]; [congruence|].
    unfold dl_count. cbn [dl_codes dl_begin dl_check].
    replace (Z.of_nat (length (x :: codes)) - Z.of_nat begin =? check) with false by lia.
    cbn [skipn]. rewrite parse_format_app by auto. cbn [bind dl_entries dl_code].
    rewrite IH; auto.
    + f_equal. f_equal. rewrite <- app_assoc. reflexivity.
    + cbn. congruence.
    + rewrite app_length. lia.
    + rewrite app_length. cbn [length] in *. lia.
Qed.

Lemma block_lines c cs d : dblock_ok (c, cs) -> dl_count d = dl_check d ->
  dtable_lines d (render_block (c, cs)) =
  Ok (mkdload (dl_codes d ++ cs)
       (match dl_codes d with [] => dl_entries d
        | _ => dl_entries d ++ [mkdentry (dl_code d) (dl_begin d) (length (dl_codes d))] end)
       c (length (dl_codes d)) (Z.of_nat (length cs))).
Proof.
  intros (Hf & Hc & Hl & F) K. cbn [fst snd] in *. unfold render_block. cbn [fst snd].
  destruct cs as [|c1 cs]; [cbn in Hl; lia|]. inversion F as [|? ? H1 F']; subst.
  set (n := Z.of_nat (length (c1 :: cs))) in *. assert (Hn : 1 <= n <= 999) by (unfold n; lia).
  destruct (dec3_chars n Hn) as [L2 _]. destruct (format_chars c Hc) as [L0 _]. destruct (format_chars c1 H1) as [L1 F1].
  cbn [dtable_lines].
  assert (E : dtable_line d (32 :: varcode_format c ++ dec3 n ++ 32 :: varcode_format c1 ++ [10]) =
    Ok (mkdload (dl_codes d ++ [c1])
       (match dl_codes d with [] => dl_entries d
        | _ => dl_entries d ++ [mkdentry (dl_code d) (dl_begin d) (length (dl_codes d))] end)
       c (length (dl_codes d)) n)).
  { unfold dtable_line.
    replace (Nat.ltb (length (32 :: varcode_format c ++ dec3 n ++ 32 :: varcode_format c1 ++ [10])) 18) with false.
    2:{ symmetry. apply Nat.ltb_ge. cbn [length]. rewrite !app_length. cbn [length]. rewrite app_length, L0, L1, L2. cbn. lia. }
    assert (S7 : skipn 7 (32 :: varcode_format c ++ dec3 n ++ 32 :: varcode_format c1 ++ [10]) =
      dec3 n ++ 32 :: varcode_format c1 ++ [10]) by reflexivity.
    rewrite S7, strtoul_dec3 by auto.
    assert (N1 : nth 1 (32 :: varcode_format c ++ dec3 n ++ 32 :: varcode_format c1 ++ [10]) 0 = 68).
    { unfold varcode_format at 1. rewrite Hf. reflexivity. }
    rewrite N1. cbn [Z.eqb Pos.eqb orb]. rewrite K, Z.eqb_refl. cbn [negb].
    replace (u32 n) with n by (unfold u32; rewrite Z.mod_small; lia).
    replace (n <? 1) with false by lia. cbn [skipn]. rewrite parse_format_app by auto. cbn [bind].
    replace (skip_space (32 :: varcode_format c1 ++ [10])) with (varcode_format c1 ++ [10]).
    2:{ cbn [skip_space]. change (c_isspace 32) with true. cbv iota. symmetry. apply skip_space_chars; auto. discriminate. }
    rewrite parse_format_app by auto. cbn [bind]. reflexivity. }
  rewrite E. cbn [bind]. rewrite cont_lines; auto.
  - f_equal. f_equal. rewrite <- app_assoc. reflexivity.
  - destruct (dl_codes d); discriminate.
  - rewrite app_length. lia.
  - rewrite app_length. unfold n. cbn [length]. lia.
Qed.

Lemma all_lines rest : forall done b, Forall dblock_ok rest -> (1 <= length (snd b))%nat ->
  dtable_lines (mkdload (concat (map snd (done ++ [b]))) (entries_of 0 done) (fst b)
                  (length (concat (map snd done))) (Z.of_nat (length (snd b))))
    (concat (map render_block rest)) =
  match rev rest with
  | [] => Ok (mkdload (concat (map snd (done ++ [b]))) (entries_of 0 done) (fst b)
                  (length (concat (map snd done))) (Z.of_nat (length (snd b))))
  | last :: _ =>
    Ok (mkdload (concat (map snd (done ++ b :: rest))) (entries_of 0 (removelast (done ++ b :: rest))) (fst last)
         (length (concat (map snd (removelast (done ++ b :: rest))))) (Z.of_nat (length (snd last))))
  end.
Proof.
  induction rest as [|[c cs] rest IH]; intros done b F Hb; [reflexivity|].
  inversion F as [|? ? Hc F']; subst. cbn [map concat]. rewrite dtable_lines_app.
  assert (Lc : length (concat (map snd (done ++ [b]))) = (length (concat (map snd done)) + length (snd b))%nat).
  { rewrite map_app, concat_app, app_length. cbn. rewrite app_nil_r. reflexivity. }
  rewrite block_lines; auto.
  2:{ unfold dl_count. cbn. rewrite Lc. lia. }
  cbn [bind dl_codes dl_entries dl_code dl_begin].
  assert (E : match concat (map snd (done ++ [b])) with
     | [] => entries_of 0 done
     | _ => entries_of 0 done ++ [mkdentry (fst b) (length (concat (map snd done))) (length (concat (map snd (done ++ [b]))))] end
     = entries_of 0 (done ++ [b])).
  { rewrite entries_of_app. cbn [Nat.add]. rewrite <- Lc.
    destruct (concat (map snd (done ++ [b]))) eqn:Q; [cbn in Lc; lia|]. reflexivity. }
  rewrite E.
  replace (concat (map snd (done ++ [b])) ++ cs) with (concat (map snd ((done ++ [b]) ++ [(c, cs)]))).
  2:{ rewrite (map_app snd (done ++ [b])), concat_app. cbn. rewrite app_nil_r. reflexivity. }
  pose proof (IH (done ++ [b]) (c, cs) F') as A. cbn [fst snd] in A. rewrite A; clear A.
  2:{ destruct Hc as (_ & _ & Hl & _). cbn in *. lia. }
  replace ((done ++ [b]) ++ (c, cs) :: rest) with (done ++ b :: (c, cs) :: rest) by (rewrite <- app_assoc; reflexivity).
  cbn [rev]. destruct (rev rest) as [|l r] eqn:R.
  - cbn [app]. apply (f_equal (@rev dblock)) in R. rewrite rev_involutive in R. cbn in R. subst rest.
    f_equal. rewrite <- app_assoc. cbn [app].
    assert (RL : removelast (done ++ [b; (c, cs)]) = done ++ [b]).
    { change (done ++ [b; (c, cs)]) with (done ++ [b] ++ [(c, cs)]). rewrite app_assoc. apply removelast_last. }
    unfold dblock in *. rewrite RL. reflexivity.
  - cbn [app]. reflexivity.
Qed.

Lemma removelast_app_last {A} (l : list A) a : removelast (l ++ [a]) ++ [a] = l ++ [a].
Proof. rewrite removelast_last. reflexivity. Qed.

Lemma load_render bs : dsource_ok bs ->
  load_dtable (render bs) = Ok (mkdtable (concat (map snd bs)) (entries_of 0 bs)).
Proof.
  intros (N & F & _). unfold load_dtable, render. rewrite file_lines_spec by (apply render_lines_good; auto).
  destruct bs as [|[c cs] bs]; [congruence|]. inversion F as [|? ? Hc F']; subst. cbn [map concat].
  rewrite dtable_lines_app, block_lines; auto. cbn [bind dl_codes dl_entries app].
  pose proof (all_lines bs [] (c, cs) F') as A. cbn [app map concat entries_of length snd fst] in A.
  rewrite app_nil_r in A. cbn [length]. rewrite A by (destruct Hc as (_ & _ & Hl & _); cbn in *; lia). clear A.
  assert (Lcs : (1 <= length cs)%nat) by (destruct Hc as (_ & _ & Hl & _); cbn in *; lia).
  destruct (rev bs) as [|l r] eqn:R.
  - apply (f_equal (@rev dblock)) in R. rewrite rev_involutive in R. cbn in R. subst bs. cbn.
    unfold dl_count. cbn. rewrite app_nil_r. destruct cs; [cbn in Lcs; lia|].
    rewrite Z.sub_0_r, Z.eqb_refl. cbn. reflexivity.
  - cbn [bind dl_codes].
    assert (Ebs : (c, cs) :: bs = removelast ((c, cs) :: bs) ++ [l]).
    { apply (f_equal (@rev dblock)) in R. rewrite rev_involutive in R. cbn in R. subst bs.
      symmetry. apply (removelast_app_last ((c, cs) :: rev r) l). }
    set (pre := removelast ((c, cs) :: bs)) in *.
    assert (Ll : (1 <= length (snd l))%nat).
    { assert (In l ((c, cs) :: bs)) by (rewrite Ebs; apply in_app_iff; cbn; auto).
      rewrite Forall_forall in F. apply F in H as (_ & _ & H & _). lia. }
    assert (Lc : length (cs ++ concat (map snd bs)) = (length (concat (map snd pre)) + length (snd l))%nat).
    { change (cs ++ concat (map snd bs)) with (concat (map snd ((c, cs) :: bs))). rewrite Ebs, map_app, concat_app, app_length.
      cbn. rewrite app_nil_r. reflexivity. }
    destruct (cs ++ concat (map snd bs)) eqn:Q; [cbn in Lc; lia|]. rewrite <- Q in *.
    unfold dl_count. cbn [dl_codes dl_begin dl_check dl_entries dl_code]. rewrite Lc.
    replace (_ =? _) with true by lia. cbn [negb]. f_equal. f_equal.
    transitivity (entries_of 0 (pre ++ [l])); [rewrite entries_of_app; reflexivity|]. rewrite <- Ebs. reflexivity.
Qed.

Lemma entries_codes bs : forall off, map de_code (entries_of off bs) = map fst bs.
Proof. induction bs as [|[c cs] bs IH]; intros off; cbn; auto. rewrite IH. reflexivity. Qed.

Lemma entries_slice bs : forall off pre i b, off = length pre -> nth_error bs i = Some b ->
  exists e, nth_error (entries_of off bs) i = Some e /\
    wf_ops (mkops (pre ++ concat (map snd bs)) (de_begin e) (de_end e)) /\
    slice (mkops (pre ++ concat (map snd bs)) (de_begin e) (de_end e)) = snd b.
Proof.
  induction bs as [|[c cs] bs IH]; intros off pre i b Ho N; [destruct i; discriminate|].
  destruct i as [|i]; cbn in N.
  - injection N as <-. eexists. split; [reflexivity|]. cbn. unfold wf_ops, slice. cbn.
    rewrite !app_length. split; [lia|]. subst off. rewrite skipn_app, Nat.sub_diag, skipn_all. cbn.
    replace (length pre + length cs - length pre)%nat with (length cs) by lia.
    rewrite firstn_app, Nat.sub_diag, firstn_all. cbn. apply app_nil_r.
  - cbn [entries_of nth_error map concat snd]. destruct (IH (off + length cs)%nat (pre ++ cs) i b) as (e & E & W & S); auto.
    { rewrite app_length. lia. }
    rewrite <- app_assoc in W, S. exists e. auto.
Qed.

Lemma sorted_fst bs : StronglySorted (fun a b : dblock => fst a < fst b) bs -> StronglySorted Z.lt (map fst bs).
Proof. induction 1; cbn; constructor; auto. apply Forall_map. auto. Qed.

Lemma dquery_render bs code : dsource_ok bs -> exists t, load_dtable (render bs) = Ok t /\
  match List.find (fun b => fst b =? code) bs with
  | Some b => exists o, dquery t code = Ok o /\ wf_ops o /\ slice o = snd b
  | None => dquery t code = Err ENotFound
  end.
Proof.
  intros H. eexists. split; [apply load_render; auto|]. destruct H as (_ & _ & S).
  unfold dquery. cbn [dt_entries dt_codes]. rewrite entries_codes. unfold dblock in *.
  destruct (find_code_spec (map fst bs) code) as (r & -> & A & B). cbn [bind].
  destruct (List.find (fun b : Z * list Z => fst b =? code) bs) as [b|] eqn:F.
  - apply find_some in F as [Hin Hc]. apply In_nth_error in Hin as [i N].
    rewrite (B (sorted_fst bs S) i) by (rewrite nth_error_map, N; cbn; f_equal; lia).
    destruct (entries_slice bs 0 [] i b eq_refl N) as (e & -> & W & E). cbn [app] in *. eauto.
  - destruct r as [i|]; auto. exfalso. specialize (A i eq_refl). rewrite nth_error_map in A.
    destruct (nth_error bs i) as [b|] eqn:N; cbn in A; [|congruence]. injection A as A.
    apply nth_error_In in N. pose proof (find_none _ _ F _ N). cbn in H. lia.
Qed.

(** ** Any file that loads: every entry is within the array of codes *)

Definition entries_in (codes : list Z) (es : list dentry) : Prop :=
  Forall (fun e => (de_begin e < de_end e <= length codes)%nat) es.

Lemma entries_in_app codes es c : entries_in codes es -> entries_in (codes ++ [c]) es.
Proof. apply Forall_impl. intros e H. rewrite app_length. cbn. lia. Qed.

Definition dl_inv (d : dload) : Prop :=
  entries_in (dl_codes d) (dl_entries d) /\ 0 <= dl_check d /\
  (dl_codes d = [] \/ (dl_begin d < length (dl_codes d))%nat).

Lemma dtable_line_inv d l d' : dl_inv d -> dtable_line d l = Ok d' -> dl_inv d'.
Proof.
  intros (E & K & B) H. unfold dtable_line in H.
  destruct (Nat.ltb _ 18); [discriminate|]. destruct (_ || _).
  - destruct (Z.eqb_spec (dl_count d) (dl_check d)) as [Hc|]; [|discriminate]. cbn [negb] in H.
    destruct (c_strtoul (skipn 7 l)) as [n next]. destruct (Z.ltb_spec (u32 n) 1); [discriminate|].
    inv_bind H. inv_bind Hk. injection Hk0 as <-. unfold dl_inv. cbn.
    split; [|split; [lia|right; rewrite app_length; cbn; lia]].
    destruct (dl_codes d) as [|x cs] eqn:Q.
    + apply (entries_in_app []). auto.
    + apply entries_in_app. apply Forall_app. split; auto. constructor; auto.
      cbn. destruct B as [B|B]; [discriminate|]. cbn in B. lia.
  - destruct (is_prefix _ _); [|discriminate]. destruct (dl_codes d) as [|x cs] eqn:Q; [discriminate|].
    destruct (dl_count d =? dl_check d); [discriminate|]. inv_bind H. injection Hk as <-.
    unfold dl_inv. cbn [dl_codes dl_entries dl_begin dl_check]. split; [|split; auto].
    + apply (entries_in_app (x :: cs)). auto.
    + right. destruct B as [B|B]; [discriminate|]. change (x :: cs ++ [a]) with ((x :: cs) ++ [a]). rewrite app_length. cbn in *. lia.
Qed.

Lemma dtable_lines_inv ls : forall d d', dl_inv d -> dtable_lines d ls = Ok d' -> dl_inv d'.
Proof.
  induction ls as [|l ls IH]; intros d d' I H; cbn in H; [injection H as <-; auto|].
  inv_bind H. eapply IH; [|exact Hk]. eapply dtable_line_inv; eauto.
Qed.

Lemma load_dtable_in text t : load_dtable text = Ok t -> entries_in (dt_codes t) (dt_entries t).
Proof.
  intros H. unfold load_dtable in H. inv_bind H.
  assert (I : dl_inv a). { eapply dtable_lines_inv; [|exact Hb]. unfold dl_inv. cbn. split; [constructor|]. split; [lia|auto]. }
  destruct I as (E & K & B). destruct (dl_codes a) as [|x cs] eqn:Q; [discriminate|].
  destruct (negb _); [discriminate|]. injection Hk as <-. cbn [dt_codes dt_entries]. apply Forall_app. split; auto.
  constructor; auto. cbn [de_begin de_end]. destruct B as [B|B]; [discriminate|]. cbn [length] in *. lia.
Qed.

Lemma dquery_in text t code o : load_dtable text = Ok t -> dquery t code = Ok o ->
  wf_ops o /\ slice o <> [].
Proof.
  intros H Q. apply load_dtable_in in H. unfold dquery in Q. inv_bind Q. destruct a as [i|]; [|discriminate].
  destruct (nth_error (dt_entries t) i) as [e|] eqn:N; [|discriminate]. injection Hk as <-.
  apply nth_error_In in N. unfold entries_in in H. rewrite Forall_forall in H. apply H in N.
  assert (W : wf_ops (mkops (dt_codes t) (de_begin e) (de_end e))) by (unfold wf_ops; cbn; lia).
  split; auto. intros S. apply (f_equal (@length Z)) in S. rewrite slice_length in S by auto.
  unfold ops_size in S. cbn in S. lia.
Qed.

Lemma dquery_never_ub text t code : load_dtable text = Ok t -> dquery t code <> UB.
Proof.
  intros H Q. unfold dquery in Q. destruct (find_code_spec (map de_code (dt_entries t)) code) as (r & E & A & _).
  rewrite E in Q. cbn in Q. destruct r as [i|]; [|discriminate]. specialize (A i eq_refl).
  rewrite nth_error_map in A. destruct (nth_error (dt_entries t) i); discriminate.
Qed.

(** Checks of table files that are quick to compute, and what they imply for the loaders. *)
From Coq Require Import Sorting.Sorted ZifyBool ZifyNat String FMapPositive Strings.Byte.
From Verif Require Import Base Bits.Spec Num.Float Varcode.Model Varcode.Proofs Varinfo.Model Varinfo.RangeProofs
  Tables.Model Tables.Spec Tables.Proofs Tables.DtableProofs Tables.LineProofs Tables.LoadProofs Interp.Model Interp.FuelProofs Shipped.Text.
Local Open Scope Z_scope.

(** ** Lines *)

(** Short enough for the buffer of fgets, and without characters that end it. *)
Definition ends_line (b : byte) : bool := match b with x00 | x0a => true | _ => false end.
Fixpoint plain_bytes (room : nat) (l : list byte) {struct l} : bool :=
  match l with
  | [] => true
  | b :: l' => match ends_line b, room with false, S k => plain_bytes k l' | _, _ => false end
  end.
Definition plain (t : text) : bool := plain_bytes 198 (bytes_of_text t).

Lemma ends_line_ok b : ends_line b = false -> Z.of_N (Byte.to_N b) <> 10 /\ Z.of_N (Byte.to_N b) <> 0.
Proof. destruct b; intros H; first [discriminate H|split; discriminate]. Qed.

Lemma plain_bytes_ok l : forall room, plain_bytes room l = true ->
  Forall (fun c => c <> 10 /\ c <> 0) (zbytes l) /\ (length (zbytes l) <= room)%nat.
Proof.
  induction l as [|b l IH]; intros room H; [split; [constructor|cbn; lia]|]. cbn [plain_bytes] in H.
  destruct (ends_line b) eqn:E; [discriminate|]. apply ends_line_ok in E. destruct room as [|k]; [discriminate|]. destruct (IH k H) as [F L].
  cbn [zbytes map length]. fold (zbytes l). split; [constructor; auto|lia].
Qed.

Lemma plain_good t : plain t = true -> good_line (line_of t).
Proof. unfold plain. intros H. apply plain_bytes_ok in H as [F L]. exists (zbytes (bytes_of_text t)). auto. Qed.

Lemma plain_lines ls : forallb plain ls = true -> file_lines (file ls) = map line_of ls.
Proof.
  intros H. apply file_lines_spec. apply Forall_map, Forall_forall. intros t I. apply plain_good.
  rewrite forallb_forall in H. auto.
Qed.

(** ** Numbers and codes, without large intermediate numbers *)

Definition fcode5 (c1 c2 c3 c4 c5 : Z) : option Z :=
  if c_isdigit c1 && c_isdigit c2 && c_isdigit c3 && c_isdigit c4 && c_isdigit c5 then
    let x := (c1 - 48) * 10 + (c2 - 48) in
    let y := (c3 - 48) * 100 + (c4 - 48) * 10 + (c5 - 48) in
    if (x <? 64) && (y <? 256) then Some (x * 256 + y) else None
  else None.

Lemma fcode5_ok c1 c2 c3 c4 c5 v : fcode5 c1 c2 c3 c4 c5 = Some v ->
  string_to_var c1 c2 c3 c4 c5 = v /\ 0 <= v < 16384 /\
  Forall (fun c => c_isdigit c = true) [c1; c2; c3; c4; c5].
Proof.
  unfold fcode5. destruct (c_isdigit c1 && c_isdigit c2 && c_isdigit c3 && c_isdigit c4 && c_isdigit c5) eqn:D; [|discriminate]. cbv zeta.
  set (x := (c1 - 48) * 10 + (c2 - 48)). set (y := (c3 - 48) * 100 + (c4 - 48) * 10 + (c5 - 48)).
  destruct ((x <? 64) && (y <? 256)) eqn:R; [|discriminate]. intros [= <-].
  rewrite !andb_true_iff in D. destruct D as [[[[D1 D2] D3] D4] D5].
  assert (Hx : 0 <= x) by (unfold x, c_isdigit in *; lia). assert (Hy : 0 <= y) by (unfold y, c_isdigit in *; lia).
  split; [|split; [lia|auto 10]]. unfold string_to_var. fold x y. rewrite shiftl_mul by lia.
  rewrite lor_disjoint_add by lia. unfold u16. rewrite Z.mod_small by lia. reflexivity.
Qed.

Definition fcode (s : list Z) : option Z :=
  match s with
  | c0 :: c1 :: c2 :: c3 :: c4 :: c5 :: _ =>
    match fcode5 c1 c2 c3 c4 c5 with
    | Some v =>
      if (c0 =? 48) || (c0 =? 66) then Some v
      else if (c0 =? 49) || (c0 =? 82) then Some (16384 + v)
      else if (c0 =? 50) || (c0 =? 67) then Some (32768 + v)
      else if (c0 =? 51) || (c0 =? 68) then Some (49152 + v)
      else None
    | None => None
    end
  | _ => None
  end.

Lemma some_inj {A} (a b : A) : Some a = Some b -> a = b.
Proof. intros H. inversion H. reflexivity. Qed.

Lemma fcode_ok s v : fcode s = Some v -> varcode_parse (Some s) = Ok v /\ 0 <= v < 65536.
Proof.
  unfold fcode. destruct s as [|c0 [|c1 [|c2 [|c3 [|c4 [|c5 s]]]]]]; try discriminate.
  destruct (fcode5 c1 c2 c3 c4 c5) as [w|] eqn:F; [|discriminate].
  apply fcode5_ok in F as (F & R & D).
  inversion_clear D as [|? ? D1 D']. inversion_clear D' as [|? ? D2 D]. inversion_clear D as [|? ? D3 D']. inversion_clear D' as [|? ? D4 D].
  inversion_clear D as [|? ? D5 D'].
  assert (P : forall k base, In (k, base) [(48, 0); (66, 0); (49, 16384); (82, 16384); (50, 32768); (67, 32768); (51, 49152); (68, 49152)] -> c0 = k ->
    varcode_parse (Some (c0 :: c1 :: c2 :: c3 :: c4 :: c5 :: s)) = Ok (base + w)).
  { intros k base I ->. unfold varcode_parse, cchar. cbn [nth_error bind].
    replace (k =? 0) with false by (cbn [In] in I; repeat (destruct I as [[= <- <-]|I]; [reflexivity|]); contradiction).
    cbn [check_digits cchar nth_error bind]. unfold cchar. cbn [nth_error bind].
    rewrite D1, D2, D3, D4, D5. cbn [negb]. rewrite !andb_false_r. cbn [bind]. rewrite F.
    change (Z.shiftl 1 14) with 16384. change (Z.shiftl 2 14) with 32768. change (Z.shiftl 3 14) with 49152.
    cbn [In] in I. repeat (destruct I as [[= <- <-]|I]; [cbn [Z.eqb Pos.eqb orb]; unfold u16; rewrite ?Z.mod_small by lia; f_equal; clear; lia|]).
    contradiction. }
  clear F D1 D2 D3 D4 D5 D'. intros E.
  assert (K : exists k base, In (k, base) [(48, 0); (66, 0); (49, 16384); (82, 16384); (50, 32768); (67, 32768); (51, 49152); (68, 49152)] /\
    c0 = k /\ v = base + w /\ 0 <= base <= 49152).
  { destruct (Z.eqb_spec c0 48) as [Q|_]; [apply some_inj in E; exists 48, 0; split; [left; reflexivity|split; [exact Q|split; [rewrite <- E; reflexivity|clear; lia]]]|].
    destruct (Z.eqb_spec c0 66) as [Q|_]; [apply some_inj in E; exists 66, 0; split; [do 1 right; left; reflexivity|split; [exact Q|split; [rewrite <- E; reflexivity|clear; lia]]]|]. cbn [orb] in E.
    destruct (Z.eqb_spec c0 49) as [Q|_]; [apply some_inj in E; exists 49, 16384; split; [do 2 right; left; reflexivity|split; [exact Q|split; [symmetry; exact E|clear; lia]]]|].
    destruct (Z.eqb_spec c0 82) as [Q|_]; [apply some_inj in E; exists 82, 16384; split; [do 3 right; left; reflexivity|split; [exact Q|split; [symmetry; exact E|clear; lia]]]|]. cbn [orb] in E.
    destruct (Z.eqb_spec c0 50) as [Q|_]; [apply some_inj in E; exists 50, 32768; split; [do 4 right; left; reflexivity|split; [exact Q|split; [symmetry; exact E|clear; lia]]]|].
    destruct (Z.eqb_spec c0 67) as [Q|_]; [apply some_inj in E; exists 67, 32768; split; [do 5 right; left; reflexivity|split; [exact Q|split; [symmetry; exact E|clear; lia]]]|]. cbn [orb] in E.
    destruct (Z.eqb_spec c0 51) as [Q|_]; [apply some_inj in E; exists 51, 49152; split; [do 6 right; left; reflexivity|split; [exact Q|split; [symmetry; exact E|clear; lia]]]|].
    destruct (Z.eqb_spec c0 68) as [Q|_]; [apply some_inj in E; exists 68, 49152; split; [do 7 right; left; reflexivity|split; [exact Q|split; [symmetry; exact E|clear; lia]]]|]. discriminate. }
  destruct K as (k & base & I & Ek & -> & B). rewrite (P k base I Ek). split; [reflexivity|]. clear - R B. lia.
Qed.

Definition fnum (s : list Z) : option Z :=
  match skip_space s with
  | [] => Some 0
  | c :: r =>
    if c =? 45 then
      match skip_space r with
      | [] => Some 0
      | c1 :: r1 =>
        if (c1 =? 45) || (c1 =? 43) then None
        else let v := fst (scan_digits 0 (c1 :: r1)) in if (0 <=? v) && (v <? 2000000000) then Some (- v) else None
      end
    else if c =? 43 then None
    else let v := fst (scan_digits 0 (c :: r)) in if (0 <=? v) && (v <? 2000000000) then Some v else None
  end.

Lemma skip_space_idem s : skip_space (skip_space s) = skip_space s.
Proof. induction s as [|c s IH]; cbn; auto. destruct (c_isspace c) eqn:E; auto. cbn. rewrite E. reflexivity. Qed.

Lemma skip_space_id c s r : skip_space s = c :: r -> skip_space (c :: r) = c :: r.
Proof. intros <-. apply skip_space_idem. Qed.

Lemma fnum_ok s z : fnum s = Some z -> getnumber s = z /\ -2000000000 < z < 2000000000.
Proof.
  unfold fnum, getnumber. destruct (skip_space s) as [|c r] eqn:S. { intros [= <-]. split; [reflexivity|lia]. }
  destruct (Z.eqb_spec c 45) as [->|N].
  - unfold c_strtol. rewrite skip_space_idem. destruct (skip_space r) as [|c1 r1]. { intros [= <-]. split; [reflexivity|lia]. }
    destruct ((c1 =? 45) || (c1 =? 43)) eqn:Q; [discriminate|]. apply orb_false_iff in Q as [-> ->]. cbv zeta.
    destruct ((0 <=? fst (scan_digits 0 (c1 :: r1))) && (fst (scan_digits 0 (c1 :: r1)) <? 2000000000)) eqn:V; [|discriminate].
    intros [= <-]. cbv iota. set (v := fst _) in *. clearbody v. apply andb_prop in V as [V1 V2].
    apply Z.leb_le in V1. apply Z.ltb_lt in V2. rewrite Z.min_r; [split; [reflexivity|]|]; lia.
  - destruct (Z.eqb_spec c 43) as [|P]; [discriminate|]. cbv zeta. unfold c_strtol. rewrite (skip_space_id _ _ _ S).
    replace (c =? 45) with false by lia. replace (c =? 43) with false by lia.
    destruct ((0 <=? fst (scan_digits 0 (c :: r))) && (fst (scan_digits 0 (c :: r)) <? 2000000000)) eqn:V; [|discriminate].
    intros [= <-]. cbv iota. set (v := fst _) in *. clearbody v. apply andb_prop in V as [V1 V2].
    apply Z.leb_le in V1. apply Z.ltb_lt in V2. rewrite Z.min_r; [split; [reflexivity|]|]; lia.
Qed.

(** ** Table D *)

Inductive dline : Type := DHead (count code first : Z) | DCont (code : Z).

Definition dline_of (line : list Z) : option dline :=
  if Nat.ltb (length line) 18 then None
  else
    let c1 := nth 1 line 0 in
    if (c1 =? 68) || (c1 =? 51) then
      let '(n, next) := c_strtoul (skipn 7 line) in
      let check := u32 n in
      if check <? 1 then None
      else match fcode (skipn 1 line), fcode (skip_space next) with
           | Some code, Some first => Some (DHead check code first)
           | _, _ => None
           end
    else if is_prefix (repeat 32 11) line then
      match fcode (skipn 11 line) with Some c => Some (DCont c) | None => None end
    else None.

Fixpoint dfast (lines : list text) (done : list dblock) (code : Z) (cur : list Z) (left : Z) : option (list dblock) :=
  match lines with
  | [] => if left =? 0 then match cur with [] => None | _ => Some (rev_append ((code, rev_append cur []) :: done) []) end
          else None
  | t :: rest =>
    match dline_of (line_of t) with
    | Some (DHead n c f) =>
      if left =? 0 then dfast rest (match cur with [] => done | _ => (code, rev_append cur []) :: done end) c [f] (n - 1)
      else None
    | Some (DCont c) =>
      if left =? 0 then None
      else match cur with [] => None | _ => dfast rest done code (c :: cur) (left - 1) end
    | None => None
    end
  end.

(** The sequences that a file lists. *)
Definition sequences (ls : list text) : option (list dblock) :=
  if forallb plain ls then dfast ls [] 0 [] 0 else None.

(** The table with these sequences. *)
Definition dtable_of (bs : list dblock) : dtable := mkdtable (concat (map snd bs)) (entries_of 0 bs).

Lemma concat_snoc {A} (ls : list (list A)) l : concat (ls ++ [l]) = concat ls ++ l.
Proof. rewrite concat_app. cbn. rewrite app_nil_r. reflexivity. Qed.

Lemma dfast_sound ls : forall done code cur left bs d, dfast ls done code cur left = Some bs ->
  (cur = [] -> done = []) ->
  d = mkdload (concat (map snd (rev done)) ++ rev cur) (entries_of 0 (rev done)) code (length (concat (map snd (rev done))))
        (left + Z.of_nat (length cur)) ->
  exists d', dtable_lines d (map line_of ls) = Ok d' /\
    dl_codes d' = concat (map snd bs) /\ dl_codes d' <> [] /\ dl_count d' = dl_check d' /\
    dl_entries d' ++ [mkdentry (dl_code d') (dl_begin d') (length (dl_codes d'))] = entries_of 0 bs.
Proof.
  induction ls as [|t ls IH]; intros done code cur left bs d H Hc Hd.
  - cbn [dfast] in H. destruct (Z.eqb_spec left 0) as [->|]; [|discriminate]. destruct cur as [|c cur]; [discriminate|].
    injection H as <-. rewrite !rev_append_rev; cbn [rev app]; rewrite ?app_nil_r. cbn [map dtable_lines]. exists d. split; [reflexivity|]. subst d.
    unfold dl_count. cbn [dl_codes dl_check dl_begin dl_entries dl_code]. cbn [rev map snd]. rewrite map_app, concat_app. cbn [map concat snd].
    rewrite app_nil_r. split; [reflexivity|]. rewrite !app_length, rev_length. cbn [length].
    split. { intros E. apply (f_equal (@length Z)) in E. rewrite !app_length in E. cbn [length] in E. lia. }
    split; [lia|]. rewrite entries_of_app. cbn [fst snd]. rewrite !app_length, Nat.add_0_l. rewrite ?rev_length. cbn [length]. reflexivity.
  - cbn [dfast] in H. cbn [map dtable_lines].
    destruct (dline_of (line_of t)) as [[n c f|c]|] eqn:L; [| |discriminate]; unfold dline_of in L; unfold dtable_line;
      destruct (Nat.ltb (length (line_of t)) 18); try discriminate; cbv zeta in L |- *;
      destruct ((nth 1 (line_of t) 0 =? 68) || (nth 1 (line_of t) 0 =? 51)).
    + destruct (Z.eqb_spec left 0) as [->|]; [|discriminate].
      destruct (c_strtoul (skipn 7 (line_of t))) as [m next]. destruct (u32 m <? 1) eqn:U; [discriminate|].
      destruct (fcode (skipn 1 (line_of t))) as [code'|] eqn:C1; [|discriminate]. apply fcode_ok in C1 as [-> _].
      destruct (fcode (skip_space next)) as [first|] eqn:C2; [|discriminate]. apply fcode_ok in C2 as [-> _]. injection L as <- <- <-.
      assert (Ct : dl_count d = dl_check d).
      { subst d. unfold dl_count. cbn [dl_codes dl_check dl_begin]. rewrite app_length, rev_length. lia. }
      rewrite Ct, Z.eqb_refl. cbn [negb bind].
      destruct cur as [|c0 cur].
      * eapply IH; [exact H|discriminate|]. rewrite (Hc eq_refl) in Hd |- *. subst d. cbn. f_equal. lia.
      * rewrite <- rev_alt in H. eapply IH; [exact H|discriminate|]. subst d. cbn [dl_codes dl_entries dl_code dl_begin].
        assert (X : forall b : dblock, concat (map snd (rev (b :: done))) = concat (map snd (rev done)) ++ snd b).
        { intros b. cbn [rev]. rewrite map_app, concat_app. cbn [map concat snd rev]. rewrite app_nil_r. reflexivity. }
        assert (Y : forall b : dblock, entries_of 0 (rev (b :: done)) = entries_of 0 (rev done) ++
          [mkdentry (fst b) (length (concat (map snd (rev done)))) (length (concat (map snd (rev done)) ++ snd b))]).
        { intros b. cbn [rev]. rewrite entries_of_app, app_length. reflexivity. }
        rewrite X, Y. cbn [fst snd]. destruct (concat (map snd (rev done)) ++ rev (c0 :: cur)) as [|z zs] eqn:E.
        { apply (f_equal (@length Z)) in E. rewrite app_length, rev_length in E. cbn [length] in E. lia. }
        rewrite <- E. cbn [length]. f_equal. lia.
    + exfalso. destruct (is_prefix _ _); [|discriminate]. destruct (fcode _); discriminate.
    + exfalso. destruct (c_strtoul _) as [m next]. destruct (_ <? _); [discriminate|]. destruct (fcode _); [|discriminate].
      destruct (fcode _); discriminate.
    + destruct (is_prefix (repeat 32 11) (line_of t)); [|discriminate].
      destruct (fcode (skipn 11 (line_of t))) as [c'|] eqn:C1; [|discriminate]. apply fcode_ok in C1 as [-> _]. injection L as ->.
      destruct (Z.eqb_spec left 0) as [|N]; [discriminate|]. destruct cur as [|c0 cur]; [discriminate|].
      assert (Ct : dl_count d =? dl_check d = false).
      { subst d. unfold dl_count. cbn [dl_codes dl_check dl_begin]. rewrite app_length, rev_length. lia. }
      destruct (dl_codes d) as [|z zs] eqn:E.
      { exfalso. subst d. cbn [dl_codes] in E. apply (f_equal (@length Z)) in E. rewrite app_length, rev_length in E. cbn [length] in E. lia. }
      rewrite <- E, Ct. cbn [bind]. eapply IH; [exact H|discriminate|]. subst d. cbn [dl_codes dl_entries dl_code dl_begin dl_check rev].
      rewrite <- app_assoc. f_equal. cbn [length]. lia.
Qed.

Lemma sequences_load ls bs : sequences ls = Some bs -> load_dtable (file ls) = Ok (dtable_of bs).
Proof.
  unfold sequences. destruct (forallb plain ls) eqn:P; [|discriminate]. intros H. unfold load_dtable. rewrite plain_lines by auto.
  destruct (dfast_sound ls [] 0 [] 0 bs _ H (fun _ => eq_refl) eq_refl) as (d' & E & C & N & K & En).
  cbn [rev map concat app entries_of length Z.of_nat] in E. change (0 + 0) with 0 in E. rewrite E. cbn [bind].
  destruct (dl_codes d') as [|z zs] eqn:Q; [congruence|]. rewrite K, Z.eqb_refl. cbn [negb].
  unfold dtable_of. rewrite <- En, <- C, <- Q. reflexivity.
Qed.

(** The order of the codes. *)
Fixpoint increasing (last : Z) (l : list Z) : bool :=
  match l with [] => true | c :: r => (last <? c) && increasing c r end.

Lemma increasing_sorted l : forall last, increasing last l = true -> StronglySorted Z.lt l /\ Forall (fun c => last < c) l.
Proof.
  induction l as [|c l IH]; intros last H; [split; constructor|]. cbn [increasing] in H. apply andb_prop in H as [H1 H2].
  destruct (IH c H2) as [S F]. split; [constructor; auto|]. constructor; [lia|].
  eapply Forall_impl; [|exact F]. cbn. intros; lia.
Qed.

Lemma dquery_sorted bs code : increasing (-1) (map fst bs) = true ->
  match List.find (fun b => fst b =? code) bs with
  | Some b => exists o, dquery (dtable_of bs) code = Ok o /\ wf_ops o /\ slice o = snd b
  | None => dquery (dtable_of bs) code = Err ENotFound
  end.
Proof.
  intros H. apply increasing_sorted in H as [S _]. unfold dquery, dtable_of. cbn [dt_entries dt_codes]. rewrite entries_codes.
  unfold dblock in *. destruct (find_code_spec (map fst bs) code) as (r & -> & A & B). cbn [bind].
  destruct (List.find (fun b : Z * list Z => fst b =? code) bs) as [b|] eqn:F.
  - apply find_some in F as [Hin Hc]. apply In_nth_error in Hin as [i N].
    rewrite (B S i) by (rewrite nth_error_map, N; cbn; f_equal; lia).
    destruct (entries_slice bs 0 [] i b eq_refl N) as (e & -> & W & E). cbn [app] in *. eauto.
  - destruct r as [i|]; auto. exfalso. specialize (A i eq_refl). rewrite nth_error_map in A.
    destruct (nth_error bs i) as [b|] eqn:N; cbn in A; [|congruence]. injection A as A.
    apply nth_error_In in N. pose proof (find_none _ _ F _ N). cbn in H. lia.
Qed.

(** Nesting: a depth for each sequence; those not mentioned have depth 1. *)
Definition key (c : Z) : positive := match c with Zpos p => p | _ => xH end.
Definition depth_in (m : PositiveMap.t nat) (c : Z) : nat :=
  if c <? 49152 then O else match PositiveMap.find (key c) m with Some n => n | None => 1%nat end.
Definition depths (l : list (Z * nat)) : PositiveMap.t nat :=
  fold_left (fun m p => PositiveMap.add (key (fst p)) (snd p) m) l (PositiveMap.empty nat).
Definition nested_by (m : PositiveMap.t nat) (bs : list dblock) : bool :=
  forallb (fun b => let n := depth_in m (fst b) in forallb (fun c => Nat.ltb (depth_in m c) n) (snd b)) bs.
Definition nested (l : list (Z * nat)) (bs : list dblock) : bool := nested_by (depths l) bs.

Lemma entries_of_in bs : forall e off, In e (entries_of off bs) -> exists i b, nth_error bs i = Some b /\ nth_error (entries_of off bs) i = Some e.
Proof.
  induction bs as [|[c cs] bs IH]; intros e off H; [contradiction|]. cbn [entries_of] in H. destruct H as [<-|H].
  - exists 0%nat, (c, cs). auto.
  - destruct (IH e _ H) as (i & b & N & E). exists (S i), b. auto.
Qed.

Lemma entries_of_code bs i b e off : nth_error bs i = Some b -> nth_error (entries_of off bs) i = Some e -> de_code e = fst b.
Proof.
  unfold dblock in *. intros N E. assert (X : nth_error (map de_code (entries_of off bs)) i = Some (de_code e)) by (rewrite nth_error_map, E; reflexivity).
  rewrite entries_codes, nth_error_map, N in X. cbn in X. injection X as <-. reflexivity.
Qed.

Lemma nested_by_ok m bs : nested_by m bs = true -> ranked (depth_in m) (dtable_of bs).
Proof.
  unfold nested_by. intros H. rewrite forallb_forall in H. unfold ranked, dtable_of. cbn [dt_entries dt_codes].
  apply Forall_forall. intros e I. apply entries_of_in in I as (i & b & N & E).
  destruct (entries_slice bs 0 [] i b eq_refl N) as (e' & E' & _ & Sl). cbn [app] in Sl. rewrite E' in E. injection E as ->.
  rewrite Sl, (entries_of_code _ _ _ _ _ N E'). specialize (H b (nth_error_In _ _ N)). cbv zeta in H. rewrite forallb_forall in H.
  apply Forall_forall. intros c Ic. apply Nat.ltb_lt. auto.
Qed.

(** ** Table B *)

(** What a line says. *)
Record bfact : Type := mkbfact { bf_code : Z; bf_text : bool; bf_unit : list Z; bf_scale : Z; bf_ref : Z; bf_bits : Z; bf_len : Z }.

(** Decimal digits of a field of so many bits. *)
Definition digits (n : Z) : Z := if n =? 1 then 1 else (n * 30103 + 99999) / 100000.

Lemma digits_ok n : 0 <= n <= 32 -> bufr_digits n = Ok (digits n).
Proof.
  intros H. assert (F : forallb (fun n => match bufr_digits n with Ok d => d =? digits n | _ => false end) (map Z.of_nat (seq 0 33)) = true)
    by (vm_compute; reflexivity).
  rewrite forallb_forall in F. specialize (F n). rewrite in_map_iff in F.
  destruct (bufr_digits n) as [d| |]; [f_equal; apply Z.eqb_eq|exfalso|exfalso].
  all: assert (X : exists x, Z.of_nat x = n /\ In x (seq 0 33)) by (exists (Z.to_nat n); rewrite in_seq; lia).
  all: specialize (F X); auto; discriminate.
Qed.

Definition small_scale (s : Z) : bool := (-16 <=? s) && (s <=? 16).

Lemma decode_decimal_ok s k : small_scale s = true -> exists d, decode_decimal s k = Ok d.
Proof.
  unfold small_scale, decode_decimal, scales. intros H. destruct (Z.ltb_spec 0 s); [|destruct (Z.ltb_spec s 0); [|eauto]].
  - replace ((0 <=? s) && (s <=? 16)) with true by lia. cbn [bind]. eauto.
  - replace ((0 <=? - s) && (- s <=? 16)) with true by lia. cbn [bind]. eauto.
Qed.

Lemma compute_range_ok c t u s l r b : is_ok (compute_irange t c l r b) = true -> (is_numeric t = true -> small_scale s = true) ->
  exists i, compute_range c t u s l r b = Ok i.
Proof.
  intros H K. unfold compute_range. destruct (compute_irange t c l r b) as [[mn mx]| |]; try discriminate. cbn [bind].
  destruct t; try (eexists; reflexivity); specialize (K eq_refl);
    destruct (decode_decimal_ok s mn K) as (d1 & ->); destruct (decode_decimal_ok s mx K) as (d2 & ->); cbn [bind]; eauto.
Qed.

Lemma irange_ok t c r b : 0 <= b <= 32 -> -1073741824 <= r <= 1073741824 -> is_ok (compute_irange t c (digits b) r b) = true.
Proof.
  intros Hb Hr. unfold compute_irange. destruct t; try reflexivity; (destruct (Z.leb_spec 10 (digits b)) as [L|L]; [reflexivity|]).
  all: destruct (Z.eqb_spec b 0) as [->|N]; [reflexivity|].
  all: assert (B : b <= 29) by (unfold digits in L; destruct (Z.eqb_spec b 1); [lia|];
         assert (b * 30103 + 99999 < 1000000) by (apply Z.lt_nge; intros G; assert (1000000 / 100000 <= (b * 30103 + 99999) / 100000)
           by (apply Z.div_le_mono; lia); change (1000000 / 100000) with 10 in *; lia); lia).
  all: replace (31 <=? b) with false by lia.
  all: assert (P : 0 < 2 ^ b <= 2 ^ 29) by (split; [apply Z.pow_pos_nonneg; lia|apply Z.pow_le_mono_r; lia]).
  all: assert (D : 0 <= digits b) by (unfold digits; destruct (b =? 1); [lia|apply Z.div_pos; lia]).
  all: unfold int_checked, in_int, int_min, int_max.
  all: replace ((- 2 ^ 31 <=? 2 ^ b + r) && (2 ^ b + r <=? 2 ^ 31 - 1)) with true by lia; cbn [bind].
  all: unfold intexp10; replace ((0 <=? digits b) && (digits b <=? 9)) with true by lia.
  all: destruct (negb (var_x c =? 31)); cbn [bind]; [|reflexivity].
  all: replace ((- 2 ^ 31 <=? 2 ^ b + r - 2) && (2 ^ b + r - 2 <=? 2 ^ 31 - 1)) with true by lia; reflexivity.
Qed.

Definition fline_code (line : list Z) : option Z :=
  match line with
  | _ :: _ :: c0 :: c1 :: c2 :: c3 :: c4 :: _ => fcode5 c0 c1 c2 c3 c4
  | _ => None
  end.

Lemma fline_code_ok line c : fline_code line = Some c -> line_code line = Ok c /\ 0 <= c < 16384.
Proof.
  unfold fline_code, line_code. destruct line as [|a0 [|a1 [|c0 [|c1 [|c2 [|c3 [|c4 r]]]]]]]; try discriminate.
  intros H. apply fcode5_ok in H as (-> & R & _). auto.
Qed.

Definition bline_of (line : list Z) : option bfact :=
  if Nat.ltb (length line) 119 then None
  else match fline_code line, fnum (skipn 98 line), fnum (skipn 102 line), fnum (skipn 115 line) with
  | Some code, Some scale, Some bit_ref, Some bit_len =>
    let unit := cstr (normalise_unit (text_column 73 24 line)) in
    if bit_len <? 0 then None
    else if String.eqb (to_string unit) "CCITTIA5" then Some (mkbfact code true unit scale bit_ref bit_len (bit_len / 8))
    else if (bit_len <=? 32) && small_scale scale && (-1073741824 <=? bit_ref) && (bit_ref <=? 1073741824)
    then Some (mkbfact code false unit scale bit_ref bit_len (digits bit_len))
    else None
  | _, _, _, _ => None
  end.

(** A definition that a line stands for. *)
Definition says (f : bfact) (i : varinfo) : Prop :=
  vi_code i = bf_code f /\ vi_unit i = to_string (bf_unit f) /\ vi_scale i = bf_scale f /\ vi_bit_ref i = bf_ref f /\
  vi_bit_len i = bf_bits f /\ vi_len i = bf_len f /\
  vi_type i = (if bf_text f then TString else if bf_scale f =? 0 then TInteger else TDecimal).

Lemma to_int_small z : -2000000000 < z < 2000000000 -> to_int z = z.
Proof. intros H. apply wrap_small. unfold int_min, int_max. lia. Qed.
Lemma u32_small z : 0 <= z < 2000000000 -> u32 z = z.
Proof. intros H. unfold u32. apply Z.mod_small. lia. Qed.

Lemma bline_ok line f : bline_of line = Some f -> exists i, bufr_line line = Ok i /\ says f i.
Proof.
  unfold bline_of, bufr_line. destruct (Nat.ltb (length line) 119); [discriminate|].
  destruct (fline_code line) as [code|] eqn:C; [|discriminate]. apply fline_code_ok in C as [-> _]. cbn [bind].
  destruct (fnum (skipn 98 line)) as [s|] eqn:F1; [|discriminate]. apply fnum_ok in F1 as [-> R1].
  destruct (fnum (skipn 102 line)) as [r|] eqn:F2; [|discriminate]. apply fnum_ok in F2 as [-> R2].
  destruct (fnum (skipn 115 line)) as [b|] eqn:F3; [|discriminate]. apply fnum_ok in F3 as [-> R3].
  cbv zeta. set (u := cstr _). clearbody u. destruct (Z.ltb_spec b 0) as [|Rb]; [discriminate|].
  rewrite !to_int_small, u32_small by lia. destruct (String.eqb (to_string u) "CCITTIA5").
  - intros [= <-]. destruct (compute_range_ok code TString (to_string u) s (b / 8) r b eq_refl ltac:(discriminate)) as (i & E).
    exists i. split; [exact E|]. apply compute_range_fields in E. unfold says. cbn [bf_code bf_unit bf_text bf_scale bf_ref bf_bits bf_len]. tauto.
  - destruct ((b <=? 32) && small_scale s && (-1073741824 <=? r) && (r <=? 1073741824)) eqn:Q; [|discriminate]. rewrite !andb_true_iff in Q.
    destruct Q as [[[Q1 Q2] Q3] Q4]. intros [= <-]. rewrite digits_ok by lia. cbn [bind].
    destruct (compute_range_ok code (if s =? 0 then TInteger else TDecimal) (to_string u) s (digits b) r b) as (i & E); auto.
    { apply irange_ok; lia. }
    exists i. split; [exact E|]. apply compute_range_fields in E. unfold says. cbn [bf_code bf_unit bf_text bf_scale bf_ref bf_bits bf_len]. tauto.
Qed.

Definition cline_of (line : list Z) : option (option bfact) :=
  match fline_code line with
  | Some code =>
    if Nat.ltb (length line) 157 then if negb (var_x code =? 31) then None else Some None
    else match fnum (skipn 143 line), fnum (skipn 149 line) with
    | Some scale, Some len =>
      let unit := cstr (normalise_unit (text_column 119 24 line)) in
      if len <? 0 then None
      else if String.eqb (to_string unit) "CHARACTER" then Some (Some (mkbfact code true unit scale 0 0 len))
      else if small_scale scale then Some (Some (mkbfact code false unit scale 0 0 len))
      else None
    | _, _ => None
    end
  | None => None
  end.

Lemma crange_ok t c l : 0 <= l -> is_ok (compute_irange t c l 0 0) = true.
Proof.
  intros H. unfold compute_irange. destruct t; try reflexivity; (destruct (Z.leb_spec 10 l) as [L|L]; [reflexivity|]);
    cbn [Z.eqb]; unfold intexp10; replace ((0 <=? l) && (l <=? 9)) with true by lia; reflexivity.
Qed.

Lemma cline_ok line f : cline_of line = Some f -> match f with
  | Some f => exists i, crex_line line = Ok (Some i) /\ says f i
  | None => crex_line line = Ok None
  end.
Proof.
  unfold cline_of, crex_line. destruct (fline_code line) as [code|] eqn:C; [|discriminate]. apply fline_code_ok in C as [-> _]. cbn [bind].
  destruct (Nat.ltb (length line) 157). { destruct (negb (var_x code =? 31)); [discriminate|]. intros [= <-]. reflexivity. }
  destruct (fnum (skipn 143 line)) as [s|] eqn:F1; [|discriminate]. apply fnum_ok in F1 as [-> R1].
  destruct (fnum (skipn 149 line)) as [l|] eqn:F2; [|discriminate]. apply fnum_ok in F2 as [-> R2].
  cbv zeta. set (u := cstr _). clearbody u. unfold crex_type. destruct (Z.ltb_spec l 0) as [|Rl]; [discriminate|].
  rewrite to_int_small, u32_small by lia. destruct (String.eqb (to_string u) "CHARACTER").
  - intros [= <-]. destruct (compute_range_ok code TString (to_string u) s l 0 0 eq_refl ltac:(discriminate)) as (i & E).
    exists i. rewrite E. split; [reflexivity|]. apply compute_range_fields in E. unfold says. cbn [bf_code bf_unit bf_text bf_scale bf_ref bf_bits bf_len]. tauto.
  - destruct (small_scale s) eqn:Q; [|discriminate]. intros [= <-].
    destruct (compute_range_ok code (if s =? 0 then TInteger else TDecimal) (to_string u) s l 0 0) as (i & E); auto.
    { apply crange_ok; lia. }
    exists i. rewrite E. split; [reflexivity|]. apply compute_range_fields in E. unfold says. cbn [bf_code bf_unit bf_text bf_scale bf_ref bf_bits bf_len]. tauto.
Qed.

Fixpoint bfast (lines : list text) (last : Z) : option (list bfact) :=
  match lines with
  | [] => Some []
  | t :: rest =>
    match bline_of (line_of t) with
    | Some f => if last <? bf_code f then match bfast rest (bf_code f) with Some fs => Some (f :: fs) | None => None end else None
    | None => None
    end
  end.
Fixpoint cfast (lines : list text) (last : Z) : option (list bfact) :=
  match lines with
  | [] => Some []
  | t :: rest =>
    match cline_of (line_of t) with
    | Some (Some f) => if last <? bf_code f then match cfast rest (bf_code f) with Some fs => Some (f :: fs) | None => None end else None
    | Some None => cfast rest last
    | None => None
    end
  end.

(** The definitions that a file lists. *)
Definition elements (crex : bool) (ls : list text) : option (list bfact) :=
  if forallb plain ls then if crex then cfast ls (-1) else bfast ls (-1) else None.

Definition load_b (crex : bool) (text : list Z) : res btable := if crex then load_crex text else load_bufr text.

Definition ends_at (t : btable) (last : Z) : Prop := match rev t with [] => True | e :: _ => be_code e = last end.

Lemma obtain_fast t last f i : ends_at t last -> says f i -> last < bf_code f ->
  obtain t i = Ok (t ++ [mkbentry i []]) /\ ends_at (t ++ [mkbentry i []]) (bf_code f).
Proof.
  unfold ends_at, obtain. intros E (C & _) L. rewrite rev_app_distr. cbn [rev app].
  split; [|exact C]. destruct (rev t) as [|e r]; [reflexivity|]. rewrite C, E. replace (bf_code f <=? last) with false by lia. reflexivity.
Qed.

Definition entry_says (f : bfact) (e : bentry) : Prop := says f (be_info e).

Lemma bfast_sound ls : forall last fs t, bfast ls last = Some fs -> ends_at t last ->
  exists t', load_blines (map line_of ls) t = Ok (t ++ t') /\ Forall2 entry_says fs t'.
Proof.
  induction ls as [|l ls IH]; intros last fs t H E; cbn [bfast map load_blines] in *.
  - injection H as <-. exists []. rewrite app_nil_r. split; [reflexivity|constructor].
  - destruct (bline_of (line_of l)) as [f|] eqn:L; [|discriminate]. destruct (Z.ltb_spec last (bf_code f)) as [C|]; [|discriminate].
    destruct (bfast ls (bf_code f)) as [fs'|] eqn:R; [|discriminate]. injection H as <-.
    destruct (bline_ok _ _ L) as (i & -> & Sy). cbn [bind]. destruct (obtain_fast t last f i E Sy C) as [-> E']. cbn [bind].
    destruct (IH _ _ _ R E') as (t' & -> & F). exists (mkbentry i [] :: t'). rewrite <- app_assoc. split; [reflexivity|constructor; auto].
Qed.

Lemma cfast_sound ls : forall last fs t, cfast ls last = Some fs -> ends_at t last ->
  exists t', load_clines (map line_of ls) t = Ok (t ++ t') /\ Forall2 entry_says fs t'.
Proof.
  induction ls as [|l ls IH]; intros last fs t H E; cbn [cfast map load_clines] in *.
  - injection H as <-. exists []. rewrite app_nil_r. split; [reflexivity|constructor].
  - destruct (cline_of (line_of l)) as [[f|]|] eqn:L; [| |discriminate].
    + destruct (Z.ltb_spec last (bf_code f)) as [C|]; [|discriminate]. destruct (cfast ls (bf_code f)) as [fs'|] eqn:R; [|discriminate].
      injection H as <-. destruct (cline_ok _ _ L) as (i & -> & Sy). cbn [bind]. destruct (obtain_fast t last f i E Sy C) as [-> E']. cbn [bind].
      destruct (IH _ _ _ R E') as (t' & -> & F). exists (mkbentry i [] :: t'). rewrite <- app_assoc. split; [reflexivity|constructor; auto].
    + rewrite (cline_ok _ _ L). cbn [bind]. eapply IH; eauto.
Qed.

Lemma elements_load crex ls fs : elements crex ls = Some fs ->
  exists t, load_b crex (file ls) = Ok t /\ Forall2 entry_says fs t.
Proof.
  unfold elements, load_b. destruct (forallb plain ls) eqn:P; [|discriminate]. intros H. unfold load_crex, load_bufr. rewrite plain_lines by auto.
  destruct crex; [destruct (cfast_sound ls (-1) fs [] H I) as (t & E & F)|destruct (bfast_sound ls (-1) fs [] H I) as (t & E & F)]; exists t; auto.
Qed.

(** A line that cannot be loaded, after some that can. *)
Definition stops (crex : bool) (n : nat) (ls : list text) : bool :=
  forallb plain ls &&
  match (if crex then cfast (firstn n ls) (-1) else bfast (firstn n ls) (-1)) with Some _ => true | None => false end.

Lemma bfast_ends ls : forall last fs t, bfast ls last = Some fs -> ends_at t last ->
  forall rest, load_blines (map line_of ls ++ rest) t =
    (t' <- load_blines (map line_of ls) t ;; load_blines rest t').
Proof.
  induction ls as [|l ls IH]; intros last fs t H E rest; cbn [bfast map load_blines app] in *; [reflexivity|].
  destruct (bline_of (line_of l)) as [f|] eqn:L; [|discriminate]. destruct (Z.ltb_spec last (bf_code f)) as [C|]; [|discriminate].
  destruct (bfast ls (bf_code f)) as [fs'|] eqn:R; [|discriminate].
  destruct (bline_ok _ _ L) as (i & -> & Sy). cbn [bind]. destruct (obtain_fast t last f i E Sy C) as [-> E']. cbn [bind]. eapply IH; eauto.
Qed.

Lemma cfast_ends ls : forall last fs t, cfast ls last = Some fs -> ends_at t last ->
  forall rest, load_clines (map line_of ls ++ rest) t =
    (t' <- load_clines (map line_of ls) t ;; load_clines rest t').
Proof.
  induction ls as [|l ls IH]; intros last fs t H E rest; cbn [cfast map load_clines app] in *; [reflexivity|].
  destruct (cline_of (line_of l)) as [[f|]|] eqn:L; [| |discriminate].
  - destruct (Z.ltb_spec last (bf_code f)) as [C|]; [|discriminate]. destruct (cfast ls (bf_code f)) as [fs'|] eqn:R; [|discriminate].
    destruct (cline_ok _ _ L) as (i & -> & Sy). cbn [bind]. destruct (obtain_fast t last f i E Sy C) as [-> E']. cbn [bind]. eapply IH; eauto.
  - rewrite (cline_ok _ _ L). cbn [bind]. eapply IH; eauto.
Qed.

Lemma stops_bufr n ls l : stops false n ls = true -> nth_error ls n = Some l ->
  match bufr_line (line_of l) with Ok _ => True | Err e => load_bufr (file ls) = Err e | UB => load_bufr (file ls) = UB end.
Proof.
  unfold stops. rewrite andb_true_iff. intros [P H] N. unfold load_bufr. rewrite plain_lines by auto.
  destruct (bfast (firstn n ls) (-1)) as [fs|] eqn:B; [|discriminate].
  assert (Sp : ls = firstn n ls ++ l :: skipn (S n) ls).
  { clear - N. revert ls N. induction n as [|n IH]; intros [|a ls] N; cbn [nth_error firstn skipn app] in *; try discriminate; [congruence|].
    f_equal. apply IH. exact N. }
  rewrite Sp, map_app. rewrite (bfast_ends _ _ _ [] B I). destruct (bfast_sound _ _ _ [] B I) as (t & -> & _).
  cbn [bind map load_blines]. destruct (bufr_line (line_of l)); cbn [bind]; auto.
Qed.

Lemma stops_crex n ls l : stops true n ls = true -> nth_error ls n = Some l ->
  match crex_line (line_of l) with Ok _ => True | Err e => load_crex (file ls) = Err e | UB => load_crex (file ls) = UB end.
Proof.
  unfold stops. rewrite andb_true_iff. intros [P H] N. unfold load_crex. rewrite plain_lines by auto.
  destruct (cfast (firstn n ls) (-1)) as [fs|] eqn:B; [|discriminate].
  assert (Sp : ls = firstn n ls ++ l :: skipn (S n) ls).
  { clear - N. revert ls N. induction n as [|n IH]; intros [|a ls] N; cbn [nth_error firstn skipn app] in *; try discriminate; [congruence|].
    f_equal. apply IH. exact N. }
  rewrite Sp, map_app. rewrite (cfast_ends _ _ _ [] B I). destruct (cfast_sound _ _ _ [] B I) as (t & -> & _).
  cbn [bind map load_clines]. destruct (crex_line (line_of l)); cbn [bind]; auto.
Qed.

(** The codes of the definitions are in order. *)
Lemma bfast_sorted ls : forall last fs, bfast ls last = Some fs -> StronglySorted Z.lt (map bf_code fs) /\ Forall (fun c => last < c) (map bf_code fs).
Proof.
  induction ls as [|l ls IH]; intros last fs H; cbn [bfast] in H; [injection H as <-; split; constructor|].
  destruct (bline_of (line_of l)) as [f|]; [|discriminate]. destruct (Z.ltb_spec last (bf_code f)) as [C|]; [|discriminate].
  destruct (bfast ls (bf_code f)) as [fs'|] eqn:R; [|discriminate]. injection H as <-. destruct (IH _ _ R) as [S F].
  cbn [map]. split; constructor; auto. eapply Forall_impl; [|exact F]. cbn. intros; lia.
Qed.

Lemma cfast_sorted ls : forall last fs, cfast ls last = Some fs -> StronglySorted Z.lt (map bf_code fs) /\ Forall (fun c => last < c) (map bf_code fs).
Proof.
  induction ls as [|l ls IH]; intros last fs H; cbn [cfast] in H; [injection H as <-; split; constructor|].
  destruct (cline_of (line_of l)) as [[f|]|]; [|eauto|discriminate]. destruct (Z.ltb_spec last (bf_code f)) as [C|]; [|discriminate].
  destruct (cfast ls (bf_code f)) as [fs'|] eqn:R; [|discriminate]. injection H as <-. destruct (IH _ _ R) as [S F].
  cbn [map]. split; constructor; auto. eapply Forall_impl; [|exact F]. cbn. intros; lia.
Qed.

Lemma elements_sorted crex ls fs : elements crex ls = Some fs -> StronglySorted Z.lt (map bf_code fs) /\ Forall (fun c => -1 < c) (map bf_code fs).
Proof.
  unfold elements. destruct (forallb plain ls); [|discriminate]. destruct crex; [apply cfast_sorted|apply bfast_sorted].
Qed.

Lemma says_codes fs t : Forall2 entry_says fs t -> map be_code t = map bf_code fs.
Proof. induction 1 as [|f e fs t H F IH]; [reflexivity|]. cbn [map]. f_equal; [|exact IH]. destruct H as [H _]. exact H. Qed.

Lemma query_listed crex ls fs t f : elements crex ls = Some fs -> Forall2 entry_says fs t -> In f fs ->
  exists i, query t (bf_code f) = Ok i /\ says f i.
Proof.
  intros E F I. apply elements_sorted in E as [S _]. apply In_nth_error in I as [n N].
  assert (Ne : exists e, nth_error t n = Some e /\ entry_says f e).
  { clear - F N. revert n N. induction F as [|a b fs t H F IH]; intros [|n] N; cbn [nth_error] in *; try discriminate; [|eauto].
    injection N as ->. eauto. }
  destruct Ne as (e & Ne & Sy). unfold query, query_entry, entry_at. rewrite (says_codes _ _ F).
  destruct (find_code_spec (map bf_code fs) (bf_code f)) as (r & -> & _ & B). cbn [bind].
  rewrite (B S n) by (rewrite nth_error_map, N; reflexivity). rewrite Ne. cbn [bind]. eauto.
Qed.

(** ** Both tables *)

Definition ckey (c : Z) : positive := match c with Zpos p => Pos.succ p | _ => xH end.
Lemma ckey_inj a b : 0 <= a -> 0 <= b -> ckey a = ckey b -> a = b.
Proof. unfold ckey. destruct a, b; try lia. Qed.

Definition mark (m : PositiveMap.t unit) (c : Z) : PositiveMap.t unit := PositiveMap.add (ckey c) tt m.
Definition marks (l : list Z) : PositiveMap.t unit := fold_left mark l (PositiveMap.empty unit).
Definition marked (m : PositiveMap.t unit) (c : Z) : bool := match PositiveMap.find (ckey c) m with Some _ => true | None => false end.

Lemma marks_in l c : 0 <= c -> Forall (fun c => 0 <= c) l -> marked (marks l) c = true -> In c l.
Proof.
  intros Hc F. unfold marks. assert (G : forall m, marked (fold_left mark l m) c = true -> marked m c = true \/ In c l).
  { induction F as [|a l Ha F IH]; intros m M; cbn [fold_left] in M; [auto|]. destruct (IH _ M) as [X|X]; [|right; right; exact X].
    unfold marked, mark in X. destruct (Pos.eq_dec (ckey c) (ckey a)) as [E|E].
    - right. left. symmetry. apply ckey_inj; auto.
    - rewrite PositiveMap.gso in X by exact E. left. exact X. }
  intros M. destruct (G _ M) as [X|X]; [|exact X]. unfold marked in X. rewrite PositiveMap.gempty in X. discriminate.
Qed.

(** The descriptors that follow a replication and that it needs. *)
Fixpoint fits (body : list Z) : bool :=
  match body with
  | [] => true
  | c :: rest =>
    (if (16384 <=? c) && (c <? 32768) then
       if Z.land c 255 =? 0 then
         match rest with
         | f :: rest' => (31 * 256 <=? f) && (f <? 32 * 256) && (Z.shiftr (c - 16384) 8 <=? Z.of_nat (length rest'))
         | [] => false
         end
       else Z.shiftr (c - 16384) 8 <=? Z.of_nat (length rest)
     else true) && fits rest
  end.

Definition known (mb md : PositiveMap.t unit) (c : Z) : bool :=
  if 0 <=? c then
    if c <? 16384 then marked mb c else if 49152 <=? c then (c <? 65536) && marked md c else true
  else false.

Definition whole (b d : list text) : bool :=
  match elements false b, sequences d with
  | Some fs, Some bs =>
    let mb := marks (map bf_code fs) in
    let md := marks (map fst bs) in
    forallb (fun b => forallb (known mb md) (snd b) && fits (snd b)) bs
  | _, _ => false
  end.

(** Properties C14, C15, C16, C17. *)
From Coq Require Import String Sorting.Sorted ZifyBool ZifyNat.
From Verif Require Import Base Num.Float Varcode.Model Varinfo.Model Varinfo.RangeProofs Var.Properties
  Tables.Model Tables.Spec Tables.Proofs Tables.AlterProofs Tables.DtableProofs Tables.LineProofs.
Local Open Scope Z_scope.

(** ** C14: table B lookup *)

(** Whenever a BUFR table B file loads, its lines give one definition each, in order;
    looking up a code gives the definition of the line with that code, and the lookup
    fails with error_notfound exactly when there is no such line. *)
Theorem C14_query_bufr : forall text t code, load_bufr text = Ok t ->
  Forall2 (fun l e => bufr_line l = Ok (be_info e)) (file_lines text) t /\
  match List.find (fun e => be_code e =? code) t with
  | Some e => query t code = Ok (be_info e) /\ contains t code = Ok true
  | None => query t code = Err ENotFound /\ contains t code = Ok false
  end.
Proof.
  intros text t code H. destruct (load_bufr_spec _ _ H) as [[S _] F]. split; [|apply query_spec; exact S].
  clear H S. induction F as [|l e ls es [H _] F IH]; constructor; auto.
Qed.

(** Seen from the file: a line's code is found and gives that line's definition; a
    code that no line defines is not found. *)
Theorem C14_query_lines : forall text t, load_bufr text = Ok t ->
  (forall l i, In l (file_lines text) -> bufr_line l = Ok i ->
     query t (vi_code i) = Ok i /\ contains t (vi_code i) = Ok true) /\
  (forall code, (forall l i, In l (file_lines text) -> bufr_line l = Ok i -> vi_code i <> code) ->
     query t code = Err ENotFound /\ contains t code = Ok false).
Proof.
  intros text t H. destruct (load_bufr_spec _ _ H) as [[S _] F]. split.
  - intros l i Hl Hi. pose proof (query_spec t (vi_code i) S) as Q.
    apply In_nth_error in Hl as [n Hn].
    assert (exists e, nth_error t n = Some e /\ be_info e = i) as (e & He & Ei).
    { clear -F Hn Hi. revert n Hn. induction F as [|a e ls es [H _] F IH]; intros [|n] Hn; cbn in *; try discriminate; eauto.
      injection Hn as ->. exists e. split; auto. congruence. }
    destruct (List.find _ t) as [e2|] eqn:Fi.
    + apply find_some in Fi as [In2 C2]. apply Z.eqb_eq in C2.
      apply In_nth_error in In2 as [m Hm].
      destruct (PeanoNat.Nat.lt_trichotomy n m) as [L|[L|L]].
      * pose proof (sorted_mono (map be_code t) (sorted_codes t S) n m (be_code e) (be_code e2) L) as M.
        rewrite !nth_error_map, He, Hm in M. specialize (M eq_refl eq_refl). unfold be_code in *. rewrite Ei in M. lia.
      * subst m. replace e2 with e in * by congruence. rewrite Ei in Q. exact Q.
      * pose proof (sorted_mono (map be_code t) (sorted_codes t S) m n (be_code e2) (be_code e) L) as M.
        rewrite !nth_error_map, He, Hm in M. specialize (M eq_refl eq_refl). unfold be_code in *. rewrite Ei in M. lia.
    + apply nth_error_In in He. apply (find_none _ _ Fi) in He. unfold be_code in He. rewrite Ei, Z.eqb_refl in He. discriminate.
  - intros code N. pose proof (query_spec t code S) as Q. destruct (List.find _ t) as [e|] eqn:Fi; [|exact Q].
    exfalso. apply find_some in Fi as [Ie Ce]. apply Z.eqb_eq in Ce. apply In_nth_error in Ie as [n Hn].
    assert (exists l, nth_error (file_lines text) n = Some l /\ bufr_line l = Ok (be_info e)) as (l & Hl & Bl).
    { clear -F Hn. revert n Hn. induction F as [|a e2 ls es [H _] F IH]; intros [|n] Hn; cbn in *; try discriminate; eauto.
      injection Hn as ->. eauto. }
    apply (N l (be_info e)); auto. eapply nth_error_In; eauto.
Qed.

(** The same for CREX table B files, whose short class 31 lines are skipped. *)
Theorem C14_query_crex : forall text t code, load_crex text = Ok t ->
  (forall i, (exists l, In l (file_lines text) /\ crex_line l = Ok (Some i)) <-> In i (map be_info t)) /\
  match List.find (fun e => be_code e =? code) t with
  | Some e => query t code = Ok (be_info e) /\ contains t code = Ok true
  | None => query t code = Err ENotFound /\ contains t code = Ok false
  end.
Proof.
  intros text t code H. destruct (load_clines_spec _ [] t ltac:(constructor) H) as (S & t2 & E & _ & L).
  cbn in E. subst t2. split; [exact L|apply query_spec; exact S].
Qed.

(** A file whose codes are not increasing is refused. *)
Theorem C14_loaded_is_sorted : forall text t, load_bufr text = Ok t ->
  StronglySorted Z.lt (map be_code t).
Proof. intros text t H. apply sorted_codes. apply (load_bufr_spec _ _ H). Qed.

(** An example file of two lines. *)
Fixpoint chars (s : string) : list Z :=
  match s with
  | EmptyString => []
  | String a s' => Z.of_nat (Ascii.nat_of_ascii a) :: chars s'
  end.
Definition pad (n : nat) (l : list Z) : list Z := firstn n (l ++ repeat 32 n).
Definition bline (code desc unit scale ref bits : string) : list Z :=
  32 :: pad 7 (chars code) ++ pad 65 (chars desc) ++ pad 25 (chars unit) ++ pad 4 (chars scale) ++
  pad 13 (chars ref) ++ pad 4 (chars bits) ++ [10].
Definition bfile : list Z :=
  bline "B01001" "WMO BLOCK NUMBER" "NUMERIC" "0" "0" "7" ++
  bline "B12101" "TEMPERATURE" "K" "2" "0" "16".

Example C14_example :
  (t <- load_bufr bfile ;; i <- query t (wr_var 0 12 101) ;; b <- contains t (wr_var 0 12 102) ;;
   Ok (vi_code i, vi_type i, vi_unit i, vi_scale i, (vi_bit_ref i, vi_bit_len i), b)) =
  Ok (wr_var 0 12 101, TDecimal, "K"%string, 2, (0, 16), false) /\
  (t <- load_bufr bfile ;; query t (wr_var 0 12 102)) = Err ENotFound.
Proof. vm_compute. auto. Qed.

(** What a file says is what is looked up: for any rows with increasing codes, written in
    the columns of a BUFR table ([render_brow] in Tables/Spec.v), looking up a code gives
    the unit, scale, reference value and bits of its row, and the type and the number of
    digits that follow from them. *)
Theorem C14_bufr_file : forall rows, Forall brow_ok rows ->
  StronglySorted (fun a b => row_code a < row_code b) rows ->
  exists t, load_bufr (concat (map render_brow rows)) = Ok t /\ forall code,
    match List.find (fun r => row_code r =? code) rows with
    | Some r => exists i, query t code = Ok i /\ brow_means r i
    | None => query t code = Err ENotFound
    end.
Proof. exact bufr_file. Qed.

(** The same for CREX tables. *)
Theorem C14_crex_file : forall rows, Forall crow_ok rows ->
  StronglySorted (fun a b => row_code a < row_code b) rows ->
  exists t, load_crex (concat (map render_crow rows)) = Ok t /\ forall code,
    match List.find (fun r => row_code r =? code) rows with
    | Some r => exists i, query t code = Ok i /\ crow_means r i
    | None => query t code = Err ENotFound
    end.
Proof. exact crex_file. Qed.

Definition row_temp : brow := mkbrow (wr_var 0 12 101) (chars "TEMPERATURE") (chars "K") 2 0 16.
Definition row_lat : brow := mkbrow (wr_var 0 5 1) (chars "LATITUDE") (chars "DEGREE") 5 (-9000000) 25.
Definition row_name : brow := mkbrow (wr_var 0 1 11) (chars "SHIP") (chars "CCITTIA5") 0 0 72.
Definition rows : list brow := [row_name; row_lat; row_temp].
Example C14_file_example : Forall brow_ok rows /\ StronglySorted (fun a b => row_code a < row_code b) rows /\
  concat (map render_brow [row_temp]) =
    chars (" B12101 TEMPERATURE                                                      " ++
           "K                          2            0  16") ++ [10].
Proof.
  assert (U : forall u, Forall printable u -> (length u <= 23)%nat -> last u 0 <> 32 -> unit_ok u).
  { intros u P L N. split; auto. split; auto. intros w c ->. rewrite last_last in N. auto. }
  split; [|split].
  - repeat constructor; try (vm_compute; repeat split; congruence); try (cbn; unfold printable; repeat (constructor; [lia|]); constructor); try (cbn; lia);
    intros w c E; pose proof (f_equal (fun l => last l 0) E) as X; cbv beta in X; rewrite last_last in X; vm_compute in X; lia.
  - repeat constructor.
  - reflexivity.
Qed.

(** ** C15: table D lookup *)

(** For every list of sequences with increasing codes: the file that lists them loads,
    a lookup gives exactly the listed descriptors of that code, and fails with
    error_notfound for any other code. *)
Theorem C15_query : forall bs code, dsource_ok bs -> exists t, load_dtable (render bs) = Ok t /\
  match List.find (fun b => fst b =? code) bs with
  | Some b => exists o, dquery t code = Ok o /\ wf_ops o /\ slice o = snd b
  | None => dquery t code = Err ENotFound
  end.
Proof. exact dquery_render. Qed.

(** For any file at all: if it loads, lookups never read outside the array of codes,
    and give nonempty sequences inside it. *)
Theorem C15_any_file_safe : forall text t code, load_dtable text = Ok t ->
  match dquery t code with
  | Ok o => wf_ops o /\ slice o <> []
  | Err e => e = ENotFound
  | UB => False
  end.
Proof.
  intros text t code H. destruct (dquery t code) as [o|e|] eqn:Q.
  - eapply dquery_in; eauto.
  - unfold dquery in Q. destruct (find_code_spec (map de_code (dt_entries t)) code) as (r & E & A & _).
    rewrite E in Q. cbn in Q. destruct r as [i|]; [|congruence]. destruct (nth_error (dt_entries t) i); discriminate.
  - eapply dquery_never_ub; eauto.
Qed.

(** The order of a table D file is not checked: on an unsorted file a listed code may
    not be found. *)
Definition unsorted_file : list dblock := [(wr_var 3 2 1, [wr_var 0 1 1]); (wr_var 3 1 1, [wr_var 0 1 1; wr_var 0 1 2])].
Theorem C15_unsorted_refuted : Forall dblock_ok unsorted_file /\
  (exists t, load_dtable (render unsorted_file) = Ok t /\ dquery t (wr_var 3 2 1) = Err ENotFound).
Proof.
  split.
  - constructor; [|constructor; [|constructor]]; (split; [reflexivity|]); (split; [cbn; lia|]); (split; [cbn; lia|]);
      cbn; repeat (constructor; [vm_compute; split; congruence|]); constructor.
  - eexists. split; vm_compute; reflexivity.
Qed.

Definition dsource : list dblock :=
  [(wr_var 3 1 1, [wr_var 0 1 1; wr_var 0 1 2]); (wr_var 3 1 11, [wr_var 0 4 1; wr_var 0 4 2; wr_var 0 4 3]);
   (wr_var 3 1 13, [wr_var 0 4 4])].
Example C15_example : dsource_ok dsource /\ List.find (fun b => fst b =? wr_var 3 1 11) dsource =
  Some (wr_var 3 1 11, [wr_var 0 4 1; wr_var 0 4 2; wr_var 0 4 3]).
Proof.
  split; [|reflexivity]. split; [discriminate|]. split.
  - constructor; [|constructor; [|constructor; [|constructor]]]; (split; [reflexivity|]); (split; [cbn; lia|]);
      (split; [cbn; lia|]); cbn; repeat (constructor; [vm_compute; split; congruence|]); constructor.
  - constructor; [constructor; [constructor; [constructor|constructor]|constructor;[vm_compute; reflexivity|constructor]]
    |constructor; [vm_compute; reflexivity|constructor; [vm_compute; reflexivity|constructor]]].
Qed.

(** ** C16: altered definitions *)

(** What an answer contains depends on the file and the request only, whatever was
    asked before; and an answer has the requested code, scale, length and reference. *)
Theorem C16_exact : forall text t before r, load_bufr text = Ok t ->
  match ask (after_requests t before) r with
  | Ok (_, i, _) => expected t r = Ok i /\
      vi_code i = r_code r /\ vi_scale i = r_scale r /\ vi_bit_len i = r_bits r /\ vi_bit_ref i = r_ref r
  | Err e => expected t r = Err e
  | UB => expected t r = UB
  end.
Proof.
  intros text t before r H. destruct (load_bufr_spec _ _ H) as [[S A] _].
  pose proof (ask_expected t (after_requests t before) r S (from_requests t before t (from_refl t A))) as X.
  destruct (ask (after_requests t before) r) as [[[p i] t2]| |]; auto. split; auto.
  unfold expected in X. destruct (List.find _ t) as [e|] eqn:F; [|discriminate].
  apply find_some in F as [_ C]. apply Z.eqb_eq in C. unfold be_code in C.
  destruct ((vi_scale (be_info e) =? r_scale r) && (vi_bit_len (be_info e) =? r_bits r) && (vi_bit_ref (be_info e) =? r_ref r)) eqn:Q.
  - injection X as <-. lia.
  - apply alter_checked_fields in X. lia.
Qed.

(** Asking twice, with anything in between, gives the same definition object. *)
Theorem C16_interned : forall t r p i t2 between, ask t r = Ok (p, i, t2) ->
  exists t3, ask (after_requests t2 between) r = Ok (p, i, t3) /\ t3 = after_requests t2 between.
Proof. intros t r p i t2 l H. eexists. split; [|reflexivity]. eapply ask_stable; eauto. apply after_requests_extends. Qed.

(** A definition handed out is never changed by later requests, and ordinary lookups
    give the same answers as before any request. *)
Theorem C16_stable : forall text t before r p i t2 after, load_bufr text = Ok t ->
  ask (after_requests t before) r = Ok (p, i, t2) ->
  lookup (after_requests t2 after) p = Some i /\
  forall code, query (after_requests t2 after) code = query t code.
Proof.
  intros text t before r p i t2 after Hl H. split.
  - pose proof (ask_stable _ _ _ _ _ _ H (after_requests_extends after t2)) as H2. eapply ask_lookup; eauto.
  - intros code. destruct (load_bufr_spec _ _ Hl) as [[S _] _].
    assert (X : extends t (after_requests t2 after)).
    { eapply extends_trans; [apply after_requests_extends|]. eapply extends_trans; [eapply ask_extends; eauto|apply after_requests_extends]. }
    unfold query, query_entry. rewrite (extends_codes _ _ X).
    destruct (find_code_spec (map be_code t) code) as (o & -> & A & _). cbn [bind].
    destruct o as [n|]; auto. specialize (A n eq_refl). rewrite nth_error_map in A.
    destruct (nth_error t n) as [e|] eqn:N; [|discriminate].
    destruct (extends_nth _ _ _ _ X N) as (e2 & N2 & [I _]). unfold entry_at. rewrite N, N2. cbn. rewrite I. reflexivity.
Qed.

(** Two requests that differ in code, scale, length or reference get different objects. *)
Theorem C16_distinct : forall text t before r p i t2 between r' p' i' t3, load_bufr text = Ok t ->
  ask (after_requests t before) r = Ok (p, i, t2) -> ask (after_requests t2 between) r' = Ok (p', i', t3) ->
  (p = p' <-> (r_code r = r_code r' /\ r_scale r = r_scale r' /\ r_bits r = r_bits r' /\ r_ref r = r_ref r')).
Proof.
  intros text t before r p i t2 between r' p' i' t3 Hl H1 H2.
  assert (L1 : lookup t3 p = Some i).
  { pose proof (ask_stable _ _ _ _ _ _ H1 (extends_trans _ _ _ (after_requests_extends between t2) (ask_extends _ _ _ _ _ H2))) as Q.
    eapply ask_lookup; eauto. }
  pose proof (ask_lookup _ _ _ _ _ H2) as L2.
  pose proof (C16_exact text t before r Hl) as E1. rewrite H1 in E1. destruct E1 as (_ & E1).
  assert (H2' : ask (after_requests t (before ++ r :: between)) r' = Ok (p', i', t3)).
  { assert (Ap : forall l1 l2 u, after_requests u (l1 ++ l2) = after_requests (after_requests u l1) l2).
    { induction l1 as [|a l1 IH]; intros l2 u; cbn; auto. destruct (ask u a) as [[[? ?] ?]| |]; apply IH. }
    rewrite Ap. cbn [after_requests]. rewrite H1. exact H2. }
  pose proof (C16_exact text t (before ++ r :: between) r' Hl) as E2. rewrite H2' in E2. destruct E2 as (_ & E2).
  split.
  - intros <-. replace i' with i in * by congruence. lia.
  - intros E. assert (r' = r) as -> by (destruct r, r'; cbn in *; f_equal; lia).
    destruct (C16_interned _ _ _ _ _ between H1) as (t4 & Q & _). congruence.
Qed.

(** Altered numeric definitions keep every invariant of loaded ones; in particular
    values stored in them can be encoded. *)
Theorem C16_alteration_sound : forall i s b r j, info_ok i -> int_min <= s <= int_max -> int_min <= r <= int_max ->
  0 <= b < 2 ^ 32 -> alter_checked i s b r = Ok j -> info_ok j.
Proof. exact alter_info_ok. Qed.

(** The altered definition keeps the unit; its type follows the new scale, and its digits
    the new width. *)
Theorem C16_alteration_kind : forall i s b r j, alter_checked i s b r = Ok j ->
  vi_unit j = vi_unit i /\
  vi_type j = (if is_numeric (vi_type i) then if s =? 0 then TInteger else TDecimal else vi_type i) /\
  (if is_numeric (vi_type i) then 10 ^ (vi_len j - 1) < 2 ^ b <= 10 ^ vi_len j else vi_len j = b / 8).
Proof.
  intros i s b r j H. unfold alter_checked in H. destruct (_ && _); [discriminate|]. unfold alter_info in H. inv_bind H.
  apply compute_range_fields in Hk as (_ & E2 & E3 & _ & E5 & _). rewrite E2, E3, E5. split; auto.
  destruct (vi_type i); cbn [is_numeric]; split; auto; try congruence.
  - apply digits_per_bits_spec; auto.
  - apply digits_per_bits_spec; auto.
Qed.

Example C16_example :
  (t <- load_bufr bfile ;;
   ' (p1, i1, t1) <- ask t (mkreq (wr_var 0 12 101) 3 20 0) ;;
   ' (p2, i2, t2) <- ask t1 (mkreq (wr_var 0 12 101) 2 17 (-5)) ;;
   ' (p3, i3, t3) <- ask t2 (mkreq (wr_var 0 12 101) 3 20 0) ;;
   Ok (p1, p2, p3, (vi_scale i2, vi_bit_len i2, vi_bit_ref i2, vi_len i2))) =
  Ok (PAlt 1 0, PAlt 1 1, PAlt 1 0, (2, 17, -5, 6)).
Proof. vm_compute. reflexivity. Qed.

(** ** C17: descriptor lists *)

(** Any sequence of operations on a descriptor list shows exactly what the same
    operations show on the plain list, fails exactly when they do, and never reads
    outside the list. *)
Theorem C17_refines_lists : forall l prog, ops_run (ops_of l) prog = Ok (list_run l prog).
Proof. intros l prog. destruct (slice_ops_of l) as [W S]. rewrite ops_run_spec by exact W. rewrite S. reflexivity. Qed.

(** The same from any sublist, for example a sequence found in a table D. *)
Theorem C17_refines_sublists : forall o prog, wf_ops o -> ops_run o prog = Ok (list_run (slice o) prog).
Proof. intros o prog W. apply ops_run_spec. exact W. Qed.

(** Popping splits the list: nothing is lost or duplicated. *)
Theorem C17_pop_partitions : forall o n a b, wf_ops o -> ops_pop_n o n = Ok (a, b) ->
  slice a ++ slice b = slice o /\ length (slice a) = n.
Proof.
  intros o n a b W H. pose proof (ops_pop_n_spec o n W) as P. destruct (Nat.ltb_spec (length (slice o)) n).
  - congruence.
  - destruct P as (a' & b' & E & _ & _ & Sa & Sb). rewrite E in H. injection H as <- <-.
    rewrite Sa, Sb, firstn_skipn, firstn_length. split; auto. lia.
Qed.

Example C17_example : ops_run (ops_of [1; 2; 3; 4; 5]) [OPop; OPopN 2; OHead; OPopN 3; OSub 1; OPop; OPop] =
  Ok [Some [1]; Some [2; 3]; Some [4]; None; Some []; Some [5]; None].
Proof. reflexivity. Qed.

(** Indexing is false to this at one index: for i equal to the number of elements,
    operator[] does not give 0 but reads one element past the list. *)
Theorem C17_index_past_end_refuted :
  exists l o, ops_get (ops_of l) (length l) = UB /\
    wf_ops o /\ slice o = [1; 2] /\ ops_get o 2 = Ok 3.
Proof.
  exists [1; 2], (mkops [1; 2; 3] 0 2). split; [reflexivity|]. split; [unfold wf_ops; cbn; lia|]. split; reflexivity.
Qed.

Theorem C17_index : forall o i, wf_ops o -> i <> length (slice o) ->
  ops_get o i = Ok (nth i (slice o) 0).
Proof.
  intros o i W N. rewrite ops_get_spec by exact W. destruct (Nat.ltb_spec i (length (slice o))); auto.
  destruct (Nat.eqb_spec i (length (slice o))); [contradiction|]. rewrite nth_overflow by lia. reflexivity.
Qed.

Print Assumptions C14_query_lines.
Print Assumptions C15_query.
Print Assumptions C16_exact.
Print Assumptions C16_distinct.
Print Assumptions C17_refines_lists.

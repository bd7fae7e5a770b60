(** Bitmaps written by append_dpb; comparison of subsets. *)
From Coq Require Import String ZifyBool ZifyNat.
From Verif Require Import Base Bits.Spec Num.Float Varcode.Model Varinfo.Model Tables.Model Var.Model Var.Spec Var.Proofs Var.AttrProofs
  Var.CodecProofs Interp.Model Interp.Spec Interp.BitmapProofs Codec.Model Subset.Model Subset.Spec.
Local Open Scope Z_scope.

Definition mark (b : bool) : Z := if b then 43 else 45.

Lemma dpb_chars_spec attr : forall vars n,
  dpb_chars attr n vars =
    if Nat.leb n (length (filter is_data vars))
    then Ok (map (fun v => mark (carries attr v)) (firstn n (filter is_data vars)))
    else UB.
Proof.
  induction vars as [|v vars IH]; intros [|n]; cbn [dpb_chars filter]; try reflexivity.
  change (var_f (c_code (v_cell v)) =? 0) with (is_data v). destruct (is_data v); cbn [negb].
  - rewrite IH. cbn [length Nat.leb firstn map]. destruct (Nat.leb n (length (filter is_data vars))); [|reflexivity].
    cbn [bind]. unfold mark at 2, carries at 2. destruct (var_enqa v attr); reflexivity.
  - change ((fix skip (vs : list var) : res (list Z) :=
       match vs with
       | [] => UB
       | v :: rest =>
         if negb (var_f (c_code (v_cell v)) =? 0) then skip rest
         else cs <- dpb_chars attr n rest ;;
              Ok ((match var_enqa v attr with None => 45 | Some _ => 43 end) :: cs)
       end) vars) with (dpb_chars attr (S n) vars). apply IH.
Qed.

Lemma count_plus_marks {A} (f : A -> bool) l : count_plus (map (fun v => mark (f v)) l) = length (filter f l).
Proof.
  unfold count_plus. induction l as [|a l IH]; [reflexivity|]. cbn [map filter]. destruct (f a); cbn [mark];
    [change (43 =? 43) with true|change (43 =? 45) with false]; cbn [length]; congruence.
Qed.

Lemma cstr_marks {A} (f : A -> bool) l : cstr (map (fun v => mark (f v)) l) = map (fun v => mark (f v)) l.
Proof. induction l as [|a l IH]; [reflexivity|]. cbn [map cstr]. destruct (f a); cbn; f_equal; auto. Qed.

Lemma set_string_fields code len i : set_string code len = Ok i -> vi_code i = code /\ vi_len i = len /\ vi_type i = TString.
Proof. unfold set_string, compute_range. cbn. intros E. injection E as <-. auto. Qed.

Lemma zlist_eqb_refl l : zlist_eqb l l = true.
Proof. induction l; cbn; auto. rewrite Z.eqb_refl. auto. Qed.

Lemma zlist_eqb_true a : forall b, zlist_eqb a b = true -> a = b.
Proof.
  induction a as [|x a IH]; destruct b as [|y b]; cbn; intros H; try discriminate; auto.
  apply andb_prop in H as [H1 H2]. f_equal; [lia|auto].
Qed.

Lemma assoc_in k l (i : varinfo) : assoc zlist_eqb k l = Some i -> In (k, i) l.
Proof.
  induction l as [|[k' v] l IH]; cbn [assoc]; [discriminate|]. destruct (zlist_eqb k k') eqn:E.
  - intros H. injection H as ->. apply zlist_eqb_true in E. subst. left. reflexivity.
  - right. auto.
Qed.

Lemma get_bitmap_fields lt code chars i lt' : bitmaps_ok lt -> get_bitmap lt code chars = Ok (i, lt') ->
  vi_code i = code /\ vi_len i = Z.of_nat (length chars) /\ vi_type i = TString /\ bitmaps_ok lt'.
Proof.
  unfold get_bitmap, bitmaps_ok. intros B. destruct (assoc zlist_eqb chars (lt_bitmaps lt)) as [j|] eqn:A.
  - destruct (Z.eqb_spec (vi_code j) code) as [E|]; cbn [negb]; [|discriminate]. intros H. injection H as <- <-.
    apply assoc_in in A. pose proof B as B'. rewrite Forall_forall in B. destruct (B _ A) as (c & S). cbn [fst snd] in S.
    apply set_string_fields in S as (S1 & S2 & S3). auto.
  - destruct (set_string code (Z.of_nat (length chars))) as [j| |] eqn:S; cbn [bind]; try discriminate.
    intros H. injection H as <- <-. cbn [lt_bitmaps].
    pose proof (set_string_fields _ _ _ S) as (S1 & S2 & S3). split; [auto|]. split; [auto|]. split; [auto|].
    constructor; [exists code; exact S|exact B].
Qed.

(** get_bitmap only refuses a bitmap that is already in use under another operator. *)
Lemma get_bitmap_total lt code chars : bitmaps_ok lt ->
  (forall i, In (chars, i) (lt_bitmaps lt) -> vi_code i = code) -> exists i lt', get_bitmap lt code chars = Ok (i, lt').
Proof.
  intros B H. unfold get_bitmap. destruct (assoc zlist_eqb chars (lt_bitmaps lt)) as [j|] eqn:A.
  - rewrite (H _ (assoc_in _ _ _ A)), Z.eqb_refl. cbn [negb]. eauto.
  - unfold set_string, compute_range. cbn [compute_irange bind]. eauto.
Qed.

Lemma append_c_with_dpb_spec o lt ccode chars vars vars' lt' : bitmaps_ok lt -> Forall (fun c => c <> 0) chars ->
  append_c_with_dpb o lt ccode chars vars = Ok (vars', lt') ->
  bitmaps_ok lt' /\
  exists i, vi_code i = ccode /\ vi_len i = Z.of_nat (length chars) /\ vi_type i = TString /\
    vars' = vars ++ [mkvar (mkcell i (Some (VStr chars))) []].
Proof.
  unfold append_c_with_dpb. intros B Z0 H. inv_bind H. destruct a as [i lt1].
  destruct (get_bitmap_fields _ _ _ _ _ B Hb) as (F1 & F2 & F3 & F4). inv_bind Hk.
  rewrite setc_string in Hb0 by (cbn; exact F3). cbn [of_outcome] in Hb0. injection Hb0 as <-. injection Hk0 as <- <-.
  split; [exact F4|]. exists i. split; [auto|]. split; [auto|]. split; [auto|]. unfold store_variable. f_equal.
  f_equal. f_equal. unfold with_val, fresh. cbn [c_info]. f_equal. f_equal. f_equal.
  assert (C : cstr chars = chars).
  { clear -Z0. induction Z0 as [|c l Hc F IH]; cbn [cstr]; [reflexivity|]. replace (c =? 0) with false by lia. f_equal. exact IH. }
  rewrite C. apply firstn_all2. unfold ilen. lia.
Qed.

Lemma append_c_with_dpb_total o lt ccode chars vars : bitmaps_ok lt -> Forall (fun c => c <> 0) chars ->
  (forall i, In (chars, i) (lt_bitmaps lt) -> vi_code i = ccode) ->
  exists vars' lt', append_c_with_dpb o lt ccode chars vars = Ok (vars', lt').
Proof.
  intros B Z0 H. destruct (get_bitmap_total lt ccode chars B H) as (i & lt' & G). unfold append_c_with_dpb. rewrite G. cbn [bind].
  destruct (get_bitmap_fields _ _ _ _ _ B G) as (F1 & F2 & F3 & F4).
  rewrite setc_string by (cbn; exact F3). cbn [of_outcome bind]. eauto.
Qed.

(** ** Data positions and data variables *)

Lemma filter_seq_map {A} (f : A -> bool) (d : A) : forall l k,
  filter (fun p => f (nth (p - k) l d)) (seq k (length l)) =
  map fst (filter (fun pv => f (snd pv)) (combine (seq k (length l)) l)).
Proof.
  induction l as [|a l IH]; intros k; [reflexivity|].
  assert (E : filter (fun p => f (nth (p - k) (a :: l) d)) (seq (S k) (length l)) =
              filter (fun p => f (nth (p - S k) l d)) (seq (S k) (length l))).
  { apply filter_ext_in. intros p Hp. apply in_seq in Hp. replace (p - k)%nat with (S (p - S k)) by lia. reflexivity. }
  transitivity ((if f a then [k] else []) ++ filter (fun p => f (nth (p - k) (a :: l) d)) (seq (S k) (length l))).
  - remember (fun p => f (nth (p - k) (a :: l) d)) as g eqn:G. cbn [length seq filter].
    assert (Eg : g k = f a) by (subst g; cbv beta; rewrite Nat.sub_diag; reflexivity). rewrite Eg. destruct (f a); reflexivity.
  - rewrite E, IH. cbn [length seq combine filter snd]. destruct (f a); reflexivity.
Qed.

(** The data variables with their positions. *)
Definition indexed (vars : list var) : list (nat * var) := combine (seq 0 (length vars)) vars.
Definition data (vars : list var) : list (nat * var) := filter (fun pv => is_data (snd pv)) (indexed vars).

Lemma combine_map_r {A B C} (g : B -> C) (l : list A) : forall (m : list B),
  combine l (map g m) = map (fun ab => (fst ab, g (snd ab))) (combine l m).
Proof. induction l as [|a l IH]; intros [|b m]; cbn [combine map]; auto. f_equal. apply IH. Qed.

Lemma data_positions_data vars : data_positions (codes_of vars) = map fst (data vars).
Proof.
  unfold data_positions, codes_of.
  pose proof (filter_seq_map (fun c => var_f c =? 0) 0 (map (fun v => c_code (v_cell v)) vars) 0) as H.
  transitivity (filter (fun p => var_f (nth (p - 0) (map (fun v => c_code (v_cell v)) vars) 0) =? 0)
                  (seq 0 (length (map (fun v => c_code (v_cell v)) vars)))).
  - apply filter_ext. intros p. rewrite Nat.sub_0_r. reflexivity.
  - rewrite H. rewrite map_length. unfold data, indexed. rewrite combine_map_r.
    generalize (combine (seq 0 (length vars)) vars). intros l. induction l as [|[p v] l IH]; [reflexivity|].
    cbn [map filter fst snd]. fold (is_data v). destruct (is_data v); cbn [map fst]; [f_equal|]; exact IH.
Qed.

Lemma data_vars vars : map snd (data vars) = filter is_data vars.
Proof.
  unfold data, indexed. generalize 0%nat. induction vars as [|v vars IH]; intros k; [reflexivity|].
  cbn [length seq combine filter snd]. destruct (is_data v); cbn [map snd]; [f_equal|]; apply IH.
Qed.

Lemma data_length vars : length (data vars) = length (filter is_data vars).
Proof. rewrite <- data_vars, map_length. reflexivity. Qed.

Lemma indexed_snoc vars v : indexed (vars ++ [v]) = indexed vars ++ [(length vars, v)].
Proof.
  unfold indexed. rewrite app_length. cbn [length]. rewrite Nat.add_1_r, seq_S. apply combine_snoc. rewrite seq_length. reflexivity.
Qed.

Lemma data_snoc vars v : is_data v = false -> data (vars ++ [v]) = data vars.
Proof. intros H. unfold data. rewrite indexed_snoc, filter_app. cbn [filter snd]. rewrite H. apply app_nil_r. Qed.

Lemma combine_fst_map {A B C} (f : A -> B) (g : A -> C) l : combine (map f l) (map g l) = map (fun a => (f a, g a)) l.
Proof. induction l as [|a l IH]; [reflexivity|]. cbn. f_equal. exact IH. Qed.

Lemma skipn_map {A B} (f : A -> B) n : forall l, skipn n (map f l) = map f (skipn n l).
Proof. induction n as [|n IH]; intros [|a l]; cbn; auto. Qed.

(** The bitmap that covers all the data variables refers to those that carry the
    attribute. *)
Lemma full_bitmap attr vars b : is_data b = false -> filter is_data vars <> [] ->
  let chars := map (fun v => mark (carries attr v)) (filter is_data vars) in
  make_bitmap (codes_of (vars ++ [b])) chars =
    Ok (map fst (filter (fun pv => is_data (snd pv) && carries attr (snd pv)) (indexed vars))).
Proof.
  intros Hb Hn chars. rewrite make_bitmap_present. subst chars. rewrite data_positions_data, data_snoc by exact Hb.
  rewrite !map_length, data_length.
  destruct (Nat.leb_spec 1 (length (filter is_data vars))) as [L|L].
  2: { destruct (filter is_data vars); [contradiction|cbn in L; lia]. }
  rewrite Nat.leb_refl. cbn [andb]. f_equal. unfold present. rewrite data_positions_data, data_snoc by exact Hb.
  unfold lastn. rewrite !map_length, data_length, Nat.sub_diag. cbn [skipn].
  rewrite <- data_vars, map_map, combine_fst_map.
  assert (E : filter (fun pv => is_data (snd pv) && carries attr (snd pv)) (indexed vars) =
              filter (fun pv => carries attr (snd pv)) (data vars)).
  { unfold data. generalize (indexed vars). intros l. induction l as [|[p v] l IH]; [reflexivity|]. cbn [filter snd].
    destruct (is_data v); cbn [andb filter snd]; [destruct (carries attr v); [f_equal|]|]; exact IH. }
  rewrite E. generalize (data vars). intros l. induction l as [|[p v] l IH]; [reflexivity|].
  cbn [map filter fst snd]. destruct (carries attr v); cbn [mark]; [change (43 =? 43) with true|change (45 =? 43) with false];
    cbn [map fst]; [f_equal|]; exact IH.
Qed.

Lemma indexed_in vars : forall p v, In (p, v) (indexed vars) <-> nth_error vars p = Some v.
Proof.
  intros p v. unfold indexed. assert (H : forall k, In ((k + p)%nat, v) (combine (seq k (length vars)) vars) <-> nth_error vars p = Some v).
  { revert p. induction vars as [|x vars IH]; intros p k; cbn [length seq combine In].
    - destruct p; split; intros H; try discriminate; contradiction.
    - destruct p as [|p]; cbn [nth_error].
      + split.
        * intros [H|H]; [injection H as _ <-; reflexivity|]. apply in_combine_l, in_seq in H. lia.
        * intros H. injection H as ->. left. f_equal. lia.
      + rewrite <- (IH p (S k)). replace (S k + p)%nat with (k + S p)%nat by lia. split; auto.
        intros [H|H]; auto. injection H as H _. lia. }
  apply (H 0%nat).
Qed.

Lemma full_refs attr vars p :
  In p (map fst (filter (fun pv => is_data (snd pv) && carries attr (snd pv)) (indexed vars))) <->
  exists v, nth_error vars p = Some v /\ is_data v = true /\ carries attr v = true.
Proof.
  rewrite in_map_iff. split.
  - intros ([q v] & <- & H). apply filter_In in H as [H1 H2]. cbn [fst snd] in *. apply indexed_in in H1.
    apply andb_prop in H2 as [? ?]. eauto.
  - intros (v & H & D & C). exists (p, v). split; [reflexivity|]. apply filter_In. split; [apply indexed_in; exact H|].
    cbn [snd]. rewrite D, C. reflexivity.
Qed.

Lemma filter_filter {A} (f g : A -> bool) l : filter g (filter f l) = filter (fun a => f a && g a) l.
Proof. induction l as [|a l IH]; [reflexivity|]. cbn [filter]. destruct (f a); cbn [filter andb]; [destruct (g a); [f_equal|]|]; exact IH. Qed.

(** ** Comparison *)
Lemma diff_vars_spec : forall a b, length a = length b ->
  Forall2 (fun x y => diff_ready (chain x) (chain y)) a b ->
  exists n, diff_vars a b = Ok n /\ diff_vars b a = Ok n /\ 0 <= n /\
    (n = 0 -> Forall2 (fun x y => same_cell (v_cell x) (v_cell y) /\
        (isset (v_cell x) = true -> Forall2 same_cell (v_attrs x) (v_attrs y))) a b).
Proof.
  induction a as [|x a IH]; intros [|y b] L F; try discriminate.
  - exists 0. cbn. repeat split; auto. lia.
  - inversion F as [|? ? ? ? F1 F2]; subst. cbn [length] in L. injection L as L. destruct (IH b L F2) as (m & M1 & M2 & M3 & M4).
    destruct (diff_chain_spec (S (length (v_attrs x))) (S (length (v_attrs y))) (v_cell x) (v_attrs x) (v_cell y) (v_attrs y))
      as (n & N1 & N2 & N3 & N4); auto.
    cbn [diff_vars]. unfold var_diff. rewrite N1, N2. cbn [bind].
    destruct (Z.ltb_spec 0 n).
    + exists n. repeat split; auto. lia.
    + exists m. split; [auto|]. split; [auto|]. split; [auto|]. intros E. constructor; auto. apply N4. lia.
Qed.

Lemma diff_vars_refl : forall a, Forall (fun x => diff_ready (chain x) (chain x)) a -> diff_vars a a = Ok 0.
Proof.
  induction a as [|x a IH]; intros F; [reflexivity|]. inversion F; subst. cbn [diff_vars].
  unfold var_diff. rewrite diff_chain_refl by auto. cbn [bind Z.ltb]. auto.
Qed.

(** Every definition in a table that was loaded from a file is sound. *)
From Coq Require Import String.
From Flocq Require Import Core BinarySingleNaN.
From Verif Require Import Base Num.Float Varcode.Model Varinfo.Model Varinfo.RangeProofs Tables.Model Tables.Proofs.
Local Open Scope Z_scope.

Definition table_ok (t : btable) : Prop := forall code i, query t code = Ok i -> info_ok i.

Lemma wrap_int_range z : int_min <= wrap_int z <= int_max.
Proof.
  unfold wrap_int. pose proof (Z.mod_pos_bound (z + 2 ^ 31) (2 ^ 32)). unfold int_min, int_max. lia.
Qed.

Lemma u32_range z : 0 <= u32 z < 2 ^ 32.
Proof. unfold u32. apply Z.mod_pos_bound. lia. Qed.

Lemma info_ok_of_range c t u s l r b i : int_min <= s <= int_max -> int_min <= r <= int_max -> 0 <= l < 2 ^ 32 -> 0 <= b < 2 ^ 32 ->
  (t = TInteger -> s = 0) -> compute_range c t u s l r b = Ok i -> info_ok i.
Proof.
  intros Hs Hr Hl Hb Ht H. pose proof (compute_range_fields _ _ _ _ _ _ _ _ H) as (A & B & C & D & E & F & G).
  constructor; try (rewrite ?D, ?E, ?F, ?G; assumption).
  - eapply compute_range_built; eauto.
  - rewrite B, D. exact Ht.
Qed.

Lemma bufr_line_ok line i : bufr_line line = Ok i -> info_ok i.
Proof.
  unfold bufr_line. destruct (Nat.ltb (length line) 119); [discriminate|]. intros H. inv_bind H. revert Hk.
  set (u := to_string _). set (s := to_int _). set (r := to_int _). set (b := u32 _).
  assert (Rs : int_min <= s <= int_max) by apply wrap_int_range. assert (Rr : int_min <= r <= int_max) by apply wrap_int_range.
  assert (Rb : 0 <= b < 2 ^ 32) by apply u32_range.
  destruct (String.eqb u "CCITTIA5").
  - apply info_ok_of_range; auto; [|discriminate]. split; [apply Z.div_pos; lia|]. apply Z.div_lt_upper_bound; lia.
  - intros H. inv_bind H. revert Hk. apply info_ok_of_range; auto.
    + unfold bufr_digits in Hb0. destruct (b =? 1); [injection Hb0 as <-; lia|]. unfold f_to_Z_range in Hb0.
      destruct (is_finite _); [|discriminate]. cbv zeta in Hb0. destruct (_ && _) eqn:Q; [|discriminate].
      injection Hb0 as <-. apply andb_prop in Q as [Q1 Q2]. apply Z.leb_le in Q1, Q2. lia.
    + destruct (Z.eqb_spec s 0); auto. discriminate.
Qed.

Lemma crex_line_ok line i : crex_line line = Ok (Some i) -> info_ok i.
Proof.
  unfold crex_line. intros H. inv_bind H. revert Hk. destruct (Nat.ltb (length line) 157).
  { destruct (negb (var_x a =? 31)); discriminate. }
  set (u := to_string _). set (s := to_int _). set (l := u32 _). intros H. inv_bind H. injection Hk as <-. revert Hb0.
  assert (Rs : int_min <= s <= int_max) by apply wrap_int_range. assert (Rl : 0 <= l < 2 ^ 32) by apply u32_range.
  apply info_ok_of_range; auto; try (unfold int_min, int_max; lia).
  unfold crex_type. destruct (String.eqb u "CHARACTER"); [discriminate|]. destruct (Z.eqb_spec s 0); auto. discriminate.
Qed.

Definition entries_ok (t : btable) : Prop := Forall (fun e => info_ok (be_info e)) t.

Lemma entries_ok_table t : entries_ok t -> table_ok t.
Proof.
  intros H code i E. unfold query in E. inv_bind E. destruct a as [n|]; [|discriminate]. inv_bind Hk. injection Hk0 as <-.
  unfold entry_at in Hb0. destruct (nth_error t n) as [e|] eqn:N; [|discriminate]. injection Hb0 as <-.
  apply nth_error_In in N. eapply Forall_forall in H; eauto.
Qed.

Lemma obtain_ok t i t' : entries_ok t -> info_ok i -> obtain t i = Ok t' -> entries_ok t'.
Proof.
  intros H K E. assert (t' = t ++ [mkbentry i []]) as ->.
  { unfold obtain in E. destruct (rev t); [congruence|]. destruct (_ <=? _); congruence. }
  apply Forall_app. split; auto.
Qed.

Lemma load_bufr_entries text t : load_bufr text = Ok t -> entries_ok t.
Proof.
  unfold load_bufr. intros H. revert H. assert (H0 : entries_ok []) by constructor. revert H0.
  generalize (@nil bentry). generalize (file_lines text). clear text.
  induction l as [|line l IH]; intros t0 H0 E; cbn [load_blines] in E; [congruence|].
  inv_bind E. inv_bind Hk. eapply IH; [|exact Hk0]. eapply obtain_ok; eauto. eapply bufr_line_ok; eauto.
Qed.
Theorem load_bufr_ok text t : load_bufr text = Ok t -> table_ok t.
Proof. intros H. apply entries_ok_table. eapply load_bufr_entries; eauto. Qed.

Theorem load_crex_ok text t : load_crex text = Ok t -> table_ok t.
Proof.
  unfold load_crex. intros H. apply entries_ok_table. revert H. assert (H0 : entries_ok []) by constructor. revert H0.
  generalize (@nil bentry). generalize (file_lines text). clear text.
  induction l as [|line l IH]; intros t0 H0 E; cbn [load_clines] in E; [congruence|].
  inv_bind E. destruct a as [i|]; [|eauto]. inv_bind Hk. eapply IH; [|exact Hk0]. eapply obtain_ok; eauto. eapply crex_line_ok; eauto.
Qed.

(** A definition that is found has the code that was asked for, in any table. *)
Lemma query_code t code i : query t code = Ok i -> vi_code i = code.
Proof.
  unfold query, query_entry. destruct (find_code_spec (map be_code t) code) as (r & -> & F & _). cbn [bind].
  destruct r as [k|]; [|discriminate]. specialize (F k eq_refl). unfold entry_at. rewrite nth_error_map in F.
  destruct (nth_error t k) as [e|]; [|discriminate]. cbn in F. injection F as F. intros E. injection E as <-. exact F.
Qed.

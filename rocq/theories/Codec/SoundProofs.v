(** Decoding gives sound variables. *)
From Coq Require Import ZArith Lia ZifyBool ZifyNat String Reals.
From Flocq Require Import Core BinarySingleNaN.
From Verif Require Import Base Bits.Model Num.Float Num.FloatProofs Bits.Spec Varcode.Model Varinfo.Model Varinfo.Proofs Varinfo.RangeProofs Tables.Model Tables.Spec Tables.AlterProofs Tables.LoadProofs
  Var.Model Var.Spec Var.Proofs Var.AttrProofs Interp.Model Interp.Holds Codec.Model Codec.Compressed Codec.StepProofs Codec.CheckedSafe Codec.ColumnProofs Codec.AgainSteps Codec.Sound.
From Verif Require Crex.Model.
Local Open Scope Z_scope.

(** ** Setters *)
Section Setters.
Context (o : options) (HO : hook_ok o).

Lemma fresh_sound i : info_ok i -> sound o (fresh i).
Proof. intros H. left. split; [exact H|exact I]. Qed.

Lemma limits i : vi_imin i <= vi_imax i \/ vi_imax i < vi_imin i.
Proof. lia. Qed.

Lemma assign_i_sound c v c' : cell_ok c -> is_numeric (vi_type (c_info c)) = true -> assign_i_checked o c v = Done c' -> sound o c'.
Proof.
  intros Hc Ht E. destruct (limits (c_info c)) as [R|R].
  { left. apply (assign_i_ok o c v c' HO Hc Ht R). rewrite E. reflexivity. }
  unfold assign_i_checked in E. replace ((v <? vi_imin (c_info c)) || (vi_imax (c_info c) <? v)) with true in E by lia.
  destruct (o_silent o); [injection E as <-; left; apply cell_ok_unset; exact Hc|]. destruct (o_clamp o) eqn:C.
  - right. injection E as <-. cbn [with_val c_info c_val]. split; [exact C|]. split; [apply Hc|]. split; [exact Ht|]. split; [exact R|].
    destruct (v <? vi_imin (c_info c)) eqn:L; [left; reflexivity|right]. replace (vi_imax (c_info c) <? v) with true by lia. reflexivity.
  - left. pose proof HO as Ho. unfold hook_ok in Ho. destruct (o_hook o) as [h|]; [|discriminate]. apply (Ho c (inl v) c' Hc). rewrite E. reflexivity.
Qed.

Lemma store_limit c (d : f64) k c' : cell_ok c -> is_numeric (vi_type (c_info c)) = true -> int_min <= k <= int_max -> is_finite d = true ->
  B2R d = scaled (vi_scale (c_info c)) k -> store_d c d = Done c' -> c' = with_val c (VInt k).
Proof.
  intros [Hi _] Ht K F R E. destruct (info_ok_numeric _ Hi Ht) as (Hs & _).
  destruct (encode_between (vi_scale (c_info c)) k k d Hs ltac:(lia) ltac:(lia) K F ltac:(rewrite R; split; apply Rle_refl)) as (n & En & Q).
  unfold store_d in E. rewrite En in E. injection E as <-. replace n with k by lia. reflexivity.
Qed.

Lemma assign_d_sound c d c' : cell_ok c -> is_numeric (vi_type (c_info c)) = true -> assign_d_checked o c d = Done c' -> sound o c'.
Proof.
  intros Hc Ht E. destruct (limits (c_info c)) as [R|R].
  { left. apply (assign_d_ok o c d c' HO Hc Ht R). rewrite E. reflexivity. }
  assert (Hh : forall h x, o_hook o = Some h -> h c x = Done c' -> sound o c').
  { intros h x Eh X. left. pose proof HO as Ho. unfold hook_ok in Ho. rewrite Eh in Ho. apply (Ho c x c' Hc). rewrite X. reflexivity. }
  pose proof Hc as [Hi _]. destruct (info_ok_numeric _ Hi Ht) as (Hs & I1 & I2 & _ & _ & _ & [F1 R1] & [F2 R2]).
  unfold assign_d_checked in E. destruct (fisnan d) eqn:N.
  { destruct (o_silent o); [injection E as <-; left; apply cell_ok_unset; exact Hc|]. destruct (o_hook o) as [h|]; [eapply Hh; eauto|discriminate]. }
  destruct (flt d (vi_dmin (c_info c)) || flt (vi_dmax (c_info c)) d) eqn:B.
  2:{ exfalso. apply orb_false_iff in B as [B1 B2]. destruct (store_d_ok c d Hc Ht N B1 B2) as (n & _ & Q & _). lia. }
  destruct (o_silent o); [injection E as <-; left; apply cell_ok_unset; exact Hc|]. destruct (o_clamp o) eqn:C.
  - right. split; [exact C|]. destruct (flt d (vi_dmin (c_info c))).
    + apply (store_limit c _ (vi_imin (c_info c))) in E; auto. subst c'. cbn [with_val c_info c_val]. auto.
    + cbn [orb] in B. rewrite B in E. apply (store_limit c _ (vi_imax (c_info c))) in E; auto. subst c'. cbn [with_val c_info c_val]. auto 6.
  - destruct (o_hook o) as [h|]; [eapply Hh; eauto|discriminate].
Qed.

Lemma seti_sound c v c' : cell_ok c -> of_outcome (seti o c v) = Ok c' -> sound o c'.
Proof.
  intros Hc E. unfold seti in E. destruct (is_numeric (vi_type (c_info c))) eqn:Ht; [|discriminate].
  destruct (assign_i_checked o c v) eqn:Ea; try discriminate. injection E as <-. eapply assign_i_sound; eauto.
Qed.
Lemma setd_sound c v c' : cell_ok c -> of_outcome (setd o c v) = Ok c' -> sound o c'.
Proof.
  intros Hc E. unfold setd in E. destruct (vi_type (c_info c)) eqn:Ht; try discriminate.
  - destruct (f_lround v); try discriminate. destruct (assign_i_checked o c _) eqn:Ea; try discriminate. injection E as <-. eapply assign_i_sound; eauto. rewrite Ht. reflexivity.
  - destruct (assign_d_checked o c v) eqn:Ea; try discriminate. injection E as <-. eapply assign_d_sound; eauto. rewrite Ht. reflexivity.
Qed.
Lemma set_number_sound c s c' : cell_ok c -> is_numeric (vi_type (c_info c)) = true -> of_outcome (set_number o c s) = Ok c' -> sound o c'.
Proof.
  intros Hc Ht E. unfold set_number in E. destruct (isnumber s); cbn [negb] in E; [|injection E as <-; left; apply cell_ok_unset; exact Hc].
  assert (A : forall v, of_outcome (assign_i_checked o c v) = Ok c' -> sound o c').
  { intros v Ev. destruct (assign_i_checked o c v) eqn:Ea; try discriminate. injection Ev as <-. eapply assign_i_sound; eauto. }
  repeat match type of E with context [match ?x with _ => _ end] => destruct x end; (eapply A; exact E).
Qed.
Lemma done_after (m : outcome cell) c' : of_outcome m = Ok c' -> after m = Some c'.
Proof. destruct m; try discriminate. intros [= <-]. reflexivity. Qed.
Lemma setc_sound c buf c' : cell_ok c -> of_outcome (setc o c buf) = Ok c' -> sound o c'.
Proof.
  intros Hc E. unfold setc in E. destruct (vi_type (c_info c)) eqn:Ht.
  - eapply set_number_sound; eauto. rewrite Ht. reflexivity.
  - eapply set_number_sound; eauto. rewrite Ht. reflexivity.
  - left. apply (assign_c_ok _ _ _ _ Hc Ht (done_after _ _ E)).
  - left. apply (assign_b_ok _ _ _ _ Hc Ht (done_after _ _ E)).
Qed.
Lemma sets_sound c buf c' : cell_ok c -> of_outcome (sets o c buf) = Ok c' -> sound o c'.
Proof.
  intros Hc E. unfold sets in E. destruct (vi_type (c_info c)) eqn:Ht.
  - eapply set_number_sound; eauto. rewrite Ht. reflexivity.
  - eapply set_number_sound; eauto. rewrite Ht. reflexivity.
  - left. apply (assign_c_ok _ _ _ _ Hc Ht (done_after _ _ E)).
  - left. apply (assign_b_ok _ _ _ _ Hc Ht (done_after _ _ E)).
Qed.

Lemma fresh_ok i : info_ok i -> cell_ok (fresh i).
Proof. intros H. split; [exact H|exact I]. Qed.
Lemma sound_info c : sound o c -> info_ok (c_info c).
Proof. intros [[H _]|(_ & H & _)]; exact H. Qed.

(** Attributes. *)
Lemma seta_sound a l : sound o a -> Forall (sound o) l -> sorted l -> Forall (sound o) (seta a l) /\ sorted (seta a l).
Proof.
  intros A L S. split; [|apply seta_sorted; exact S]. apply Forall_forall. intros x Hx. apply seta_in in Hx as [->|Hx]; [exact A|]. rewrite Forall_forall in L. auto.
Qed.
Lemma make_attribute_sound t skip bits sig v c : table_ok t -> make_attribute o t skip bits sig v = Ok (Some c) -> sound o c.
Proof.
  intros Ht E. unfold make_attribute in E. inv_bind E. cbv zeta in Hk. inv_bind Hk. destruct a0 as [code|]; [|discriminate].
  destruct (sig =? 21).
  - destruct (negb skip || _); [|discriminate]. inv_bind Hk0. inv_bind Hk. injection Hk0 as <-. eapply seti_sound; [|eauto]. apply fresh_ok. eapply Ht; eauto.
  - destruct (v =? a).
    + destruct (_ && skip); [discriminate|]. inv_bind Hk0. injection Hk as <-. apply fresh_sound. eapply Ht; eauto.
    + inv_bind Hk0. inv_bind Hk. injection Hk0 as <-. eapply seti_sound; [|eauto]. apply fresh_ok. eapply Ht; eauto.
Qed.
End Setters.

Section Calm.
Context (T : tables) (HT : table_ok (tb_b T)) (HD : defs_ok (tb_b T)).

Definition calm (st : istate) : Prop := Forall (fun q => int_min <= snd q <= int_max) (is_refs st) /\ 0 <= is_srw st <= 255 /\ -128 <= is_scale st <= 127.

Lemma calm_info st code i : calm st -> get_varinfo (tb_b T) st code = Ok i -> info_ok i.
Proof using HT HD.
  intros (A3 & A4 & A5) E. unfold get_varinfo in E. inv_bind E. rename a into peek.
  match type of Hk with context [if ?b then Ok _ else _] => destruct b end; [injection Hk as <-; eapply HT; eauto|]. cbv zeta in Hk.
  pose proof Hb as Hq. apply HT in Hb.
  assert (Sp : -2000000000 <= vi_scale peek <= 2000000000).
  { unfold query, query_entry in Hq. inv_bind Hq. destruct a as [n|]; [|discriminate]. unfold entry_at in Hk0. destruct (nth_error (tb_b T) n) as [e|] eqn:N; [|discriminate].
    cbn in Hk0. injection Hk0 as <-. unfold defs_ok in HD. rewrite Forall_forall in HD. apply nth_error_In in N. apply (HD e N). }
  inv_bind Hk. destruct a as [[sc bl] rf].
  assert (Q : -2000000000 - 128 <= sc <= 2000000000 + 127 + 255 /\ int_min <= rf <= int_max).
  { destruct (is_srw st =? 0); [injection Hb0 as <- _ <-; split; [lia|]; apply Hb|]. destruct (9 <? is_srw st); [discriminate|]. inv_bind Hb0. injection Hk as <- _ <-.
    split; [lia|]. unfold int_checked in Hb1. destruct (in_int (vi_bit_ref peek * 10 ^ is_srw st)) eqn:Ei; [|discriminate]. injection Hb1 as <-. unfold in_int in Ei. lia. }
  destruct Q as [Q1 Q2].
  assert (Q3 : int_min <= match assoc Z.eqb code (is_refs st) with Some r => r | None => rf end <= int_max) by (apply (assoc_bound code _ (fun r => int_min <= r <= int_max)); auto).
  revert Hk0 Q3. generalize (match assoc Z.eqb code (is_refs st) with Some r => r | None => rf end). intros ref E Q3. unfold expected in E. cbn [r_code r_scale r_bits r_ref] in E.
  destruct (List.find (fun e => be_code e =? code) (tb_b T)) as [e|] eqn:Fe; [|discriminate]. apply find_some in Fe as [Ie _].
  unfold defs_ok in HD. rewrite Forall_forall in HD. destruct (HD e Ie) as [Ke _].
  match type of E with context [if ?b then Ok _ else _] => destruct b end; [injection E as <-; exact Ke|].
  eapply alter_info_ok; [exact Ke| | | |exact E]; [unfold int_min, int_max; lia|exact Q3|apply u32_range].
Qed.

Lemma calm_next st n st' : calm st -> bitmaps_next st = Ok (n, st') -> calm st'.
Proof using.
  intros C E. unfold bitmaps_next in E. destruct (is_cur st) as [b|]; [|discriminate]. destruct (bm_rest b) as [|q r]; [discriminate|]. injection E as _ <-. destruct r; exact C.
Qed.
Lemma calm_define st codes bits st' : calm st -> bitmaps_define st codes bits = Ok st' -> calm st'.
Proof using. intros C E. unfold bitmaps_define in E. destruct (make_bitmap codes bits); [injection E as <-; exact C|destruct (is_cur st); discriminate|discriminate]. Qed.
End Calm.

(** ** Templates: what each method keeps, the run keeps *)
Section Keeps.
Context {S : Type} (V : visitor S) (T : tables) (HT : table_ok (tb_b T)) (HD : defs_ok (tb_b T)) (J : S -> Prop).
Context (Kvar : forall i s s', info_ok i -> J s -> on_var V i s = Ok s' -> J s').
Context (Kaf : forall bits sig i s s', info_ok i -> J s -> on_var_af V bits sig i s = Ok s' -> J s').
Context (Kfactor : forall i s n s', info_ok i -> J s -> on_factor V i s = Ok (n, s') -> J s').
Context (Kbfactor : forall i s n s', info_ok i -> J s -> on_bitmap_factor V i s = Ok (n, s') -> J s' /\ 0 <= n < 2 ^ 32).
Context (Ksig : forall i s n s', info_ok i -> J s -> on_significance V i s = Ok (n, s') -> J s').
Context (Ksubst : forall pos s s', J s -> on_subst V pos s = Ok s' -> J s').
Context (Kattr : forall i pos s s', info_ok i -> J s -> on_attr V i pos s = Ok s' -> J s').
Context (Kraw : forall code s s', J s -> on_raw V code s = Ok s' -> J s').
Context (Kref : forall bits code s r s', J s -> on_refval V bits code s = Ok (r, s') -> J s' /\ int_min <= r <= int_max).
Context (Kbitmap : forall pending n s codes bits s', 0 <= n < 2 ^ 32 -> J s -> on_bitmap V pending n s = Ok (codes, bits, s') -> J s').
Context (Kunknown : forall code bits s i s', 0 <= bits < 256 -> J s -> on_unknown V code bits s = Ok (i, s') -> J s' /\ info_ok i).

Lemma run_keeps fuel ops x y : J (snd x) -> calm (fst x) -> run V T fuel ops x = Ok y -> J (snd y) /\ calm (fst y).
Proof.
  intros H C E. refine (run_holds V T (fun st s => J s /\ calm st) (fun _ => True) _ _ _ _ _ fuel ops x _ (conj H C) y E); clear x y H C E.
  - intros code st s _ [H C] y E. unfold b_variable in E. destruct (negb (is_refbits st =? 0)).
    { inv_bind E. destruct a as [r s']. apply ok_inj in Hk. subst y. cbn [fst snd]. destruct (Kref _ _ _ _ _ H Hb) as [H' R]. split; [exact H'|].
      destruct C as (C1 & C2 & C3). split; [constructor; [exact R|exact C1]|]. split; assumption. }
    inv_bind E. pose proof (calm_info T HT HD _ _ _ C Hb) as K. destruct ((var_f code =? 0) && (var_x code =? 33) && _).
    { inv_bind Hk. destruct a0 as [pos st']. inv_bind Hk0. apply ok_inj in Hk. subst y. cbn [fst snd]. split; [eapply Kattr; eauto|eapply calm_next; eauto]. }
    destruct (negb (is_afbits st =? 0)); inv_bind Hk; apply ok_inj in Hk0; subst y; cbn [fst snd]; (split; [|exact C]); [eapply Kaf; [exact K|exact H|exact Hb0]|eapply Kvar; [exact K|exact H|exact Hb0]].
  - intros code next st s _ _ [H C] y E. split; [|intros; apply Forall_forall; auto]. unfold c_modifier in E. cbv zeta in E. pose proof (y_range code) as Y.
    assert (P : forall a b, Ok (a, b, s) = Ok y -> calm b -> J (snd y) /\ calm (snd (fst y))) by (intros a b X Cb; apply ok_inj in X; subst y; split; [exact H|exact Cb]).
    destruct C as (C1 & C2 & C3). assert (C : calm st) by (split; [exact C1|split; assumption]).
    destruct (var_x code =? 1); [eapply P; [exact E|exact C]|].
    destruct (var_x code =? 2); [eapply P; [exact E|]; split; [exact C1|]; split; [exact C2|]; cbn; destruct (var_y code =? 0) eqn:Y0; lia|].
    destruct (var_x code =? 3); [eapply P; [exact E|exact C]|].
    destruct (var_x code =? 4).
    { destruct (negb (var_y code =? 0) && negb (is_afbits st =? 0)); [discriminate|]. destruct (32 <? var_y code); [discriminate|].
      destruct (var_y code =? 0); [eapply P; [exact E|exact C]|]. inv_bind E. destruct a as [c nx]. destruct (negb (c =? var_B31021)); [discriminate|].
      inv_bind Hk. inv_bind Hk0. destruct a0 as [sig s']. apply ok_inj in Hk. subst y. cbn [fst snd]. split; [eapply Ksig; eauto|exact C]. }
    destruct (var_x code =? 5); [inv_bind E; apply ok_inj in Hk; subst y; cbn [fst snd]; split; [eapply Kraw; eauto|exact C]|].
    destruct (var_x code =? 6).
    { inv_bind E. destruct a as [c nx]. destruct (var_y code =? 0); [eapply P; [exact Hk|exact C]|]. inv_bind Hk. inv_bind Hk0. inv_bind Hk. destruct a1 as [i s1].
      inv_bind Hk0. apply ok_inj in Hk. subst y. cbn [fst snd]. split; [|exact C]. destruct a0 as [j|].
      - apply ok_inj in Hb2. injection Hb2 as -> ->. destruct a; [|discriminate]. inv_bind Hb1. destruct (vi_bit_len a =? var_y code); [|discriminate]. apply ok_inj in Hk. injection Hk as ->.
        eapply Kvar; [|exact H|exact Hb3]. eapply calm_info; eauto.
      - destruct (Kunknown _ _ _ _ _ Y H Hb2) as [H1 Ki]. eapply Kvar; [exact Ki|exact H1|exact Hb3]. }
    destruct (var_x code =? 7); [eapply P; [exact E|]; split; [exact C1|]; cbn; split; [lia|exact C3]|]. destruct (var_x code =? 8); [eapply P; [exact E|exact C]|].
    destruct (var_x code =? 22); [destruct (negb (var_y code =? 0)); [discriminate|eapply P; [exact E|exact C]]|].
    destruct (var_x code =? 23).
    { destruct (var_y code =? 0); [eapply P; [exact E|exact C]|]. destruct (var_y code =? 255); [|discriminate]. inv_bind E. destruct a as [pos st']. inv_bind Hk. apply ok_inj in Hk0. subst y.
      cbn [fst snd]. split; [eapply Ksubst; eauto|eapply calm_next; eauto]. }
    destruct (var_x code =? 37).
    { destruct (var_y code =? 0); [eapply P; [exact E|]; exact C|]. destruct (var_y code =? 255); [eapply P; [exact E|exact C]|discriminate]. }
    eapply P; [exact E|exact C].
  - intros i code st s Q [H C] [n s'] E. cbn [snd]. split; [|exact C]. eapply Kfactor; eauto.
  - intros code delayed ops' st s [H C] y E. unfold r_bitmap in E. destruct (negb (var_x code =? 1)); [discriminate|]. destruct (negb (hd 0 ops' =? var_B31031)); [discriminate|].
    inv_bind E. destruct a as [n s1]. inv_bind Hk. destruct a as [[codes bits] s2]. inv_bind Hk0. apply ok_inj in Hk. subst y. cbn [fst snd].
    assert (Q : J s1 /\ 0 <= n < 2 ^ 32).
    { destruct (var_y code =? 0); [inv_bind Hb; eapply Kbfactor; eauto|]. apply ok_inj in Hb. injection Hb as <- <-. pose proof (y_range code). split; [exact H|lia]. }
    destruct Q as [Q1 Q2]. split; [eapply Kbitmap; eauto|]. apply (calm_define _ _ _ _ C) in Hb1. exact Hb1.
  - intros code body _ _ _. apply Forall_forall. auto.
  - apply Forall_forall. auto.
Qed.
End Keeps.

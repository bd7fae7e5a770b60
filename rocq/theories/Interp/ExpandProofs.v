(** Running a template is executing its expansion. *)
From Coq Require Import ZifyBool ZifyNat.
From Verif Require Import Base Varcode.Model Varinfo.Model Tables.Model Tables.Spec Interp.Model Interp.Spec.
Local Open Scope Z_scope.

Definition mode_of (st : istate) : mode := mkmode (negb (is_pending st =? 0)) (negb (is_refbits st =? 0)).

Scheme expands_ind2 := Induction for expands Sort Prop
  with repeats_ind2 := Induction for repeats Sort Prop.
Combined Scheme expands_mutind from expands_ind2, repeats_ind2.

Lemma firstn_app_exact {A} (l m : list A) : firstn (length l) (l ++ m) = l.
Proof. induction l; cbn; congruence. Qed.
Lemma skipn_app_exact {A} (l m : list A) : skipn (length l) (l ++ m) = m.
Proof. induction l; cbn; auto. Qed.

Section Expand.
Context {S : Type} (V : visitor S) (T : tables).

Lemma op_not_zero c : var_f c = 2 -> c <> 0.
Proof. intros H ->. discriminate. Qed.

Lemma c_modifier_plain c next x : takes_arg c = false ->
  c_modifier V T c next x = (' (_, st, s) <- c_modifier V T c [] x ;; Ok (next, st, s)).
Proof.
  destruct x as [st s]. unfold takes_arg, c_modifier. cbv zeta. intros A.
  destruct (var_x c =? 1); [reflexivity|]. destruct (var_x c =? 2); [reflexivity|]. destruct (var_x c =? 3); [reflexivity|].
  destruct (var_x c =? 4).
  { destruct (var_y c =? 0) eqn:Y; [|discriminate]. cbn [negb andb]. destruct (32 <? var_y c); reflexivity. }
  destruct (var_x c =? 5). { destruct (on_raw V c s); reflexivity. }
  destruct (var_x c =? 6); [discriminate|].
  destruct (var_x c =? 7); [reflexivity|]. destruct (var_x c =? 8); [reflexivity|].
  destruct (var_x c =? 22). { destruct (negb (var_y c =? 0)); reflexivity. }
  destruct (var_x c =? 23).
  { destruct (var_y c =? 0); [reflexivity|]. destruct (var_y c =? 255); [|reflexivity].
    destruct (bitmaps_next st) as [[pos st']| |]; cbn [bind]; try reflexivity. destruct (on_subst V pos s); reflexivity. }
  destruct (var_x c =? 37). { destruct (var_y c =? 0); [reflexivity|]. destruct (var_y c =? 255); reflexivity. }
  reflexivity.
Qed.

Lemma c_modifier_on c a next x : takes_arg c = true ->
  c_modifier V T c (a :: next) x = (' (_, st, s) <- c_modifier V T c [a] x ;; Ok (next, st, s)).
Proof.
  destruct x as [st s]. unfold takes_arg, c_modifier. cbv zeta. intros A.
  destruct (Z.eqb_spec (var_x c) 4) as [E|N4].
  - rewrite E. cbn [Z.eqb Pos.eqb]. rewrite E in A. cbn [andb Z.eqb Pos.eqb orb] in A. rewrite orb_false_r in A.
    rewrite A. cbn [andb]. apply negb_true_iff in A. rewrite A.
    destruct (negb (is_afbits st =? 0)); [reflexivity|]. destruct (32 <? var_y c); [reflexivity|]. cbn [pop_left bind].
    destruct (negb (a =? var_B31021)); [reflexivity|]. destruct (query (tb_b T) var_B31021); [|reflexivity|reflexivity]. cbn [bind].
    destruct (on_significance V a0 s) as [[? ?]| |]; reflexivity.
  - cbn [andb orb] in A. apply Z.eqb_eq in A. rewrite A. cbn [Z.eqb Pos.eqb pop_left bind].
    destruct (var_y c =? 0); [reflexivity|]. destruct (contains (tb_b T) a) as [known| |]; cbn [bind]; [|reflexivity|reflexivity].
    match goal with |- bind ?m _ = _ => destruct m as [oi| |] end; cbn [bind]; try reflexivity.
    match goal with |- bind ?m _ = _ => destruct m as [[i s1]| |] end; cbn [bind]; try reflexivity.
    destruct (on_var V i s1); reflexivity.
Qed.

Lemma c_modifier_on_nil c x r : takes_arg c = true -> c_modifier V T c [] x <> Ok r.
Proof.
  destruct x as [st s]. unfold takes_arg, c_modifier. cbv zeta. intros A.
  destruct (Z.eqb_spec (var_x c) 4) as [E|N4].
  - rewrite E. cbn [Z.eqb Pos.eqb]. rewrite E in A. cbn [andb Z.eqb Pos.eqb orb] in A. rewrite orb_false_r in A.
    rewrite A. cbn [andb]. apply negb_true_iff in A. rewrite A.
    destruct (negb (is_afbits st =? 0)); [discriminate|]. destruct (32 <? var_y c); discriminate.
  - cbn [andb orb] in A. apply Z.eqb_eq in A. rewrite A. cbn [Z.eqb Pos.eqb pop_left bind]. discriminate.
Qed.

Lemma bitmaps_next_mode st p st' : bitmaps_next st = Ok (p, st') -> mode_of st' = mode_of st.
Proof.
  unfold bitmaps_next. destruct (is_cur st) as [b|]; [|discriminate]. destruct (bm_rest b) as [|q r]; [discriminate|].
  intros E. injection E as _ <-. destruct r; reflexivity.
Qed.

Lemma c_modifier_mode c next st s next' st' s' : var_f c = 2 -> c_modifier V T c next (st, s) = Ok (next', st', s') ->
  mode_of st' = if takes_arg c then mode_of st else next_mode c (mode_of st).
Proof.
  intros F. pose proof (op_not_zero c F) as N0. unfold c_modifier, takes_arg, next_mode. cbv zeta.
  Local Ltac fin := let E := fresh in intros E; injection E; intros; subst; try reflexivity.
  destruct (Z.eqb_spec (var_x c) 1) as [->|]; [cbn; fin|]. destruct (Z.eqb_spec (var_x c) 2) as [->|]; [cbn; fin|].
  destruct (Z.eqb_spec (var_x c) 3) as [->|].
  { cbn [Z.eqb Pos.eqb andb orb]. fin. unfold mode_of. cbn [with_refbits is_pending is_refbits m_bitmap].
    destruct (Z.eqb_spec (var_y c) 255); cbn [negb andb Z.eqb]; reflexivity. }
  destruct (Z.eqb_spec (var_x c) 4) as [->|].
  { cbn [Z.eqb Pos.eqb andb orb]. rewrite orb_false_r.
    assert (Mo : (if negb (var_y c =? 0) then mode_of st else mode_of st) = mode_of st) by (destruct (negb _); reflexivity).
    rewrite Mo.
    destruct (negb (var_y c =? 0) && negb (is_afbits st =? 0)); [discriminate|]. destruct (32 <? var_y c); [discriminate|].
    destruct (var_y c =? 0); [fin|]. intros E. inv_bind E. destruct a as [a nx]. destruct (negb (a =? var_B31021)); [discriminate|].
    inv_bind Hk. inv_bind Hk0. destruct a1 as [sg s1]. revert Hk. fin. }
  cbn [andb orb].
  destruct (Z.eqb_spec (var_x c) 5) as [->|]. { cbn [Z.eqb Pos.eqb andb orb]. intros E. inv_bind E. revert Hk. fin. }
  destruct (Z.eqb_spec (var_x c) 6) as [_|].
  { intros E. inv_bind E. destruct a as [a nx]. destruct (var_y c =? 0); [revert Hk; fin|].
    inv_bind Hk. inv_bind Hk0. inv_bind Hk. destruct a2. inv_bind Hk0. revert Hk. fin. }
  destruct (Z.eqb_spec (var_x c) 7) as [EX|]; [rewrite ?EX; cbn [Z.eqb Pos.eqb andb orb]; fin|].
  destruct (Z.eqb_spec (var_x c) 8) as [EX|]; [rewrite ?EX; cbn [Z.eqb Pos.eqb andb orb]; fin|].
  assert (P : forall b, mode_of (with_pending b c) = mkmode true (m_refs (mode_of b))).
  { intros b. unfold mode_of. cbn [with_pending is_pending is_refbits m_refs]. destruct (Z.eqb_spec c 0); [contradiction|reflexivity]. }
  destruct (Z.eqb_spec (var_x c) 22) as [EX|]; [rewrite ?EX|].
  { cbn [orb]. destruct (var_y c =? 0); [|discriminate]. cbn [negb andb]. fin. apply P. }
  cbn [orb]. destruct (Z.eqb_spec (var_x c) 23) as [EX|]; [rewrite ?EX|].
  { destruct (var_y c =? 0); [cbn [andb]; fin; apply P|]. cbn [andb]. destruct (var_y c =? 255); [|discriminate].
    intros E. inv_bind E. destruct a as [pos st1]. inv_bind Hk. apply bitmaps_next_mode in Hb. rewrite ?EX. cbn [Z.eqb Pos.eqb andb]. revert Hk0. fin. exact Hb. }
  cbn [andb]. destruct (Z.eqb_spec (var_x c) 37) as [EX|]; [rewrite ?EX|].
  { destruct (var_y c =? 0); [cbn [andb]; fin|]. destruct (var_y c =? 255); [|discriminate]. cbn [andb]. fin. }
  cbn [andb]. fin.
Qed.

Lemma b_variable_mode c st s st' s' : b_variable V T c (st, s) = Ok (st', s') -> mode_of st' = mode_of st.
Proof.
  unfold b_variable. destruct (negb (is_refbits st =? 0)).
  - intros E. inv_bind E. destruct a. injection Hk as <- _. reflexivity.
  - intros E. inv_bind E. revert Hk.
    destruct ((var_f c =? 0) && (var_x c =? 33) && match is_cur st with Some _ => true | None => false end).
    + intros Hk. inv_bind Hk. destruct a0 as [pos st1]. inv_bind Hk0. injection Hk as <- _. eapply bitmaps_next_mode; eauto.
    + destruct (negb (is_afbits st =? 0)); intros Hk; inv_bind Hk; injection Hk0 as <- _; auto.
Qed.

Lemma exec_app i1 i2 x : exec V T (i1 ++ i2) x = (x' <- exec V T i1 x ;; exec V T i2 x').
Proof.
  revert x. induction i1 as [|it i1 IH]; intros x; cbn [exec app]; [reflexivity|].
  destruct (step V T it x) as [x1| |]; cbn [bind]; auto.
Qed.

(** A replication descriptor and what follows it. *)
Lemma delayed_code_cases cur rest d rest1 : delayed_code cur rest = (d, rest1) ->
  (var_y cur <> 0 /\ d = 0 /\ rest1 = rest) \/
  (var_y cur = 0 /\ class31 d /\ rest = d :: rest1) \/
  (var_y cur = 0 /\ d = wr_var 0 31 12 /\ rest1 = rest /\ forall c l, rest = c :: l -> ~ class31 c).
Proof.
  unfold delayed_code. destruct (Z.eqb_spec (var_y cur) 0).
  - destruct rest as [|n rest']; intros E.
    + injection E as <- <-. right. right. repeat split; auto. discriminate.
    + destruct ((var_f n =? 0) && (var_x n =? 31)) eqn:B; injection E as <- <-.
      * right. left. unfold class31. repeat split; auto; lia.
      * right. right. repeat split; auto. intros c l [= <- <-] [H1 H2]. lia.
  - intros [= <- <-]. auto.
Qed.

Lemma var_x_nonneg c : 0 <= var_x c.
Proof. unfold var_x. apply Z.land_nonneg. lia. Qed.
Lemma var_y_nonneg c : 0 <= var_y c.
Proof. unfold var_y. apply Z.land_nonneg. lia. Qed.

Lemma zeqb_list_refl l : zeqb_list l l = true.
Proof. unfold zeqb_list. destruct (list_eq_dec Z.eq_dec l l); congruence. Qed.
Lemma zeqb_list_eq a b : zeqb_list a b = true -> a = b.
Proof. unfold zeqb_list. destruct (list_eq_dec Z.eq_dec a b); congruence. Qed.

Lemma hd_31031 ops : hd 0 ops = var_B31031 -> length ops = 1%nat -> ops = [wr_var 0 31 31].
Proof. destruct ops as [|a [|b l]]; cbn [hd length]; try discriminate. intros -> _. reflexivity. Qed.

Lemma var_f_range c : 0 <= var_f c < 4.
Proof.
  unfold var_f. change 3 with (Z.ones 2). rewrite Z.land_ones by lia. apply (Z.mod_pos_bound _ (2 ^ 2)). lia.
Qed.

Theorem run_expands : forall fuel ops st s st' s', run V T fuel ops (st, s) = Ok (st', s') ->
  exists items, expands T (mode_of st) ops items (mode_of st') /\ exec V T items (st, s) = Ok (st', s').
Proof.
  induction fuel as [|k IH]; intros ops st s st' s' E; cbn [run] in E; [discriminate|].
  destruct ops as [|cur rest]. { injection E as <- <-. exists []. split; [constructor|reflexivity]. }
  cbv zeta in E.
  destruct (Z.eqb_spec (var_f cur) 0) as [F0|F0].
  { inv_bind E. destruct a as [st1 s1]. destruct (IH _ _ _ _ _ Hk) as (items & X & R).
    pose proof (b_variable_mode _ _ _ _ _ Hb) as M. rewrite M in X. destruct (is_refbits st =? 0) eqn:B.
    - exists (IElem cur :: items). split.
      + unfold mode_of in X |- *. rewrite B in X |- *. cbn [negb] in *. apply ex_elem; auto.
      + cbn [exec step]. rewrite B, Hb. cbn [bind]. exact R.
    - unfold b_variable in Hb. rewrite B in Hb. cbn [negb] in Hb. inv_bind Hb. destruct a as [r s2]. injection Hk0 as <- <-.
      exists (INewRef cur r :: items). split.
      + unfold mode_of in X |- *. rewrite B in X |- *. cbn [negb] in *. apply ex_ref; auto.
      + cbn [exec step]. rewrite B, Hb0. cbn [bind]. rewrite Z.eqb_refl. cbn [bind]. exact R. }
  destruct (Z.eqb_spec (var_f cur) 1) as [F1|F1].
  { destruct (delayed_code cur rest) as [delayed rest1] eqn:D. apply delayed_code_cases in D.
    destruct (Nat.ltb_spec (length rest1) (Z.to_nat (var_x cur))) as [|L]; [discriminate|].
    inv_bind E. destruct a as [st1 s1]. destruct (IH _ _ _ _ _ Hk) as (items2 & X2 & R2). cbn [fst] in Hb.
    pose proof (var_x_nonneg cur) as Px.
    set (body := firstn (Z.to_nat (var_x cur)) rest1) in *. set (tail := skipn (Z.to_nat (var_x cur)) rest1) in *.
    assert (Er : rest1 = body ++ tail) by (unfold body, tail; symmetry; apply firstn_skipn).
    assert (Lb : Z.of_nat (length body) = var_x cur) by (unfold body; rewrite firstn_length; lia).
    destruct (is_pending st =? 0) eqn:Pe.
    - (* replication *)
      assert (Rep : forall n st s st' s', repeat_m n (run V T k body) (st, s) = Ok (st', s') ->
        exists items, repeats T (mode_of st) n body items (mode_of st') /\ exec V T items (st, s) = Ok (st', s')).
      { induction n as [|n IHn]; intros a b a' b' H; cbn [repeat_m] in H.
        - injection H as <- <-. exists []. split; [constructor|reflexivity].
        - inv_bind H. destruct a0 as [a1 b1]. destruct (IH _ _ _ _ _ Hb0) as (i1 & X1 & R1).
          destruct (IHn _ _ _ _ Hk0) as (i2 & Y2 & Q2). exists (i1 ++ i2). split; [econstructor; eauto|].
          rewrite exec_app, R1. cbn [bind]. exact Q2. }
      unfold r_replication in Hb. inv_bind Hb. destruct a as [count s2]. destruct (Rep _ _ _ _ _ Hk0) as (items1 & X1 & R1).
      unfold mode_of at 1. rewrite Pe. cbn [negb]. unfold mode_of at 1 in X1. rewrite Pe in X1. cbn [negb] in X1.
      destruct D as [(Y & -> & ->)|[(Y & C & ->)|(Y & -> & -> & C)]].
      + destruct (Z.eqb_spec (var_y cur) 0); [contradiction|]. injection Hb0 as <- <-.
        exists (items1 ++ items2). split; [rewrite Er; eapply ex_repeat; eauto|]. rewrite exec_app, R1. exact R2.
      + destruct (Z.eqb_spec (var_y cur) 0); [|contradiction]. inv_bind Hb0.
        exists (IFactor delayed (Z.to_nat count) :: items1 ++ items2). split; [rewrite Er; eapply ex_delayed; eauto|].
        cbn [exec step]. rewrite Hb. cbn [bind]. rewrite Hk1. cbn [bind]. rewrite Nat.eqb_refl. cbn [bind]. rewrite exec_app, R1. exact R2.
      + destruct (Z.eqb_spec (var_y cur) 0); [|contradiction]. inv_bind Hb0.
        exists (IFactor (wr_var 0 31 12) (Z.to_nat count) :: items1 ++ items2). split.
        * rewrite Er. eapply ex_delayed_implicit; eauto. rewrite <- Er. exact C.
        * cbn [exec step]. rewrite Hb. cbn [bind]. rewrite Hk1. cbn [bind]. rewrite Nat.eqb_refl. cbn [bind]. rewrite exec_app, R1. exact R2.
    - (* bitmap *)
      unfold r_bitmap in Hb. destruct (Z.eqb_spec (var_x cur) 1) as [X1|]; [|discriminate]. cbn [negb] in Hb.
      destruct (Z.eqb_spec (hd 0 body) var_B31031) as [H31|]; [|discriminate]. cbn [negb] in Hb.
      inv_bind Hb. destruct a as [size s2]. inv_bind Hk0. destruct a as [[codes bits] s3]. inv_bind Hk1. injection Hk0 as <- <-.
      apply hd_31031 in H31; [|lia].
      assert (M1 : mode_of (with_pending a 0) = mkmode false (m_refs (mode_of st))).
      { unfold bitmaps_define in Hb1. destruct (make_bitmap codes bits); [|destruct (is_cur st); discriminate|discriminate].
        injection Hb1 as <-. reflexivity. }
      rewrite M1 in X2. cbn [m_refs mode_of] in X2. unfold mode_of at 1. rewrite Pe. cbn [negb].
      destruct D as [(Y & -> & ->)|[(Y & C & ->)|(Y & -> & -> & C)]].
      + exists (IBitmap cur 0 codes bits :: items2). split; [rewrite Er, H31; apply ex_bitmap; auto|].
        cbn [exec step]. rewrite Hb0. cbn [bind]. rewrite Hb. cbn [bind]. rewrite !zeqb_list_refl. cbn [andb].
        rewrite Hb1. cbn [bind]. exact R2.
      + exists (IBitmap cur delayed codes bits :: items2). split; [rewrite Er, H31; apply ex_bitmap_delayed; auto|].
        cbn [exec step]. rewrite Hb0. cbn [bind]. rewrite Hb. cbn [bind]. rewrite !zeqb_list_refl. cbn [andb].
        rewrite Hb1. cbn [bind]. exact R2.
      + exfalso. apply (C (wr_var 0 31 31) tail); [rewrite Er, H31; reflexivity|]. split; reflexivity. }
  destruct (Z.eqb_spec (var_f cur) 2) as [F2|F2].
  { inv_bind E. destruct a as [[rest' st1] s1]. pose proof (c_modifier_mode _ _ _ _ _ _ _ F2 Hb) as M.
    destruct (IH _ _ _ _ _ Hk) as (items & X & R). rewrite M in X. destruct (takes_arg cur) eqn:A.
    - destruct rest as [|a rest]. { exfalso. eapply c_modifier_on_nil; eauto. }
      rewrite c_modifier_on in Hb by exact A. inv_bind Hb. destruct a0 as [[nx st2] s2]. injection Hk0 as -> -> ->.
      destruct (Z.eqb_spec (var_x cur) 4) as [X4|X4].
      + unfold takes_arg in A. rewrite X4 in A. cbn [Z.eqb Pos.eqb andb] in A. rewrite orb_false_r in A.
        assert (a = wr_var 0 31 21) as ->.
        { unfold c_modifier in Hb0. cbv zeta in Hb0. rewrite X4 in Hb0. cbn [Z.eqb Pos.eqb] in Hb0.
          destruct (negb (var_y cur =? 0) && negb (is_afbits st =? 0)); [discriminate|]. destruct (32 <? var_y cur); [discriminate|].
          apply negb_true_iff in A. rewrite A in Hb0. cbn [pop_left bind] in Hb0.
          destruct (Z.eqb_spec a var_B31021); [assumption|discriminate]. }
        exists (IAssoc cur (is_afsig st1) :: items). split; [apply ex_assoc; auto; lia|]. cbn [exec step].
        rewrite X4, A. cbn [Z.eqb Pos.eqb andb]. rewrite Hb0. cbn [bind]. rewrite Z.eqb_refl. exact R.
      + unfold takes_arg in A. assert (X6 : var_x cur = 6) by lia.
        exists (ISkip cur a :: items). split; [apply ex_skip; auto|]. cbn [exec step]. rewrite X6. cbn [Z.eqb Pos.eqb].
        rewrite Hb0. cbn [bind]. exact R.
    - rewrite c_modifier_plain in Hb by exact A. inv_bind Hb. destruct a as [[nx st2] s2]. injection Hk0 as -> -> ->.
      exists (IOp cur :: items). split; [apply ex_op; auto|]. cbn [exec step]. rewrite Hb0. cbn [bind]. exact R. }
  inv_bind E. inv_bind Hk. destruct a0 as [st1 s1]. destruct (IH _ _ _ _ _ Hb0) as (i1 & X1 & R1).
  destruct (IH _ _ _ _ _ Hk0) as (i2 & X2 & R2). exists (i1 ++ i2). split.
  - eapply ex_sequence; eauto. pose proof (var_f_range cur). lia.
  - rewrite exec_app, R1. exact R2.
Qed.

(** More fuel does not change a result. *)
Lemma repeat_mono {A} (f g : A -> res A) : (forall x y, f x = Ok y -> g x = Ok y) ->
  forall n x y, repeat_m n f x = Ok y -> repeat_m n g x = Ok y.
Proof.
  intros H. induction n as [|n IH]; intros x y E; cbn [repeat_m] in *; auto. inv_bind E. rewrite (H _ _ Hb). cbn [bind]. auto.
Qed.

Lemma run_mono1 : forall k ops x y, run V T k ops x = Ok y -> run V T (Datatypes.S k) ops x = Ok y.
Proof.
  induction k as [|k IH]; intros ops x y E; [discriminate|]. cbn [run] in E.
  change (run V T (Datatypes.S (Datatypes.S k)) ops x) with
    (match ops with
     | [] => Ok x
     | cur :: rest =>
       let f := var_f cur in
       if f =? 0 then x' <- b_variable V T cur x ;; run V T (Datatypes.S k) rest x'
       else if f =? 1 then
         let (delayed, rest1) := delayed_code cur rest in
         let n := Z.to_nat (var_x cur) in
         if Nat.ltb (length rest1) n then Err EConsistency
         else
           let ops' := firstn n rest1 in
           x' <- (if is_pending (fst x) =? 0 then r_replication V T (run V T (Datatypes.S k) ops') cur delayed x
                  else r_bitmap V T cur delayed ops' x) ;;
           run V T (Datatypes.S k) (skipn n rest1) x'
       else if f =? 2 then
         ' (rest', st', s') <- c_modifier V T cur rest x ;; run V T (Datatypes.S k) rest' (st', s')
       else
         body <- dexpand (tb_d T) cur ;;
         x' <- run V T (Datatypes.S k) body x ;; run V T (Datatypes.S k) rest x'
     end).
  destruct ops as [|cur rest]; auto. cbv zeta in *.
  destruct (var_f cur =? 0). { inv_bind E. rewrite Hb. cbn [bind]. auto. }
  destruct (var_f cur =? 1).
  { destruct (delayed_code cur rest) as [delayed rest1]. destruct (Nat.ltb (length rest1) (Z.to_nat (var_x cur))); auto.
    inv_bind E. destruct (is_pending (fst x) =? 0).
    - unfold r_replication in *. destruct x as [st s]. inv_bind Hb. destruct a0 as [count s1]. rewrite Hb0. cbn [bind].
      rewrite (repeat_mono _ (run V T (Datatypes.S k) _) (fun x y => IH _ x y) _ _ _ Hk0). cbn [bind]. auto.
    - rewrite Hb. cbn [bind]. auto. }
  destruct (var_f cur =? 2). { inv_bind E. destruct a as [[? ?] ?]. rewrite Hb. cbn [bind]. auto. }
  inv_bind E. inv_bind Hk. rewrite Hb. cbn [bind]. rewrite (IH _ _ _ Hb0). cbn [bind]. auto.
Qed.

Lemma run_mono k j ops x y : (k <= j)%nat -> run V T k ops x = Ok y -> run V T j ops x = Ok y.
Proof. induction 1; auto. intros E. apply run_mono1. auto. Qed.

Theorem expands_run_both :
  (forall m ops items m', expands T m ops items m' -> forall st s st' s', mode_of st = m ->
     exec V T items (st, s) = Ok (st', s') -> mode_of st' = m' /\ exists k, run V T k ops (st, s) = Ok (st', s')) /\
  (forall m n body items m', repeats T m n body items m' -> forall st s st' s', mode_of st = m ->
     exec V T items (st, s) = Ok (st', s') ->
     mode_of st' = m' /\ exists k, repeat_m n (run V T k body) (st, s) = Ok (st', s')).
Proof.
  apply expands_mutind with
    (P := fun m ops items m' _ => forall st s st' s', mode_of st = m ->
       exec V T items (st, s) = Ok (st', s') -> mode_of st' = m' /\ exists k, run V T k ops (st, s) = Ok (st', s'))
    (P0 := fun m n body items m' _ => forall st s st' s', mode_of st = m ->
       exec V T items (st, s) = Ok (st', s') ->
       mode_of st' = m' /\ exists k, repeat_m n (run V T k body) (st, s) = Ok (st', s')).
  - intros m st s st' s' M E. injection E as <- <-. split; auto. exists 1%nat. reflexivity.
  - intros b c rest items m' F X IH st s st' s' M E. cbn [exec step] in E.
    destruct (is_refbits st =? 0) eqn:B; [|discriminate]. inv_bind E. destruct a as [st1 s1].
    pose proof (b_variable_mode _ _ _ _ _ Hb) as M1. destruct (IH st1 s1 st' s') as [M2 (k & R)]; [congruence|exact Hk|].
    split; auto. exists (Datatypes.S k). cbn [run]. cbv zeta. rewrite F. cbn [Z.eqb]. rewrite Hb. exact R.
  - intros b c r rest items m' F X IH st s st' s' M E. cbn [exec step] in E.
    destruct (is_refbits st =? 0) eqn:B; [discriminate|]. inv_bind E. destruct a as [st1 s1]. inv_bind Hb. destruct a as [r' s2].
    destruct (Z.eqb_spec r' r) as [->|]; [|discriminate]. injection Hk0 as <- <-.
    destruct (IH (with_refs st ((c, r) :: is_refs st)) s2 st' s') as [M2 (k & R)]; [exact M|exact Hk|].
    split; auto. exists (Datatypes.S k). cbn [run]. cbv zeta. rewrite F. cbn [Z.eqb]. unfold b_variable. rewrite B. cbn [negb].
    rewrite Hb0. exact R.
  - intros m c rest items m' F A X IH st s st' s' M E. cbn [exec step] in E. inv_bind E. destruct a as [st1 s1].
    inv_bind Hb. destruct a as [[nx st2] s2]. injection Hk0 as -> ->.
    pose proof (c_modifier_mode _ _ _ _ _ _ _ F Hb0) as M1. rewrite A, M in M1.
    destruct (IH st1 s1 st' s') as [M2 (k & R)]; [exact M1|exact Hk|]. split; auto. exists (Datatypes.S k). cbn [run]. cbv zeta.
    rewrite F. cbn [Z.eqb Pos.eqb]. rewrite c_modifier_plain by exact A. rewrite Hb0. exact R.
  - intros m c g rest items m' F X4 Y X IH st s st' s' M E. cbn [exec step] in E. rewrite X4 in E.
    destruct (Z.eqb_spec (var_y c) 0); [contradiction|]. cbn [Z.eqb Pos.eqb negb andb] in E. inv_bind E. destruct a as [st1 s1].
    inv_bind Hb. destruct a as [[nx st2] s2]. destruct (is_afsig st2 =? g); [|discriminate]. injection Hk0 as -> ->.
    assert (A : takes_arg c = true) by (unfold takes_arg; lia).
    pose proof (c_modifier_mode _ _ _ _ _ _ _ F Hb0) as M1. rewrite A, M in M1.
    destruct (IH st1 s1 st' s') as [M2 (k & R)]; [exact M1|exact Hk|]. split; auto. exists (Datatypes.S k). cbn [run]. cbv zeta.
    rewrite F. cbn [Z.eqb Pos.eqb]. rewrite c_modifier_on by exact A. rewrite Hb0. exact R.
  - intros m c a rest items m' F X6 X IH st s st' s' M E. cbn [exec step] in E. rewrite X6 in E. cbn [Z.eqb Pos.eqb] in E.
    inv_bind E. destruct a0 as [st1 s1].
    inv_bind Hb. destruct a0 as [[nx st2] s2]. injection Hk0 as -> ->.
    assert (A : takes_arg c = true) by (unfold takes_arg; lia).
    pose proof (c_modifier_mode _ _ _ _ _ _ _ F Hb0) as M1. rewrite A, M in M1.
    destruct (IH st1 s1 st' s') as [M2 (k & R)]; [exact M1|exact Hk|]. split; auto. exists (Datatypes.S k). cbn [run]. cbv zeta.
    rewrite F. cbn [Z.eqb Pos.eqb]. rewrite c_modifier_on by exact A. rewrite Hb0. exact R.
  - intros m d body rest i1 m1 i2 m2 F D X1 IH1 X2 IH2 st s st' s' M E. rewrite exec_app in E. inv_bind E. destruct a as [st1 s1].
    destruct (IH1 _ _ _ _ M Hb) as [M1 (k1 & R1)]. destruct (IH2 _ _ _ _ M1 Hk) as [M2 (k2 & R2)]. split; auto.
    exists (Datatypes.S (k1 + k2)). cbn [run]. cbv zeta. rewrite F. cbn [Z.eqb Pos.eqb]. rewrite D. cbn [bind].
    rewrite (run_mono k1 (k1 + k2) _ _ _ ltac:(lia) R1). cbn [bind]. exact (run_mono k2 (k1 + k2) _ _ _ ltac:(lia) R2).
  - intros b r body rest i1 m1 i2 m2 F Y L X1 IH1 X2 IH2 st s st' s' M E. rewrite exec_app in E. inv_bind E. destruct a as [st1 s1].
    destruct (IH1 _ _ _ _ M Hb) as [M1 (k1 & R1)]. destruct (IH2 _ _ _ _ M1 Hk) as [M2 (k2 & R2)]. split; auto.
    exists (Datatypes.S (k1 + k2)). cbn [run]. cbv zeta. rewrite F. cbn [Z.eqb Pos.eqb]. unfold delayed_code.
    destruct (Z.eqb_spec (var_y r) 0); [contradiction|]. replace (Z.to_nat (var_x r)) with (length body) by lia.
    rewrite app_length. replace (Nat.ltb _ _) with false by lia. rewrite firstn_app_exact, skipn_app_exact. cbn [fst].
    assert (P : is_pending st =? 0 = true) by (unfold mode_of in M; injection M; intros _ Q; destruct (is_pending st =? 0); auto).
    rewrite P. unfold r_replication. destruct (Z.eqb_spec (var_y r) 0); [contradiction|]. cbn [bind].
    rewrite (repeat_mono _ (run V T (k1 + k2) body) (fun x y => run_mono k1 (k1 + k2) body x y ltac:(lia)) _ _ _ R1). cbn [bind].
    exact (run_mono k2 (k1 + k2) _ _ _ ltac:(lia) R2).
  - intros b r c n body rest i1 m1 i2 m2 F Y C L X1 IH1 X2 IH2 st s st' s' M E. cbn [exec step] in E. inv_bind E.
    inv_bind Hb. inv_bind Hk0. destruct a1 as [cnt s1]. destruct (Nat.eqb_spec (Z.to_nat cnt) n) as [<-|]; [|discriminate].
    injection Hk1 as <-. rewrite exec_app in Hk. inv_bind Hk. destruct a as [st1 s2].
    destruct (IH1 _ _ _ _ M Hb1) as [M1 (k1 & R1)]. destruct (IH2 _ _ _ _ M1 Hk0) as [M2 (k2 & R2)]. split; auto.
    exists (Datatypes.S (k1 + k2)). cbn [run]. cbv zeta. rewrite F. cbn [Z.eqb Pos.eqb]. unfold delayed_code.
    rewrite Y. cbn [Z.eqb]. destruct C as [C1 C2]. rewrite C1, C2. cbn [Z.eqb Pos.eqb andb].
    replace (Z.to_nat (var_x r)) with (length body) by lia.
    rewrite app_length. replace (Nat.ltb _ _) with false by lia. rewrite firstn_app_exact, skipn_app_exact. cbn [fst].
    assert (P : is_pending st =? 0 = true) by (unfold mode_of in M; injection M; intros _ Q; destruct (is_pending st =? 0); auto).
    rewrite P. unfold r_replication. rewrite Y. cbn [Z.eqb]. rewrite Hb0. cbn [bind]. rewrite Hb. cbn [bind].
    rewrite (repeat_mono _ (run V T (k1 + k2) body) (fun x y => run_mono k1 (k1 + k2) body x y ltac:(lia)) _ _ _ R1). cbn [bind].
    exact (run_mono k2 (k1 + k2) _ _ _ ltac:(lia) R2).
  - intros b r n body rest i1 m1 i2 m2 F Y C L X1 IH1 X2 IH2 st s st' s' M E. cbn [exec step] in E. inv_bind E.
    inv_bind Hb. inv_bind Hk0. destruct a1 as [cnt s1]. destruct (Nat.eqb_spec (Z.to_nat cnt) n) as [<-|]; [|discriminate].
    injection Hk1 as <-. rewrite exec_app in Hk. inv_bind Hk. destruct a as [st1 s2].
    destruct (IH1 _ _ _ _ M Hb1) as [M1 (k1 & R1)]. destruct (IH2 _ _ _ _ M1 Hk0) as [M2 (k2 & R2)]. split; auto.
    exists (Datatypes.S (k1 + k2)). cbn [run]. cbv zeta. rewrite F. cbn [Z.eqb Pos.eqb].
    assert (D : delayed_code r (body ++ rest) = (var_B31012, body ++ rest)).
    { unfold delayed_code. rewrite Y. cbn [Z.eqb]. destruct (body ++ rest) as [|c l]; auto.
      destruct ((var_f c =? 0) && (var_x c =? 31)) eqn:B; auto. exfalso. apply (C c l eq_refl). unfold class31. lia. }
    rewrite D. replace (Z.to_nat (var_x r)) with (length body) by lia.
    rewrite app_length. replace (Nat.ltb _ _) with false by lia. rewrite firstn_app_exact, skipn_app_exact. cbn [fst].
    assert (P : is_pending st =? 0 = true) by (unfold mode_of in M; injection M; intros _ Q; destruct (is_pending st =? 0); auto).
    rewrite P. unfold r_replication. rewrite Y. cbn [Z.eqb]. unfold var_B31012. rewrite Hb0. cbn [bind]. rewrite Hb. cbn [bind].
    rewrite (repeat_mono _ (run V T (k1 + k2) body) (fun x y => run_mono k1 (k1 + k2) body x y ltac:(lia)) _ _ _ R1). cbn [bind].
    exact (run_mono k2 (k1 + k2) _ _ _ ltac:(lia) R2).
  - intros b r codes bits rest items m' F X1 Y X IH st s st' s' M E. cbn [exec step] in E. inv_bind E. inv_bind Hb.
    destruct a0 as [size s1]. inv_bind Hk0. destruct a0 as [[codes' bits'] s2].
    destruct (zeqb_list codes' codes && zeqb_list bits' bits) eqn:Z; [|discriminate]. apply andb_prop in Z as [Z1 Z2].
    apply zeqb_list_eq in Z1, Z2. subst. inv_bind Hk1. injection Hk0 as <-.
    assert (M1 : mode_of (with_pending a0 0) = mkmode false b).
    { unfold bitmaps_define in Hb1. destruct (make_bitmap codes bits); [|destruct (is_cur st); discriminate|discriminate].
      injection Hb1 as <-. unfold mode_of in *. cbn. injection M as _ <-. reflexivity. }
    destruct (IH _ _ _ _ M1 Hk) as [M2 (k & R)]. split; auto. exists (Datatypes.S k). cbn [run]. cbv zeta.
    rewrite F. cbn [Z.eqb Pos.eqb]. unfold delayed_code. destruct (Z.eqb_spec (var_y r) 0); [contradiction|]. rewrite X1.
    change (Z.to_nat 1) with 1%nat. cbn [length Nat.ltb Nat.leb firstn skipn fst].
    assert (P : is_pending st =? 0 = false) by (unfold mode_of in M; injection M; intros _ Q; destruct (is_pending st =? 0); auto; discriminate).
    rewrite P. unfold r_bitmap. rewrite X1. cbn [Z.eqb Pos.eqb negb hd]. unfold var_B31031. rewrite Z.eqb_refl. cbn [negb].
    destruct (Z.eqb_spec (var_y r) 0); [contradiction|].
    rewrite Hb0. cbn [bind]. rewrite Hb. cbn [bind]. rewrite Hb1. cbn [bind]. exact R.
  - intros b r c codes bits rest items m' F X1 Y C X IH st s st' s' M E. cbn [exec step] in E. inv_bind E. inv_bind Hb.
    destruct a0 as [size s1]. inv_bind Hk0. destruct a0 as [[codes' bits'] s2].
    destruct (zeqb_list codes' codes && zeqb_list bits' bits) eqn:Z; [|discriminate]. apply andb_prop in Z as [Z1 Z2].
    apply zeqb_list_eq in Z1, Z2. subst. inv_bind Hk1. injection Hk0 as <-.
    assert (M1 : mode_of (with_pending a0 0) = mkmode false b).
    { unfold bitmaps_define in Hb1. destruct (make_bitmap codes bits); [|destruct (is_cur st); discriminate|discriminate].
      injection Hb1 as <-. unfold mode_of in *. cbn. injection M as _ <-. reflexivity. }
    destruct (IH _ _ _ _ M1 Hk) as [M2 (k & R)]. split; auto. exists (Datatypes.S k). cbn [run]. cbv zeta.
    rewrite F. cbn [Z.eqb Pos.eqb]. unfold delayed_code. rewrite Y. cbn [Z.eqb]. destruct C as [C1 C2]. rewrite C1, C2, X1.
    cbn [Z.eqb Pos.eqb andb]. change (Z.to_nat 1) with 1%nat. cbn [length Nat.ltb Nat.leb firstn skipn fst].
    assert (P : is_pending st =? 0 = false) by (unfold mode_of in M; injection M; intros _ Q; destruct (is_pending st =? 0); auto; discriminate).
    rewrite P. unfold r_bitmap. rewrite X1. cbn [Z.eqb Pos.eqb negb hd]. unfold var_B31031. rewrite Z.eqb_refl. cbn [negb].
    rewrite Hb0. cbn [bind]. rewrite Hb. cbn [bind]. rewrite Hb1. cbn [bind]. exact R.
  - intros m body st s st' s' M E. injection E as <- <-. split; auto. exists 0%nat. reflexivity.
  - intros m n body i1 m1 i2 m2 X1 IH1 X2 IH2 st s st' s' M E. rewrite exec_app in E. inv_bind E. destruct a as [st1 s1].
    destruct (IH1 _ _ _ _ M Hb) as [M1 (k1 & R1)]. destruct (IH2 _ _ _ _ M1 Hk) as [M2 (k2 & R2)]. split; auto.
    exists (k1 + k2)%nat. cbn [repeat_m]. rewrite (run_mono k1 (k1 + k2) _ _ _ ltac:(lia) R1). cbn [bind].
    exact (repeat_mono _ (run V T (k1 + k2) body) (fun x y => run_mono k2 (k1 + k2) body x y ltac:(lia)) _ _ _ R2).
Qed.
End Expand.

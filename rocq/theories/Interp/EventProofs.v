(** The calls that the interpreter makes while it executes an expansion. *)
From Coq Require Import ZifyBool ZifyNat String.
From Verif Require Import Base Varcode.Model Varinfo.Model Varinfo.RangeProofs Tables.Model Tables.Spec Tables.AlterProofs
  Tables.LoadProofs Interp.Model Interp.Spec Interp.Hom Interp.ExpandProofs Interp.BitmapProofs.
Local Open Scope Z_scope.

Definition bitmap_at (refs : list nat) (k : nat) (st : istate) : Prop :=
  match nth_error refs k with
  | Some _ => is_cur st = Some (mkbitmap refs (skipn k refs))
  | None => match refs with
            | [] => k = 0%nat /\ is_cur st = Some (mkbitmap [] [])
            | _ => is_cur st = None /\ is_last st = Some refs
            end
  end.

Record st_inv (pre : list item) (st : istate) : Prop := {
  si_width : is_width st = width_change pre;
  si_scale : is_scale st = scale_change pre;
  si_inc : is_srw st = increase pre;
  si_strlen : is_strlen st = string_length pre;
  si_refbits : is_refbits st = reference_width pre;
  si_refs c : assoc Z.eqb c (is_refs st) = new_reference c pre;
  si_pending : is_pending st = pending pre;
  si_af : match associated pre with
          | None => is_afbits st = 0
          | Some (b, g) => is_afbits st = b /\ is_afsig st = g /\ b <> 0
          end;
  si_none : no_bitmap pre -> is_cur st = None /\ is_last st = None;
  si_serves refs k : serves pre refs k -> bitmap_at refs k st }.

Lemma serves_nil refs k : ~ serves [] refs k.
Proof. intros H. inversion H; subst; match goal with E : _ ++ [_] = [] |- _ => symmetry in E; apply app_cons_not_nil in E; auto end. Qed.

Lemma st_inv_init : st_inv [] ist_init.
Proof.
  constructor; try reflexivity; auto.
  intros refs k H. exfalso. eapply serves_nil; eauto.
Qed.

Lemma serves_inv pre it refs k : serves (pre ++ [it]) refs k ->
  (exists r d codes bits, it = IBitmap r d codes bits /\ refs = present codes bits /\ k = 0%nat) \/
  (exists k0 c, it = IOp c /\ var_x c = 37 /\ var_y c = 0 /\ serves pre refs k0 /\ refs <> [] /\ (length refs <= k0)%nat /\ k = 0%nat) \/
  (exists c, it = IOp c /\ var_x c = 37 /\ var_y c = 255 /\ serves pre refs k /\ (k < length refs)%nat) \/
  (exists k0, serves pre refs k0 /\ (forall r d codes bits, it <> IBitmap r d codes bits) /\
     (forall c, it = IOp c -> var_x c <> 37) /\ k = if consumer it then S k0 else k0).
Proof.
  intros H. remember (pre ++ [it]) as l eqn:E. destruct H as [p r d codes bits|p refs k c H N L X Y|p refs k c H L X Y|p refs k i H N1 N2];
  apply app_inj_tail in E as [-> E].
  - left. exists r, d, codes, bits. auto.
  - right. left. exists k, c. repeat split; auto.
  - right. right. left. exists c. repeat split; auto.
  - right. right. right. exists k. subst it. repeat split; auto.
Qed.

Lemma no_bitmap_snoc pre it : no_bitmap (pre ++ [it]) <-> no_bitmap pre /\ forall r d codes bits, it <> IBitmap r d codes bits.
Proof.
  unfold no_bitmap. split.
  - intros H. split; intros r d codes bits I; apply (H r d codes bits); apply in_app_iff; cbn; auto.
  - intros [H1 H2] r d codes bits I. apply in_app_iff in I as [I|[I|[]]]; [eapply H1; eauto|eapply H2; eauto].
Qed.

(** Items that leave the bitmaps alone. *)
Lemma quiet_serves pre st it st' : st_inv pre st -> (forall r d codes bits, it <> IBitmap r d codes bits) ->
  (forall c, it = IOp c -> var_x c <> 37) -> consumer it = false -> is_cur st' = is_cur st -> is_last st' = is_last st ->
  (no_bitmap (pre ++ [it]) -> is_cur st' = None /\ is_last st' = None) /\
  (forall refs k, serves (pre ++ [it]) refs k -> bitmap_at refs k st').
Proof.
  intros I N1 N2 C E1 E2. split.
  - intros H. apply no_bitmap_snoc in H as [H _]. rewrite E1, E2. exact (si_none _ _ I H).
  - intros refs k H. apply serves_inv in H as [(r & d & codes & bits & -> & _)|[(k0 & c & -> & X & _)|[(c & -> & X & _)|(k0 & H & _ & _ & ->)]]].
    + exfalso. eapply N1; eauto.
    + exfalso. eapply N2; eauto.
    + exfalso. eapply N2; eauto.
    + rewrite C. pose proof (si_serves _ _ I _ _ H) as B. unfold bitmap_at in *. rewrite E1, E2. exact B.
Qed.

Lemma skipn_nth {A} (l : list A) k x : nth_error l k = Some x -> skipn k l = x :: skipn (S k) l.
Proof.
  revert l. induction k as [|k IH]; intros [|a l] H; cbn [nth_error skipn] in *; try discriminate.
  - injection H as ->. reflexivity.
  - rewrite (IH _ H). destruct l; [destruct k; discriminate|reflexivity].
Qed.

Lemma skipn_none {A} (l : list A) k : nth_error l k = None -> skipn k l = [].
Proof. intros H. apply nth_error_None in H. apply skipn_all2. exact H. Qed.

Lemma next_serves pre st pos st' : st_inv pre st -> bitmaps_next st = Ok (pos, st') ->
  ~ no_bitmap pre /\ forall refs k, serves pre refs k -> nth_error refs k = Some pos /\ bitmap_at refs (S k) st'.
Proof.
  intros I N. unfold bitmaps_next in N. destruct (is_cur st) as [b|] eqn:C; [|discriminate]. destruct (bm_rest b) as [|p rest] eqn:R; [discriminate|].
  injection N as <- <-. split.
  - intros H. apply (si_none _ _ I) in H. destruct H. congruence.
  - intros refs k H. pose proof (si_serves _ _ I _ _ H) as B. unfold bitmap_at in B. destruct (nth_error refs k) as [q|] eqn:E.
    + rewrite C in B. injection B as ->. cbn [bm_rest bm_refs] in *. pose proof (skipn_nth _ _ _ E) as K. remember (skipn (S k) refs) as tl eqn:Etl. rewrite K in R. injection R as -> R.
      rewrite Etl in R. split; auto. unfold bitmap_at. destruct (nth_error refs (S k)) as [q'|] eqn:E'.
      * rewrite (skipn_nth _ _ _ E') in R. destruct rest as [|a rest]; [discriminate|]. cbn [with_bitmaps is_cur]. f_equal. f_equal.
        rewrite (skipn_nth _ _ _ E'). symmetry. exact R.
      * rewrite (skipn_none _ _ E') in R. subst rest. destruct refs; [destruct k; discriminate|]. split; reflexivity.
    + destruct refs; [destruct B as [_ B]; rewrite C in B; injection B as ->; discriminate|]. destruct B as [B _]. congruence.
Qed.

Lemma idle_serves pre st refs k : st_inv pre st -> is_cur st = None -> serves pre refs k ->
  nth_error refs k = None /\ bitmap_at refs (S k) st.
Proof.
  intros I C H. pose proof (si_serves _ _ I _ _ H) as B. unfold bitmap_at in B. destruct (nth_error refs k) as [q|] eqn:E; [congruence|].
  split; auto. unfold bitmap_at. assert (E' : nth_error refs (S k) = None) by (apply nth_error_None in E; apply nth_error_None; lia).
  rewrite E'. destruct refs; [destruct B; congruence|exact B].
Qed.

(** ** The definition in force *)
Section Events.
Context {S : Type} (V : visitor S) (T : tables).
Context (Sorted : sorted_table (tb_b T)) (Ok_t : table_ok (tb_b T)).

Lemma increase_nonneg pre : 0 <= increase pre.
Proof.
  unfold increase, operand. induction pre as [|it pre IH] using rev_ind; [cbn; lia|].
  rewrite fold_left_app. cbn [fold_left]. destruct it as [| |c| | | |]; auto. destruct (var_x c =? 7); auto. apply var_y_nonneg.
Qed.

Lemma get_varinfo_defines pre st c i : st_inv pre st -> get_varinfo (tb_b T) st c = Ok i -> defines (tb_b T) pre c i.
Proof.
  intros I H. unfold get_varinfo in H. inv_bind H. rename a into base. pose proof (Ok_t _ _ Hb) as Ib.
  pose proof (increase_nonneg pre) as Pi.
  pose proof (si_width _ _ I) as Iw. pose proof (si_scale _ _ I) as Is. pose proof (si_inc _ _ I) as Ii.
  pose proof (si_strlen _ _ I) as Il. pose proof (si_refs _ _ I) as Ir.
  destruct ((is_scale st =? 0) && (is_width st =? 0) && (is_strlen st =? 0) && (is_srw st =? 0) &&
     (match is_refs st with [] => true | _ => false end)) eqn:Q.
  - injection Hk as <-. split; [eapply query_code; eauto|]. exists base. split; [exact Hb|]. split; [auto|].
    rewrite !andb_true_iff in Q. destruct Q as [[[[Q1 Q2] Q3] Q4] Q5]. apply Z.eqb_eq in Q1, Q2, Q3, Q4.
    destruct (is_refs st) eqn:Er; [|discriminate]. specialize (Ir c). cbn [assoc] in Ir. rewrite <- Ir.
    rewrite <- Is, <- Iw, <- Ii, <- Il, Q1, Q2, Q3, Q4. split.
    + intros _. change ((10 * 0 + 2) / 3) with 0. rewrite Z.pow_0_r, Z.mul_1_r. rewrite !Z.add_0_r. repeat split.
      symmetry. apply Z.mod_small. exact (io_bit_len _ Ib).
    + intros _ Hs. lia.
  - assert (NU : ~ unchanged pre).
    { intros (U1 & U2 & U3 & U4 & U5). rewrite Iw, Is, Ii, Il, U1, U2, U3, U4 in Q. cbn [Z.eqb andb] in Q.
      destruct (is_refs st) as [|[c0 r0] l]; [discriminate|]. specialize (Ir c0). cbn [assoc] in Ir. rewrite Z.eqb_refl, U5 in Ir. discriminate. }
    clear Q. cbv zeta in Hk. inv_bind Hk. destruct a as [[sc bl] br].
    set (ref' := match assoc Z.eqb c (is_refs st) with Some r => r | None => br end) in *.
    assert (F : vi_code i = c /\ vi_scale i = sc /\ vi_bit_len i = bl mod 2 ^ 32 /\ vi_bit_ref i = ref').
    { unfold expected in Hk0. cbn [r_code r_scale r_bits r_ref] in Hk0. pose proof (query_spec (tb_b T) c Sorted) as QS.
      destruct (List.find (fun e => be_code e =? c) (tb_b T)) as [e|]; [|discriminate]. destruct QS as [QS _].
      assert (be_info e = base) as Ee by congruence. rewrite Ee in Hk0.
      destruct ((vi_scale base =? sc) && (vi_bit_len base =? u32 bl) && (vi_bit_ref base =? ref')) eqn:Em.
      - injection Hk0 as <-. rewrite !andb_true_iff in Em. destruct Em as [[E1 E2] E3]. apply Z.eqb_eq in E1, E2, E3.
        unfold u32 in E2. split; [eapply query_code; eauto|]. auto.
      - unfold alter_checked, alter_info in Hk0. destruct (is_numeric (vi_type base) && _); [discriminate|]. inv_bind Hk0.
        pose proof (compute_range_fields _ _ _ _ _ _ _ _ Hk) as (F1 & F2 & F3 & F4 & F5 & F6 & F7).
        rewrite (query_code _ _ _ Hb) in F1. unfold u32 in *. auto. }
    destruct F as (F1 & F2 & F3 & F4). split; [exact F1|]. exists base. split; [exact Hb|]. split; [intros U; contradiction|].
    unfold ref' in F4. rewrite Ir in F4. rewrite Ii, Iw, Is, Il in *.
    destruct (Z.eqb_spec (increase pre) 0) as [Ez|Ez].
    + rewrite Ez. injection Hb0 as <- <- <-. change ((10 * 0 + 2) / 3) with 0. rewrite Z.pow_0_r, Z.mul_1_r. split.
      * intros Nu. rewrite !Z.add_0_r. rewrite F2, F3, F4. repeat split. destruct (vi_type base); try reflexivity; discriminate.
      * intros Ts Hs _. rewrite F3, Ts. destruct (Z.eqb_spec (string_length pre) 0); [lia|]. rewrite Z.mul_comm. apply Z.mod_small.
        split; [lia|]. unfold string_length, operand. clear. induction pre as [|it pre IH] using rev_ind; [cbn; lia|].
        rewrite fold_left_app. cbn [fold_left]. destruct it as [| |c| | | |]; auto. destruct (var_x c =? 8); auto.
        assert (var_y c < 256). { unfold var_y. change 255 with (Z.ones 8). rewrite Z.land_ones by lia. apply (Z.mod_pos_bound _ (2 ^ 8)). lia. } lia.
    + destruct (9 <? increase pre); [discriminate|]. inv_bind Hb0. injection Hk as <- <- <-.
      unfold int_checked in Hb1. destruct (in_int _); [|discriminate]. injection Hb1 as <-.
      split; [|intros _ _ Z; contradiction]. intros Nu. rewrite F2, F3, F4. repeat split. destruct (vi_type base); try reflexivity; discriminate.
Qed.

(** ** One item *)
Lemma fold_snoc {A B} (f : A -> B -> A) l b a : fold_left f (l ++ [b]) a = f (fold_left f l a) b.
Proof. rewrite fold_left_app. reflexivity. Qed.

Ltac snoc := unfold width_change, scale_change, increase, string_length, reference_width, new_reference, associated, pending, operand;
  rewrite ?fold_snoc; cbn beta iota.

Lemma element_inv pre c st st' : st_inv pre st ->
  is_width st' = is_width st -> is_scale st' = is_scale st -> is_srw st' = is_srw st -> is_strlen st' = is_strlen st ->
  is_refbits st' = is_refbits st -> is_refs st' = is_refs st -> is_pending st' = is_pending st ->
  is_afbits st' = is_afbits st -> is_afsig st' = is_afsig st ->
  (no_bitmap pre -> is_cur st' = None /\ is_last st' = None) ->
  (forall refs k, serves pre refs k -> bitmap_at refs (if consumer (IElem c) then Datatypes.S k else k) st') -> st_inv (pre ++ [IElem c]) st'.
Proof.
  intros I W Sc Sr Sl Rb Rf Pe Ab As N B.
  constructor; [| | | | |intros c0| | |intros H|intros refs k H]; snoc; rewrite ?W, ?Sc, ?Sr, ?Sl, ?Rb, ?Rf, ?Pe, ?Ab, ?As; try apply I.
  - apply N. apply no_bitmap_snoc in H. tauto.
  - apply (serves_inv pre (IElem c)) in H as [(r & d & codes & bits & E & _)|[(k0 & c0 & E & _)|[(c0 & E & _)|(k0 & H & _ & _ & ->)]]];
    [discriminate E|discriminate E|discriminate E|]. apply B. exact H.
Qed.

Lemma next_frame st pos st' : bitmaps_next st = Ok (pos, st') ->
  is_width st' = is_width st /\ is_scale st' = is_scale st /\ is_srw st' = is_srw st /\ is_strlen st' = is_strlen st /\
  is_refbits st' = is_refbits st /\ is_refs st' = is_refs st /\ is_pending st' = is_pending st /\
  is_afbits st' = is_afbits st /\ is_afsig st' = is_afsig st.
Proof.
  unfold bitmaps_next. destruct (is_cur st) as [b|]; [|discriminate]. destruct (bm_rest b) as [|q r]; [discriminate|].
  intros E. injection E as _ <-. destruct r; repeat split.
Qed.

Lemma plainly_eq pre st i : st_inv pre st ->
  plainly pre i = if negb (is_afbits st =? 0) then EvVarAf (is_afbits st) (is_afsig st) i else EvVar i.
Proof.
  intros I. pose proof (si_af _ _ I) as A. unfold plainly. destruct (associated pre) as [[b g]|].
  - destruct A as (-> & -> & N). destruct (Z.eqb_spec b 0); [contradiction|reflexivity].
  - rewrite A. reflexivity.
Qed.

Lemma elem_step pre c st log s st' log' s' : var_f c = 0 -> st_inv pre st ->
  step (watch V) T (IElem c) (st, (log, s)) = Ok (st', (log', s')) ->
  exists evs, log' = log ++ evs /\ says T pre (IElem c) evs /\ st_inv (pre ++ [IElem c]) st'.
Proof.
  intros F0 I H. cbn [step] in H. destruct (is_refbits st =? 0) eqn:Rb; [|discriminate]. unfold b_variable in H. rewrite Rb in H. cbn [negb] in H.
  inv_bind H. rename a into i. pose proof (get_varinfo_defines _ _ _ _ I Hb) as D. rewrite F0 in Hk. cbn [Z.eqb] in Hk.
  assert (Plain : (if negb (is_afbits st =? 0) then
      s' <- on_var_af (watch V) (is_afbits st) (is_afsig st) i (log, s) ;; Ok (st, s')
      else s' <- on_var (watch V) i (log, s) ;; Ok (st, s')) = Ok (st', (log', s')) -> st' = st /\ log' = log ++ [plainly pre i]).
  { intros E. rewrite (plainly_eq _ _ i I). destruct (negb (is_afbits st =? 0)); inv_bind E; injection Hk0 as <- ->; cbn [watch on_var on_var_af] in Hb0;
    inv_bind Hb0; injection Hk0 as <- _; auto. }
  destruct (Z.eqb_spec (var_x c) 33) as [X|X].
  - cbn [andb] in Hk. destruct (is_cur st) as [b|] eqn:C.
    + inv_bind Hk. destruct a as [pos st1]. inv_bind Hk0. injection Hk as -> ->. cbn [watch on_attr] in Hb1. inv_bind Hb1.
      injection Hk as <- _. cbn [fst]. exists [EvAttr i pos]. split; [reflexivity|].
      destruct (next_serves _ _ _ _ I Hb0) as [Nn Nx]. split.
      * cbn [says]. exists i, (EvAttr i pos). split; [exact D|]. split; [|reflexivity]. unfold element_event. rewrite X. cbn [Z.eqb Pos.eqb].
        split; [right; exists pos; reflexivity|].
        split; [intros N; contradiction|]. intros refs k Sv. destruct (Nx _ _ Sv) as [-> _]. reflexivity.
      * destruct (next_frame _ _ _ Hb0) as (E1 & E2 & E3 & E4 & E5 & E6 & E7 & E8 & E9).
        apply element_inv with (st := st); auto; [intros N; contradiction|]. intros refs k Sv. cbn [consumer]. rewrite F0, X. cbn [Z.eqb Pos.eqb andb].
        apply Nx. exact Sv.
    + destruct (Plain Hk) as [-> ->]. exists [plainly pre i]. split; [reflexivity|]. split.
      * cbn [says]. exists i, (plainly pre i). split; [exact D|]. split; [|reflexivity]. unfold element_event. rewrite X. cbn [Z.eqb Pos.eqb].
        split; [left; reflexivity|]. split; [reflexivity|]. intros refs k Sv. destruct (idle_serves _ _ _ _ I C Sv) as [-> _]. reflexivity.
      * apply element_inv with (st := st); auto; [apply (si_none _ _ I)|]. intros refs k Sv. cbn [consumer]. rewrite F0, X. cbn [Z.eqb Pos.eqb andb].
        eapply idle_serves; eauto.
  - cbn [andb] in Hk. destruct (Plain Hk) as [-> ->]. exists [plainly pre i]. split; [reflexivity|]. split.
    + cbn [says]. exists i, (plainly pre i). split; [exact D|]. split; [|reflexivity]. unfold element_event.
      destruct (Z.eqb_spec (var_x c) 33); [contradiction|]. reflexivity.
    + apply element_inv with (st := st); auto; [apply (si_none _ _ I)|]. intros refs k Sv. cbn [consumer]. rewrite F0.
      destruct (Z.eqb_spec (var_x c) 33); [contradiction|]. cbn [Z.eqb andb]. apply (si_serves _ _ I). exact Sv.
Qed.

(** Items that only change some operator. *)
Lemma quiet_inv pre it st st' : st_inv pre st -> (forall r d codes bits, it <> IBitmap r d codes bits) ->
  (forall c, it = IOp c -> var_x c <> 37) -> consumer it = false -> is_cur st' = is_cur st -> is_last st' = is_last st ->
  is_width st' = width_change (pre ++ [it]) -> is_scale st' = scale_change (pre ++ [it]) ->
  is_srw st' = increase (pre ++ [it]) -> is_strlen st' = string_length (pre ++ [it]) ->
  is_refbits st' = reference_width (pre ++ [it]) ->
  (forall c, assoc Z.eqb c (is_refs st') = new_reference c (pre ++ [it])) ->
  is_pending st' = pending (pre ++ [it]) ->
  (match associated (pre ++ [it]) with
   | None => is_afbits st' = 0
   | Some (b, g) => is_afbits st' = b /\ is_afsig st' = g /\ b <> 0
   end) -> st_inv (pre ++ [it]) st'.
Proof.
  intros I N1 N2 C E1 E2. intros. destruct (quiet_serves _ _ _ _ I N1 N2 C E1 E2) as [Q1 Q2]. constructor; auto.
Qed.

(** Close the goals of [quiet_inv] for an operator with a known number. *)
Ltac quiet_op I EX :=
  apply (quiet_inv _ _ _ _ I); [discriminate|intros ? [= <-]; rewrite EX; discriminate|cbn [consumer]; rewrite EX; reflexivity
    |reflexivity|reflexivity| | | | | |intros ?| |]; snoc; rewrite ?EX; cbn [Z.eqb Pos.eqb andb orb]; try apply I.

Lemma op_step pre c st log s st' log' s' : st_inv pre st ->
  step (watch V) T (IOp c) (st, (log, s)) = Ok (st', (log', s')) ->
  exists evs, log' = log ++ evs /\ says T pre (IOp c) evs /\ st_inv (pre ++ [IOp c]) st'.
Proof.
  intros I H. cbn [step] in H. inv_bind H. destruct a as [[nx st1] w1]. injection Hk as -> ->. rename Hb into H.
  unfold c_modifier in H. cbv zeta in H. cbn [says consumer].
  destruct (Z.eqb_spec (var_x c) 1) as [EX|N1].
  { injection H as <- <- <- <-. rewrite EX. cbn [Z.eqb Pos.eqb andb]. exists []. rewrite app_nil_r. split; auto. split; auto. quiet_op I EX. reflexivity. }
  destruct (Z.eqb_spec (var_x c) 2) as [EX|N2].
  { injection H as <- <- <- <-. rewrite EX. cbn [Z.eqb Pos.eqb andb]. exists []. rewrite app_nil_r. split; auto. split; auto. quiet_op I EX. reflexivity. }
  destruct (Z.eqb_spec (var_x c) 3) as [EX|N3].
  { injection H as <- <- <- <-. rewrite EX. cbn [Z.eqb Pos.eqb andb]. exists []. rewrite app_nil_r. split; auto. split; auto. quiet_op I EX. reflexivity. }
  destruct (Z.eqb_spec (var_x c) 4) as [EX|N4].
  { destruct (negb (var_y c =? 0) && negb (is_afbits st =? 0)); [discriminate|]. destruct (32 <? var_y c); [discriminate|].
    destruct (Z.eqb_spec (var_y c) 0) as [EY|]; [|discriminate].
    injection H as <- <- <- <-. rewrite EX. cbn [Z.eqb Pos.eqb andb]. exists []. rewrite app_nil_r. split; auto. split; auto. quiet_op I EX. reflexivity. }
  destruct (Z.eqb_spec (var_x c) 5) as [EX|N5].
  { inv_bind H. injection Hk as <- <- ->. cbn [watch on_raw] in Hb. inv_bind Hb. injection Hk as <- _. cbn [fst].
    exists [EvRaw c]. split; auto. split; auto. quiet_op I EX. }
  destruct (Z.eqb_spec (var_x c) 6) as [EX|N6]; [discriminate|].
  destruct (Z.eqb_spec (var_x c) 7) as [EX|N7].
  { injection H as <- <- <- <-. rewrite ?EX. cbn [Z.eqb Pos.eqb andb]. exists []. rewrite app_nil_r. split; auto. split; auto. quiet_op I EX. reflexivity. }
  destruct (Z.eqb_spec (var_x c) 8) as [EX|N8].
  { injection H as <- <- <- <-. rewrite ?EX. cbn [Z.eqb Pos.eqb andb]. exists []. rewrite app_nil_r. split; auto. split; auto. quiet_op I EX. reflexivity. }
  destruct (Z.eqb_spec (var_x c) 22) as [EX|N22].
  { destruct (Z.eqb_spec (var_y c) 0) as [EY|]; [|discriminate]. cbn [negb] in H. injection H as <- <- <- <-. rewrite ?EX. cbn [Z.eqb Pos.eqb andb].
    exists []. rewrite app_nil_r. split; auto. split; auto. quiet_op I EX. rewrite EY. reflexivity. }
  destruct (Z.eqb_spec (var_x c) 23) as [EX|N23].
  { destruct (Z.eqb_spec (var_y c) 0) as [EY|NY].
    - injection H as <- <- <- <-. rewrite EY. cbn [Z.eqb Pos.eqb andb]. exists []. rewrite app_nil_r. split; auto. split; auto.
      apply (quiet_inv _ _ _ _ I); [discriminate|intros ? [= <-]; rewrite EX; discriminate|cbn [consumer]; rewrite EX, EY; reflexivity
        |reflexivity|reflexivity| | | | | |intros ?| |]; snoc; rewrite ?EX; cbn [Z.eqb Pos.eqb andb orb]; try apply I. rewrite EY. reflexivity.
    - destruct (Z.eqb_spec (var_y c) 255) as [EY|]; [|discriminate]. inv_bind H. destruct a as [pos st2]. inv_bind Hk. injection Hk0 as <- -> ->.
      cbn [watch on_subst] in Hb0. inv_bind Hb0. injection Hk as <- _. cbn [fst andb]. exists [EvSubst pos]. split; auto.
      destruct (next_serves _ _ _ _ I Hb) as [Nn Nx]. split.
      + split; [exact Nn|]. exists pos. split; auto. intros refs k Sv. apply Nx. exact Sv.
      + destruct (next_frame _ _ _ Hb) as (E1 & E2 & E3 & E4 & E5 & E6 & E7 & E8 & E9).
        constructor; [| | | | |intros c0| | |intros Hn|intros refs k Hs]; snoc; rewrite ?EX, ?EY; cbn [Z.eqb Pos.eqb andb orb];
        rewrite ?E1, ?E2, ?E3, ?E4, ?E5, ?E6, ?E7, ?E8, ?E9; try apply I.
        * exfalso. apply Nn. apply no_bitmap_snoc in Hn. tauto.
        * apply (serves_inv pre (IOp c)) in Hs as [(r & d & codes & bits & E & _)|[(k0 & c0 & E & X & _)|[(c0 & E & X & _)|(k0 & Hs & _ & _ & ->)]]];
          [discriminate|injection E as <-; lia|injection E as <-; lia|]. cbn [consumer]. rewrite EX, EY. apply Nx. exact Hs. }
  cbn [andb]. destruct (Z.eqb_spec (var_x c) 37) as [EX|N37].
  { destruct (Z.eqb_spec (var_y c) 0) as [EY|NY].
    - injection H as <- <- <- <-. exists []. rewrite app_nil_r. split; auto. split; auto.
      constructor; [| | | | |intros c0| | |intros Hn|intros refs k Hs]; snoc; rewrite ?EX, ?EY; cbn [Z.eqb Pos.eqb andb orb]; try apply I.
      + reflexivity.
      + apply no_bitmap_snoc in Hn as [Hn _]. destruct (si_none _ _ I Hn) as [E1 E2].
        cbn [with_pending bitmaps_reuse with_bitmaps is_cur is_last]. rewrite E2. auto.
      + apply (serves_inv pre (IOp c)) in Hs as [(r & d & codes & bits & E & _)|[(k0 & c0 & E & X & Y & Hs & Nr & L & ->)|[(c0 & E & X & Y & _)|(k0 & Hs & _ & N & ->)]]].
        * discriminate.
        * pose proof (si_serves _ _ I _ _ Hs) as B. unfold bitmap_at in *. assert (En : nth_error refs k0 = None) by (apply nth_error_None; lia).
          rewrite En in B. destruct refs as [|a l]; [contradiction|]. destruct B as [B1 B2]. cbn [nth_error].
          cbn [with_pending bitmaps_reuse with_bitmaps is_cur is_last]. rewrite B2. reflexivity.
        * injection E as <-. lia.
        * exfalso. eapply N; eauto.
    - destruct (Z.eqb_spec (var_y c) 255) as [EY|]; [|discriminate]. injection H as <- <- <- <-. exists []. rewrite app_nil_r. split; auto. split; auto.
      constructor; [| | | | |intros c0| | |intros Hn|intros refs k Hs]; snoc; rewrite ?EX, ?EY; cbn [Z.eqb Pos.eqb andb orb]; try apply I.
      + apply no_bitmap_snoc in Hn as [Hn _]. destruct (si_none _ _ I Hn) as [E1 E2].
        cbn [bitmaps_discard with_bitmaps is_cur is_last]. rewrite E1. auto.
      + apply (serves_inv pre (IOp c)) in Hs as [(r & d & codes & bits & E & _)|[(k0 & c0 & E & X & Y & _)|[(c0 & E & X & Y & Hs & L)|(k0 & Hs & _ & N & ->)]]].
        * discriminate.
        * injection E as <-. lia.
        * pose proof (si_serves _ _ I _ _ Hs) as B. unfold bitmap_at in *. destruct (nth_error refs k) eqn:En.
          -- cbn [bitmaps_discard with_bitmaps is_cur is_last]. exact B.
          -- apply nth_error_None in En. lia.
        * exfalso. eapply N; eauto. }
  injection H as <- <- <- <-. exists []. rewrite app_nil_r. split; auto. split; auto.
  assert (X0 : forall n, (var_x c =? n) = true -> var_x c = n) by (intros n; apply Z.eqb_eq).
  apply (quiet_inv _ _ _ _ I); [discriminate|intros ? [= <-]; exact N37|cbn [consumer]; destruct (Z.eqb_spec (var_x c) 23); [contradiction|reflexivity]
    |reflexivity|reflexivity| | | | | |intros ?| |]; snoc;
  repeat match goal with |- context [var_x c =? ?n] => destruct (Z.eqb_spec (var_x c) n); [contradiction|] end; cbn [andb orb]; try apply I.
Qed.

Lemma other_step pre it st log s st' log' s' : st_inv pre st -> (forall c, it <> IElem c) -> (forall c, it <> IOp c) ->
  step (watch V) T it (st, (log, s)) = Ok (st', (log', s')) ->
  exists evs, log' = log ++ evs /\ says T pre it evs /\ st_inv (pre ++ [it]) st'.
Proof.
  intros I N1 N2 H. destruct it as [c|c r|c|c g|c a|c n|r d codes bits].
  - exfalso. eapply N1; eauto.
  - cbn [step] in H. destruct (is_refbits st =? 0); [discriminate|]. inv_bind H. destruct a as [r' w]. destruct (Z.eqb_spec r' r) as [->|]; [|discriminate].
    injection Hk as <- ->. cbn [watch on_refval] in Hb. inv_bind Hb. destruct a as [r' s2]. injection Hk as <- <- _. cbn [fst].
    exists [EvRefval (is_refbits st) c r']. split; auto. split. { cbn [says]. rewrite (si_refbits _ _ I). reflexivity. }
    apply (quiet_inv _ _ _ _ I); try discriminate; try reflexivity; [| | | | |intros c0| |]; snoc; try apply I.
    cbn [with_refs is_refs assoc]. rewrite (Z.eqb_sym c c0). destruct (c0 =? c); [reflexivity|]. apply I.
  - exfalso. eapply N2; eauto.
  - cbn [step] in H. destruct (Z.eqb_spec (var_x c) 4) as [EX|]; [|discriminate]. destruct (Z.eqb_spec (var_y c) 0) as [|NY]; [discriminate|].
    cbn [negb andb] in H. inv_bind H. destruct a as [[nx st1] w1]. destruct (Z.eqb_spec (is_afsig st1) g) as [Eg|]; [|discriminate].
    injection Hk as -> ->. unfold c_modifier in Hb. cbv zeta in Hb. rewrite EX in Hb. cbn [Z.eqb Pos.eqb] in Hb.
    destruct (negb (var_y c =? 0) && negb (is_afbits st =? 0)); [discriminate|]. destruct (32 <? var_y c); [discriminate|].
    destruct (Z.eqb_spec (var_y c) 0); [contradiction|]. cbn [pop_left bind] in Hb.
    change (negb (wr_var 0 31 21 =? var_B31021)) with false in Hb. cbn iota in Hb. inv_bind Hb. inv_bind Hk. destruct a0 as [sg w2].
    injection Hk0 as <- <- ->. cbn [watch on_significance] in Hb. inv_bind Hb. destruct a0 as [sg' s2]. injection Hk as <- <- _.
    cbn [with_af is_afsig] in Eg. subst sg'. cbn [fst]. exists [EvSignificance a g]. split; auto. split. { cbn [says]. exists a. auto. }
    apply (quiet_inv _ _ _ _ I); try discriminate; try reflexivity; [| | | | |intros c0| |]; snoc; try apply I. auto.
  - cbn [step] in H. destruct (Z.eqb_spec (var_x c) 6) as [EX|]; [|discriminate]. inv_bind H. destruct a0 as [[nx st1] w1]. injection Hk as -> ->.
    assert (Q : st_inv (pre ++ [ISkip c a]) st).
    { apply (quiet_inv _ _ _ _ I); try discriminate; try reflexivity; [| | | | |intros c0| |]; snoc; try apply I. }
    unfold c_modifier in Hb. cbv zeta in Hb. rewrite EX in Hb. cbn [Z.eqb Pos.eqb pop_left bind] in Hb. cbn [says].
    destruct (var_y c =? 0) eqn:EY.
    { injection Hb as <- <- <- <-. exists []. rewrite app_nil_r. auto. }
    inv_bind Hb. inv_bind Hk. inv_bind Hk0. destruct a2 as [i w2]. inv_bind Hk. injection Hk0 as _ <- ->.
    cbn [watch on_var] in Hb2. inv_bind Hb2. injection Hk as <- _. destruct a1 as [i'|].
    + injection Hb1 as -> <-. cbn [fst]. exists [EvVar i]. split; auto. split; auto. exists i. left.
      destruct a0; [|discriminate]. apply bind_ok in Hb as (i0 & G & K). destruct (Z.eqb_spec (vi_bit_len i0) (var_y c)); [|discriminate]. injection K as ->.
      split; auto. eapply get_varinfo_defines; eauto.
    + cbn [watch on_unknown] in Hb1. apply bind_ok in Hb1 as ([i2 s2] & _ & Hk). injection Hk as -> <-. cbn [fst told]. exists [EvUnknown a (var_y c) i; EvVar i].
      rewrite <- app_assoc. split; auto. split; auto. exists i. right. reflexivity.
  - cbn [step] in H. inv_bind H. inv_bind Hk. destruct a0 as [m w]. destruct (Nat.eqb_spec (Z.to_nat m) n) as [En|]; [|discriminate].
    injection Hk0 as <- ->. cbn [watch on_factor] in Hb0. inv_bind Hb0. destruct a0 as [m' s2]. injection Hk as -> <- _. cbn [fst].
    exists [EvFactor a m]. split; auto. split. { cbn [says]. exists a, m. auto. }
    apply (quiet_inv _ _ _ _ I); try discriminate; try reflexivity; [| | | | |intros c0| |]; snoc; try apply I.
  - cbn [step] in H. inv_bind H. destruct a as [size w1]. inv_bind Hk. destruct a as [[codes' bits'] w2].
    destruct (zeqb_list codes' codes && zeqb_list bits' bits) eqn:Z; [|discriminate]. apply andb_prop in Z as [Z1 Z2].
    apply zeqb_list_eq in Z1, Z2. subst codes' bits'. inv_bind Hk0. injection Hk as <- ->. cbn [watch on_bitmap] in Hb0. inv_bind Hb0.
    destruct a0 as [[codes' bits'] s2]. injection Hk as -> -> <- _. rewrite (si_pending _ _ I) in *. cbn [fst].
    unfold bitmaps_define in Hb1. rewrite make_bitmap_present in Hb1.
    destruct (Nat.leb 1 (length bits) && Nat.leb (length bits) (length (data_positions codes)))%bool eqn:L; [|destruct (is_cur st); discriminate].
    injection Hb1 as <-.
    assert (Q : st_inv (pre ++ [IBitmap r d codes bits])
      (with_pending (with_bitmaps st (Some (mkbitmap (present codes bits) (present codes bits))) (is_last st)) 0)).
    { constructor; [| | | | |intros c0| | |intros Hn|intros refs k Hs]; snoc; try apply I; try reflexivity.
      - exfalso. apply no_bitmap_snoc in Hn as [_ Hn]. eapply Hn. reflexivity.
      - apply (serves_inv pre (IBitmap r d codes bits)) in Hs as [(r' & d' & codes' & bits' & E & -> & ->)|[(k0 & c0 & E & _)|[(c0 & E & _)|(k0 & _ & N & _)]]]; try discriminate.
        + injection E as <- <- <- <-. unfold bitmap_at. cbn [with_pending with_bitmaps is_cur skipn]. destruct (present codes bits); cbn [nth_error]; auto.
        + exfalso. eapply N. reflexivity. }
    cbn [says]. destruct (var_y r =? 0).
    + apply bind_ok in Hb as (i0 & Hq & Hk). cbn [watch on_bitmap_factor] in Hk. apply bind_ok in Hk as ([m s3] & _ & Hk). injection Hk as -> <-. cbn [fst told].
      exists [EvBitmapFactor i0 size; EvBitmap (pending pre) size codes bits]. rewrite <- app_assoc. split; auto. split; auto. split; [lia|].
      exists i0, size. auto.
    + injection Hb as <- <-. cbn [fst]. exists [EvBitmap (pending pre) (var_y r) codes bits]. split; auto. split; auto. split; [lia|reflexivity].
Qed.

Definition data_elements (items : list item) : Prop := forall c, In (IElem c) items -> var_f c = 0.

Theorem exec_script : forall items pre st log s st' log' s', data_elements items -> st_inv pre st ->
  exec (watch V) T items (st, (log, s)) = Ok (st', (log', s')) ->
  exists evs, log' = log ++ evs /\ script T pre items evs /\ st_inv (pre ++ items) st'.
Proof.
  induction items as [|it items IH]; intros pre st log s st' log' s' De I H; cbn [exec] in H.
  - injection H as <- <- _. exists []. rewrite !app_nil_r. split; auto. split; auto. constructor.
  - inv_bind H. destruct a as [st1 [log1 s1]].
    assert (St : exists evs, log1 = log ++ evs /\ says T pre it evs /\ st_inv (pre ++ [it]) st1).
    { destruct it as [c|c r|c|c g|c a|c n|r d codes bits]; try (eapply other_step; eauto; discriminate).
      - eapply elem_step; eauto. apply De. cbn. auto.
      - eapply op_step; eauto. }
    destruct St as (evs & -> & Sy & I1). destruct (IH (pre ++ [it]) st1 _ _ _ _ _ ltac:(intros c Hc; apply De; cbn; auto) I1 Hk) as (more & -> & Sc & I2).
    exists (evs ++ more). rewrite app_assoc. split; auto. split; [econstructor; eauto|]. rewrite <- app_assoc in I2. exact I2.
Qed.

Lemma expands_data :
  (forall m ops items m', expands T m ops items m' -> data_elements items) /\
  (forall m n body items m', repeats T m n body items m' -> data_elements items).
Proof.
  apply expands_mutind with (P := fun m ops items m' _ => data_elements items) (P0 := fun m n body items m' _ => data_elements items);
  unfold data_elements; intros; cbn [In] in *; repeat match goal with
  | H : In _ (_ ++ _) |- _ => apply in_app_iff in H
  | H : _ \/ _ |- _ => destruct H
  | H : IElem _ = IElem _ |- _ => injection H as <-
  end; try discriminate; try contradiction; auto.
Qed.

Theorem run_script k ops s st' log s' : run (watch V) T k ops (ist_init, ([], s)) = Ok (st', (log, s')) ->
  exists items m', expands T (mkmode false false) ops items m' /\ script T [] items log.
Proof.
  intros H. destruct (run_expands _ _ _ _ _ _ _ _ H) as (items & X & R).
  destruct (exec_script items [] _ _ _ _ _ _ (proj1 expands_data _ _ _ _ X) st_inv_init R) as (evs & -> & Sc & _).
  exists items, (mode_of st'). split; auto.
Qed.

Lemma watch_hom : hom (watch V) V snd.
Proof.
  constructor; intros; intros w; cbn [watch on_var on_var_af on_factor on_bitmap_factor on_significance on_subst on_attr on_raw on_refval on_bitmap on_unknown].
  - destruct (on_var V i (snd w)); reflexivity.
  - destruct (on_var_af V b g i (snd w)); reflexivity.
  - destruct (on_factor V i (snd w)) as [[? ?]| |]; reflexivity.
  - destruct (on_bitmap_factor V i (snd w)) as [[? ?]| |]; reflexivity.
  - destruct (on_significance V i (snd w)) as [[? ?]| |]; reflexivity.
  - destruct (on_subst V pos (snd w)); reflexivity.
  - destruct (on_attr V i pos (snd w)); reflexivity.
  - destruct (on_raw V c (snd w)); reflexivity.
  - destruct (on_refval V b c (snd w)) as [[? ?]| |]; reflexivity.
  - destruct (on_bitmap V c n (snd w)) as [[[? ?] ?]| |]; reflexivity.
  - destruct (on_unknown V c b (snd w)) as [[? ?]| |]; reflexivity.
Qed.
End Events.

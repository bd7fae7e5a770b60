(** Each step of the decoder of compressed data has its counterpart in the transmission of one of the
    decoded subsets. *)
From Coq Require Import ZArith Lia ZifyBool ZifyNat.
From Verif Require Import Base Bits.Model Bits.Spec Bits.Proofs Bits.StringProofs Num.Float
  Varcode.Model Varinfo.Model Varinfo.RangeProofs Tables.Model Tables.Spec Tables.AlterProofs Tables.LoadProofs Var.Model Var.Spec
  Var.Proofs Var.AttrProofs Var.CodecProofs Interp.Model Interp.Sim Interp.Follow Codec.Model Codec.Compressed Codec.Spec
  Codec.ValueProofs Codec.Proofs Codec.TransferProofs Codec.Checked Codec.StepProofs Codec.CheckedSafe Codec.ColumnProofs Codec.Again Codec.AgainValue Codec.AgainProofs
  Codec.AgainSteps Codec.AgainComp Codec.AgainCompValue Codec.SoundProofs.
From Verif Require Subset.Proofs.
Local Open Scope Z_scope.

(** ** Lists of subsets *)
Definition shape (vars : list var) : list varinfo := map (fun v => c_info (v_cell v)) vars.
Definition alike (subs : list (list var)) : Prop := forall a b, In a subs -> In b subs -> shape a = shape b.

Lemma push_length : forall subs vs, length vs = length subs -> length (push_all subs vs) = length subs.
Proof. intros subs vs L. unfold push_all. rewrite map_length, combine_length. lia. Qed.
Lemma push_nth : forall subs vs k d, length vs = length subs -> (k < length subs)%nat -> nth k (push_all subs vs) [] = nth k subs [] ++ [nth k vs d].
Proof.
  unfold push_all. induction subs as [|s subs IH]; intros [|v vs] [|k] d L H; cbn [length] in *; try lia.
  - reflexivity.
  - cbn [combine map nth]. apply IH; lia.
Qed.
Lemma push_in subs vs a : In a (push_all subs vs) -> exists s v, In s subs /\ In v vs /\ a = s ++ [v].
Proof.
  unfold push_all. intros H. apply in_map_iff in H as ([s v] & <- & H). exists s, v. split; [eapply in_combine_l; eauto|]. split; [eapply in_combine_r; eauto|reflexivity].
Qed.
Lemma push_alike subs vs i : alike subs -> Forall (fun v => c_info (v_cell v) = i) vs -> alike (push_all subs vs).
Proof.
  intros A F x y Hx Hy. apply push_in in Hx as (s & v & Is & Iv & ->). apply push_in in Hy as (s' & v' & Is' & Iv' & ->).
  rewrite Forall_forall in F. unfold shape in *. rewrite !map_app. cbn [map]. rewrite (F _ Iv), (F _ Iv'). f_equal. apply A; assumption.
Qed.

Lemma attach_shape pos vars c vars' : attach pos vars c = Ok vars' -> shape vars' = shape vars.
Proof.
  unfold attach. destruct (negb (isset c)); [intros E; apply ok_inj in E; subst; reflexivity|]. destruct (nth_error vars pos) as [v|] eqn:N; [|discriminate].
  intros E. apply ok_inj in E. subst vars'. unfold shape. revert pos N. induction vars as [|w vars IH]; intros [|pos] N; try discriminate; cbn in *.
  - injection N as ->. reflexivity.
  - f_equal. apply IH. exact N.
Qed.
Lemma attach_all_nth : forall subs cs subs' pos, attach_all pos subs cs = Ok subs' -> length cs = length subs ->
  length subs' = length subs /\ forall k d, (k < length subs)%nat -> attach pos (nth k subs []) (nth k cs d) = Ok (nth k subs' []).
Proof.
  induction subs as [|s subs IH]; intros [|c cs] subs' pos E L; cbn [length] in L; try lia.
  - cbn in E. apply ok_inj in E. subst subs'. split; [reflexivity|]. intros k d H. cbn [length] in H. lia.
  - cbn [attach_all] in E. inv_bind E. inv_bind Hk. apply ok_inj in Hk0. subst subs'. destruct (IH _ _ _ Hb0 ltac:(lia)) as [I1 I2].
    split; [cbn [length]; lia|]. intros [|k] d H; cbn [nth length] in *; [exact Hb|apply I2; lia].
Qed.
Lemma attach_all_alike subs cs subs' pos : attach_all pos subs cs = Ok subs' -> length cs = length subs -> alike subs -> alike subs'.
Proof.
  intros E L A. assert (X : forall a, In a subs' -> exists b, In b subs /\ shape a = shape b).
  { intros a Ia. destruct (attach_all_nth _ _ _ _ E L) as [L' N]. apply (In_nth _ _ []) in Ia as (k & Hk & <-). exists (nth k subs []). split; [apply nth_In; lia|].
    specialize (N k (fresh (mkinfo 0 TInteger String.EmptyString 0 0 0 0 0 0 fzero fzero)) ltac:(lia)). apply attach_shape in N. exact N. }
  intros a b Ia Ib. destruct (X a Ia) as (a' & Ja & ->). destruct (X b Ib) as (b' & Jb & ->). auto.
Qed.

(** ** Local tables *)

(** Tables with more definitions. *)
Definition lt_le (a b : localtables) : Prop :=
  (forall q i, assoc zlist_eqb q (lt_bitmaps a) = Some i -> assoc zlist_eqb q (lt_bitmaps b) = Some i) /\
  (forall q i, assoc Z.eqb q (lt_unknown a) = Some i -> assoc Z.eqb q (lt_unknown b) = Some i).
Lemma lt_le_refl a : lt_le a a.
Proof. split; auto. Qed.
Lemma lt_le_trans a b c : lt_le a b -> lt_le b c -> lt_le a c.
Proof. intros [H1 H2] [H3 H4]. split; auto. Qed.
Lemma zlist_eqb_eq : forall a b, zlist_eqb a b = true -> a = b.
Proof.
  induction a as [|x a IH]; intros [|y b] E; cbn in E; try discriminate; [reflexivity|]. apply andb_prop in E as [E1 E2].
  apply Z.eqb_eq in E1. subst y. f_equal. auto.
Qed.
Lemma bitmap_le lt pending chars i lt' : get_bitmap lt pending chars = Ok (i, lt') ->
  lt_le lt lt' /\ assoc zlist_eqb chars (lt_bitmaps lt') = Some i /\ vi_code i = pending.
Proof.
  unfold get_bitmap. destruct (assoc zlist_eqb chars (lt_bitmaps lt)) as [j|] eqn:Ea.
  - destruct (Z.eqb_spec (vi_code j) pending) as [Ec|]; [|discriminate]. cbn [negb]. intros E. apply ok_inj in E. injection E as <- <-. split; [apply lt_le_refl|]. auto.
  - intros E. inv_bind E. apply ok_inj in Hk. injection Hk as <- <-. split; [|split].
    + split; [|auto]. cbn [lt_bitmaps assoc]. intros q j Q. destruct (zlist_eqb q chars) eqn:Ee; [|exact Q]. apply zlist_eqb_eq in Ee. subst q. congruence.
    + cbn [lt_bitmaps assoc]. rewrite zlist_eqb_refl. reflexivity.
    + unfold set_string in Hb. pose proof Hb as Hc. apply Varinfo.RangeProofs.compute_range_fields in Hc as (E & _). exact E.
Qed.
Lemma unknown_le lt code bits i lt' : get_unknown lt code bits = Ok (i, lt') ->
  lt_le lt lt' /\ assoc Z.eqb bits (lt_unknown lt') = Some i /\ vi_code i = code.
Proof.
  unfold get_unknown. destruct (assoc Z.eqb bits (lt_unknown lt)) as [j|] eqn:Ea.
  - destruct (Z.eqb_spec (vi_code j) code) as [Ec|]; [|discriminate]. cbn [negb]. intros E. apply ok_inj in E. injection E as <- <-. split; [apply lt_le_refl|]. auto.
  - intros E. inv_bind E. apply ok_inj in Hk. injection Hk as <- <-. split; [|split].
    + split; [auto|]. cbn [lt_unknown assoc]. intros q j Q. destruct (Z.eqb_spec q bits) as [->|]; [congruence|exact Q].
    + cbn [lt_unknown assoc]. rewrite Z.eqb_refl. reflexivity.
    + unfold set_binary in Hb. pose proof Hb as Hc. apply Varinfo.RangeProofs.compute_range_fields in Hc as (E & _). exact E.
Qed.

(** Local tables of the transmission ([m]) that go with those of the decoder ([lt]), which become [L]. *)
Definition carried (L : localtables) (Q : localtables -> localtables -> Prop) : Prop :=
  (forall lt m pending chars i lt', get_bitmap lt pending chars = Ok (i, lt') -> lt_le lt' L -> Q lt m ->
     exists m', get_bitmap m pending chars = Ok (i, m') /\ Q lt' m') /\
  (forall lt m code bits i lt', get_unknown lt code bits = Ok (i, lt') -> lt_le lt' L -> Q lt m ->
     exists m', get_unknown m code bits = Ok (i, m') /\ Q lt' m').
(** The first subset starts with the same tables; for the others all the definitions are there. *)
Lemma carried_first L : carried L eq.
Proof. split; intros lt m a b i lt' E _ <-; exists lt'; auto. Qed.
Lemma carried_later L : carried L (fun _ m => m = L).
Proof.
  split; intros lt m a b i lt' E [B1 B2] ->; exists L; (split; [|reflexivity]).
  - apply bitmap_le in E as (_ & E1 & E2). unfold get_bitmap. rewrite (B1 _ _ E1), E2, Z.eqb_refl. reflexivity.
  - apply unknown_le in E as (_ & E1 & E2). unfold get_unknown. rewrite (B2 _ _ E1), E2, Z.eqb_refl. reflexivity.
Qed.

Section Steps.
Context (o : options) (HO : strict_options o) (T : tables) (skip : bool) (p : shift_policy).
Context (HT : table_ok (tb_b T)) (HD : defs_ok (tb_b T)).
(** The subset is number [k] and becomes [F]. *)
Context (F : list var) (k many : nat) (L : localtables) (Q : localtables -> localtables -> Prop) (HQ : carried L Q).

Definition one (s : cdec) : list var := nth k (k_subs s) [].
Definition view (y : comp_recording) : recording := (mkdec (k_in (fst y)) (one (fst y)) (k_lt (fst y)), snd y).

Definition cgood (y : comp_recording) : Prop := good (view y) /\ (k < length (k_subs (fst y)))%nat /\ alike (k_subs (fst y)) /\ length (k_subs (fst y)) = many.
Definition cle (y z : comp_recording) : Prop := le (view y) (view z) /\ lt_le (k_lt (fst y)) (k_lt (fst z)).
Definition cseen (y : comp_recording) : Prop :=
  NoDup (keys (snd y)) /\ Forall (comp_request_ok p F) (snd y) /\ lt_le (k_lt (fst y)) L /\
  forall pos v, nth_error (one (fst y)) pos = Some v -> exists f, nth_error F pos = Some f /\ v_cell f = v_cell v /\
    forall code, In (pos, code) (keys (snd y)) -> var_enqa f code = var_enqa v code.
Definition ctracks (y : comp_recording) (x : xfer) : Prop :=
  x_pos x = length (one (fst y)) /\ x_got x = one (fst y) /\ Q (k_lt (fst y)) (x_lt x).
Definition cfine (st : istate) (y : comp_recording) : Prop := fine st (view y).
Definition cpointed (n : nat) (y : comp_recording) : Prop := pointed n (view y).

Lemma cle_refl y : cle y y.
Proof. split; [apply le_refl|apply lt_le_refl]. Qed.
Lemma cle_trans a b c : cle a b -> cle b c -> cle a c.
Proof. intros [H1 H2] [H3 H4]. split; [eapply le_trans; eauto|eapply lt_le_trans; eauto]. Qed.
Lemma cseen_back x y : cgood x -> cle x y -> cseen y -> cseen x.
Proof.
  intros _ [[_ (ad & E & H)] Lt] (S1 & S2 & S4 & S3). cbn [view fst snd d_vars] in *. rewrite E in S1, S2, S3. rewrite keys_app in S1. apply nodup_app in S1 as [N1 N2]. apply Forall_app in S2 as [R1 _].
  split; [exact N1|]. split; [exact R1|]. split; [eapply lt_le_trans; eauto|]. intros pos v N. destruct (H pos v N) as (w & Nw & Cw & Aw). destruct (S3 pos w Nw) as (f & Nf & Cf & Af).
  exists f. split; [exact Nf|]. split; [congruence|]. intros code I. rewrite Af by (rewrite keys_app; apply in_or_app; auto). apply Aw. apply N2. exact I.
Qed.
Lemma cfine_later st x y : cfine st x -> cle x y -> cfine st y.
Proof. intros Fi [Le _]. exact (fine_later st _ _ Fi Le). Qed.
Lemma cfine_next st x n st' : cfine st x -> bitmaps_next st = Ok (n, st') -> cfine st' x /\ cpointed n x.
Proof. intros Fi E. exact (fine_next st _ n st' Fi E). Qed.

(** All the subsets have the same length. *)
Lemma alike_nth y : cgood y -> shape (hd [] (k_subs (fst y))) = shape (one (fst y)).
Proof.
  intros (_ & Lk & A & _). unfold one. destruct (k_subs (fst y)) as [|s r]; [cbn in Lk; lia|]. apply A; [left; reflexivity|apply nth_In; exact Lk].
Qed.
Lemma pos_is y : cgood y -> comp_pos y = length (one (fst y)).
Proof. intros G. apply alike_nth in G. apply (f_equal (@length _)) in G. unfold shape in G. rewrite !map_length in G. exact G. Qed.

(** *** One more variable *)
Lemma push_one vs inp s lt d : length vs = ksize s -> (k < ksize s)%nat -> one (mkcdec inp (push_all (k_subs s) vs) lt) = one s ++ [nth k vs d].
Proof. intros Lv Lk. unfold one. cbn [k_subs]. apply push_nth; assumption. Qed.

Lemma push_step vs i inp lt s l added d : cgood (s, l) -> length vs = ksize s -> Forall (fun v => c_info (v_cell v) = i) vs -> info_ok i ->
  let v := nth k vs d in
  Forall (fun a => info_ok (c_info a)) (v_attrs v) -> sorted (v_attrs v) ->
  locals_ok lt -> lt_le (k_lt s) lt ->
  (forall code a, enqa code (v_attrs v) = Some a -> In (length (one s), code) (keys added)) ->
  let y := (mkcdec inp (push_all (k_subs s) vs) lt, l ++ added) in
  cgood y /\ cle (s, l) y /\ one (fst y) = one s ++ [v].
Proof.
  intros (G & Lk & A & Ma) Lv Fi K. cbn [fst snd] in *. cbv zeta. intros Ia Sa Lo Le Hk.
  assert (E : one (mkcdec inp (push_all (k_subs s) vs) lt) = one s ++ [nth k vs d]) by (apply push_one; assumption).
  assert (Iv : c_info (v_cell (nth k vs d)) = i).
  { rewrite Forall_forall in Fi. apply Fi. apply nth_In. unfold ksize in Lv. lia. }
  split; [|split; [|exact E]].
  - split; [|split].
    + unfold view. cbn [fst snd k_in k_lt]. rewrite E. destruct (nth k vs d) as [c attrs] eqn:Ev. cbn [v_cell v_attrs] in *.
      apply (good_push (mkdec (k_in s) (one s) (k_lt s)) l inp c attrs lt added G); auto. rewrite Iv. exact K.
    + cbn [fst k_subs]. rewrite push_length; [exact Lk|exact Lv].
    + cbn [fst k_subs]. split; [eapply push_alike; eauto|]. rewrite push_length; [exact Ma|exact Lv].
  - split; [|exact Le]. unfold view. cbn [fst snd k_in k_lt]. rewrite E. apply (le_push (mkdec (k_in s) (one s) (k_lt s)) l inp (nth k vs d) lt added).
Qed.

Lemma cseen_last s l inp subs lt v r : cseen (mkcdec inp subs lt, l ++ [r]) -> one (mkcdec inp subs lt) = one s ++ [v] ->
  comp_request_ok p F r /\ exists f, nth_error F (length (one s)) = Some f /\ v_cell f = v_cell v.
Proof.
  intros (_ & S2 & _ & S3) E. cbn [fst snd] in *. apply Forall_app in S2 as [_ S2]. inversion S2 as [|? ? R1 _]; subst. split; [exact R1|].
  destruct (S3 (length (one s)) v) as (f & N & C & _); [rewrite E; apply nth_snoc_last|]. exists f. auto.
Qed.

(** A column of values without attributes. *)
Lemma field_step i s l cs inp d : info_ok i -> cgood (s, l) -> Forall (reads p i) cs -> length cs = ksize s ->
  let c := nth k cs d in
  let y := (k_push cs inp s, l ++ [RField (comp_pos (s, l)) i]) in
  cgood y /\ cle (s, l) y /\ (cseen y -> forall x, ctracks (s, l) x -> exists f, x_take p F i x = Ok f /\ v_cell f = c /\ ctracks y (x_give c [] x)).
Proof.
  intros K G Rd Lc. cbv zeta. unfold k_push.
  destruct (push_step (map (fun c => mkvar c []) cs) i inp (k_lt s) s l [RField (comp_pos (s, l)) i] (mkvar d []) G) as (G1 & L1 & E).
  - rewrite map_length. exact Lc.
  - apply Forall_map. eapply Forall_impl; [|exact Rd]. intros c [C _]. exact C.
  - exact K.
  - change (mkvar d []) with ((fun c => mkvar c []) d). rewrite map_nth. constructor.
  - change (mkvar d []) with ((fun c => mkvar c []) d). rewrite map_nth. constructor.
  - apply G.
  - apply lt_le_refl.
  - change (mkvar d []) with ((fun c => mkvar c []) d). rewrite map_nth. discriminate.
  - change (mkvar d []) with ((fun c => mkvar c []) d) in E. rewrite map_nth in E.
    split; [exact G1|]. split; [exact L1|]. intros Sn x (T1 & T2 & T3).
    destruct (cseen_last _ _ _ _ _ _ _ Sn E) as (R & f & N & Cf). cbn [comp_request_ok] in R. destruct R as [R1 R2]. rewrite (pos_is _ G) in R2. cbn [fst] in R2. specialize (R2 f N). rewrite Cf in R2. cbn [v_cell] in *.
    assert (Rc : reads p i (nth k cs d)). { rewrite Forall_forall in Rd. apply Rd. apply nth_In. destruct G as (_ & Lk & _). cbn [fst] in Lk. unfold ksize in Lc. lia. }
    destruct Rc as [Ci Fo]. exists f. split; [|split; [exact Cf|]].
    + apply take_ok with (c := nth k cs d); auto; [rewrite T1; exact N|]. apply Fo; [exact R1|apply R2|apply R2].
    + split; [cbn [x_give x_pos fst] in *; rewrite E, app_length, T1; cbn [length]; lia|]. split; [cbn [x_give x_got fst] in *; rewrite E, T2; reflexivity|exact T3].
Qed.

Definition any (i : varinfo) : cell := fresh i.

Lemma comp_note_inv r m x y : comp_note r m x = Ok y -> exists s, m = Ok s /\ y = (s, snd x ++ [r]).
Proof. unfold comp_note. intros E. inv_bind E. injection Hk as <-. eauto. Qed.
Lemma comp_note_with_inv {A} (r : A -> request) m x a y : comp_note_with r m x = Ok (a, y) -> exists s, m = Ok (a, s) /\ y = (s, snd x ++ [r a]).
Proof. unfold comp_note_with. intros E. inv_bind E. destruct a0 as [a' s]. injection Hk as <- <-. eauto. Qed.

Lemma cvar_follows i : info_ok i -> follows cgood cle cseen ctracks (fun _ => True) (on_var (comp_recorder o T skip) i) (on_var (transmitter p T skip F) i).
Proof.
  intros K [s l] y _ G E. cbn [on_var comp_recorder] in E. apply comp_note_inv in E as (s' & E & ->). cbn [fst snd] in *. unfold k_var in E. inv_bind E. destruct a as [cs inp]. apply ok_inj in Hk. subst s'.
  destruct (values_reads o HO p i _ _ _ _ K Hb) as [Rd Lc]. destruct (field_step i s l cs inp (any i) K G Rd Lc) as (G1 & L1 & K1). split; [exact G1|]. split; [exact L1|]. intros Sn x Tx.
  destruct (K1 Sn x Tx) as (f & E1 & Cf & Tr). cbn [on_var transmitter]. unfold x_var. rewrite E1. cbn [bind]. rewrite Cf. eexists. split; [reflexivity|exact Tr].
Qed.

Lemma nth_repeat_here {A} (a d : A) n : (k < n)%nat -> nth k (repeat a n) d = a.
Proof. intros H. assert (X : In (nth k (repeat a n) d) (repeat a n)) by (apply nth_In; rewrite repeat_length; exact H). apply repeat_spec in X. exact X. Qed.

Lemma cfactor_follows i : info_ok i -> follows_with cgood cle cseen ctracks (fun _ => True) (on_factor (comp_recorder o T skip) i) (on_factor (transmitter p T skip F) i).
Proof.
  intros K [s l] n y G E. cbn [on_factor comp_recorder] in E. apply comp_note_with_inv in E as (s' & E & ->). cbn [fst snd] in *. unfold k_factor in E. inv_bind E. destruct a as [c inp]. inv_bind Hk.
  apply ok_inj in Hk0. injection Hk0 as <- <-. pose proof (uniform_reads o HO p i _ _ _ _ K Hb) as Rc. destruct (repeat_reads p i c (ksize s) Rc) as [Rd Lc].
  destruct (field_step i s l (repeat c (ksize s)) inp (any i) K G Rd Lc) as (G1 & L1 & K1). split; [exact Logic.I|]. split; [exact G1|]. split; [exact L1|]. intros Sn x Tx.
  destruct (K1 Sn x Tx) as (f & E1 & Cf & Tr). rewrite nth_repeat_here in Cf, Tr by apply G. cbn [on_factor transmitter]. unfold x_factor. rewrite E1. cbn [bind]. rewrite Cf, Hb0. cbn [bind]. eexists. split; [reflexivity|exact Tr].
Qed.
Lemma csignificance_follows i : info_ok i -> follows_with cgood cle cseen ctracks (fun _ => True) (on_significance (comp_recorder o T skip) i) (on_significance (transmitter p T skip F) i).
Proof.
  intros K [s l] n y G E. cbn [on_significance comp_recorder] in E. apply comp_note_with_inv in E as (s' & E & ->). cbn [fst snd] in *. unfold k_significance in E. inv_bind E. destruct a as [c inp]. inv_bind Hk.
  apply ok_inj in Hk0. injection Hk0 as <- <-. pose proof (uniform_reads o HO p i _ _ _ _ K Hb) as Rc. destruct (repeat_reads p i c (ksize s) Rc) as [Rd Lc].
  destruct (field_step i s l (repeat c (ksize s)) inp (any i) K G Rd Lc) as (G1 & L1 & K1). split; [exact Logic.I|]. split; [exact G1|]. split; [exact L1|]. intros Sn x Tx.
  destruct (K1 Sn x Tx) as (f & E1 & Cf & Tr). rewrite nth_repeat_here in Cf, Tr by apply G. cbn [on_significance transmitter]. unfold x_significance. rewrite E1. cbn [bind]. rewrite Cf, Hb0. cbn [bind]. eexists. split; [reflexivity|exact Tr].
Qed.

(** *** Attributes *)
Lemma attach_step i pos s l cs inp subs d : info_ok i -> cpointed pos (s, l) -> cgood (s, l) -> Forall (reads p i) cs -> length cs = ksize s -> attach_all pos (k_subs s) cs = Ok subs ->
  let y := (mkcdec inp subs (k_lt s), l ++ [RAttr pos i]) in let c := nth k cs d in
  cgood y /\ cle (s, l) y /\ (cseen y -> forall x, ctracks (s, l) x -> exists x', x_attr p F i pos x = Ok x' /\ ctracks y x').
Proof.
  intros K P G Rd Lc Ea. cbv zeta. destruct (attach_all_nth _ _ _ _ Ea Lc) as [Ls Nk]. pose proof (attach_all_alike _ _ _ _ Ea Lc) as Al.
  destruct G as (G & Lk & A & Ma). cbn [fst] in Lk, A, Ma. specialize (Al A). specialize (Nk k d Lk).
  assert (Rc : reads p i (nth k cs d)). { rewrite Forall_forall in Rd. apply Rd. apply nth_In. unfold ksize in Lc. lia. }
  revert Nk Rc. generalize (nth k cs d). intros c Nk [Ci Fo]. fold (one s) in Nk.
  unfold cpointed, pointed in P. cbn [view fst snd d_vars] in P. destruct (nth_error (one s) pos) as [v|] eqn:Nv; [|apply nth_error_None in Nv; lia].
  unfold attach in Nk. rewrite Nv in Nk. destruct (isset c) eqn:Hs; cbn [negb] in Nk; apply ok_inj in Nk.
  - destruct G as (G1 & G2 & G3). cbn [view fst snd d_vars d_lt] in G1, G2, G3. pose proof G1 as G1'. rewrite Forall_forall in G1'. pose proof (nth_error_In _ _ Nv) as Iv. destruct (G1' v Iv) as [[V1 V2] V3].
    assert (E1 : one (mkcdec inp subs (k_lt s)) = update (one s) pos (mkvar (v_cell v) (seta c (v_attrs v)))) by (symmetry; exact Nk).
    split; [split; [split; [|split]|split]|split].
    + cbn [view fst d_vars]. rewrite E1. apply Forall_forall. intros w Iw. apply In_nth_error in Iw as [n Nn]. rewrite nth_update in Nn. destruct (Nat.eqb_spec n pos) as [Hn|Hn]; [subst n|].
      * rewrite Nv in Nn. injection Nn as <-. split; [split; [exact V1|]|apply seta_sorted; exact V3]. cbn [v_attrs]. apply Forall_forall. intros a Ia.
        apply seta_in in Ia as [->|Ia]; [rewrite Ci; exact K|]. rewrite Forall_forall in V2. auto.
      * apply nth_error_In in Nn. auto.
    + exact G2.
    + cbn [view fst snd d_vars]. rewrite E1. intros n w code a Nn Ew. rewrite keys_app. apply in_or_app. rewrite nth_update in Nn. destruct (Nat.eqb_spec n pos) as [Hn|Hn]; [subst n|].
      * rewrite Nv in Nn. injection Nn as <-. unfold var_enqa in Ew. cbn [v_attrs] in Ew. rewrite enqa_seta in Ew by exact V3.
        destruct (Z.eqb_spec (c_code c) code) as [Hc|Hc]; [right|left; eapply G3; [exact Nv|exact Ew]]. cbn. left. unfold c_code in Hc. rewrite <- Hc, Ci. reflexivity.
      * left. eapply G3; eauto.
    + cbn [fst k_subs]. lia.
    + split; [exact Al|cbn [fst k_subs]; lia].
    + split; [|apply lt_le_refl]. split; [cbn [view fst d_vars]; rewrite E1, update_length; lia|]. exists [RAttr pos i]. split; [reflexivity|]. cbn [view fst d_vars]. rewrite E1. intros n w Nn. rewrite nth_update, Nn.
      destruct (Nat.eqb_spec n pos) as [Hn|Hn]; [subst n|exists w; auto]. rewrite Nv in Nn. injection Nn as <-. eexists. split; [reflexivity|]. split; [reflexivity|].
      intros code Hc. unfold var_enqa. cbn [v_attrs]. rewrite enqa_seta by exact V3. destruct (Z.eqb_spec (c_code c) code) as [He|He]; [|reflexivity].
      destruct Hc. cbn. left. unfold c_code in He. rewrite <- He, Ci. reflexivity.
    + intros (S1 & S2 & _ & S3) x (T1 & T2 & T3). apply Forall_app in S2 as [_ S2]. inversion S2 as [|? ? R1 _]; subst. cbn [comp_request_ok] in R1. destruct R1 as [R1 R2].
      destruct (S3 pos (mkvar (v_cell v) (seta c (v_attrs v)))) as (f & Nf & Cf & Af). { cbn [fst]. rewrite E1, nth_update, Nat.eqb_refl, Nv. reflexivity. }
      assert (Ef : var_enqa f (vi_code (c_info c)) = Some c).
      { rewrite Af; [|cbn [snd]; rewrite keys_app; apply in_or_app; right; cbn; auto]. unfold var_enqa. cbn [v_attrs]. rewrite enqa_seta by exact V3. unfold c_code. rewrite Z.eqb_refl. reflexivity. }
      specialize (R2 f Nf). cbv zeta in R2. rewrite Ef in R2. specialize (Fo R1 (proj1 R2) (proj2 R2)).
      unfold x_attr, get_var. rewrite Nf. cbn [bind]. cbn [fst] in T2. rewrite T2, Nv. cbn [bind]. rewrite Ef. destruct (varinfo_eq_dec (c_info c) (c_info c)); [|contradiction].
      rewrite Fo. cbn [guard bind]. rewrite Hs. eexists. split; [reflexivity|]. unfold ctracks. cbn [fst k_lt]. rewrite E1. split; [cbn; rewrite update_length; exact T1|]. split; [reflexivity|exact T3].
  - assert (E1 : one (mkcdec inp subs (k_lt s)) = one s) by (symmetry; exact Nk). pose proof G as G0. destruct G0 as (G1 & G2 & G3). cbn [view fst snd d_vars d_lt] in G1, G2, G3.
    split; [split; [|split]|split; [split|]].
    + unfold view. cbn [fst snd k_in k_lt]. rewrite E1. apply (good_keep (mkdec (k_in s) (one s) (k_lt s)) l inp (k_lt s) [RAttr pos i]); [exact G|exact G2].
    + cbn [fst k_subs]. lia.
    + split; [exact Al|cbn [fst k_subs]; lia].
    + unfold view. cbn [fst snd k_in k_lt]. rewrite E1. apply (le_keep (mkdec (k_in s) (one s) (k_lt s)) l inp (k_lt s) [RAttr pos i]).
    + apply lt_le_refl.
    + intros (S1 & S2 & _ & S3) x (T1 & T2 & T3). apply Forall_app in S2 as [_ S2]. inversion S2 as [|? ? R1 _]; subst. cbn [comp_request_ok] in R1. destruct R1 as [R1 R2].
      destruct (S3 pos v) as (f & Nf & Cf & Af); [cbn [fst]; rewrite E1; exact Nv|].
      assert (Ef : var_enqa f (vi_code (c_info c)) = None).
      { rewrite Af; [|cbn [snd]; rewrite keys_app; apply in_or_app; right; cbn; auto]. destruct (var_enqa v (vi_code (c_info c))) as [a|] eqn:Ev; [|reflexivity]. exfalso.
        cbn [snd] in S1. rewrite keys_app in S1. apply nodup_app in S1 as [_ S1]. apply (S1 (pos, vi_code (c_info c))); [eapply G3; [exact Nv|exact Ev]|cbn; auto]. }
      specialize (R2 f Nf). cbv zeta in R2. rewrite Ef in R2. assert (Vn : c_val c = None) by (unfold isset in Hs; destruct (c_val c); [discriminate|reflexivity]). rewrite Vn in Fo.
      specialize (Fo R1 (proj1 R2) (proj2 R2)).
      unfold x_attr, get_var. rewrite Nf. cbn [bind]. cbn [fst] in T2. rewrite T2, Nv. cbn [bind]. rewrite Ef, Fo. cbn [guard bind]. eexists. split; [reflexivity|].
      unfold ctracks. cbn [fst k_lt]. rewrite E1. split; [exact T1|]. split; [reflexivity|exact T3].
Qed.

Lemma k_attr_step i pos s l s' : info_ok i -> cpointed pos (s, l) -> cgood (s, l) -> k_attr o i pos s = Ok s' ->
  let y := (s', l ++ [RAttr pos i]) in
  cgood y /\ cle (s, l) y /\ (cseen y -> forall x, ctracks (s, l) x -> exists x', x_attr p F i pos x = Ok x' /\ ctracks y x').
Proof.
  intros K P G E. unfold k_attr in E. inv_bind E. destruct a as [cs inp]. inv_bind Hk. apply ok_inj in Hk0. subst s'.
  destruct (values_reads o HO p i _ _ _ _ K Hb) as [Rd Lc]. exact (attach_step i pos s l cs inp a (any i) K P G Rd Lc Hb0).
Qed.

Lemma cattr_follows i pos : info_ok i -> follows cgood cle cseen ctracks (cpointed pos) (on_attr (comp_recorder o T skip) i pos) (on_attr (transmitter p T skip F) i pos).
Proof.
  intros K [s l] y P G E. cbn [on_attr comp_recorder] in E. apply comp_note_inv in E as (s' & E & ->). cbn [fst snd] in *. exact (k_attr_step i pos s l s' K P G E).
Qed.

Lemma shape_nth a b pos v : shape a = shape b -> nth_error a pos = Some v -> exists w, nth_error b pos = Some w /\ c_info (v_cell w) = c_info (v_cell v).
Proof.
  intros E N. assert (X : nth_error (shape b) pos = Some (c_info (v_cell v))) by (rewrite <- E; unfold shape; exact (map_nth_error (fun v : var => c_info (v_cell v)) pos a N)).
  unfold shape in X. rewrite nth_error_map in X. destruct (nth_error b pos) as [w|] eqn:Nw; [|discriminate]. exists w. split; [reflexivity|]. cbn in X. congruence.
Qed.

Lemma csubst_follows pos : follows cgood cle cseen ctracks (cpointed pos) (on_subst (comp_recorder o T skip) pos) (on_subst (transmitter p T skip F) pos).
Proof.
  intros [s l] y P G E. cbn [on_subst comp_recorder fst] in E. pose proof (alike_nth _ G) as Sh. cbn [fst] in Sh. destruct (k_subs s) as [|h rest] eqn:Es; [discriminate|]. cbn [hd] in Sh.
  destruct (nth_error h pos) as [v|] eqn:Nv; [|discriminate]. apply comp_note_inv in E as (s' & E & ->). cbn [fst snd] in *.
  destruct (shape_nth _ _ _ _ Sh Nv) as (w & Nw & Iw).
  unfold k_subst in E. rewrite Es, Nv in E. assert (K : info_ok (c_info (v_cell v))).
  { destruct G as ((G1 & _) & _). cbn [view fst d_vars] in G1. rewrite Forall_forall in G1. rewrite <- Iw. apply (G1 w), (nth_error_In _ _ Nw). }
  destruct (k_attr_step _ pos s l s' K P G E) as (G' & L' & K'). split; [exact G'|]. split; [exact L'|]. intros Sn x Tx. destruct (K' Sn x Tx) as (x' & E' & T').
  exists x'. split; [|exact T']. cbn [on_subst transmitter]. unfold x_subst, get_var. destruct (cseen_back _ _ G L' Sn) as (_ & _ & _ & S3). destruct (S3 pos w Nw) as (f & Nf & Cf & _).
  rewrite Nf. cbn [bind]. rewrite Cf, Iw. exact E'.
Qed.

(** *** Associated fields: nothing to say about the transmission *)
Definition assoc_ok (sig : Z) (a : cell) : Prop := info_ok (c_info a) /\ af_code sig = Ok (Some (c_code a)).

Lemma made_ok bits sig v a : make_attribute o (tb_b T) skip bits sig v = Ok (Some a) -> assoc_ok sig a.
Proof.
  intros E. unfold make_attribute in E. inv_bind E. cbv zeta in Hk. inv_bind Hk. rename Hb0 into Eoc. rename Hk0 into Em. rename a1 into oc. destruct oc as [code|]; [|discriminate].
  destruct HO as (Os & Oc & Oh). unfold assoc_ok. rewrite Eoc.
  assert (X : forall n i0, query (tb_b T) code = Ok i0 -> of_outcome (seti o (fresh i0) n) = Ok a -> info_ok (c_info a) /\ Ok (Some code) = Ok (Some (c_code a))).
  { intros n i0 Q0 S0. unfold seti in S0. destruct (is_numeric _); [|discriminate]. unfold assign_i_checked in S0. rewrite Os, Oc, Oh in S0. cbn [fresh c_info] in S0.
    match type of S0 with context [if ?b then _ else _] => destruct b end; [discriminate|]. injection S0 as <-. unfold c_code. cbn [with_val fresh c_info]. pose proof (query_code _ _ _ Q0) as ->.
    split; [eapply HT; eauto|reflexivity]. }
  destruct (sig =? 21); [|destruct (v =? a0)].
  - destruct (negb skip || negb (v =? a0)); [|discriminate]. inv_bind Em. inv_bind Hk. injection Hk0 as <-. eapply X; eauto.
  - destruct (((sig =? 6) || (sig =? 8)) && skip); [discriminate|]. inv_bind Em. injection Hk as <-. unfold c_code. cbn [fresh c_info]. pose proof (query_code _ _ _ Hb0) as ->. split; [eapply HT; eauto|reflexivity].
  - inv_bind Em. inv_bind Hk. injection Hk0 as <-. eapply X; eauto.
Qed.

Lemma fields_ok bits sig base width : forall n inp afs inp', comp_fields o T skip bits sig base width n inp = Ok (afs, inp') ->
  Forall (fun a => match a with Some c => assoc_ok sig c | None => True end) afs /\ length afs = n.
Proof.
  induction n as [|n IH]; intros inp afs inp' E; cbn [comp_fields] in E.
  - apply ok_inj in E. injection E as <- _. split; [constructor|reflexivity].
  - inv_bind E. destruct a as [diff i1]. inv_bind Hk. inv_bind Hk0. destruct a0 as [rest i2]. apply ok_inj in Hk. injection Hk as <- _. destruct (IH _ _ _ Hb1) as [I1 I2].
    split; [|cbn [length]; lia]. constructor; [|exact I1]. destruct a as [c|]; [|exact Logic.I]. eapply made_ok; eauto.
Qed.

Lemma give_ok sig kept : forall afs attrs, Forall (fun a => match a with Some c => assoc_ok sig c | None => True end) afs -> Forall (assoc_ok sig) attrs -> sorted attrs ->
  Forall (fun l => Forall (assoc_ok sig) l /\ sorted l) (give_fields kept attrs afs) /\ length (give_fields kept attrs afs) = length afs.
Proof.
  induction afs as [|a afs IH]; intros attrs Fa At So; cbn [give_fields]; [split; [constructor|reflexivity]|]. inversion Fa as [|? ? A1 A2]; subst.
  assert (X : Forall (assoc_ok sig) (match a with Some c => seta c attrs | None => attrs end) /\ sorted (match a with Some c => seta c attrs | None => attrs end)).
  { destruct a as [c|]; [|auto]. split; [|apply seta_sorted; exact So]. apply Forall_forall. intros b Ib. apply seta_in in Ib as [->|Ib]; [exact A1|]. rewrite Forall_forall in At. auto. }
  destruct (IH (if kept then match a with Some c => seta c attrs | None => attrs end else []) A2) as [I1 I2].
  - destruct kept; [apply X|constructor].
  - destruct kept; [apply X|constructor].
  - split; [constructor; [exact X|exact I1]|]. cbn [length]. rewrite I2. reflexivity.
Qed.

Lemma enqa_in code attrs a : enqa code attrs = Some a -> In a attrs /\ c_code a = code.
Proof.
  induction attrs as [|b attrs IH]; cbn [enqa]; [discriminate|]. destruct (c_code b <=? code) eqn:E1.
  - destruct (Z.eqb_spec (c_code b) code) as [E|]; [intros [= <-]; split; [left; reflexivity|exact E]|]. intros E. destruct (IH E). split; [right; assumption|assumption].
  - discriminate.
Qed.

Lemma caf_follows st i : is_afbits st <> 0 -> info_ok i ->
  follows cgood cle cseen ctracks (cfine st) (on_var_af (comp_recorder o T skip) (is_afbits st) (is_afsig st) i) (on_var_af (transmitter p T skip F) (is_afbits st) (is_afsig st) i).
Proof.
  intros _ K [s l] y _ G E. generalize dependent (is_afbits st). generalize (is_afsig st). intros sig bits E.
  cbn [on_var_af comp_recorder] in E. apply comp_note_inv in E as (s' & E & ->). cbn [fst snd] in *.
  enough (X : let y := (s', l ++ [RAssoc (comp_pos (s, l)) bits sig i]) in cgood y /\ cle (s, l) y).
  { cbv zeta in X. destruct X as [X1 X2]. split; [exact X1|]. split; [exact X2|]. intros (_ & S2 & _) x _. exfalso. cbn [snd] in S2. apply Forall_app in S2 as [_ S2]. inversion S2 as [|? ? R1 _]; subst. exact R1. }
  cbv zeta.
  assert (Pv : forall vs inp, length vs = ksize s -> Forall (fun v => c_info (v_cell v) = i) vs -> Forall (fun v => Forall (assoc_ok sig) (v_attrs v) /\ sorted (v_attrs v)) vs ->
    s' = mkcdec inp (push_all (k_subs s) vs) (k_lt s) -> cgood (s', l ++ [RAssoc (comp_pos (s, l)) bits sig i]) /\ cle (s, l) (s', l ++ [RAssoc (comp_pos (s, l)) bits sig i])).
  { intros vs inp Lv Fi Fa ->. assert (Fk : Forall (assoc_ok sig) (v_attrs (nth k vs (mkvar (any i) []))) /\ sorted (v_attrs (nth k vs (mkvar (any i) [])))).
    { rewrite Forall_forall in Fa. apply Fa. apply nth_In. destruct G as (_ & Lk & _). cbn [fst] in Lk. unfold ksize in Lv. lia. }
    destruct Fk as [Fk Sk].
    destruct (push_step vs i inp (k_lt s) s l [RAssoc (comp_pos (s, l)) bits sig i] (mkvar (any i) []) G Lv Fi K) as (G1 & L1 & _); [| |apply G|apply lt_le_refl| |auto].
    - eapply Forall_impl; [|exact Fk]. intros a Ha. apply Ha.
    - exact Sk.
    - intros code a Ea. apply enqa_in in Ea as [Ia <-]. rewrite Forall_forall in Fk. destruct (Fk a Ia) as [_ Hc]. cbn. rewrite Hc, (pos_is _ G). cbn. auto. }
  assert (Pl : forall cs inp, Forall (reads p i) cs -> length cs = ksize s -> s' = k_push cs inp s -> cgood (s', l ++ [RAssoc (comp_pos (s, l)) bits sig i]) /\ cle (s, l) (s', l ++ [RAssoc (comp_pos (s, l)) bits sig i])).
  { intros cs inp Rd Lc ->. eapply Pv; [| | |reflexivity].
    - rewrite map_length. exact Lc.
    - apply Forall_map. eapply Forall_impl; [|exact Rd]. intros c [C _]. exact C.
    - apply Forall_map. eapply Forall_impl; [|exact Rd]. intros c _. split; constructor. }
  unfold k_var_af in E.
  assert (Nf : is_numeric (vi_type i) = true -> (' (vs, inp) <- comp_numbers_af o T skip bits sig i (ksize s) (k_in s);; Ok (mkcdec inp (push_all (k_subs s) vs) (k_lt s))) = Ok s' ->
    cgood (s', l ++ [RAssoc (comp_pos (s, l)) bits sig i]) /\ cle (s, l) (s', l ++ [RAssoc (comp_pos (s, l)) bits sig i])).
  { clear E. intros Hn E. inv_bind E. destruct a as [vs inp]. apply ok_inj in Hk. symmetry in Hk. unfold comp_numbers_af in Hb. inv_bind Hb. destruct a as [base i1]. inv_bind Hk0. destruct a as [width i2]. inv_bind Hk1.
    destruct (base =? a).
    - inv_bind Hk0. destruct a0 as [[cs kept] i3]. apply ok_inj in Hk1. injection Hk1 as <- <-. destruct (numbers_reads o HO p i _ _ _ _ _ K Hn Hb2) as [Rd Lc]. exact (Pl cs _ Rd Lc Hk).
    - inv_bind Hk0. destruct a0 as [afs i3]. inv_bind Hk1. destruct a0 as [[cs kept] i4]. apply ok_inj in Hk0. injection Hk0 as <- <-. destruct (numbers_reads o HO p i _ _ _ _ _ K Hn Hb3) as [Rd Lc].
      destruct (fields_ok _ _ _ _ _ _ _ _ Hb2) as [Fo Lf]. destruct (give_ok sig kept afs [] Fo ltac:(constructor) ltac:(constructor)) as [Go Lg].
      refine (Pv _ _ _ _ _ Hk).
      + rewrite map_length, combine_length. lia.
      + apply Forall_forall. intros v Iv. apply in_map_iff in Iv as ([c a'] & <- & Iv). apply in_combine_l in Iv. rewrite Forall_forall in Rd. apply (Rd c Iv).
      + apply Forall_forall. intros v Iv. apply in_map_iff in Iv as ([c a'] & <- & Iv). apply in_combine_r in Iv. rewrite Forall_forall in Go. apply (Go a' Iv). }
  destruct (vi_type i) eqn:Ty; [exact (Nf eq_refl E)|exact (Nf eq_refl E)| |discriminate].
  unfold k_var in E. inv_bind E. destruct a as [cs inp]. apply ok_inj in Hk. destruct (values_reads o HO p i _ _ _ _ K Hb) as [Rd Lc]. exact (Pl cs inp Rd Lc (eq_sym Hk)).
Qed.

(** *** Not implemented for compressed data *)
Lemma craw_follows code : follows cgood cle cseen ctracks (fun _ => True) (on_raw (comp_recorder o T skip) code) (on_raw (transmitter p T skip F) code).
Proof. intros [s l] y _ G E. cbn [on_raw comp_recorder] in E. apply comp_note_inv in E as (s' & E & _). unfold k_raw in E. inv_bind E. discriminate. Qed.
Lemma crefval_follows st s0 code : cfine st s0 -> is_refbits st <> 0 ->
  follows_with cgood cle cseen ctracks (fun r => int_min <= r <= int_max) (on_refval (comp_recorder o T skip) (is_refbits st) code) (on_refval (transmitter p T skip F) (is_refbits st) code).
Proof. intros _ _ [s l] r y G E. cbn [on_refval comp_recorder] in E. apply comp_note_with_inv in E as (s' & E & _). discriminate. Qed.

(** *** Unknown elements *)
Lemma cunknown_follows code op : var_y op <> 0 ->
  follows_with cgood cle cseen ctracks info_ok (on_unknown (comp_recorder o T skip) code (var_y op)) (on_unknown (transmitter p T skip F) code (var_y op)).
Proof.
  intros _ [s l] i y G E. cbn [on_unknown comp_recorder] in E. inv_bind E. destruct a as [i0 s1]. apply ok_inj in Hk. injection Hk as -> <-. cbn [fst snd] in *. unfold k_unknown in Hb. inv_bind Hb. destruct a as [i1 lt'].
  apply ok_inj in Hk. injection Hk as -> <-. destruct G as ((G1 & (L1 & L2 & L3) & G3) & Lk & A). cbn [view fst snd d_vars d_lt] in *.
  assert (X : info_ok i /\ locals_ok lt').
  { unfold get_unknown in Hb0. destruct (assoc Z.eqb (var_y op) (lt_unknown (k_lt s))) as [j|] eqn:Ea.
    - destruct (negb _); [discriminate|]. injection Hb0 as <- <-. apply assoc_in in Ea. pose proof L3 as L3'. rewrite Forall_forall in L3'. split; [apply (L3' _ Ea)|]. split; [exact L1|]. split; [exact L2|exact L3].
    - inv_bind Hb0. injection Hk as <- <-. pose proof (y_range op). apply set_binary_ok in Hb; [|lia]. split; [exact Hb|]. split; [exact L1|]. split; [exact L2|]. constructor; [exact Hb|exact L3]. }
  destruct X as [X1 X2]. split; [exact X1|]. split; [split; [split; [exact G1|]; split; [exact X2|exact G3]|split; [exact Lk|exact A]]|].
  destruct (unknown_le _ _ _ _ _ Hb0) as (Le & _).
  split; [split; [pose proof (le_keep (mkdec (k_in s) (one s) (k_lt s)) l (k_in s) lt' []) as Lx; rewrite app_nil_r in Lx; exact Lx|exact Le]|].
  intros (_ & _ & S4 & _) x (T1 & T2 & T3). cbn [fst k_lt] in *. destruct HQ as [_ HQu]. destruct (HQu _ _ _ _ _ _ Hb0 S4 T3) as (m' & Em & Qm).
  cbn [on_unknown transmitter]. unfold x_unknown. rewrite Em. cbn [bind]. eexists. split; [reflexivity|]. split; [exact T1|]. split; [exact T2|exact Qm].
Qed.

(** *** Bitmaps *)
Lemma comp_bitmap_range : forall n inp chars inp', comp_bitmap n inp = Ok (chars, inp') -> length chars = n /\ Forall (fun c => c = 43 \/ c = 45) chars.
Proof.
  induction n as [|n IH]; intros inp chars inp' E; cbn [comp_bitmap] in E.
  - apply ok_inj, (f_equal fst) in E. cbn [fst] in E. subst chars. split; [reflexivity|constructor].
  - inv_bind E. destruct a as [b i1]. inv_bind Hk. destruct a as [w i2]. destruct (negb (w =? 0)); [discriminate|]. inv_bind Hk0. destruct a as [cs i3]. apply ok_inj, (f_equal fst) in Hk. cbn [fst] in Hk. subst chars.
    destruct (IH _ _ _ Hb1) as [I1 I2]. cbn [length]. split; [lia|]. constructor; [destruct (b =? 0); auto|exact I2].
Qed.

Lemma codes_shape a : codes_of a = map vi_code (shape a).
Proof. unfold codes_of, shape. rewrite map_map. reflexivity. Qed.

Lemma cbitmap_step pending size s l codes bits s' : cgood (s, l) -> 0 <= size < 2 ^ 32 -> k_bitmap o pending size s = Ok (codes, bits, s') -> bits <> [] -> var_f pending = 2 ->
  cgood (s', l) /\ cle (s, l) (s', l) /\ length codes = length (one s') /\
  (cseen (s', l) -> forall x, ctracks (s, l) x ->
     (exists f, nth_error F (x_pos x) = Some f /\ vi_len (c_info (v_cell f)) = size) /\
     exists x', x_bitmap F pending size x = Ok (codes, bits, x') /\ ctracks (s', l) x').
Proof.
  intros G Sz E Nb Fp. unfold k_bitmap in E. inv_bind E. destruct a as [chars inp]. inv_bind Hk. destruct a as [i lt']. inv_bind Hk0. cbv zeta in Hk. inv_bind Hk.
  apply comp_bitmap_range in Hb as [R1 R2]. pose proof G as G0. destruct G0 as ((G1 & G2 & G3) & Lk & A). cbn [view fst snd d_lt d_vars] in G1, G2, G3, Lk.
  assert (Lc0 : Z.of_nat (length chars) < 2 ^ 32) by lia. destruct (bitmap_info _ _ _ _ _ G2 Lc0 Hb0) as (B1 & B2 & B3 & B4 & B5).
  rewrite sets_string in Hb1 by exact B1. cbn [of_outcome fresh c_info] in Hb1. apply ok_inj in Hb1. rewrite cstr_same in Hb1 by (eapply Forall_impl; [|exact R2]; cbv beta; lia).
  assert (Li : ilen i = length chars) by (unfold ilen; lia). rewrite Li, firstn_all in Hb1. subst a.
  set (c := with_val (fresh i) (VStr chars)) in *. set (vs := repeat (mkvar c []) (ksize s)) in *.
  assert (Lv : length vs = ksize s) by (apply repeat_length).
  destruct (push_all (k_subs s) vs) as [|h rest] eqn:Es; [discriminate|]. apply ok_inj in Hk0.
  assert (Ebits : a0 = chars).
  { destruct (Z.eqb_spec (vi_len i) 0) as [E0|E0]; [exfalso; apply Nb; injection Hk0 as _ <- _; injection Hb2 as <-; reflexivity|].
    unfold bitmap_chars, enqc in Hb2. unfold c in Hb2. cbn [with_val fresh c_val c_info] in Hb2. rewrite B1 in Hb2. cbn [bind] in Hb2.
    match type of Hb2 with context [if ?b then _ else _] => destruct b end; [discriminate|]. apply ok_inj in Hb2. rewrite Li in Hb2. rewrite <- Hb2. rewrite firstn_app, firstn_all, Nat.sub_diag. apply app_nil_r. }
  subst a0. pose proof (f_equal snd Hk0) as E3. pose proof (f_equal fst Hk0) as E12. cbn [fst snd] in E3, E12. pose proof (f_equal fst E12) as E1. pose proof (f_equal snd E12) as E2. cbn [fst snd] in E1, E2. clear Hk0 E12.
  rewrite <- Es in E3. subst bits. rename E3 into Es'.
  destruct (push_step vs i inp lt' s l [] (mkvar c []) G Lv) as (Gd & Ld & Ed).
  - apply Forall_forall. intros v Iv. apply repeat_spec in Iv. subst v. reflexivity.
  - exact B4.
  - unfold vs. rewrite nth_repeat_here by exact Lk. constructor.
  - unfold vs. rewrite nth_repeat_here by exact Lk. constructor.
  - exact B5.
  - apply (bitmap_le _ _ _ _ _ Hb0).
  - unfold vs. rewrite nth_repeat_here by exact Lk. discriminate.
  - rewrite app_nil_r in Gd, Ld. unfold vs at 2 in Ed. rewrite nth_repeat_here in Ed by exact Lk. rewrite Es' in Gd, Ld. cbn [fst] in Ed. rewrite Es' in Ed.
    assert (Ec : codes = codes_of (one s')).
    { rewrite <- E1, !codes_shape. f_equal. pose proof (alike_nth _ Gd) as Sh. cbn [fst] in Sh. rewrite <- Sh. rewrite <- Es'. cbn [k_subs]. rewrite Es. reflexivity. }
    split; [exact Gd|]. split; [exact Ld|]. split; [rewrite Ec; unfold codes_of; apply map_length|].
    intros (S1 & S2 & S4 & S3) x (T1 & T2 & T3). cbn [fst] in *. destruct (S3 (length (one s)) (mkvar c [])) as (f & N & Cf & _); [rewrite Ed; apply nth_snoc_last|]. cbn [v_cell] in Cf. unfold c, with_val, fresh in Cf. cbn [c_info] in Cf.
    split; [exists f; rewrite T1; split; [exact N|]; rewrite Cf; cbn [c_info]; lia|].
    assert (Elt : k_lt s' = lt') by (rewrite <- Es'; reflexivity). rewrite Elt in S4. destruct HQ as [HQb _]. destruct (HQb _ _ _ _ _ _ Hb0 S4 T3) as (m' & Em & Qm).
    unfold x_bitmap, get_var. rewrite T1, N. cbn [bind]. rewrite Cf. cbn [c_val c_info]. rewrite Em. cbn [bind]. destruct (varinfo_eq_dec i i); [|contradiction].
    rewrite B1, B2, B3, Fp. replace (forallb (fun ch => (ch =? 43) || (ch =? 45)) chars) with true.
    2: { symmetry. apply forallb_forall. intros ch Ic. rewrite Forall_forall in R2. specialize (R2 ch Ic). lia. }
    assert (1 <= Z.of_nat (length chars)) by (destruct chars; [contradiction|cbn [length]; lia]).
    replace (Z.of_nat (length chars) =? size) with true by lia. replace (1 <=? size) with true by lia. cbn [andb is_string Z.eqb guard bind].
    change (2 =? 2) with true. cbn [andb guard bind]. rewrite Ec, Ed. unfold c, with_val, fresh. cbn [c_info].
    eexists. split; [cbn [x_tables x_give x_got]; rewrite T2; reflexivity|]. unfold ctracks. cbn [fst]. rewrite Ed, Elt. unfold c, with_val, fresh. cbn [c_info]. split; [cbn; rewrite app_length, T1; cbn [length]; lia|]. split; [cbn; rewrite T2; reflexivity|exact Qm].
Qed.

Lemma cbitmap_follows code delayed ops st s st' s' : cfine st s -> is_pending st <> 0 -> cgood s ->
  r_bitmap (comp_recorder o T skip) T code delayed ops (st, s) = Ok (st', s') ->
  cfine st' s' /\ cgood s' /\ cle s s' /\
  (cseen s' -> forall x, ctracks s x -> exists x', r_bitmap (transmitter p T skip F) T code delayed ops (st, x) = Ok (st', x') /\ ctracks s' x').
Proof.
  destruct s as [s l]. intros Fi Np G E. assert (Fp : var_f (is_pending st) = 2) by (destruct Fi as (_ & [?|?] & _); [contradiction|assumption]).
  unfold r_bitmap in *. destruct (negb (var_x code =? 1)); [discriminate|]. destruct (negb (hd 0 ops =? var_B31031)); [discriminate|].
  inv_bind E. destruct a as [count s1]. inv_bind Hk. destruct a as [[codes bits] s2]. inv_bind Hk0. apply ok_inj in Hk. injection Hk as <- <-. rename a into st1.
  cbn [on_bitmap comp_recorder] in Hb0. inv_bind Hb0. destruct a as [[codes' bits'] s3]. apply ok_inj in Hk. injection Hk as -> -> <-.
  assert (Nb : bits <> []) by (intros ->; unfold bitmaps_define, make_bitmap in Hb1; destruct (is_cur st); discriminate).
  destruct (var_y code =? 0).
  - inv_bind Hb. rename a into info. cbn [on_bitmap_factor comp_recorder] in Hk. apply comp_note_with_inv in Hk as (s0 & Ef & ->). cbn [fst snd] in *. unfold k_bitmap_factor in Ef. inv_bind Ef. destruct a as [c inp]. inv_bind Hk.
    apply ok_inj in Hk0. injection Hk0 as <- <-. pose proof (HT _ _ Hb0) as Ki.
    assert (G1 : cgood (mkcdec inp (k_subs s) (k_lt s), l ++ [RCount info])).
    { destruct G as (G & Lk & A). split; [|split; [exact Lk|exact A]]. apply (good_keep (mkdec (k_in s) (one s) (k_lt s)) l inp (k_lt s) [RCount info]); [exact G|apply G]. }
    assert (L1 : cle (s, l) (mkcdec inp (k_subs s) (k_lt s), l ++ [RCount info])).
    { split; [|apply lt_le_refl]. apply (le_keep (mkdec (k_in s) (one s) (k_lt s)) l inp (k_lt s) [RCount info]). }
    pose proof (u32_range a) as Ru.
    destruct (cbitmap_step _ _ _ _ _ _ _ G1 Ru Hb2 Nb Fp) as (G2 & L2 & Lc & Kb).
    assert (Fd : cfine (with_pending st1 0) (s3, l ++ [RCount info])).
    { destruct (define_fine st (view (s3, l ++ [RCount info])) codes bits st1) as [_ Fd]; auto. eapply cfine_later; [|exact L2]. eapply cfine_later; [exact Fi|exact L1]. }
    split; [exact Fd|]. split; [exact G2|]. split; [eapply cle_trans; eauto|]. intros Sn x Tx.
    destruct (Kb Sn x) as ((f & Nf & Lf) & x' & Ex & Tx'). { destruct Tx as (T1 & T2 & T3). split; [exact T1|]. split; [exact T2|exact T3]. }
    destruct Sn as (_ & S2 & _). cbn [snd] in S2. apply Forall_app in S2 as [_ S2]. inversion S2 as [|? ? R1 _]; subst. cbn [comp_request_ok] in R1. destruct R1 as (R1 & R2 & R3).
    pose proof (uniform_reads o HO p info _ _ _ _ Ki Hb) as [Ci Fo].
    assert (Es : comp_semantic o info (k_in s) = Ok (c, inp)) by (unfold comp_uniform in Hb; destruct (vi_type info); [exact Hb|exact Hb|discriminate R1|discriminate R1]).
    destruct (semantic_number o HO info _ _ _ Ki R1 R2 Es) as [En|(n & En & Rn)].
    { exfalso. unfold enqi in Hb3. rewrite En in Hb3. discriminate. }
    assert (Ea : a = n). { unfold enqi in Hb3. rewrite En, Ci in Hb3. destruct (vi_type info); try discriminate R1; apply ok_inj in Hb3; congruence. }
    subst n. assert (Nt : neat p info (c_val c)) by (rewrite En; exact Logic.I). assert (In : inside info (c_val c)) by (rewrite En; exact Rn).
    specialize (Fo R2 Nt In). rewrite En in Fo.
    assert (Ra : 0 <= a < 2 ^ 31) by (unfold roomy in R2; destruct (vi_type info); try discriminate R1; lia).
    assert (Eu : u32 a = a) by (unfold u32; apply Z.mod_small; lia). rewrite Eu in *.
    rewrite Hb0. cbn [bind]. cbn [on_bitmap_factor transmitter]. unfold x_bitmap_factor, get_var. rewrite Nf. cbn [bind]. rewrite Lf, R1, Fo.
    replace (0 <=? a) with true by lia. cbn [andb guard bind]. cbn [on_bitmap transmitter]. rewrite Ex. cbn [bind]. rewrite Hb1. cbn [bind]. exists x'. split; [reflexivity|exact Tx'].
  - apply ok_inj in Hb. injection Hb as <- <-. cbn [fst snd] in *. pose proof (y_range code) as Ry. assert (Ry2 : 0 <= var_y code < 2 ^ 32) by lia.
    destruct (cbitmap_step _ _ _ _ _ _ _ G Ry2 Hb2 Nb Fp) as (G2 & L2 & Lc & Kb).
    destruct (define_fine st (view (s3, l)) codes bits st1) as [_ Fd]; auto; [eapply cfine_later; [exact Fi|exact L2]|].
    split; [exact Fd|]. split; [exact G2|]. split; [exact L2|]. intros Sn x Tx.
    destruct (Kb Sn x Tx) as (_ & x' & Ex & Tx'). cbn [bind on_bitmap transmitter]. rewrite Ex. cbn [bind]. rewrite Hb1. cbn [bind]. exists x'. split; [reflexivity|exact Tx'].
Qed.

(** ** One of the subsets *)
Lemma cvarinfo_known st x code i : cfine st x -> get_varinfo (tb_b T) st code = Ok i -> info_ok i.
Proof. intros Fi. exact (varinfo_known T HT HD st (view x) code i Fi). Qed.
Lemma cfine_op st x code : cfine st x -> var_f code = 2 ->
  let y := var_y code in
  cfine (with_width st (if y =? 0 then 0 else y - 128)) x /\ cfine (with_scale st (if y =? 0 then 0 else y - 128)) x /\
  cfine (with_refbits st (if y =? 255 then 0 else y)) x /\ (forall sig, y <= 32 -> cfine (with_af st y sig) x) /\
  cfine (with_srw st y) x /\ cfine (with_strlen st y) x /\ cfine (with_pending st code) x /\ cfine (with_pending (bitmaps_reuse st) 0) x /\
  cfine (bitmaps_discard st) x.
Proof. exact (fine_op st (view x) code). Qed.
Lemma cfine_refs st x code r : cfine st x -> is_refbits st <> 0 -> int_min <= r <= int_max -> cfine (with_refs st ((code, r) :: is_refs st)) x.
Proof. exact (fine_refs st (view x) code r). Qed.

Lemma comp_transmission fuel ops st s' inp lt m : run (comp_recorder o T skip) T fuel ops (ist_init, (mkcdec inp (repeat [] many) lt, [])) = Ok (st, s') -> locals_ok lt -> (k < many)%nat ->
  cgood s' /\ lt_le lt (k_lt (fst s')) /\
  (F = one (fst s') -> comp_faithful p F (snd s') -> L = k_lt (fst s') -> Q lt m ->
    exists x, transfer_state p T skip F fuel ops m = Ok x /\ x_got x = F /\ Q (k_lt (fst s')) (x_lt x)).
Proof.
  intros E Lt Kn.
  assert (G0 : cgood (mkcdec inp (repeat [] many) lt, [])).
  { assert (O1 : one (mkcdec inp (repeat [] many) lt) = []) by (unfold one; apply nth_repeat_here; exact Kn). split; [|split; [cbn; rewrite repeat_length; exact Kn|]].
    - unfold view. cbn [fst snd k_in k_lt]. rewrite O1. split; [constructor|]. split; [exact Lt|]. intros pos v code a N. cbn in N. destruct pos; discriminate.
    - split; [intros a b Ia Ib; cbn [fst k_subs] in *; apply repeat_spec in Ia; apply repeat_spec in Ib; subst; reflexivity|cbn [fst k_subs]; apply repeat_length]. }
  assert (F0 : cfine ist_init (mkcdec inp (repeat [] many) lt, [])).
  { split; [apply ist_ok_init|]. split; [left; reflexivity|]. split; [constructor|]. cbn. split; [lia|]. split; [lia|]. split; discriminate. }
  destruct (run_follows (comp_recorder o T skip) (transmitter p T skip F) T cgood cle cseen ctracks cfine info_ok cpointed cle_refl cle_trans cfine_later cseen_back
    cvarinfo_known (fun code i H => HT code i H) cfine_refs cfine_next cfine_op cvar_follows caf_follows (fun i K _ => cfactor_follows i K) csignificance_follows csubst_follows cattr_follows craw_follows crefval_follows
    cunknown_follows cbitmap_follows fuel ops ist_init _ st s' F0 G0 E) as (_ & G' & [_ Le] & K).
  split; [exact G'|]. split; [exact Le|]. intros EF [Fa1 Fa2] EL Qm.
  assert (Sn : cseen s').
  { split; [exact Fa1|]. split; [exact Fa2|]. split; [rewrite EL; apply lt_le_refl|]. intros pos v N. exists v. rewrite EF. auto. }
  destruct (K Sn (xfer_init m)) as (x & Ex & T1 & T2 & T3).
  { assert (O1 : one (mkcdec inp (repeat [] many) lt) = []) by (unfold one; apply nth_repeat_here; exact Kn). unfold ctracks. cbn [fst]. rewrite O1. split; [reflexivity|]. split; [reflexivity|exact Qm]. }
  exists x. unfold transfer_state. rewrite Ex. cbn [bind]. rewrite T1, EF, Nat.eqb_refl. cbn [guard bind]. split; [reflexivity|]. split; [exact T2|exact T3].
Qed.
End Steps.

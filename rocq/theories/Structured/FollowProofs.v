(** A subset that was made by a run of the interpreter can be printed by another one. *)
From Coq Require Import String ZArith Lia ZifyBool ZifyNat.
From Verif Require Import Base Num.Float Bits.Model Varcode.Model Varinfo.Model Varinfo.RangeProofs Tables.Model Tables.Spec Tables.LoadProofs Tables.AlterProofs
  Var.Model Var.Spec Var.Format Var.FormatProofs Interp.Model Interp.Spec Interp.Appears Interp.Sim Interp.Follow Interp.Holds Interp.ExpandProofs Interp.Example
  Codec.Model Codec.StepProofs Codec.Again Codec.AgainSteps Codec.Sound Codec.SoundProofs Listing.Model Structured.Model.
Local Open Scope Z_scope.
Local Close Scope string_scope.

(** ** Templates that do not change reference values *)

(** A visitor that does not read new reference values nor, if [af] is set, associated
    fields. *)
Definition unread {S} (af : bool) (V : visitor S) : visitor S :=
  mkvisitor (on_var V) (if af then fun _ _ _ _ => unimplemented else on_var_af V) (on_factor V) (on_bitmap_factor V) (on_significance V) (on_subst V) (on_attr V) (on_raw V)
    (fun _ _ _ => unimplemented) (on_bitmap V) (on_unknown V).

(** 203YYY with a width. *)
Definition new_refvals (c : Z) : bool := (var_f c =? 2) && (var_x c =? 3) && negb (var_y c =? 0) && negb (var_y c =? 255).

(** 204YYY with a width. *)
Definition new_fields (c : Z) : bool := (var_f c =? 2) && (var_x c =? 4) && negb (var_y c =? 0).
(** The operators that must not be there. *)
Definition barred (af : bool) (c : Z) : bool := new_refvals c || (af && new_fields c).
Definition quiet (af : bool) (st : istate) : Prop := is_refbits st = 0 /\ (af = true -> is_afbits st = 0).

Section Unread.
Context {S : Type} (af : bool) (V : visitor S) (T : tables).

Lemma next_refbits st n st' : bitmaps_next st = Ok (n, st') -> quiet af st -> quiet af st'.
Proof.
  unfold bitmaps_next. destruct (is_cur st) as [b|]; [|discriminate]. destruct (bm_rest b) as [|q r]; [discriminate|]. intros E Q. injection E as _ <-.
  destruct r; exact Q.
Qed.
Lemma define_refbits st codes bits st' : bitmaps_define st codes bits = Ok st' -> quiet af st -> quiet af st'.
Proof.
  unfold bitmaps_define. destruct (make_bitmap codes bits) as [refs|e|]; [|destruct (is_cur st); discriminate|discriminate]. intros E Q. apply same_ok in E. subst. exact Q.
Qed.

Definition agree (f g : istate * S -> res (istate * S)) : Prop :=
  forall st s st' s', quiet af st -> f (st, s) = Ok (st', s') -> g (st, s) = Ok (st', s') /\ quiet af st'.

Lemma variable_unread c : agree (b_variable V T c) (b_variable (unread af V) T c).
Proof.
  intros st s st' s' Zr E. destruct (Zr) as [Zb Za]. unfold b_variable in *. rewrite Zb in *. cbn [Z.eqb negb] in *. inv_bind E. rewrite Hb. cbn [bind]. cbn [on_attr on_var_af on_var unread].
  destruct (_ && _).
  - inv_bind Hk. destruct a0 as [pos st1]. inv_bind Hk0. apply same_ok, pair_equal_spec in Hk as [<- <-]. rewrite Hb0. cbn [bind]. rewrite Hb1. cbn [bind]. split; [reflexivity|].
    eapply next_refbits; eauto.
  - split; [|destruct (negb _); inv_bind Hk; apply same_ok, pair_equal_spec in Hk0 as [<- <-]; exact Zr].
    destruct af; [rewrite (Za eq_refl) in *|]; exact Hk.
Qed.

Lemma modifier_unread c next st s next' st' s' : barred af c = false -> var_f c = 2 -> quiet af st -> c_modifier V T c next (st, s) = Ok (next', st', s') ->
  c_modifier (unread af V) T c next (st, s) = Ok (next', st', s') /\ quiet af st'.
Proof.
  intros N F Zr E. split; [exact E|]. unfold barred, new_refvals, new_fields in N. rewrite F in N. apply Bool.orb_false_elim in N as [N1 N2]. unfold c_modifier in E. cbv zeta in E.
  repeat match type of E with
  | (if ?b then _ else _) = _ => destruct b eqn:?
  | bind ?m _ = Ok _ => let Q := fresh "Q" in destruct m as [?|?|] eqn:Q; cbn [bind] in E; [|discriminate E|discriminate E]
  | (let (_, _) := ?p in _) = _ => destruct p
  | Err _ = Ok _ => discriminate E
  end; (apply same_ok in E; apply pair_equal_spec in E as [E _]; apply pair_equal_spec in E as [_ <-]); try exact Zr;
  try (match goal with Q : bitmaps_next _ = Ok _ |- _ => exact (next_refbits _ _ _ Q Zr) end);
  try (cbn [bitmaps_reuse bitmaps_discard with_bitmaps with_pending]; match goal with |- context [match ?l with Some _ => _ | None => _ end] => destruct l end; exact Zr);
  destruct Zr as [Zb Za]; unfold quiet; cbn [with_refbits with_af is_refbits is_afbits with_width with_scale]; split; auto; try exact Za.
  all: try (destruct (Z.eqb_spec (var_y c) 255), (Z.eqb_spec (var_y c) 0); cbn in *; lia).
  all: intros ->; cbn in N2; lia.
Qed.

Lemma bitmap_unread c d ops : agree (r_bitmap V T c d ops) (r_bitmap (unread af V) T c d ops).
Proof.
  intros st s st' s' Zr E. split; [exact E|]. unfold r_bitmap in E. destruct (negb _); [discriminate|]. destruct (negb _); [discriminate|].
  inv_bind E. destruct a as [n s1]. inv_bind Hk. destruct a as [[codes bits] s2]. inv_bind Hk0. apply same_ok, pair_equal_spec in Hk as [<- _]. cbn.
  apply define_refbits in Hb1; exact Hb1 || exact Zr.
Qed.

Lemma run_unread : forall fuel ops, (forall c, appears T ops c -> barred af c = false) -> agree (run V T fuel ops) (run (unread af V) T fuel ops).
Proof.
  induction fuel as [|k IH]; intros ops A st s st' s' Zr E; cbn [run] in *; [discriminate|].
  destruct ops as [|cur rest]; [apply same_ok, pair_equal_spec in E as [<- <-]; auto|]. cbv zeta in *. cbn [fst] in *.
  assert (Tail : forall l, incl l rest -> forall c, appears T l c -> barred af c = false).
  { intros l Il c Ac. apply A. clear - Ac Il. induction Ac as [c I|c d body _ IHa F D I]; [apply ap_here; right; auto|eapply ap_inside; eauto]. }
  destruct (Z.eqb_spec (var_f cur) 0) as [F0|F0].
  { inv_bind E. destruct a as [st1 s1]. destruct (variable_unread _ _ _ _ _ Zr Hb) as [E1 Z1]. rewrite E1. cbn [bind]. apply IH; auto. apply Tail, incl_refl. }
  destruct (Z.eqb_spec (var_f cur) 1) as [F1|F1].
  { assert (Sub : incl (snd (delayed_code cur rest)) rest).
    { unfold delayed_code. destruct (var_y cur =? 0); [|apply incl_refl]. destruct rest as [|n r]; [apply incl_refl|]. destruct (_ && _); [apply incl_tl|]; apply incl_refl. }
    destruct (delayed_code cur rest) as [delayed rest1]. cbn [snd] in Sub. destruct (Nat.ltb _ _); [discriminate|]. inv_bind E. destruct a as [st1 s1].
    assert (Sk : incl (skipn (Z.to_nat (var_x cur)) rest1) rest) by (intros x I; apply Sub; rewrite <- (firstn_skipn (Z.to_nat (var_x cur)) rest1); apply in_or_app; auto).
    assert (Sf : incl (firstn (Z.to_nat (var_x cur)) rest1) rest) by (intros x I; apply Sub; rewrite <- (firstn_skipn (Z.to_nat (var_x cur)) rest1); apply in_or_app; auto).
    assert (Q : (if is_pending st =? 0 then r_replication (unread af V) T (run (unread af V) T k (firstn (Z.to_nat (var_x cur)) rest1)) cur delayed (st, s)
                 else r_bitmap (unread af V) T cur delayed (firstn (Z.to_nat (var_x cur)) rest1) (st, s)) = Ok (st1, s1) /\ quiet af st1).
    { destruct (is_pending st =? 0); [|exact (bitmap_unread _ _ _ _ _ _ _ Zr Hb)]. unfold r_replication in *. inv_bind Hb. destruct a as [n s2]. cbn [on_factor unread]. rewrite Hb0. cbn [bind].
      clear Hb0 Hk. revert st s2 Zr Hk0. generalize (Z.to_nat n). intros m. induction m as [|m IHm]; intros st2 s2 Z2 E2; cbn [repeat_m] in *.
      - apply same_ok, pair_equal_spec in E2 as [<- <-]. auto.
      - inv_bind E2. destruct a as [st3 s3]. destruct (IH _ (Tail _ Sf) _ _ _ _ Z2 Hb) as [E3 Z3]. rewrite E3. cbn [bind]. apply IHm; auto. }
    destruct Q as [Q Z1]. rewrite Q. cbn [bind]. apply IH; auto. apply Tail, Sk. }
  destruct (Z.eqb_spec (var_f cur) 2) as [F2|F2].
  { inv_bind E. destruct a as [[rest' st1] s1]. destruct (modifier_unread cur _ _ _ _ _ _ ltac:(apply A; apply ap_here; left; reflexivity) F2 Zr Hb) as [E1 Z1]. rewrite E1. cbn [bind].
    apply IH; auto. apply Tail. clear - Hb. unfold c_modifier in Hb. cbv zeta in Hb.
    repeat match type of Hb with
    | (if ?b then _ else _) = _ => destruct b eqn:?
    | bind ?m _ = Ok _ => let Q := fresh "Q" in destruct m as [?|?|] eqn:Q; cbn [bind] in Hb; [|discriminate Hb|discriminate Hb]
    | (let (_, _) := ?p in _) = _ => destruct p
    | Err _ = Ok _ => discriminate Hb
    end; (apply same_ok in Hb; apply pair_equal_spec in Hb as [Hb _]; apply pair_equal_spec in Hb as [<- _]); try apply incl_refl;
    match goal with Q : pop_left rest = Ok _ |- _ => unfold pop_left in Q; destruct rest; [discriminate Q|]; apply same_ok, pair_equal_spec in Q as [_ <-] end; apply incl_tl, incl_refl. }
  inv_bind E. inv_bind Hk. destruct a0 as [st1 s1]. rewrite Hb. cbn [bind].
  assert (B : forall c, appears T a c -> barred af c = false).
  { intros c Ac. apply A. clear - Ac Hb F0 F1 F2.
    induction Ac as [c I|c d body _ IHa F D I]; [|eapply ap_inside; eauto]. eapply ap_inside; [apply ap_here; left; reflexivity| |exact Hb|exact I].
    pose proof (var_f_range cur). lia. }
  destruct (IH _ B _ _ _ _ Zr Hb0) as [E1 Z1]. rewrite E1. cbn [bind]. apply IH; auto. apply Tail, incl_refl.
Qed.
End Unread.

(** ** Text of sound variables *)

Section Sound.
Context (fixed : nat -> f64 -> list Z) (desc : varinfo -> list Z) (o : options).

Lemma cell_text_sound c : sound o c -> exists t, cell_text fixed desc c = Ok t.
Proof.
  intros H. unfold cell_text.
  assert (F : exists t, format_file fixed c (chars "(undef)"%string) = Ok t); [|destruct F as [t ->]; cbn [bind]; eauto].
  assert (Num : forall k, info_ok (c_info c) -> is_numeric (vi_type (c_info c)) = true -> int_min <= k <= int_max -> c_val c = Some (VInt k) ->
    exists t, format_file fixed c (chars "(undef)"%string) = Ok t).
  { intros k Hi N K E. destruct (enqd_number c k Hi N K E) as (d & Ed & _). unfold format_file. rewrite E. destruct (vi_type (c_info c)); try discriminate N; rewrite Ed; cbn [bind]; eauto. }
  destruct H as [[Hi Hv]|(_ & Hi & N & _ & Hv)].
  - destruct (c_val c) as [[k|s|b]|] eqn:E; [| | |unfold format_file; rewrite E; eauto];
      unfold value_ok in Hv; destruct (vi_type (c_info c)) eqn:Ty; try contradiction.
    + apply (Num k); auto. destruct (info_ok_numeric _ Hi) as (_ & I1 & I2 & _); [rewrite Ty; reflexivity|]. lia.
    + apply (Num k); auto. destruct (info_ok_numeric _ Hi) as (_ & I1 & I2 & _); [rewrite Ty; reflexivity|]. lia.
    + unfold format_file. rewrite E, Ty. eauto.
    + unfold format_file. rewrite E, Ty. destruct (Nat.ltb_spec (length b) (ilen (c_info c))) as [Lb|_]; [exfalso; revert Hv Lb; unfold ilen; intuition lia|eauto].
  - destruct (info_ok_numeric _ Hi N) as (_ & I1 & I2 & _). destruct Hv as [E|E]; [apply (Num (vi_imin (c_info c)))|apply (Num (vi_imax (c_info c)))]; auto.
Qed.

Lemma attrs_text_sound l : Forall (sound o) l -> exists t, attrs_text fixed desc l = Ok t.
Proof.
  induction 1 as [|c l Hc _ [t IH]]; cbn [attrs_text]; [eauto|]. destruct (cell_text_sound c Hc) as [u ->]. rewrite IH. cbn [bind]. eauto.
Qed.
Lemma var_text_sound v : sound o (v_cell v) -> Forall (sound o) (v_attrs v) -> exists t, var_text fixed desc v = Ok t.
Proof.
  intros A B. unfold var_text. destruct (cell_text_sound _ A) as [t ->]. destruct (attrs_text_sound _ B) as [u ->]. cbn [bind]. eauto.
Qed.

Lemma enqa_on_sound code l a : Forall (sound o) l -> enqa_on code l = Some a -> sound o (v_cell a) /\ Forall (sound o) (v_attrs a).
Proof.
  induction 1 as [|c l Hc Hl IH]; cbn [enqa_on]; [discriminate|]. destruct (c_code c <=? code); [|discriminate]. destruct (c_code c =? code); [|exact IH].
  intros E. injection E as <-. auto.
Qed.

Lemma show_ok_of sub pos code w s t : content_text fixed desc w = Ok t ->
  show fixed desc sub pos code w s = Ok (mksp (sp_pos s) (sp_path s) (sp_out s ++ [mkentry pos (sp_path s) code w]) (sp_lt s)).
Proof. intros E. unfold show, entry_text. cbn [en_what]. rewrite E. reflexivity. Qed.
End Sound.

(** ** The simulation *)

Section Print.
Context (fixed : nat -> f64 -> list Z) (desc : varinfo -> list Z) (o : options) (T : tables) (sub : nat).
Context (HT : table_ok (tb_b T)) (HD : defs_ok (tb_b T)).
Context {S : Type} (V : visitor S) (cells : S -> list cell) (unk : S -> list (Z * varinfo)) (good : S -> Prop).
(** What the subset is in the end, and the tables with which it is printed. *)
Context (F : list var) (L : localtables) (HF : Forall (sound_var o) F).

Definition pushed (s s' : S) (c : cell) : Prop := good s' /\ cells s' = cells s ++ [c] /\ unk s' = unk s.
Definition same (s s' : S) : Prop := good s' /\ cells s' = cells s /\ unk s' = unk s.

Context (Hvar : forall i s s', info_ok i -> good s -> on_var V i s = Ok s' -> exists c, pushed s s' c).
Context (Haf : forall bits sig i s s', bits <> 0 -> info_ok i -> good s -> on_var_af V bits sig i s = Ok s' -> (exists oc, af_code sig = Ok oc) /\ exists c, pushed s s' c).
Context (Hfactor : forall i s n s', info_ok i -> good s -> on_factor V i s = Ok (n, s') -> exists c k, pushed s s' c /\ enqi c = Ok k /\ n = u32 k).
Context (Hsig : forall i s n s', info_ok i -> good s -> on_significance V i s = Ok (n, s') ->
  exists c k, pushed s s' c /\ (if isset c then enqi c else Ok 63) = Ok k /\ n = u32 k).
Context (Hsubst : forall p s s', (p < length (cells s))%nat -> good s -> on_subst V p s = Ok s' -> same s s').
Context (Hattr : forall i p s s', (p < length (cells s))%nat -> info_ok i -> good s -> on_attr V i p s = Ok s' -> same s s').
Context (Hraw : forall code s s', good s -> on_raw V code s = Ok s' -> exists c, pushed s s' c).
Context (Href : forall b code s y, on_refval V b code s <> Ok y).
Context (Hunknown : forall code bits s i s', 0 < bits < 256 -> good s -> on_unknown V code bits s = Ok (i, s') ->
  info_ok i /\ good s' /\ cells s' = cells s /\ vi_code i = code /\ assoc Z.eqb bits (unk s') = Some i /\
  (forall b j, assoc Z.eqb b (unk s) = Some j -> assoc Z.eqb b (unk s') = Some j)).
Context (Hbf : forall i s n s', info_ok i -> good s -> on_bitmap_factor V i s = Ok (n, s') ->
  same s s' /\ exists c k, sound o c /\ c_info c = i /\ enqi c = Ok k /\ n = u32 k).
Context (Hbitmap : forall pending n s codes bits s', var_f pending = 2 -> 0 <= n < 2 ^ 32 -> good s -> bits <> [] ->
  on_bitmap V pending n s = Ok (codes, bits, s') ->
  exists c, pushed s s' c /\ var_f (c_code c) = 2 /\ codes = map c_code (cells s') /\
    (if vi_len (c_info c) =? 0 then Ok [] else bitmap_chars c) = Ok bits /\ vi_len (c_info c) = n).

Definition le (s s' : S) : Prop := (exists l, cells s' = cells s ++ l) /\ forall b i, assoc Z.eqb b (unk s) = Some i -> assoc Z.eqb b (unk s') = Some i.
Definition seen (s : S) : Prop := (exists l, map v_cell F = cells s ++ l) /\ forall b i, assoc Z.eqb b (unk s) = Some i -> assoc Z.eqb b (lt_unknown L) = Some i.
Definition R (s : S) (x : sp) : Prop := sp_pos x = length (cells s) /\ sp_lt x = L.
Definition pad (n : nat) : recording := (mkdec (mkin [] 0 0 0) (repeat (mkvar (fresh no_info) []) n) empty_local, []).
Definition fine (st : istate) (s : S) : Prop := AgainSteps.fine st (pad (length (cells s))).
Definition pointed (n : nat) (s : S) : Prop := (n < length (cells s))%nat.

Lemma le_refl s : le s s.
Proof. split; [exists []; rewrite app_nil_r; reflexivity|auto]. Qed.
Lemma le_trans a b c : le a b -> le b c -> le a c.
Proof. intros [[l1 E1] U1] [[l2 E2] U2]. split; [exists (l1 ++ l2); rewrite E2, E1, app_assoc; reflexivity|auto]. Qed.
Lemma seen_back s s' : good s -> le s s' -> seen s' -> seen s.
Proof. intros _ [[l1 E1] U1] [[l2 E2] U2]. split; [exists (l1 ++ l2); rewrite E2, E1, app_assoc; reflexivity|auto]. Qed.
Lemma pad_length n : length (d_vars (fst (pad n))) = n.
Proof. unfold pad. cbn [fst d_vars]. apply repeat_length. Qed.
Lemma fine_later st s s' : fine st s -> le s s' -> fine st s'.
Proof.
  unfold fine, AgainSteps.fine. rewrite !pad_length. intros (A1 & A2 & A3 & A4 & A5 & A6 & A7) [[l E] _]. rewrite E, app_length.
  assert (Up : forall r, Forall (fun n => n < length (cells s))%nat r -> Forall (fun n => n < length (cells s) + length l)%nat r)
    by (intros r Fr; eapply Forall_impl; [|exact Fr]; cbv beta; lia).
  repeat (split; [assumption|]). split.
  - intros b Eb. destruct (A6 b Eb) as [B1 B2]. auto.
  - intros r Er. apply Up, A7. exact Er.
Qed.

Lemma push_le s s' c : pushed s s' c -> le s s'.
Proof. intros (_ & E & U). split; [eauto|]. rewrite U. auto. Qed.
Lemma same_le s s' : same s s' -> le s s'.
Proof. intros (_ & E & U). split; [exists []; rewrite E, app_nil_r; reflexivity|]. rewrite U. auto. Qed.

Lemma next_seen s s' c x : pushed s s' c -> seen s' -> R s x -> exists f, nth_error F (sp_pos x) = Some f /\ v_cell f = c /\ sound_var o f.
Proof.
  intros (_ & E & _) [[l Hl] _] [P _]. rewrite E, <- app_assoc in Hl. cbn [app] in Hl.
  assert (N : nth_error (map v_cell F) (sp_pos x) = Some c) by (rewrite Hl, P, nth_error_app2, Nat.sub_diag by lia; reflexivity).
  rewrite nth_error_map in N. destruct (nth_error F (sp_pos x)) as [f|] eqn:Nf; [|discriminate]. cbn in N. injection N as N. exists f. split; [reflexivity|]. split; [exact N|].
  rewrite Forall_forall in HF. apply HF. eapply nth_error_In; eauto.
Qed.
Lemma pushed_R s s' c x y : pushed s s' c -> R s x -> sp_pos y = Datatypes.S (sp_pos x) -> sp_lt y = sp_lt x -> R s' y.
Proof. intros (_ & E & _) [P Q] Y1 Y2. split; [|congruence]. rewrite E, app_length, Y1, P. cbn [length]. lia. Qed.

Let W := sp_visitor fixed desc o F sub.
Let follows := follows good le seen R.
Let follows_with := fun A => @follows_with S sp good le seen R A.

Ltac text := match goal with |- context [show ?f ?d ?u ?p ?c ?w ?x] =>
  let t := fresh "t" in let Et := fresh "Et" in assert (exists t, content_text fixed desc w = Ok t) as [t Et]; [|rewrite (show_ok_of f d u p c w x t Et); cbn [bind]] end.

Lemma next_step s s' c x : pushed s s' c -> seen s' -> R s x -> exists f, sp_next F x = Ok (f, mksp (Datatypes.S (sp_pos x)) (sp_path x) (sp_out x) (sp_lt x)) /\ v_cell f = c /\
  exists t, content_text fixed desc (PVar f) = Ok t.
Proof.
  intros P Sn Rx. destruct (next_seen _ _ _ _ P Sn Rx) as (f & N & C & (S1 & S2 & _)). exists f. unfold sp_next, get_var. rewrite N. cbn [bind]. split; [reflexivity|]. split; [exact C|].
  destruct (var_text_sound fixed desc o f S1 S2) as [t Et]. exists t. exact Et.
Qed.

Lemma var_follows i : info_ok i -> follows (fun _ => True) (on_var V i) (on_var W i).
Proof.
  intros Ki s s' _ G E. destruct (Hvar _ _ _ Ki G E) as [c P]. split; [apply P|]. split; [eapply push_le; eauto|]. intros Sn x Rx.
  destruct (next_step _ _ _ _ P Sn Rx) as (f & N & C & t & Et). cbn [on_var W sp_visitor]. unfold sp_var, sp_encode. rewrite N. cbn [bind].
  rewrite (show_ok_of _ _ _ _ _ _ _ _ Et). eexists. split; [reflexivity|]. eapply pushed_R; eauto.
Qed.

Lemma raw_follows code : follows (fun _ => True) (on_raw V code) (on_raw W code).
Proof.
  intros s s' _ G E. destruct (Hraw _ _ _ G E) as [c P]. split; [apply P|]. split; [eapply push_le; eauto|]. intros Sn x Rx.
  destruct (next_step _ _ _ _ P Sn Rx) as (f & N & C & t & Et). cbn [on_raw W sp_visitor]. unfold sp_raw. rewrite N. cbn [bind].
  rewrite (show_ok_of _ _ _ _ _ _ _ _ Et). eexists. split; [reflexivity|]. eapply pushed_R; eauto.
Qed.

Lemma factor_follows i : info_ok i -> var_x (vi_code i) = 31 -> follows_with _ (fun _ => True) (on_factor V i) (on_factor W i).
Proof.
  intros Ki _ s n s' G E. destruct (Hfactor _ _ _ _ Ki G E) as (c & k & P & Ek & En). split; [exact Logic.I|]. split; [apply P|]. split; [eapply push_le; eauto|]. intros Sn x Rx.
  destruct (next_step _ _ _ _ P Sn Rx) as (f & N & C & t & Et). cbn [on_factor W sp_visitor]. unfold sp_factor, sp_encode. rewrite N. cbn [bind].
  rewrite (show_ok_of _ _ _ _ _ _ _ _ Et). cbn [bind]. rewrite C, Ek. cbn [bind]. rewrite En. eexists. split; [reflexivity|]. eapply pushed_R; eauto.
Qed.

Lemma sig_follows i : info_ok i -> follows_with _ (fun _ => True) (on_significance V i) (on_significance W i).
Proof.
  intros Ki s n s' G E. destruct (Hsig _ _ _ _ Ki G E) as (c & k & P & Ek & En). split; [exact Logic.I|]. split; [apply P|]. split; [eapply push_le; eauto|]. intros Sn x Rx.
  destruct (next_step _ _ _ _ P Sn Rx) as (f & N & C & t & Et). cbn [on_significance W sp_visitor]. unfold sp_significance, sp_encode. rewrite N. cbn [bind].
  rewrite (show_ok_of _ _ _ _ _ _ _ _ Et). cbn [bind]. rewrite C, Ek. cbn [bind]. rewrite En. eexists. split; [reflexivity|]. eapply pushed_R; eauto.
Qed.

Lemma af_follows st i : is_afbits st <> 0 -> info_ok i ->
  follows (fine st) (on_var_af V (is_afbits st) (is_afsig st) i) (on_var_af W (is_afbits st) (is_afsig st) i).
Proof.
  intros Nb Ki s s' _ G E. destruct (Haf _ _ _ _ _ Nb Ki G E) as [[oc Ea] [c P]]. split; [apply P|]. split; [eapply push_le; eauto|]. intros Sn x Rx.
  destruct (next_seen _ _ _ _ P Sn Rx) as (f & N & C & (S1 & S2 & _)).
  destruct (var_text_sound fixed desc o f S1 S2) as [t Et]. change (content_text fixed desc (PVar f) = Ok t) in Et.
  cbn [on_var_af W sp_visitor]. unfold sp_var_af, sp_next, get_var. rewrite N. cbn [bind]. unfold sp_field. rewrite Ea. cbn [bind].
  text.
  { destruct oc as [code|]; [|eexists; reflexivity]. destruct (enqa_on code (v_attrs f)) as [a|] eqn:Q; [|eexists; reflexivity].
    destruct (enqa_on_sound o _ _ _ S2 Q) as [A1 A2]. apply (var_text_sound fixed desc o); assumption. }
  unfold sp_encode. rewrite (show_ok_of _ _ _ _ _ _ _ _ Et). eexists. split; [reflexivity|]. eapply pushed_R; eauto.
Qed.

(** A position that a bitmap points to. *)
Lemma pointed_seen n s : pointed n s -> seen s -> exists f, nth_error F n = Some f /\ nth_error (cells s) n = Some (v_cell f) /\ sound_var o f.
Proof.
  intros P [[l Hl] _]. unfold pointed in P. assert (Ln : (n < length F)%nat) by (rewrite <- (map_length v_cell), Hl, app_length; lia).
  destruct (nth_error F n) as [f|] eqn:N; [|apply nth_error_None in N; lia]. exists f. split; [reflexivity|]. split.
  - assert (Q : nth_error (map v_cell F) n = Some (v_cell f)) by (rewrite nth_error_map, N; reflexivity). rewrite Hl, nth_error_app1 in Q by exact P. exact Q.
  - rewrite Forall_forall in HF. apply HF. eapply nth_error_In; eauto.
Qed.
Lemma sp_attr_ok i n f x : nth_error F n = Some f -> sound_var o f -> exists y, sp_attr fixed desc F sub i n x = Ok y /\ sp_pos y = sp_pos x /\ sp_lt y = sp_lt x.
Proof.
  intros N (S1 & S2 & _). unfold sp_attr, get_var. rewrite N. cbn [bind].
  text; [|eexists; split; [reflexivity|split; reflexivity]].
  destruct (enqa_on (vi_code i) (v_attrs f)) as [a|] eqn:Q; [|eexists; reflexivity]. destruct (enqa_on_sound o _ _ _ S2 Q) as [A1 A2].
  destruct (var_text_sound fixed desc o a A1 A2) as [t Et]. cbn [content_text]. rewrite Et. cbn [bind]. eauto.
Qed.
Lemma same_R s s' x y : same s s' -> R s x -> sp_pos y = sp_pos x -> sp_lt y = sp_lt x -> R s' y.
Proof. intros (_ & E & _) [P Q] A B. split; [rewrite E; congruence|congruence]. Qed.

Lemma attr_follows i p : info_ok i -> follows (pointed p) (on_attr V i p) (on_attr W i p).
Proof.
  intros Ki s s' Pp G E. pose proof (Hattr _ _ _ _ Pp Ki G E) as P. split; [apply P|]. split; [apply same_le; exact P|]. intros Sn x Rx.
  assert (Pp' : pointed p s') by (unfold pointed in *; destruct P as (_ & -> & _); exact Pp).
  destruct (pointed_seen _ _ Pp' Sn) as (f & N & _ & Sf). destruct (sp_attr_ok i p f x N Sf) as (y & Ey & Y1 & Y2).
  cbn [on_attr W sp_visitor]. exists y. split; [exact Ey|]. eapply same_R; eauto.
Qed.
Lemma subst_follows p : follows (pointed p) (on_subst V p) (on_subst W p).
Proof.
  intros s s' Pp G E. pose proof (Hsubst _ _ _ Pp G E) as P. split; [apply P|]. split; [apply same_le; exact P|]. intros Sn x Rx.
  assert (Pp' : pointed p s') by (unfold pointed in *; destruct P as (_ & -> & _); exact Pp).
  destruct (pointed_seen _ _ Pp' Sn) as (f & N & _ & Sf). destruct (sp_attr_ok (c_info (v_cell f)) p f x N Sf) as (y & Ey & Y1 & Y2).
  cbn [on_subst W sp_visitor]. unfold sp_subst. rewrite N. exists y. split; [exact Ey|]. eapply same_R; eauto.
Qed.

Lemma ref_follows st s0 code : fine st s0 -> is_refbits st <> 0 ->
  follows_with _ (fun r => int_min <= r <= int_max) (on_refval V (is_refbits st) code) (on_refval W (is_refbits st) code).
Proof. intros _ _ s a s' _ E. exfalso. eapply Href; eauto. Qed.

Lemma unknown_follows code op : var_y op <> 0 -> follows_with _ info_ok (on_unknown V code (var_y op)) (on_unknown W code (var_y op)).
Proof.
  intros Ny s i s' G E. pose proof (y_range op) as Y. assert (Y2 : 0 < var_y op < 256) by lia. destruct (Hunknown _ _ _ _ _ Y2 G E) as (Ki & G' & C & Ci & A & U).
  split; [exact Ki|]. split; [exact G'|]. split; [split; [exists []; rewrite C, app_nil_r; reflexivity|exact U]|]. intros [_ Sn] x [P Q].
  cbn [on_unknown W sp_visitor]. unfold sp_unknown, get_unknown. rewrite Q, (Sn _ _ A), Ci, Z.eqb_refl. cbn [negb bind].
  eexists. split; [reflexivity|]. split; [rewrite C; exact P|reflexivity].
Qed.

Lemma u32_wrap k : int_min <= k <= int_max -> wrap_int (u32 k) = k.
Proof.
  intros K. unfold wrap_int, u32. rewrite Zplus_mod_idemp_l. unfold int_min, int_max in *. rewrite Z.mod_small by lia. lia.
Qed.

Lemma counted_show i c k : info_ok i -> sound o c -> c_info c = i -> enqi c = Ok k ->
  exists d t, of_outcome (seti o (fresh i) (wrap_int (u32 k))) = Ok d /\ content_text fixed desc (PMade d) = Ok t.
Proof.
  intros Hi Sc Ci Ek. assert (Made : forall d, sound o d -> exists t, content_text fixed desc (PMade d) = Ok t) by (intros d Sd; apply (cell_text_sound fixed desc o d Sd)).
  assert (V0 : c_val c = Some (VInt k) /\ is_numeric (vi_type i) = true).
  { unfold enqi in Ek. rewrite Ci in Ek. destruct (c_val c) as [[n|t|b]|]; try discriminate Ek; destruct (vi_type i); try discriminate Ek; apply same_ok in Ek; subst; auto. }
  destruct V0 as [V0 N]. destruct (info_ok_numeric _ Hi N) as (_ & I1 & I2 & _).
  destruct Sc as [[_ Hv]|(Cl & _ & _ & Em & Hv)].
  - rewrite V0, Ci in Hv. assert (B : vi_imin i <= k <= vi_imax i) by (unfold value_ok in Hv; destruct (vi_type i); try contradiction; exact Hv).
    rewrite u32_wrap by lia. unfold seti. cbn [fresh c_info]. rewrite N. unfold assign_i_checked. cbn [fresh c_info].
    replace (k <? vi_imin i) with false by lia. replace (vi_imax i <? k) with false by lia. cbn [orb of_outcome].
    destruct (Made (with_val (fresh i) (VInt k))) as [t Et]; [|eauto]. left. split; [exact Hi|exact Hv].
  - rewrite Ci in Em, Hv. assert (B : k = vi_imin i \/ k = vi_imax i) by (rewrite V0 in Hv; destruct Hv as [Q|Q]; injection Q as ->; auto).
    rewrite u32_wrap by lia. unfold seti. cbn [fresh c_info]. rewrite N. unfold assign_i_checked. cbn [fresh c_info].
    replace ((k <? vi_imin i) || (vi_imax i <? k)) with true by lia. rewrite Cl. destruct (o_silent o); cbn [of_outcome].
    + destruct (Made (unset (fresh i))) as [t Et]; [|eauto]. left. split; [exact Hi|exact Logic.I].
    + eexists. destruct (Made (with_val (fresh i) (VInt (if k <? vi_imin i then vi_imin i else if vi_imax i <? k then vi_imax i else k)))) as [t Et]; [|exists t; split; [reflexivity|exact Et]].
      right. split; [exact Cl|]. cbn [with_val fresh c_info c_val]. split; [exact Hi|]. split; [exact N|]. split; [exact Em|].
      destruct (Z.ltb_spec k (vi_imin i)); [auto|]. destruct (Z.ltb_spec (vi_imax i) k); [auto|]. destruct B as [-> | ->]; auto.
Qed.

Lemma bitmap_follows code delayed ops st s st' s' : fine st s -> is_pending st <> 0 -> good s ->
  r_bitmap V T code delayed ops (st, s) = Ok (st', s') ->
  fine st' s' /\ good s' /\ le s s' /\ (seen s' -> forall x, R s x -> exists x', r_bitmap W T code delayed ops (st, x) = Ok (st', x') /\ R s' x').
Proof.
  intros Fi Np G E. assert (Fp : var_f (is_pending st) = 2) by (destruct Fi as (_ & [?|?] & _); [contradiction|assumption]).
  unfold r_bitmap in *. destruct (negb (var_x code =? 1)); [discriminate|]. destruct (negb (hd 0 ops =? var_B31031)); [discriminate|].
  inv_bind E. destruct a as [count s1]. inv_bind Hk. destruct a as [[codes bits] s2]. inv_bind Hk0. apply same_ok, pair_equal_spec in Hk as [<- <-]. rename a into st1.
  assert (Nb : bits <> []) by (intros ->; unfold bitmaps_define, make_bitmap in Hb1; destruct (is_cur st); discriminate).
  assert (Q : same s s1 /\ 0 <= count < 2 ^ 32 /\ forall x c, R s x -> (exists f, nth_error F (sp_pos x) = Some f /\ v_cell f = c) -> vi_len (c_info c) = count ->
     exists m y, (if var_y code =? 0 then info <- query (tb_b T) delayed ;; on_bitmap_factor W info x else Ok (var_y code, x)) = Ok (m, y) /\ R s1 y /\ sp_pos y = sp_pos x).
  { destruct (var_y code =? 0).
    - apply bind_ok in Hb as (i & Hq & Hf). pose proof (HT _ _ Hq) as Ki. destruct (Hbf _ _ _ _ Ki G Hf) as (Sm & c & k & Sc & Ci & Ek & En). split; [exact Sm|].
      split; [subst count; apply u32_range|]. intros x c' Rx (f & Nf & Cf) Hl. rewrite Hq. cbn [bind on_bitmap_factor W sp_visitor]. unfold sp_bitmap_factor, get_var. rewrite Nf. cbn [bind]. cbv zeta.
      rewrite Cf, Hl, En. destruct (counted_show i c k Ki Sc Ci Ek) as (d & t & -> & Et). cbn [bind]. rewrite (show_ok_of _ _ _ _ _ _ _ _ Et). cbn [bind].
      eexists _, _. split; [reflexivity|]. split; [|reflexivity]. eapply same_R; eauto.
    - apply same_ok, pair_equal_spec in Hb as [<- <-]. pose proof (y_range code). split; [split; [exact G|split; reflexivity]|]. split; [lia|]. intros x c Rx _ _. exists (var_y code), x. auto. }
  destruct Q as (Sm & Cr & Q). assert (G1 : good s1) by apply Sm.
  destruct (Hbitmap _ _ _ _ _ _ Fp Cr G1 Nb Hb0) as (c & P & Fc & Hc & Hbits & Hl).
  assert (L1 : le s s2) by (eapply le_trans; [apply same_le; exact Sm|eapply push_le; exact P]).
  assert (F2 : fine st s2) by (eapply fine_later; eauto).
  assert (P' : pushed s s2 c) by (destruct P as (P1 & P2 & P3), Sm as (M1 & M2 & M3); split; [exact P1|]; split; congruence).
  destruct (AgainSteps.define_fine st (pad (length (cells s2))) codes bits st1) as [_ Fd]; auto; [rewrite pad_length, Hc, map_length; reflexivity|].
  split; [exact Fd|]. split; [apply P|]. split; [exact L1|]. intros Sn x Rx.
  destruct (next_seen _ _ _ _ P' Sn Rx) as (f & N & Cf & (S1 & S2 & _)).
  destruct (Q x c Rx) as (m & y & Ey & Ry & Py); [eauto|exact Hl|]. rewrite Ey. cbn [bind].
  cbn [on_bitmap W sp_visitor]. unfold sp_bitmap, sp_next, get_var. rewrite Py, N. cbn [bind]. rewrite Cf. rewrite Fc. cbn [Z.eqb negb]. rewrite Hbits. cbn [bind].
  destruct (var_text_sound fixed desc o f S1 S2) as [t Et]. change (content_text fixed desc (PVar f) = Ok t) in Et. rewrite (show_ok_of _ _ _ _ _ _ _ _ Et). cbn [bind sp_pos].
  replace (codes_of (firstn (Datatypes.S (sp_pos x)) F)) with codes.
  2: { destruct Sn as [[l Hl2] _]. unfold codes_of. rewrite Hc. rewrite <- (map_map v_cell c_code), <- firstn_map, Hl2. f_equal. destruct Rx as [Px _]. destruct P' as (_ & -> & _).
       rewrite firstn_app. replace (Datatypes.S (sp_pos x)) with (length (cells s ++ [c])) by (rewrite app_length, Px; cbn [length]; lia). rewrite firstn_all, Nat.sub_diag. cbn [firstn]. rewrite app_nil_r. reflexivity. }
  change (negb (2 =? 2)%positive) with false. cbn [bind]. rewrite Hb1. cbn [bind]. eexists. split; [reflexivity|]. eapply (pushed_R s s2 c x); eauto. cbn [sp_lt]. destruct Ry as [_ ->], Rx as [_ ->]. reflexivity.
Qed.

(** Replications and sequences: the path makes no difference. *)
Let WW := structured_walker fixed desc o T F sub.
Let steps := @steps S sp good le seen R fine.

Lemma around f g code : steps f g -> steps f (fun x => y <- g (on_snd (into code) x) ;; Ok (on_snd out_of y)).
Proof.
  intros H st s st' s' Fi G E. destruct (H _ _ _ _ Fi G E) as (F1 & G1 & L1 & K). split; [exact F1|]. split; [exact G1|]. split; [exact L1|]. intros Sn x Rx.
  unfold on_snd. cbn [fst snd]. destruct (K Sn (into code x) Rx) as (y & Ey & Ry). rewrite Ey. cbn [bind fst snd]. eexists. split; [reflexivity|exact Ry].
Qed.

Ltac fit := first [eassumption|exact le_refl|exact le_trans|exact seen_back|exact fine_later|exact var_follows|exact af_follows|exact attr_follows|exact ref_follows
  |exact sig_follows|exact subst_follows|exact raw_follows|exact unknown_follows|exact factor_follows|exact HT|exact bitmap_follows].
Lemma walk_steps : forall fuel ops, steps (run V T fuel ops) (walk WW T fuel ops).
Proof.
  assert (HI : forall st s code i, fine st s -> get_varinfo (tb_b T) st code = Ok i -> info_ok i) by (intros st s code i Fi; eapply varinfo_known; eauto; exact Fi).
  assert (HN : forall st s p st', fine st s -> bitmaps_next st = Ok (p, st') -> fine st' s /\ pointed p s).
  { intros st s p st' Fi E. destruct (AgainSteps.fine_next _ _ _ _ Fi E) as [A B]. split; [exact A|]. unfold AgainSteps.pointed in B. rewrite pad_length in B. exact B. }
  assert (HO : forall st s code, fine st s -> var_f code = 2 ->
  let y := var_y code in
  fine (with_width st (if y =? 0 then 0 else y - 128)) s /\ fine (with_scale st (if y =? 0 then 0 else y - 128)) s /\
  fine (with_refbits st (if y =? 255 then 0 else y)) s /\ (forall sig, y <= 32 -> fine (with_af st y sig) s) /\
  fine (with_srw st y) s /\ fine (with_strlen st y) s /\ fine (with_pending st code) s /\ fine (with_pending (bitmaps_reuse st) 0) s /\
  fine (bitmaps_discard st) s) by (intros st s code; apply AgainSteps.fine_op).
  assert (HR : forall st s code r, fine st s -> is_refbits st <> 0 -> int_min <= r <= int_max -> fine (with_refs st ((code, r) :: is_refs st)) s) by (intros st s code r; apply AgainSteps.fine_refs).
  assert (SB : forall code, steps (b_variable V T code) (b_variable W T code)).
  { intros code. apply (b_variable_follows V W T good le seen R fine info_ok pointed); fit. }
  assert (SC : forall code next st s next' st' s', var_f code = 2 -> fine st s -> good s -> c_modifier V T code next (st, s) = Ok (next', st', s') ->
    fine st' s' /\ good s' /\ le s s' /\ (seen s' -> forall x, R s x -> exists x', c_modifier W T code next (st, x) = Ok (next', st', x') /\ R s' x')).
  { intros code next st s next' st' s' F2 Fi G E. eapply (c_modifier_follows V W T good le seen R fine info_ok pointed); fit. }
  assert (SR : forall code delayed f g, (var_y code = 0 -> var_x delayed = 31) -> steps f g -> steps (r_replication V T f code delayed) (r_replication W T g code delayed)).
  { intros code delayed f g Hd H. apply (replication_follows V W T good le seen R fine info_ok); fit. }
  assert (Bind : forall f g f' g', steps f g -> steps f' g' -> steps (fun y => bind (f y) f') (fun y => bind (g y) g')).
  { intros f g f' g'. apply (steps_bind good le seen R fine); fit. }
  induction fuel as [|k IH]; intros ops st s st' s' Fi G E; cbn [run] in E; [discriminate|].
  destruct ops as [|cur rest].
  { injection E as <- <-. split; [exact Fi|]. split; [exact G|]. split; [apply le_refl|]. intros _ x Rx. exists x. auto. }
  cbn [walk]. cbv zeta in *. cbn [fst] in *.
  destruct (var_f cur =? 0); [exact (Bind _ _ _ _ (SB cur) (IH rest) _ _ _ _ Fi G E)|].
  destruct (var_f cur =? 1).
  { assert (Hd : var_y cur = 0 -> var_x (fst (delayed_code cur rest)) = 31).
    { unfold delayed_code. intros ->. cbn [Z.eqb]. destruct rest as [|n rest']; [reflexivity|]. destruct ((var_f n =? 0) && (var_x n =? 31)) eqn:En; [cbn [fst]; lia|reflexivity]. }
    destruct (delayed_code cur rest) as [delayed rest1]. cbn [fst] in Hd. destruct (Nat.ltb (length rest1) (Z.to_nat (var_x cur))); [discriminate|].
    destruct (Z.eqb_spec (is_pending st) 0) as [Ep|Ep].
    - pose proof (around _ _ cur (SR cur delayed _ _ Hd (IH (firstn (Z.to_nat (var_x cur)) rest1)))) as St.
      exact (Bind _ _ _ _ St (IH _) _ _ _ _ Fi G E).
    - inv_bind E. destruct a as [st1 s1]. destruct (bitmap_follows _ _ _ _ _ _ _ Fi Ep G Hb) as (F1 & G1 & L1 & K1).
      destruct (IH _ _ _ _ _ F1 G1 Hk) as (F2 & G2 & L2 & K2).
      split; [exact F2|]. split; [exact G2|]. split; [eapply le_trans; eauto|]. intros Sn x Rx.
      destruct (K1 (seen_back _ _ G1 L2 Sn) x Rx) as (x1 & E1 & R1). destruct (K2 Sn x1 R1) as (x2 & E2 & R2). exists x2.
      cbn [w_bitmap WW structured_walker]. fold W. rewrite E1. cbn [bind]. auto. }
  destruct (Z.eqb_spec (var_f cur) 2) as [F2|F2].
  { inv_bind E. destruct a as [[rest' st1] s1]. destruct (SC _ _ _ _ _ _ _ F2 Fi G Hb) as (F1 & G1 & L1 & K1).
    destruct (IH _ _ _ _ _ F1 G1 Hk) as (F3 & G2 & L2 & K2).
    split; [exact F3|]. split; [exact G2|]. split; [eapply le_trans; eauto|]. intros Sn x Rx.
    destruct (K1 (seen_back _ _ G1 L2 Sn) x Rx) as (x1 & E1 & R1). destruct (K2 Sn x1 R1) as (x2 & E2 & R2). exists x2.
    unfold on_snd. cbn [fst snd w_visitor w_operator WW structured_walker]. fold W. rewrite E1. cbn [bind]. auto. }
  destruct (dexpand (tb_d T) cur) as [body|e|]; cbn [bind] in *; try discriminate.
  inv_bind E. destruct a as [st1 s1]. destruct (around _ _ cur (IH body) _ _ _ _ Fi G Hb) as (F1 & G1 & L1 & K1).
  destruct (IH _ _ _ _ _ F1 G1 Hk) as (F3 & G2 & L2 & K2).
  split; [exact F3|]. split; [exact G2|]. split; [eapply le_trans; eauto|]. intros Sn x Rx.
  destruct (K1 (seen_back _ _ G1 L2 Sn) x Rx) as (x1 & E1 & R1). destruct (K2 Sn x1 R1) as (x2 & E2 & R2). exists x2.
  cbn [w_enter w_leave WW structured_walker]. unfold on_snd in *. cbn [fst snd] in *. destruct (walk WW T k body (st, into cur x)) as [y|e|]; cbn [bind] in E1 |- *; try discriminate E1.
  apply same_ok in E1. rewrite E1. auto.
Qed.
End Print.

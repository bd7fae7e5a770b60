(** Compressed data decodes to the same values as the subsets sent one by one. *)
From Coq Require Import ZifyBool ZifyNat.
From Verif Require Import Base Bits.Model Bits.Spec Bits.Proofs Bits.StringProofs Num.Float Num.FloatProofs
  Varcode.Model Varinfo.Model Varinfo.Proofs Varinfo.RangeProofs Tables.Model Tables.AlterProofs Tables.LoadProofs Var.Model Var.Spec
  Var.Proofs Var.AttrProofs Var.CodecProofs Interp.Model Interp.Sim Codec.Model Codec.Spec Codec.ValueProofs Codec.Proofs
  Codec.Compressed Codec.CompressedSpec Codec.ColumnProofs.
Local Open Scope Z_scope.

(** ** [each] *)
Lemma each_length {A} (f : list var -> xfer -> res A) vs : forall xs ys, each f vs xs = Ok ys -> length vs = length xs ->
  length ys = length xs.
Proof.
  induction vs as [|v vs IH]; intros [|x xs] ys E L; cbn in *; try lia.
  - injection E as <-. reflexivity.
  - inv_bind E. inv_bind Hk. injection Hk0 as <-. cbn. f_equal. eapply IH; eauto.
Qed.

Lemma each_nth {A} (f : list var -> xfer -> res A) vs : forall xs ys j vars x, each f vs xs = Ok ys ->
  nth_error vs j = Some vars -> nth_error xs j = Some x ->
  exists y, f vars x = Ok y /\ nth_error ys j = Some y.
Proof.
  induction vs as [|v vs IH]; intros [|x0 xs] ys [|j] vars x E N1 N2; cbn in *; try discriminate.
  - injection N1 as ->. injection N2 as ->. inv_bind E. inv_bind Hk. injection Hk0 as <-. exists a. auto.
  - inv_bind E. inv_bind Hk. injection Hk0 as <-. eapply IH; eauto.
Qed.

Lemma nth_hd_same {A} dec (d : A) l j a : all_same dec l = true -> nth_error l j = Some a -> a = hd d l.
Proof.
  destruct l as [|x l]; [destruct j; discriminate|]. intros H N. apply all_same_spec in H. cbn [hd].
  destruct j; cbn in N; [congruence|]. apply nth_error_In in N. eapply Forall_forall in H; eauto.
Qed.

Lemma take_inv p vars i x v : x_take p vars i x = Ok v ->
  nth_error vars (x_pos x) = Some v /\ c_info (v_cell v) = i /\ field_ok p i (c_val (v_cell v)) = true.
Proof.
  unfold x_take. intros H. inv_bind H. apply get_var_nth in Hb.
  destruct (varinfo_eq_dec (c_info (v_cell a)) i) as [E|]; [|discriminate].
  inv_bind Hk. injection Hk0 as <-. apply guard_ok in Hb0. auto.
Qed.

(** ** One subset: the compressor does to each subset what the transmitter does *)
Section Single.
Context (p : shift_policy) (T : tables) (skip : bool) (subs : list (list var)) (plan : nat -> choice).
Context (j : nat) (vars : list var).
Hypothesis J : nth_error subs j = Some vars.

Definition at_j (sa : cstate) (se : xfer) : Prop := nth_error (cs_x sa) j = Some se.

Notation sj := (sim at_j (fun _ => @nil unit) (fun _ (_ : unit) _ => False) (fun _ => True)).
Notation sju := (sim_u at_j (fun _ => @nil unit) (fun _ (_ : unit) _ => False) (fun _ => True)).

Lemma sju_intro fA fE fD : (forall sa se sa', at_j sa se -> fA sa = Ok sa' -> exists se', fE se = Ok se' /\ at_j sa' se') ->
  sju fA fE fD.
Proof.
  intros H sa se sa' I E. destruct (H _ _ _ I E) as (se' & E1 & I1). exists [], se'. repeat split; auto. intros sd rest _ [].
Qed.

Lemma sj_intro {X} (fA : cstate -> res (X * cstate)) fE fD :
  (forall sa se x sa', at_j sa se -> fA sa = Ok (x, sa') -> exists se', fE se = Ok (x, se') /\ at_j sa' se') ->
  sj fA fE fD.
Proof.
  intros H sa se x sa' I E. destruct (H _ _ _ _ I E) as (se' & E1 & I1). exists [], se'. repeat split; auto. intros sd rest _ [].
Qed.

Lemma single_attr i pos sa se sa' : at_j sa se -> cs_attr p subs plan i pos sa = Ok sa' ->
  exists se', x_attr p vars i pos se = Ok se' /\ at_j sa' se'.
Proof.
  intros I E. unfold cs_attr in E. inv_bind E. inv_bind Hk. inv_bind Hk0. injection Hk as <-.
  destruct (each_nth _ _ _ _ _ _ _ Hb J I) as (y & E1 & N1). eauto.
Qed.

Lemma single_number f i sa se n sa' : at_j sa se -> cs_number p subs f i sa = Ok (n, sa') ->
  exists se', f vars se = Ok (n, se') /\ at_j sa' se'.
Proof.
  intros I E. unfold cs_number in E. inv_bind E. inv_bind Hk. inv_bind Hk0. inv_bind Hk. injection Hk0 as <- <-.
  apply guard_ok in Hb1. apply andb_prop in Hb1 as [B1 B2].
  destruct (each_nth _ _ _ _ _ _ _ Hb J I) as ([n x] & E1 & N1).
  exists x. assert (N2 : nth_error (map fst a) j = Some n) by (rewrite nth_error_map, N1; reflexivity).
  rewrite (nth_hd_same _ 0 _ _ _ B1 N2) in E1. split; auto.
  unfold at_j. cbn [cs_x]. rewrite nth_error_map, N1. reflexivity.
Qed.

Lemma single_callbacks (VD : visitor unit) :
  callbacks at_j (fun _ => @nil unit) (fun _ _ _ => False) (fun _ => True)
    (compressor p T skip subs plan) (transmitter p T skip vars) VD T.
Proof.
  constructor; cbn [compressor transmitter on_var on_var_af on_factor on_bitmap_factor on_significance on_subst on_attr
    on_raw on_refval on_bitmap on_unknown]; intros.
  - apply sju_intro. intros sa se sa' I E. unfold cs_var in E. inv_bind E. inv_bind Hk. inv_bind Hk0. injection Hk as <-.
    destruct (each_nth _ _ _ _ _ _ _ Hb J I) as (y & E1 & N1). eauto.
  - apply sju_intro. intros sa se sa' I E. unfold cs_var_af in E. inv_bind E. inv_bind Hk.
    inv_bind Hk0. inv_bind Hk. inv_bind Hk0. inv_bind Hk. inv_bind Hk0. inv_bind Hk. injection Hk0 as <-.
    destruct (each_nth _ _ _ _ _ _ _ Hb0 J I) as (y & E1 & N1). eauto.
  - apply sj_intro. intros. eapply (single_number (fun vars => x_factor p vars i)); eauto.
  - apply sj_intro. intros sa se n sa' I E. unfold cs_bitmap_factor in E. inv_bind E. inv_bind Hk. inv_bind Hk0. injection Hk as <- <-.
    apply guard_ok in Hb0. destruct (each_nth _ _ _ _ _ _ _ Hb J I) as ([n x] & E1 & N1).
    exists x. assert (N2 : nth_error (map fst a) j = Some n) by (rewrite nth_error_map, N1; reflexivity).
    rewrite (nth_hd_same _ 0 _ _ _ Hb0 N2) in E1. split; auto.
    unfold at_j. cbn [cs_x]. rewrite nth_error_map, N1. reflexivity.
  - apply sj_intro. intros. eapply (single_number (fun vars => x_significance p vars i)); eauto.
  - apply sju_intro. intros sa se sa' I E. unfold cs_subst in E. inv_bind E. inv_bind Hk. apply guard_ok in Hb0.
    destruct a as [|i is]; [discriminate|].
    destruct (each_nth _ _ _ _ _ _ _ Hb J I) as (i' & E1 & N1).
    pose proof (nth_hd_same _ i _ _ _ Hb0 N1) as Ei. cbn [hd] in Ei. subst i'.
    unfold cs_info in E1. inv_bind E1. inv_bind Hk. destruct (varinfo_eq_dec (c_info (v_cell a)) (c_info (v_cell a1))); [|discriminate].
    injection Hk1 as Hk1. unfold x_subst. rewrite Hb1. cbn [bind]. rewrite Hk1. eapply single_attr; eauto.
  - apply sju_intro. intros. eapply single_attr; eauto.
  - apply sju_intro. unfold cs_raw. discriminate.
  - apply sj_intro. unfold cs_refval. discriminate.
  - apply sj_intro. intros sa se x sa' I E. unfold cs_bitmap in E. inv_bind E. inv_bind Hk. apply guard_ok in Hb0.
    apply andb_prop in Hb0 as [B1 B2]. injection Hk0 as <- <-.
    destruct (each_nth _ _ _ _ _ _ _ Hb J I) as ([[codes chars] x] & E1 & N1).
    exists x.
    assert (N2 : nth_error (map (fun r => fst (fst r)) a) j = Some codes) by (rewrite nth_error_map, N1; reflexivity).
    assert (N3 : nth_error (map (fun r => snd (fst r)) a) j = Some chars) by (rewrite nth_error_map, N1; reflexivity).
    rewrite (nth_hd_same _ [] _ _ _ B1 N2), (nth_hd_same _ [] _ _ _ B2 N3) in E1. split; auto.
    unfold at_j. cbn [cs_x]. rewrite nth_error_map, N1. reflexivity.
  - apply sj_intro. unfold cs_unknown. discriminate.
Qed.

Lemma single_run fuel ops st sa se st' sa' : ist_ok st -> at_j sa se ->
  run (compressor p T skip subs plan) T fuel ops (st, sa) = Ok (st', sa') ->
  exists se', run (transmitter p T skip vars) T fuel ops (st, se) = Ok (st', se') /\ at_j sa' se'.
Proof.
  intros S0 I E.
  pose (VD := mkvisitor (S := unit) (fun _ _ => Err EFuel) (fun _ _ _ _ => Err EFuel) (fun _ _ => Err EFuel) (fun _ _ => Err EFuel)
    (fun _ _ => Err EFuel) (fun _ _ => Err EFuel) (fun _ _ _ => Err EFuel) (fun _ _ => Err EFuel) (fun _ _ _ => Err EFuel)
    (fun _ _ _ => Err EFuel) (fun _ _ _ => Err EFuel)).
  destruct (run_sim at_j (fun _ => @nil unit) (fun _ (_ : unit) _ => False) (fun _ => True) (fun _ _ _ => Logic.I)
    _ _ VD T (single_callbacks VD) fuel ops st S0 sa se st' sa' I E) as (bs & se' & E1 & I1 & _). eauto.
Qed.
End Single.

(** ** The decoder *)
Definition attr_list (a : option cell) : list cell := match a with Some c => [c] | None => [] end.

Lemma give_separate afs : give_fields false [] afs = map attr_list afs.
Proof. induction afs as [|[c|] afs IH]; cbn [give_fields map attr_list seta]; [reflexivity|f_equal; exact IH|f_equal; exact IH]. Qed.

Lemma give_over z c0 afs : c_code c0 = z -> (forall x, In (Some x) afs -> c_code x = z) ->
  forallb (fun a => match a with [] => false | _ => true end) (map attr_list afs) = true ->
  give_fields true [c0] afs = map attr_list afs.
Proof.
  revert c0. induction afs as [|[c|] afs IH]; intros c0 E0 E H; cbn [give_fields map attr_list forallb] in *; [reflexivity| |discriminate].
  assert (Ec : c_code c = z) by (apply E; left; reflexivity).
  assert (Es : seta c [c0] = [c]) by (cbn [seta]; rewrite E0, Ec, Z.ltb_irrefl, Z.eqb_refl; reflexivity).
  rewrite Es. f_equal. apply IH; auto.
  intros x I. apply E. right. exact I.
Qed.

Lemma give_kept z afs : (forall x, In (Some x) afs -> c_code x = z) -> no_loss (map attr_list afs) = true ->
  give_fields true [] afs = map attr_list afs.
Proof.
  induction afs as [|[c|] afs IH]; intros E H; cbn [give_fields map attr_list no_loss seta] in *; [reflexivity| |].
  - f_equal. apply (give_over z); auto; [apply E; left; reflexivity|]. intros x I. apply E. right. exact I.
  - f_equal. apply IH; auto. intros x I. apply E. right. exact I.
Qed.

Lemma nth_repeat_len {A} (a : A) l : Forall (fun x => x = a) l -> l = repeat a (length l).
Proof. induction 1 as [|x l E F IH]; cbn; [reflexivity|]. congruence. Qed.

Lemma firstn_length_app {A} (l m : list A) : firstn (length l) (l ++ m) = l.
Proof. rewrite firstn_app, Nat.sub_diag, firstn_all. cbn. apply app_nil_r. Qed.

Lemma push_all_length subs vs : length subs = length vs -> length (push_all subs vs) = length subs.
Proof. intros H. unfold push_all. rewrite map_length, combine_length. lia. Qed.

Lemma push_all_cons s subs v vs : push_all (s :: subs) (v :: vs) = (s ++ [v]) :: push_all subs vs.
Proof. reflexivity. Qed.

Section Decoder.
Context (p : shift_policy) (o : options) (T : tables) (skip : bool) (subs : list (list var)) (plan : nat -> choice).
Hypothesis NE : subs <> [].
Hypothesis VOK : Forall (Forall var_infos_ok) subs.
Hypothesis TOK : table_ok (tb_b T).

Definition IC (sa se : cstate) : Prop := sa = se /\ length (cs_x sa) = length subs.

Definition KD (sa : cstate) (sd : cdec) (bits : list bool) : Prop :=
  k_subs sd = map x_got (cs_x sa) /\ map x_lt (cs_x sa) = repeat (k_lt sd) (length subs) /\
  Forall is_byte (idata (k_in sd)) /\ wf_in (k_in sd) /\ in_bits (k_in sd) = bits.

Notation simv := (sim IC cs_bits KD good).
Notation simu := (sim_u IC cs_bits KD good).

Lemma reads_KD {A} sa sd bs rest (f : input -> res (A * input)) a : reads bs f a -> good rest -> KD sa sd (bs ++ rest) ->
  exists inp, f (k_in sd) = Ok (a, inp) /\ KD sa (mkcdec inp (k_subs sd) (k_lt sd)) rest.
Proof.
  intros R G (D1 & D2 & D3 & D4 & D5). destruct (R (k_in sd) rest D3 D4 G D5) as (i' & E & R1 & R2 & R3).
  exists i'. split; auto. unfold KD. cbn [k_subs k_lt k_in]. rewrite R3. auto.
Qed.

Lemma ksize_ok sa sd bits : length (cs_x sa) = length subs -> KD sa sd bits -> ksize sd = length subs.
Proof. intros L (D & _). unfold ksize. rewrite D, map_length. exact L. Qed.

(** The pieces of one step that takes the next variable of each subset. *)
Lemma each_push {Y} (f : list var -> xfer -> res Y) (pi : Y -> xfer) i :
  (forall vars x y, f vars x = Ok y -> exists v, x_take p vars i x = Ok v /\
     x_got (pi y) = x_got x ++ [mkvar (v_cell v) []] /\ x_lt (pi y) = x_lt x) ->
  forall vs xs ys vals, Forall (Forall var_infos_ok) vs -> length vs = length xs -> each f vs xs = Ok ys ->
  each (fun vars x => v <- x_take p vars i x ;; Ok (c_val (v_cell v))) vs xs = Ok vals ->
  map x_got (map pi ys) = push_all (map x_got xs) (map (fun c => mkvar c []) (map (mkcell i) vals)) /\
  map x_lt (map pi ys) = map x_lt xs /\ length vals = length xs /\
  Forall (fun v => field_ok p i v = true) vals /\ Forall (fun v => info_ok i \/ v = None) vals.
Proof.
  intros H. induction vs as [|vars vs IH]; intros [|x xs] ys vals V L E1 E2; cbn [each length] in *; try lia.
  - injection E1 as <-. injection E2 as <-. cbn. auto.
  - inv_bind E1. inv_bind Hk. injection Hk0 as <-. inv_bind E2. inv_bind Hk. injection Hk0 as <-.
    inversion V as [|? ? V1 V2]; subst.
    destruct (IH xs _ _ V2 ltac:(lia) Hb0 Hb2) as (I1 & I2 & I3 & I4 & I5).
    destruct (H _ _ _ Hb) as (v & Tk & G & Lt). rewrite Tk in Hb1. cbn [bind] in Hb1. injection Hb1 as <-.
    destruct (take_inv _ _ _ _ _ Tk) as (Tn & Ei & Tf).
    assert (K : info_ok i).
    { apply nth_error_In in Tn. eapply Forall_forall in V1; [|exact Tn]. rewrite <- Ei. apply V1. }
    cbn [map]. rewrite push_all_cons, I1, I2, G, Lt.
    replace (mkcell i (c_val (v_cell v))) with (v_cell v) by (destruct (v_cell v); cbn in *; congruence).
    repeat split; auto. cbn [length]. lia.
Qed.

Lemma vals_ne (xs : list xfer) (vals : list (option value)) : length vals = length xs -> length xs = length subs -> vals <> [].
Proof. intros H1 H2 ->. cbn in H1. destruct subs; [congruence|]. cbn in H2. lia. Qed.

Lemma csim_var i : simu (cs_var p subs plan i) (cs_var p subs plan i) (k_var o i).
Proof.
  intros sa se sa' (<- & L) H. pose proof H as H0. unfold cs_var in H. inv_bind H. inv_bind Hk. inv_bind Hk0. injection Hk as <-.
  destruct (each_push (fun vars => x_var p vars i) (fun x => x) i) with (3 := eq_sym L) (4 := Hb) (5 := Hb0)
    as (P1 & P2 & P3 & P4 & P5); [|exact VOK|].
  { intros vars x y E. unfold x_var in E. inv_bind E. injection Hk as <-. exists a2. auto. }
  rewrite map_id in P1, P2. exists a1, (mkcs a (cs_bits sa ++ a1)). split; [exact H0|].
  split. { split; auto. cbn [cs_x]. rewrite (each_length _ _ _ _ Hb (eq_sym L)). exact L. }
  split; [reflexivity|]. intros sd rest G D. unfold k_var.
  pose proof (column_reads o p i _ _ _ (vals_ne _ _ P3 L) P5 P4 Hb1) as R.
  rewrite (ksize_ok sa sd _ L D). rewrite <- L, <- P3.
  destruct (reads_KD sa sd _ _ _ _ R G D) as (inp & E & D'). rewrite E. cbn [bind]. eexists. split; [reflexivity|].
  destruct D' as (D1 & D2 & D3). unfold k_push, KD. cbn [k_subs k_lt k_in cs_x] in *. rewrite D1, P1, P2. auto.
Qed.

Lemma csim_number f (g : cell -> res Z) i :
  (forall vars x y, f vars x = Ok y -> exists v, x_take p vars i x = Ok v /\ x_got (snd y) = x_got x ++ [mkvar (v_cell v) []] /\
     x_lt (snd y) = x_lt x /\ (n <- g (v_cell v) ;; Ok (u32 n)) = Ok (fst y)) ->
  simv (cs_number p subs f i) (cs_number p subs f i)
    (fun s => ' (c, inp) <- comp_uniform o i (ksize s) (k_in s) ;;
              n <- g c ;; Ok (u32 n, k_push (repeat c (ksize s)) inp s)).
Proof.
  intros Hf sa se n sa' (<- & L) H. pose proof H as H0. unfold cs_number in H.
  inv_bind H. inv_bind Hk. inv_bind Hk0. inv_bind Hk. injection Hk0 as <- <-.
  apply guard_ok in Hb1. apply andb_prop in Hb1 as [B1 B2].
  destruct (each_push f snd i) with (3 := eq_sym L) (4 := Hb) (5 := Hb0) as (P1 & P2 & P3 & P4 & P5); [|exact VOK|].
  { intros vars x y E. destruct (Hf _ _ _ E) as (v & ? & ? & ? & _). eauto. }
  eexists _, _. split; [exact H0|].
  split. { split; auto. cbn [cs_x]. rewrite map_length, (each_length _ _ _ _ Hb (eq_sym L)). exact L. }
  split; [reflexivity|]. intros sd rest G D.
  destruct a0 as [|v0 vals]; [exfalso; eapply vals_ne; eauto|]. cbn [hd] in *.
  inversion P4; subst. inversion P5; subst.
  pose proof (uniform_reads o p i v0 (length subs) a2 ltac:(assumption) ltac:(assumption) Hb2) as R.
  rewrite (ksize_ok sa sd _ L D).
  destruct (reads_KD sa sd _ _ _ _ R G D) as (inp & E & D'). rewrite E. cbn [bind].
  (* the number *)
  assert (Hn : (n <- g (mkcell i v0) ;; Ok (u32 n)) = Ok (hd 0 (map fst a))).
  { clear -Hf Hb Hb0 L NE. destruct subs as [|vars vs]; [congruence|]. destruct (cs_x sa) as [|x xs]; [cbn in L; lia|].
    destruct (each_nth _ _ _ _ 0 vars x Hb eq_refl eq_refl) as (y & Ey & Ny).
    destruct (each_nth _ _ _ _ 0 vars x Hb0 eq_refl eq_refl) as (v1 & Ev & Nv). cbn [nth_error] in Nv. injection Nv as <-.
    destruct a as [|y' a]; [discriminate Ny|]. cbn [nth_error] in Ny. injection Ny as ->.
    destruct (Hf _ _ _ Ey) as (v & Tk & _ & _ & Hn). rewrite Tk in Ev. cbn [bind] in Ev. injection Ev as <-.
    cbn [map hd]. rewrite <- Hn. destruct (take_inv _ _ _ _ _ Tk) as (_ & Ei & _). destruct (v_cell v) as [iv vv]. cbn in *. congruence. }
  inv_bind Hn. injection Hk as Hk. rewrite Hb1. cbn [bind]. rewrite Hk. eexists. split; [reflexivity|].
  destruct D' as (D1 & D2 & D3). unfold k_push, KD. cbn [k_subs k_lt k_in cs_x] in *. rewrite D1, P1, P2.
  split; [|auto]. f_equal. f_equal. rewrite <- L, <- P3. cbn [length repeat map]. f_equal.
  apply all_same_spec in B2. clear -B2. induction B2 as [|u l Eu Fl IH]; cbn; [reflexivity|]. rewrite IH, Eu. reflexivity.
Qed.

Lemma csim_factor i : simv (cs_factor p subs i) (cs_factor p subs i) (k_factor o i).
Proof.
  apply (csim_number (fun vars => x_factor p vars i) enqi i). intros vars x y E. unfold x_factor in E.
  inv_bind E. inv_bind Hk. injection Hk0 as <-. exists a. rewrite Hb0. cbn [snd fst bind]. auto.
Qed.

Lemma csim_significance i : simv (cs_significance p subs i) (cs_significance p subs i) (k_significance o i).
Proof.
  apply (csim_number (fun vars => x_significance p vars i) (fun c => if isset c then enqi c else Ok 63) i).
  intros vars x y E. unfold x_significance in E.
  inv_bind E. inv_bind Hk. injection Hk0 as <-. exists a. rewrite Hb0. cbn [snd fst bind]. auto.
Qed.

Lemma csim_bitmap_factor i : (exists c, query (tb_b T) c = Ok i) ->
  simv (cs_bitmap_factor p subs i) (cs_bitmap_factor p subs i) (k_bitmap_factor o i).
Proof.
  intros (code & Q) sa se n sa' (<- & L) H. pose proof H as H0. unfold cs_bitmap_factor in H.
  inv_bind H. inv_bind Hk. inv_bind Hk0. injection Hk as <- <-. apply guard_ok in Hb0.
  pose proof (TOK _ _ Q) as K.
  assert (P : map snd a = cs_x sa /\ Forall (fun n => is_numeric (vi_type i) = true /\ field_ok p i (Some (VInt n)) = true /\ 0 <= n < 2 ^ 32) (map fst a)).
  { clear -Hb VOK L. revert Hb VOK L. generalize (cs_x sa). generalize subs as vs. intros vs xs. revert xs a.
    induction vs as [|vars vs IH]; intros [|x xs] a E V L; cbn [each length] in *; try lia.
    - injection E as <-. cbn. auto.
    - inversion V as [|? ? V1 V2]; subst. inv_bind E. inv_bind Hk. injection Hk0 as <-.
      destruct (IH xs a1 Hb0 V2 ltac:(lia)) as [I1 I2].
      rename Hb into HX. unfold x_bitmap_factor in HX. inv_bind HX. inv_bind Hk. injection Hk0 as <-. apply guard_ok in Hb1.
      rewrite !andb_true_iff in Hb1. destruct Hb1 as ((B1 & B2) & B3). cbn [map fst snd]. rewrite I1. split; auto.
      constructor; auto. repeat split; auto; [lia|]. apply get_var_nth in Hb. apply nth_error_In in Hb.
      eapply Forall_forall in V1; [|exact Hb]. apply (io_len _ (proj1 V1)). }
  destruct P as [P1 P2].
  assert (La : length (map fst a) = length subs) by (rewrite map_length; pose proof (f_equal (@length _) P1) as X; rewrite map_length in X; lia).
  eexists _, _. split; [exact H0|]. rewrite P1. split; [split; auto|]. split; [reflexivity|]. intros sd rest G D.
  destruct (map fst a) as [|n l]; [destruct subs; [congruence|discriminate La]|]. cbn [hd] in *.
  inversion P2 as [|? ? (N & F & Hr) _]; subst.
  pose proof (uniform_reads o p i (Some (VInt n)) (length subs) a1 (or_introl K) F Hb1) as R.
  unfold k_bitmap_factor. rewrite (ksize_ok sa sd _ L D).
  destruct (reads_KD sa sd _ _ _ _ R G D) as (inp & E & D'). rewrite E. cbn [bind].
  assert (En : enqi (mkcell i (Some (VInt n))) = Ok n) by (unfold enqi; cbn [c_val c_info]; destruct (vi_type i); first [reflexivity|discriminate]).
  rewrite En. cbn [bind]. unfold u32. rewrite Z.mod_small by lia. eexists. split; [reflexivity|]. exact D'.
Qed.

(** Attributes. *)
Lemma each_attr i pos : forall vs xs xs' vals, Forall (Forall var_infos_ok) vs -> length vs = length xs ->
  each (fun vars => x_attr p vars i pos) vs xs = Ok xs' ->
  each (fun vars _ => v <- get_var vars pos ;;
          Ok (match var_enqa v (vi_code i) with Some a => c_val a | None => None end)) vs xs = Ok vals ->
  attach_all pos (map x_got xs) (map (mkcell i) vals) = Ok (map x_got xs') /\
  map x_lt xs' = map x_lt xs /\ length vals = length xs /\
  Forall (fun v => field_ok p i v = true) vals /\ Forall (fun v => info_ok i \/ v = None) vals.
Proof.
  induction vs as [|vars vs IH]; intros [|x xs] xs' vals V L E1 E2; cbn [each length] in *; try lia.
  - injection E1 as <-. injection E2 as <-. cbn. auto.
  - inv_bind E1. inv_bind Hk. injection Hk0 as <-. inv_bind E2. inv_bind Hk. injection Hk0 as <-.
    inversion V as [|? ? V1 V2]; subst.
    destruct (IH xs _ _ V2 ltac:(lia) Hb0 Hb2) as (I1 & I2 & I3 & I4 & I5).
    rename Hb into HX. unfold x_attr in HX. inv_bind HX. inv_bind Hk. rename a3 into v, a4 into got, Hb into Hv, Hb3 into Hg.
    rewrite Hv in Hb1. cbn [bind] in Hb1. injection Hb1 as <-. apply get_var_nth in Hv, Hg. cbn [map attach_all].
    set (val := match var_enqa v (vi_code i) with Some a => c_val a | None => None end).
    assert (A : x_lt a = x_lt x /\ attach pos (x_got x) (mkcell i val) = Ok (x_got a) /\ field_ok p i val = true /\ (info_ok i \/ val = None)).
    { unfold val. destruct (var_enqa v (vi_code i)) as [at_|] eqn:Ea.
      - destruct (varinfo_eq_dec (c_info at_) i) as [Ei|]; [|discriminate]. inv_bind Hk0. injection Hk as <-. apply guard_ok in Hb.
        assert (K : info_ok i).
        { apply nth_error_In in Hv. eapply Forall_forall in V1; [|exact Hv]. destruct V1 as [_ V1].
          rewrite <- Ei. eapply Forall_forall in V1; [exact V1|]. eapply enqa_in; eauto. }
        replace (mkcell i (c_val at_)) with at_ by (destruct at_; cbn in *; congruence).
        cbn [x_lt x_got]. unfold attach. destruct (isset at_); cbn [negb]; [rewrite Hg|]; auto.
      - inv_bind Hk0. injection Hk as <-. apply guard_ok in Hb. cbn [x_lt x_got]. unfold attach. cbn [isset c_val negb]. auto. }
    destruct A as (A1 & A2 & A3 & A4). rewrite A2. cbn [bind]. rewrite I1. cbn [bind]. rewrite A1, I2.
    repeat split; auto. cbn [length]. lia.
Qed.

Lemma csim_attr i pos : simu (cs_attr p subs plan i pos) (cs_attr p subs plan i pos) (k_attr o i pos).
Proof.
  intros sa se sa' (<- & L) H. pose proof H as H0. unfold cs_attr in H. inv_bind H. inv_bind Hk. inv_bind Hk0. injection Hk as <-.
  destruct (each_attr i pos _ _ _ _ VOK (eq_sym L) Hb Hb0) as (P1 & P2 & P3 & P4 & P5).
  eexists _, _. split; [exact H0|].
  split. { split; auto. cbn [cs_x]. rewrite (each_length _ _ _ _ Hb (eq_sym L)). exact L. }
  split; [reflexivity|]. intros sd rest G D. unfold k_attr.
  pose proof (column_reads o p i _ _ _ (vals_ne _ _ P3 L) P5 P4 Hb1) as R.
  rewrite (ksize_ok sa sd _ L D). rewrite <- L, <- P3.
  destruct (reads_KD sa sd _ _ _ _ R G D) as (inp & E & D'). rewrite E. cbn [bind].
  destruct D' as (D1 & D2 & D3). cbn [k_subs k_lt k_in] in *. rewrite D1, P1. cbn [bind]. eexists. split; [reflexivity|].
  unfold KD. cbn [k_subs k_lt k_in cs_x]. rewrite P2. auto.
Qed.

Lemma csim_subst pos : simu (cs_subst p subs plan pos) (cs_subst p subs plan pos) (k_subst o pos).
Proof.
  intros sa se sa' I H. pose proof H as H0. pose proof I as (<- & L). unfold cs_subst in H. inv_bind H. inv_bind Hk. apply guard_ok in Hb0.
  destruct a as [|i is]; [discriminate|]. destruct (csim_attr i pos _ _ _ I Hk0) as (bs & se' & E1 & I1 & M1 & D1).
  exists bs, se'. split; [congruence|]. split; auto. split; auto. intros sd rest G D.
  destruct (D1 sd rest G D) as (sd' & E & D'). exists sd'. split; auto. unfold k_subst. destruct D as (D & _). rewrite D.
  destruct subs as [|vars vs]; [congruence|]. destruct (cs_x sa) as [|x xs]; [cbn in L; lia|]. cbn [map].
  destruct (each_nth _ _ _ _ 0 vars x Hb eq_refl eq_refl) as (i' & E0 & N0). cbn [nth_error] in N0. injection N0 as <-.
  unfold cs_info in E0. inv_bind E0. inv_bind Hk.
  destruct (varinfo_eq_dec _ _) as [Ei|] in Hk1; [|discriminate]. injection Hk1 as <-.
  match goal with X : get_var (x_got x) pos = Ok _ |- _ => apply get_var_nth in X; rewrite X end. rewrite <- Ei. exact E.
Qed.

(** Bitmaps. *)
Lemma csim_bitmap c n : simv (cs_bitmap subs c n) (cs_bitmap subs c n) (k_bitmap o c n).
Proof.
  intros sa se [codes chars] sa' (<- & L) H. pose proof H as H0. unfold cs_bitmap in H. inv_bind H. inv_bind Hk. apply guard_ok in Hb0.
  apply andb_prop in Hb0 as [B1 B2]. apply ok_inj in Hk0. apply pair_equal_spec in Hk0 as [Hk0 <-]. apply pair_equal_spec in Hk0 as [Hc1 Hc2]. cbv zeta in *.
  eexists _, _. split; [exact H0|].
  split. { split; auto. cbn [cs_x]. rewrite map_length, (each_length _ _ _ _ Hb (eq_sym L)). exact L. }
  split; [cbn [cs_bits]; rewrite Hc2; reflexivity|]. intros sd rest G D.
  (* all the subsets have the same bitmap *)
  pose proof D as (D1 & D2 & _).
  assert (P : exists i lt, get_bitmap (k_lt sd) c chars = Ok (i, lt) /\
    forallb (fun ch => (ch =? 43) || (ch =? 45)) chars = true /\ Z.of_nat (length chars) = n /\ 1 <= n /\ vi_len i = n /\
    vi_type i = TString /\
    map x_got (map snd a) = push_all (k_subs sd) (repeat (mkvar (mkcell i (Some (VStr chars))) []) (length subs)) /\
    map x_lt (map snd a) = repeat lt (length subs) /\
    codes = codes_of (hd [] (map x_got (map snd a)))).
  { rewrite D1. revert Hb B1 B2 Hc1 Hc2 L D2 NE. generalize (cs_x sa). generalize subs as vs. clear. intros vs xs.
    intros Hb B1 B2 Hc1 Hc2 L D2 NE.
    assert (Step : forall vars x r, x_bitmap vars c n x = Ok r -> x_lt x = k_lt sd -> snd (fst r) = chars ->
      exists i lt, get_bitmap (k_lt sd) c chars = Ok (i, lt) /\
      forallb (fun ch => (ch =? 43) || (ch =? 45)) chars = true /\ Z.of_nat (length chars) = n /\ 1 <= n /\ vi_len i = n /\
      vi_type i = TString /\ x_got (snd r) = x_got x ++ [mkvar (mkcell i (Some (VStr chars))) []] /\ x_lt (snd r) = lt /\
      fst (fst r) = codes_of (x_got (snd r))).
    { intros vars x r E El Er. unfold x_bitmap in E. inv_bind E. destruct (c_val (v_cell a0)) as [[?|s|?]|] eqn:Ev; try discriminate.
      inv_bind Hk. destruct a1 as [i lt]. destruct (varinfo_eq_dec (c_info (v_cell a0)) i) as [Ei|]; [|discriminate].
      inv_bind Hk0. apply ok_inj in Hk. subst r. cbn [fst snd] in *. subst s. apply guard_ok in Hb2. rewrite !andb_true_iff in Hb2.
      destruct Hb2 as (((((G1 & G2) & G3) & G4) & G5) & G6). exists i, lt. rewrite <- El. split; auto. split; auto.
      split; [lia|]. split; [lia|]. split; [lia|]. split; [destruct (vi_type i); try discriminate; reflexivity|].
      split; [|auto]. cbn [x_tables x_give x_got]. f_equal. f_equal. f_equal. destruct (v_cell a0); cbn in *; congruence. }
    assert (All : forall vs xs a, each (fun vars => x_bitmap vars c n) vs xs = Ok a -> length vs = length xs ->
      map x_lt xs = repeat (k_lt sd) (length vs) -> Forall (fun r => snd (fst r) = chars) a ->
      forall i lt, get_bitmap (k_lt sd) c chars = Ok (i, lt) ->
      map x_got (map snd a) = push_all (map x_got xs) (repeat (mkvar (mkcell i (Some (VStr chars))) []) (length vs)) /\
      map x_lt (map snd a) = repeat lt (length vs)).
    { clear -Step. induction vs as [|vars vs IH]; intros [|x xs] a E L M F i lt Hg; cbn [each length] in *; try lia.
      - injection E as <-. cbn. auto.
      - inv_bind E. inv_bind Hk. injection Hk0 as <-. apply Forall_cons_iff in F as [F1 F2]. cbn [map repeat] in M. injection M as M1 M2.
        destruct (IH xs a1 Hb0 ltac:(lia) M2 F2 i lt Hg) as [I1 I2].
        destruct (Step _ _ _ Hb M1 F1) as (i' & lt' & S1 & S2 & S3 & S4 & S5 & S6 & S7 & S8 & S9).
        rewrite Hg in S1. injection S1 as <- <-. cbn [map repeat]. rewrite push_all_cons, I1, I2, S7, S8. auto. }
    destruct vs as [|vars vs]; [congruence|]. destruct xs as [|x xs]; [cbn in L; lia|].
    pose proof Hb as Hb'. cbn [each] in Hb. inv_bind Hb. inv_bind Hk. injection Hk0 as <-.
    cbn [map hd] in Hc1, Hc2. pose proof D2 as D2'. cbn [map repeat length] in D2. injection D2 as D2a D2b.
    destruct (Step _ _ _ Hb0 D2a Hc2) as (i & lt & S1 & S2 & S3 & S4 & S5 & S6 & S7 & S8 & S9).
    assert (F : Forall (fun r => snd (fst r) = chars) (a0 :: a1)).
    { constructor; auto. cbn [map] in B2. apply all_same_spec in B2. rewrite Hc2 in B2. rewrite Forall_map in B2. exact B2. }
    destruct (All _ _ _ Hb' ltac:(cbn [length] in *; lia) D2' F i lt S1) as [I1 I2].
    exists i, lt. repeat (split; [assumption|]). cbn [map hd]. congruence. }
  destruct P as (i & lt & Q1 & Q2 & Q3 & Q4 & Q5 & Q6 & Q7 & Q8 & Q9).
  pose proof (bitmap_reads chars Q2) as R. replace (length chars) with (Z.to_nat n) in R by lia.
  unfold k_bitmap. destruct (reads_KD sa sd _ _ _ _ R G D) as (inp & E & D'). rewrite E. cbn [bind]. rewrite Q1. cbn [bind].
  rewrite sets_string by (unfold fresh; exact Q6). cbn [of_outcome bind].
  assert (Pr : Forall (fun ch => 1 <= ch < 256) chars).
  { eapply forallb_Forall; [|exact Q2]. cbv beta. intros; lia. }
  rewrite cstr_id by exact Pr. rewrite firstn_all2 by (unfold ilen, fresh; cbn [c_info]; lia).
  replace (vi_len i =? 0) with false by lia. unfold with_val, fresh. cbn [c_info].
  assert (Bc : bitmap_chars (mkcell i (Some (VStr chars))) = Ok chars).
  { unfold bitmap_chars, enqc. cbn [c_val c_info]. rewrite Q6. cbn [bind].
    assert (Li : ilen i = length chars) by (unfold ilen; lia). rewrite app_length, Li. cbn [length].
    replace (length chars + 1 <? length chars)%nat with false by lia. f_equal. apply firstn_length_app. }
  rewrite Bc. cbn [bind]. rewrite (ksize_ok sa sd _ L D). 
  destruct D' as (D1' & D2' & D3'). cbn [k_subs k_lt k_in] in *. rewrite <- Q7.
  destruct (map x_got (map snd a)) as [|g0 gs] eqn:Eg.
  { exfalso. apply (f_equal (@length _)) in Eg. rewrite !map_length, (each_length _ _ _ _ Hb (eq_sym L)), L in Eg.
    destruct subs; [congruence|discriminate Eg]. }
  cbn [hd] in Q9. rewrite Q9. eexists. split; [reflexivity|].
  unfold KD. cbn [k_subs k_lt k_in cs_x]. rewrite Eg, Q8. auto.
Qed.

(** Associated fields. *)
Lemma af_make b g v attrs : 0 < b <= 32 -> x_af T skip b g v = Ok attrs ->
  exists a, make_attribute o (tb_b T) skip (Z.to_nat b) g (af_raw b g v) = Ok a /\ attrs = attr_list a /\
    0 <= af_raw b g v < 2 ^ b /\
    (forall x, a = Some x -> exists code i, af_code g = Ok (Some code) /\ query (tb_b T) code = Ok i /\ c_info x = i).
Proof.
  intros B H. unfold x_af in H. inv_bind H. rename a into oc, Hb into Hoc.
  pose proof (pow_bounds b B) as PB. unfold af_raw. rewrite Hoc.
  assert (Hones : all_ones (Z.to_nat b) = Ok (2 ^ b - 1)).
  { unfold all_ones. replace ((1 <=? Z.to_nat b)%nat && (Z.to_nat b <=? 32)%nat) with true by lia.
    rewrite Z2Nat.id by lia. reflexivity. }
  unfold make_attribute. rewrite Hones. cbn [bind]. rewrite Hoc. cbn [bind].
  destruct oc as [code|].
  2:{ injection Hk as <-. exists None. repeat split; auto; [lia|lia|]. discriminate. }
  inv_bind Hk. rename a into i, Hb into Hq. pose proof (TOK _ _ Hq) as Ki. rewrite Hq. cbn [bind].
  set (absent := if g =? 21 then _ else _) in Hk0.
  assert (Absent : absent = Ok attrs -> exists a,
    (if g =? 21
     then if negb skip || negb (2 ^ b - 1 =? 2 ^ b - 1)
          then c <- of_outcome (seti o (fresh i) 0) ;; Ok (Some c) else Ok None
     else if 2 ^ b - 1 =? 2 ^ b - 1
          then if ((g =? 6) || (g =? 8)) && skip then Ok None else Ok (Some (fresh i))
          else c <- of_outcome (seti o (fresh i) (wrap_int (2 ^ b - 1))) ;; Ok (Some c)) = Ok a /\
    attrs = attr_list a /\ 0 <= 2 ^ b - 1 < 2 ^ b).
  { unfold absent. intros A. rewrite Z.eqb_refl. cbn [negb]. rewrite orb_false_r. destruct (g =? 21).
    - destruct skip; cbn [negb].
      + injection A as <-. exists None. repeat split; auto; lia.
      + inv_bind A. injection Hk as <-. apply guard_ok in Hb. rewrite !andb_true_iff in Hb. destruct Hb as ((B1 & B2) & B3).
        rewrite seti_in_range by (first [exact Ki | exact B1 | lia]). cbn [of_outcome bind]. eexists. repeat split; eauto; lia.
    - injection A as <-. destruct (((g =? 6) || (g =? 8)) && skip).
      + exists None. repeat split; auto; lia.
      + eexists. repeat split; eauto; lia. }
  assert (Absent' : absent = Ok attrs -> exists a,
    (if g =? 21
     then if negb skip || negb (2 ^ b - 1 =? 2 ^ b - 1)
          then c <- of_outcome (seti o (fresh i) 0) ;; Ok (Some c) else Ok None
     else if 2 ^ b - 1 =? 2 ^ b - 1
          then if ((g =? 6) || (g =? 8)) && skip then Ok None else Ok (Some (fresh i))
          else c <- of_outcome (seti o (fresh i) (wrap_int (2 ^ b - 1))) ;; Ok (Some c)) = Ok a /\
    attrs = attr_list a /\ 0 <= 2 ^ b - 1 < 2 ^ b /\
    (forall x, a = Some x -> exists code0 i0, Ok (Some code) = Ok (Some code0) /\ query (tb_b T) code0 = Ok i0 /\ c_info x = i0)).
  { intros A. destruct (Absent A) as (a & A1 & A2 & A3). exists a. repeat split; auto; try lia.
    intros x ->. exists code, i. repeat split; auto.
    destruct (g =? 21).
    - destruct (negb skip || _); [|discriminate]. inv_bind A1. injection Hk as ->.
      destruct (seti o (fresh i) 0) eqn:Es; cbn in Hb; try discriminate. injection Hb as ->.
      unfold absent in A. destruct skip; [injection A as <-; discriminate A2|]. inv_bind A. injection Hk as <-. cbn in A2. injection A2 as <-. reflexivity.
    - rewrite Z.eqb_refl in A1. destruct (((g =? 6) || (g =? 8)) && skip); [discriminate|]. injection A1 as <-. reflexivity. }
  destruct (var_enqa v code) as [a|]; [|exact (Absent' Hk0)].
  destruct (c_val a) as [[k|s|s]|]; try discriminate; [|exact (Absent' Hk0)].
  inv_bind Hk0. injection Hk as <-. apply guard_ok in Hb. rewrite !andb_true_iff in Hb.
  destruct Hb as (((((B1 & B2) & B3) & B4) & B5) & B6). destruct (info_ok_numeric i Ki B4) as (_ & M1 & M2 & _).
  exists (Some (mkcell i (Some (VInt (if g =? 21 then 0 else k))))). split.
  { replace (k =? 2 ^ b - 1) with false by lia. cbn [negb]. rewrite orb_true_r. destruct (g =? 21).
    - rewrite seti_in_range by (first [exact Ki | exact B4 | lia]). reflexivity.
    - rewrite wrap_int_id by lia. rewrite seti_in_range by (first [exact Ki | exact B4 | lia]). reflexivity. }
  repeat split; auto; try lia. intros x E. injection E as <-. exists code, i. auto.
Qed.

Lemma fields_reads b g base w raws : forall afs, (w <= 32)%nat -> 0 <= base ->
  Forall2 (fun x a => base <= x < 2 ^ 32 /\ x - base < 2 ^ Z.of_nat w /\ make_attribute o (tb_b T) skip b g x = Ok a) raws afs ->
  reads (flat_map (fun x => bits_of w (x - base)) raws) (comp_fields o T skip b g base (Z.of_nat w) (length raws)) afs.
Proof.
  induction raws as [|x raws IH]; intros afs Hw Hb F; inversion F as [|? a ? afs' (H1 & H2 & H3) F']; subst;
    cbn [flat_map length comp_fields]; [apply reads_ret|].
  rewrite Nat2Z.id. rd_step (num_reads w (x - base) Hw ltac:(lia)). cbn [fst snd].
  replace (base + (x - base)) with x by lia. unfold u32. rewrite Z.mod_small by lia. rewrite H3. cbn [bind].
  rewrite <- (app_nil_r (flat_map _ _)). rd_step (IH afs' Hw Hb F'). apply reads_ret.
Qed.

Definition var_of (i : varinfo) (q : option value * list cell) : var := mkvar (mkcell i (fst q)) (snd q).

Lemma each_af b g i : 0 < b <= 32 -> forall vs xs xs' vals raws attrs, Forall (Forall var_infos_ok) vs -> length vs = length xs ->
  each (fun vars => x_var_af p T skip vars b g i) vs xs = Ok xs' ->
  each (fun vars x => v <- x_take p vars i x ;; Ok (c_val (v_cell v))) vs xs = Ok vals ->
  each (fun vars x => v <- x_take p vars i x ;; Ok (af_raw b g v)) vs xs = Ok raws ->
  each (fun vars x => v <- x_take p vars i x ;; x_af T skip b g v) vs xs = Ok attrs ->
  map x_got xs' = push_all (map x_got xs) (map (var_of i) (combine vals attrs)) /\
  map x_lt xs' = map x_lt xs /\ length vals = length xs /\ length raws = length xs /\
  Forall (fun v => field_ok p i v = true) vals /\ Forall (fun v => info_ok i \/ v = None) vals /\
  exists afs, attrs = map attr_list afs /\
    Forall2 (fun x a => 0 <= x < 2 ^ b /\ make_attribute o (tb_b T) skip (Z.to_nat b) g x = Ok a) raws afs /\
    (forall x, In (Some x) afs -> exists code i, af_code g = Ok (Some code) /\ query (tb_b T) code = Ok i /\ c_info x = i).
Proof.
  intros B. induction vs as [|vars vs IH]; intros [|x xs] xs' vals raws attrs V L E1 E2 E3 E4; cbn [each length] in *; try lia.
  - injection E1 as <-. injection E2 as <-. injection E3 as <-. injection E4 as <-. cbn. repeat split; auto. exists [].
    repeat split; auto. intros x [].
  - inversion V as [|? ? V1 V2]; subst.
    inv_bind E1. inv_bind Hk. injection Hk0 as <-. rename Hb into X1, Hb0 into R1.
    inv_bind E2. inv_bind Hk. injection Hk0 as <-. rename Hb into X2, Hb0 into R2.
    inv_bind E3. inv_bind Hk. injection Hk0 as <-. rename Hb into X3, Hb0 into R3.
    inv_bind E4. inv_bind Hk. injection Hk0 as <-. rename Hb into X4, Hb0 into R4.
    destruct (IH xs _ _ _ _ V2 ltac:(lia) R1 R2 R3 R4) as (I1 & I2 & I3 & I4 & I5 & I6 & afs & I7 & I8 & I9).
    unfold x_var_af in X1. destruct (x_take p vars i x) as [v| |] eqn:Tk; try discriminate X1. cbn [bind] in *.
    rewrite X4 in X1. cbn [bind] in X1. injection X1 as <-. injection X2 as <-. injection X3 as <-.
    destruct (take_inv _ _ _ _ _ Tk) as (Tn & Ei & Tf).
    assert (K : info_ok i).
    { apply nth_error_In in Tn. eapply Forall_forall in V1; [|exact Tn]. rewrite <- Ei. apply V1. }
    destruct (af_make b g v _ B X4) as (af & M1 & M2 & M3 & M4).
    cbn [map combine length]. rewrite push_all_cons, I1, I2. cbn [x_give x_note x_got x_lt].
    replace (var_of i (c_val (v_cell v), a5)) with (mkvar (v_cell v) a5)
      by (unfold var_of; cbn [fst snd]; f_equal; destruct (v_cell v); cbn in *; congruence).
    split; [reflexivity|]. split; [reflexivity|]. split; [lia|]. split; [lia|].
    split; [auto|]. split; [auto|]. exists (af :: afs). cbn [map]. rewrite M2, I7. split; [auto|]. split; [auto|].
    intros y [->|I]; auto.
Qed.

Lemma Forall2_len {A B} (R : A -> B -> Prop) l m : Forall2 R l m -> length l = length m.
Proof. induction 1; cbn; congruence. Qed.

Lemma map_fst_snd {A B C} (f : A * B -> C) l m : map f (combine l m) = map (fun q => f (fst q, snd q)) (combine l m).
Proof. apply map_ext. intros [a b]. reflexivity. Qed.

Lemma combine_map {A B C} (f : A -> C) (l : list A) (m : list B) : combine (map f l) m = map (fun q => (f (fst q), snd q)) (combine l m).
Proof. revert m. induction l as [|a l IH]; intros [|b m]; cbn; f_equal. apply IH. Qed.

Lemma csim_var_af b g i : 0 < b <= 32 ->
  simu (cs_var_af p T skip subs plan b g i) (cs_var_af p T skip subs plan b g i) (k_var_af o T skip b g i).
Proof.
  intros B sa se sa' (<- & L) H. pose proof H as H0. unfold cs_var_af in H. inv_bind H. apply guard_ok in Hb. rename Hb into N.
  inv_bind Hk. rename Hb into E1, a0 into xs'. inv_bind Hk0. rename Hb into E2, a0 into vals.
  inv_bind Hk. rename Hb into E3, a0 into raws. inv_bind Hk0. rename Hb into E4, a0 into attrs.
  inv_bind Hk. rename Hb into Ef, a0 into fb. inv_bind Hk0. rename Hb into Ec, a0 into cb.
  inv_bind Hk. rename Hb into Eg. injection Hk0 as <-. apply guard_ok in Eg.
  destruct (each_af b g i B _ _ _ _ _ _ VOK (eq_sym L) E1 E2 E3 E4) as (P1 & P2 & P3 & P4 & P5 & P6 & afs & P7 & P8 & P9).
  eexists _, _. split; [exact H0|].
  split. { split; auto. cbn [cs_x]. rewrite (each_length _ _ _ _ E1 (eq_sym L)). exact L. }
  split; [reflexivity|]. intros sd rest G D.
  pose proof (pow_bounds b B) as PB.
  assert (Ec' : number_column i (cs_choice plan sa) vals = Ok cb).
  { unfold column in Ec. destruct (vi_type i); try discriminate; exact Ec. }
  pose proof (numbers_reads o p i _ _ _ (vals_ne _ _ P3 L) P6 N P5 Ec') as R.
  set (ch := cs_choice plan sa) in *.
  assert (R2 : reads (fb ++ cb) (comp_numbers_af o T skip b g i (length vals)) (map (var_of i) (combine vals attrs))).
  { unfold comp_numbers_af. unfold field_column in Ef.
    assert (Hones : all_ones (Z.to_nat b) = Ok (2 ^ b - 1)).
    { unfold all_ones. replace ((1 <=? Z.to_nat b)%nat && (Z.to_nat b <=? 32)%nat) with true by lia.
      rewrite Z2Nat.id by lia. reflexivity. }
    assert (La : length afs = length vals) by (pose proof (Forall2_len _ _ _ P8); lia).
    destruct (Z.eqb_spec (af_base ch) (2 ^ b - 1)) as [Ea|Ea].
    - inv_bind Ef. apply ok_inj in Hk. subst fb. apply guard_ok in Hb. apply andb_prop in Hb as [Hw _].
      rewrite <- app_assoc. 
      rd_step (num_reads (Z.to_nat b) (af_base ch) ltac:(lia) ltac:(rewrite Z2Nat.id by lia; lia)). cbn [fst snd].
      rd_step (num_reads 6 (Z.of_nat (af_width ch)) ltac:(lia) ltac:(change (2 ^ Z.of_nat 6) with 64; lia)). cbn [fst snd].
      rewrite Hones. cbn [bind]. rewrite Ea, Z.eqb_refl. rewrite <- (app_nil_r cb).
      eapply (reads_bind3 _ _ _ _ _ _ _ R).
      replace (map (var_of i) (combine vals attrs)) with (map (fun c => mkvar c []) (map (mkcell i) vals)); [apply reads_ret|].
      assert (Ln : length attrs = length vals) by (rewrite P7, map_length; exact La).
      unfold none_given in Eg. clear -Eg Ln. revert attrs Eg Ln. induction vals as [|v vals IH]; intros [|a attrs] Eg Ln; cbn in *; try lia; auto.
      apply andb_prop in Eg as [E1 E2]. destruct a; [|discriminate]. f_equal. apply IH; auto.
    - inv_bind Ef. apply ok_inj in Hk. subst fb. apply guard_ok in Hb. rewrite !andb_true_iff in Hb. destruct Hb as (((W1 & W2) & W3) & W4).
      rewrite <- !app_assoc.
      rd_step (num_reads (Z.to_nat b) (af_base ch) ltac:(lia) ltac:(rewrite Z2Nat.id by lia; lia)). cbn [fst snd].
      rd_step (num_reads 6 (Z.of_nat (af_width ch)) ltac:(lia) ltac:(change (2 ^ Z.of_nat 6) with 64; lia)). cbn [fst snd].
      rewrite Hones. cbn [bind]. replace (af_base ch =? 2 ^ b - 1) with false by lia.
      assert (Rf : reads (flat_map (fun x => bits_of (af_width ch) (x - af_base ch)) raws)
        (comp_fields o T skip (Z.to_nat b) g (af_base ch) (Z.of_nat (af_width ch)) (length raws)) afs).
      { apply fields_reads; [lia|lia|]. clear -P8 W4 PB. rewrite forallb_forall in W4. induction P8 as [|x a raws afs (H1 & H2) F IH]; constructor.
        - specialize (W4 x (or_introl eq_refl)). repeat split; auto; lia.
        - apply IH. intros y I. apply W4. right. exact I. }
      replace (length raws) with (length vals) in Rf by lia.
      rd_step Rf. cbn [fst snd]. rewrite <- (app_nil_r cb). eapply (reads_bind3 _ _ _ _ _ _ _ R).
      assert (Gv : give_fields (negb (Nat.eqb (ch_width ch) 0)) [] afs = attrs).
      { rewrite P7. destruct (Nat.eqb (ch_width ch) 0); cbn [negb orb] in *; [apply give_separate|].
        destruct (af_code g) as [[code|]| |] eqn:Hc.
        - destruct (query (tb_b T) code) as [ia| |] eqn:Hq.
          + apply (give_kept (vi_code ia)); [|rewrite <- P7; exact Eg].
            intros x I. destruct (P9 x I) as (code' & i' & C1 & C2 & C3). injection C1 as <-. rewrite Hq in C2. injection C2 as <-.
            unfold c_code. rewrite C3. reflexivity.
          + apply (give_kept 0); [|rewrite <- P7; exact Eg]. intros x I. destruct (P9 x I) as (code' & i' & C1 & C2 & C3). congruence.
          + apply (give_kept 0); [|rewrite <- P7; exact Eg]. intros x I. destruct (P9 x I) as (code' & i' & C1 & C2 & C3). congruence.
        - apply (give_kept 0); [|rewrite <- P7; exact Eg]. intros x I. destruct (P9 x I) as (code' & i' & C1 & C2 & C3). congruence.
        - apply (give_kept 0); [|rewrite <- P7; exact Eg]. intros x I. destruct (P9 x I) as (code' & i' & C1 & C2 & C3). congruence.
        - apply (give_kept 0); [|rewrite <- P7; exact Eg]. intros x I. destruct (P9 x I) as (code' & i' & C1 & C2 & C3). congruence. }
      rewrite Gv. rewrite combine_map, map_map. apply reads_ret. }
  unfold k_var_af. rewrite (ksize_ok sa sd _ L D). rewrite <- L, <- P3.
  destruct (reads_KD sa sd _ _ _ _ R2 G D) as (inp & E & D'). rewrite E. cbn [bind].
  destruct D' as (D1 & D2 & D3). cbn [k_subs k_lt k_in] in *.
  destruct (vi_type i); try discriminate N; (eexists; split; [reflexivity|]);
    unfold KD; cbn [k_subs k_lt k_in cs_x]; rewrite D1, P1, P2; auto.
Qed.

Lemma compressed_callbacks : callbacks IC cs_bits KD good
  (compressor p T skip subs plan) (compressor p T skip subs plan) (cdecoder o T skip) T.
Proof.
  constructor; cbn [compressor cdecoder on_var on_var_af on_factor on_bitmap_factor on_significance on_subst on_attr
    on_raw on_refval on_bitmap on_unknown]; intros.
  - apply csim_var.
  - apply csim_var_af; auto.
  - apply csim_factor.
  - apply csim_bitmap_factor; auto.
  - apply csim_significance.
  - apply csim_subst.
  - apply csim_attr.
  - intros sa se sa' _ E. discriminate E.
  - intros sa se x sa' _ E. discriminate E.
  - apply csim_bitmap.
  - intros sa se x sa' _ E. discriminate E.
Qed.

(** A whole data section. *)
Theorem compressed_run fuel ops lt xs bits inp rest : compress p T skip subs plan fuel ops lt = Ok (xs, bits) ->
  Forall is_byte (idata inp) -> wf_in inp -> (8 <= length rest)%nat -> in_bits inp = bits ++ rest ->
  exists lt' inp', decode_compressed o T skip fuel ops (length subs) lt inp = Ok (map x_got xs, lt', inp') /\
    in_bits inp' = rest /\ Forall2 (fun vars x => transfer p T skip vars fuel ops lt = Ok (x_got x, lt')) subs xs.
Proof.
  intros H Hb W Hr E. unfold compress in H. inv_bind H. destruct a as [st s]. inv_bind Hk. injection Hk0 as <- <-.
  rename Hb0 into Hrun. apply guard_ok in Hb1. set (s0 := mkcs (map (fun _ => xfer_init lt) subs) []) in *.
  assert (I0 : IC s0 s0) by (split; auto; cbn [s0 cs_x]; apply map_length).
  destruct (run_sim IC cs_bits KD good (fun bs r => good_app bs r) _ _ _ T compressed_callbacks fuel ops ist_init ist_ok_init
    s0 s0 st s I0 Hrun) as (bs & se' & E1 & (Es & Ls) & M & Dk).
  subst se'. cbn [s0 cs_bits app] in M. rewrite M in E.
  assert (D0 : KD s0 (mkcdec inp (repeat [] (length subs)) lt) (bs ++ rest)).
  { unfold KD, s0. cbn [k_subs k_lt k_in cs_x]. rewrite !map_map. cbn [xfer_init x_got x_lt]. split; [|split; [|auto]].
    - clear. induction subs; cbn; congruence.
    - clear. induction subs; cbn; congruence. }
  destruct (Dk _ rest Hr D0) as (sd' & Ed & (D1 & D2 & D3 & D4 & D5)).
  exists (k_lt sd'), (k_in sd'). unfold decode_compressed. rewrite Ed. cbn [bind]. rewrite D1. split; auto. split; auto.
  assert (Each : forall j vars, nth_error subs j = Some vars -> exists x, nth_error (cs_x s) j = Some x /\
    transfer p T skip vars fuel ops lt = Ok (x_got x, k_lt sd')).
  { intros j vars J. assert (A0 : at_j j s0 (xfer_init lt)).
    { unfold at_j, s0. cbn [cs_x]. rewrite nth_error_map, J. reflexivity. }
    destruct (single_run p T skip subs plan j vars J fuel ops ist_init s0 _ st s ist_ok_init A0 Hrun) as (x & R & A).
    exists x. split; [exact A|]. unfold transfer, transfer_state. rewrite R. cbn [bind].
    assert (Hp : Nat.eqb (x_pos x) (length vars) = true).
    { rewrite forallb_forall in Hb1. apply (Hb1 (vars, x)). unfold at_j in A. clear -J A. revert j J A.
      generalize (cs_x s). generalize subs. clear. intros l. induction l as [|v l IH]; intros [|y ys] [|j] J A; cbn in *; try discriminate.
      - left. congruence.
      - right. eapply IH; eauto. }
    rewrite Hp. cbn [guard bind].
    assert (Hl : x_lt x = k_lt sd').
    { assert (Nx : nth_error (map x_lt (cs_x s)) j = Some (x_lt x)) by (rewrite nth_error_map; unfold at_j in A; rewrite A; reflexivity).
      rewrite D2 in Nx. apply nth_error_In in Nx. apply repeat_spec in Nx. exact Nx. }
    rewrite Hl. reflexivity. }
  assert (Lx : length (cs_x s) = length subs).
  { exact Ls. }
  clear -Each Lx. revert Each Lx. generalize (cs_x s). generalize subs. intros l. induction l as [|v l IH]; intros [|y ys] H L; cbn in L; try lia; constructor.
  - destruct (H 0%nat v eq_refl) as (x & N & E). cbn in N. congruence.
  - apply IH; [|lia]. intros j vars J. apply (H (S j) vars J).
Qed.

End Decoder.

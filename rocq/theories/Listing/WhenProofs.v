(** The walks of the listing and of the scan. *)
From Coq Require Import String Sorting.Sorted ZArith Lia ZifyBool ZifyNat.
From Verif Require Import Base Varcode.Model Varinfo.Model Tables.Model Tables.Spec Tables.Proofs Tables.AlterProofs Tables.LoadProofs
  Interp.Model Interp.Spec Interp.ExpandProofs Interp.Holds Listing.Model Listing.Spec Listing.Proofs Listing.ListProofs Listing.GoesProofs.
Local Open Scope Z_scope.

Lemma in_force_last pre n : exists f, in_force (pre ++ [n]) = f (in_force pre) n /\
  f = (fun st n =>
    match n with
    | NOperator c =>
      let y := var_y c in
      if var_x c =? 1 then with_width st (change_of y)
      else if var_x c =? 2 then with_scale st (change_of y)
      else if var_x c =? 3 then with_refbits st (if y =? 255 then 0 else y)
      else if var_x c =? 4 then with_af st 0 (is_afsig st)
      else if var_x c =? 7 then with_srw st y
      else if var_x c =? 8 then with_strlen st y
      else if ((var_x c =? 22) || (var_x c =? 23)) && (y =? 0) then with_pending st c
      else if (var_x c =? 37) && (y =? 0) then with_pending st 0
      else st
    | NOperand c _ => if var_x c =? 4 then with_af st (var_y c) 63 else st
    | NBitmap _ _ => with_pending st 0
    | _ => st
    end).
Proof. eexists. split; [|reflexivity]. unfold in_force. rewrite fold_left_app. reflexivity. Qed.

Lemma no_bitmaps st : is_cur st = None -> is_last st = None -> bitmaps_reuse st = st /\ bitmaps_discard st = st.
Proof. destruct st; cbn. intros -> ->. split; reflexivity. Qed.

Section Steps.
Context {S : Type} (V : visitor S) (T : tables) (name : Z -> Z).

Lemma operator_goes pre c next s : takes_arg c = false -> listable T name pre (NOperator c) ->
  c_modifier V T c next (in_force pre, s) = Ok (next, in_force (pre ++ [NOperator c]), s).
Proof.
  intros A (N5 & N22 & N23 & N37). destruct (in_force_last pre (NOperator c)) as (f & -> & ->). cbv zeta.
  destruct (in_force_plain pre) as (Ic & Il & _ & _). destruct (no_bitmaps _ Ic Il) as [Br Bd].
  unfold takes_arg in A. unfold c_modifier, change_of. cbv zeta.
  destruct (Z.eqb_spec (var_x c) 1); [reflexivity|]. destruct (Z.eqb_spec (var_x c) 2); [reflexivity|].
  destruct (Z.eqb_spec (var_x c) 3); [reflexivity|].
  destruct (Z.eqb_spec (var_x c) 4).
  { replace (var_y c =? 0) with true by lia. cbn [negb andb]. replace (32 <? var_y c) with false by lia. reflexivity. }
  destruct (Z.eqb_spec (var_x c) 5); [lia|]. destruct (Z.eqb_spec (var_x c) 6); [lia|].
  destruct (Z.eqb_spec (var_x c) 7); [reflexivity|]. destruct (Z.eqb_spec (var_x c) 8); [reflexivity|].
  destruct (Z.eqb_spec (var_x c) 22). { replace (var_y c =? 0) with true by lia. reflexivity. }
  destruct (Z.eqb_spec (var_x c) 23). { replace (var_y c =? 0) with true by lia. reflexivity. }
  destruct (Z.eqb_spec (var_x c) 37); [|reflexivity]. cbn [orb andb].
  destruct (Z.eqb_spec (var_y c) 0); [rewrite Br; reflexivity|]. replace (var_y c =? 255) with true by lia. rewrite Bd. reflexivity.
Qed.

Context (J : S -> Prop).
Context (HV : forall i s, on_var V i s = Ok s).
Context (HS : forall i s, J s -> exists s', on_significance V i s = Ok (63, s') /\ J s').
Context (HU : forall c y s, J s -> name y = c -> exists i s', on_unknown V c y s = Ok (i, s') /\ J s').

Lemma get_varinfo_table t st a i : get_varinfo t st a = Ok i -> exists j, query t a = Ok j.
Proof. unfold get_varinfo. intros E. inv_bind E. eauto. Qed.

Lemma operand_goes pre c a next s : takes_arg c = true -> listable T name pre (NOperand c a) -> J s ->
  exists s', c_modifier V T c (a :: next) (in_force pre, s) = Ok (next, in_force (pre ++ [NOperand c a]), s') /\ J s'.
Proof.
  intros A L Js. destruct (in_force_last pre (NOperand c a)) as (f & -> & ->). cbv beta iota. unfold listable in L.
  unfold takes_arg in A. unfold c_modifier. cbv zeta.
  destruct (Z.eqb_spec (var_x c) 4) as [X4|X4].
  - rewrite X4. cbn [Z.eqb Pos.eqb]. destruct L as (Y & -> & [i Q] & Af). rewrite Af. cbn [Z.eqb negb]. rewrite andb_false_r.
    replace (32 <? var_y c) with false by lia. replace (var_y c =? 0) with false by lia. cbn [pop_left bind].
    change (wr_var 0 31 21 =? var_B31021) with true. cbn [negb]. change var_B31021 with (wr_var 0 31 21). rewrite Q. cbn [bind].
    destruct (HS i s Js) as [s' [-> Js']]. cbn [bind]. eauto.
  - assert (X6 : var_x c = 6) by lia. rewrite X6. cbn [Z.eqb Pos.eqb pop_left bind].
    destruct (Z.eqb_spec (var_y c) 0) as [Y0|Y0]; [eauto|]. destruct L as [L|[[i [Gi Bi]]|[Li Ln]]]; [lia| |].
    + destruct (get_varinfo_table _ _ _ _ Gi) as [j Qj]. destruct (contains_query (tb_b T) a) as [[-> _]|[_ N]]; [|congruence].
      cbn [bind]. rewrite Gi. cbn [bind]. replace (vi_bit_len i =? var_y c) with true by lia. cbn [bind]. rewrite HV. cbn [bind]. eauto.
    + assert (U : exists s', (' (i, s1) <- on_unknown V a (var_y c) s;; s2 <- on_var V i s1;; Ok (next, in_force pre, s2)) = Ok (next, in_force pre, s') /\ J s').
      { destruct (HU a (var_y c) s Js Ln) as (i & s' & -> & Js'). cbn [bind]. rewrite HV. cbn [bind]. eauto. }
      destruct (contains_query (tb_b T) a) as [[-> [j Qj]]|[-> _]]; cbn [bind]; [|exact U].
      destruct Li as [i Gi]; [exists j; exact Qj|]. rewrite Gi. cbn [bind]. destruct (vi_bit_len i =? var_y c); cbn [bind]; [|exact U].
      rewrite HV. cbn [bind]. eauto.
Qed.

Lemma bitmap_goes pre r d f s : var_x r = 1 -> (var_y r = 0 -> f = [d]) -> listable T name pre (NBitmap r f) -> J s ->
  (forall i u, on_bitmap_factor V i u = Ok (0, u)) ->
  exists s', r_bitmap_ignored V T r d [wr_var 0 31 31] (in_force pre, s) = Ok (in_force (pre ++ [NBitmap r f]), s') /\ J s'.
Proof.
  clear HV HS HU. intros X Y L Js Hf. destruct (in_force_last pre (NBitmap r f)) as (g & -> & ->). cbv beta iota.
  unfold r_bitmap_ignored. rewrite X. cbn [Z.eqb Pos.eqb negb hd]. change (wr_var 0 31 31 =? var_B31031) with true. cbn [negb].
  destruct (Z.eqb_spec (var_y r) 0) as [Y0|Y0]; [|cbn [bind]; eauto].
  rewrite (Y Y0) in L. inversion L as [|? ? [i Q] _]; subst. rewrite Q. cbn [bind]. rewrite Hf. cbn [bind]. eauto.
Qed.
End Steps.

Lemma get_unknown_goes name lt c y : named name lt -> name y = c -> exists i lt', get_unknown lt c y = Ok (i, lt') /\ named name lt'.
Proof.
  intros N E. unfold get_unknown. destruct (assoc Z.eqb y (lt_unknown lt)) as [i|] eqn:A.
  - rewrite (N _ _ A), E, Z.eqb_refl. cbn [negb]. eauto.
  - unfold set_binary, compute_range. cbn [compute_irange bind]. eexists _, _. split; [reflexivity|]. intros b i.
    cbn [lt_unknown assoc]. destruct (Z.eqb_spec b y); [|apply N]. intros H. assert (Hi := f_equal (option_map vi_code) H). cbn [option_map vi_code] in Hi. congruence.
Qed.

Theorem listing_goes T describe path name b ops ns : reads T false ops ns b -> throughout (listable T name) ns ->
  exists N, forall fuel lt i, (N <= fuel)%nat -> named name lt -> exists out, print_datadesc T describe path fuel lt ops i = Ok out.
Proof.
  intros R L.
  destruct (walk_goes (lister T describe path) T (fun s => named name (pr_lt s)) (listable T name)) with (b := false) (ops := ops) (ns := ns) (b' := b) as [N H].
  - intros pre c s F P Js. destruct (p_element_ok T describe path c (in_force pre) s) as (s' & E & _ & Lt).
    exists s'. split; [exact E|]. rewrite Lt. exact Js.
  - intros pre c next s F A P Js. cbn [w_visitor w_operator lister]. rewrite (operator_goes _ T name) by assumption. eexists. split; [reflexivity|exact Js].
  - intros pre c a next s F A P Js. cbn [w_visitor w_operator lister].
    apply (operand_goes (printer describe) T name (fun s => named name (pr_lt s))); auto.
    + intros i u Ju. eexists. split; [reflexivity|exact Ju].
    + intros c0 y u Ju E. cbn [printer on_unknown]. destruct (get_unknown_goes name (pr_lt u) c0 y Ju E) as (i & lt' & -> & Nl). cbn [bind]. eexists _, _. split; [reflexivity|exact Nl].
  - intros body r d st st' s Js Hb. cbn [w_repeat lister]. unfold p_repeat.
    match goal with |- context [body (on_snd ?f (st, s))] => destruct (Hb (f s) Js) as (u & E & Ju) end. unfold on_snd at 1. cbn [fst snd]. rewrite E. cbn [bind]. eexists. split; [reflexivity|exact Ju].
  - intros pre r d f s X Y P Js. cbn [w_bitmap lister]. apply (bitmap_goes (printer describe) T name (fun s => named name (pr_lt s))); auto.
  - intros d s Js. exact Js.
  - intros s Js. exact Js.
  - exact R.
  - exists N. intros fuel lt i Hf Nl. unfold print_datadesc. destruct (H []) with (fuel := fuel) (s := mkpr i [] lt) as (s' & E & _); auto.
    change (in_force []) with ist_init in E. rewrite E. cbn [bind]. eauto.
Qed.

Theorem scan_goes T name b ops ns : reads T false ops ns b -> throughout (scannable T name) ns ->
  exists N, forall fuel lt, (N <= fuel)%nat -> named name lt -> exists fs, scan_features T fuel lt ops = Ok fs.
Proof.
  intros R L.
  destruct (walk_goes (scanner T) T (fun s => named name (sc_lt s)) (scannable T name)) with (b := false) (ops := ops) (ns := ns) (b' := b) as [N H].
  - intros pre c s F [_ (Rb & Af & i & Gi)] Js. cbn [w_element scanner]. unfold b_variable. rewrite Rb. cbn [Z.eqb negb]. rewrite Gi. cbn [bind].
    destruct (in_force_plain pre) as (-> & _ & _ & _). rewrite andb_false_r, Af. cbn [Z.eqb negb scanning on_var bind]. eauto.
  - intros pre c next s F A [P _] Js. cbn [w_visitor w_operator scanner]. rewrite (operator_goes _ T name) by assumption. eexists. split; [reflexivity|exact Js].
  - intros pre c a next s F A [P _] Js. cbn [w_visitor w_operator scanner].
    apply (operand_goes scanning T name (fun s => named name (sc_lt s))); auto.
    + intros i u Ju. eexists. split; [reflexivity|exact Ju].
    + intros c0 y u Ju E. cbn [scanning on_unknown]. destruct (get_unknown_goes name (sc_lt u) c0 y Ju E) as (i & lt' & -> & Nl). cbn [bind]. eexists _, _. split; [reflexivity|exact Nl].
  - intros body r d st st' s Js Hb. cbn [w_repeat scanner]. unfold s_repeat, on_snd. cbn [fst snd]. apply Hb. exact Js.
  - intros pre r d f s X Y [P _] Js. cbn [w_bitmap scanner]. apply (bitmap_goes scanning T name (fun s => named name (sc_lt s))); auto.
  - intros d s Js. exact Js.
  - intros s Js. exact Js.
  - exact R.
  - exists N. intros fuel lt Hf Nl. unfold scan_features. destruct (H []) with (fuel := fuel) (s := mksc [] lt) as (s' & E & _); auto.
    change (in_force []) with ist_init in E. rewrite E. cbn [bind]. eauto.
Qed.

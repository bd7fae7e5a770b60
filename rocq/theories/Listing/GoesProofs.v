(** Templates that can be listed and scanned. *)
From Coq Require Import String Sorting.Sorted ZArith Lia ZifyBool ZifyNat.
From Verif Require Import Base Varcode.Model Varinfo.Model Tables.Model Tables.Spec Tables.Proofs Tables.AlterProofs Tables.LoadProofs
  Interp.Model Interp.Spec Interp.ExpandProofs Interp.Holds Listing.Model Listing.Spec Listing.Proofs Listing.ListProofs.
Local Open Scope Z_scope.

(** The state has no bitmap and no new reference values. *)
Lemma in_force_plain pre : is_cur (in_force pre) = None /\ is_last (in_force pre) = None /\ is_refs (in_force pre) = [] /\
  0 <= is_afbits (in_force pre).
Proof.
  unfold in_force. induction pre as [|n pre IH] using rev_ind; [cbn; repeat split; lia|]. rewrite fold_left_app. cbn [fold_left].
  revert IH. generalize (fold_left
       (fun (st : istate) (n0 : node) =>
        match n0 with
        | NOperator c =>
            let y := var_y c in
            if var_x c =? 1 then with_width st (change_of y)
            else if var_x c =? 2 then with_scale st (change_of y)
            else if var_x c =? 3 then with_refbits st (if y =? 255 then 0 else y)
            else if var_x c =? 4 then with_af st 0 (is_afsig st)
            else if var_x c =? 7 then with_srw st y
            else if var_x c =? 8 then with_strlen st y
            else if ((var_x c =? 22) || (var_x c =? 23)) && (y =? 0) then with_pending st c
            else if (var_x c =? 37) && (y =? 0) then with_pending st 0
            else st
        | NOperand c _ => if var_x c =? 4 then with_af st (var_y c) 63 else st
        | NBitmap _ _ => with_pending st 0
        | _ => st
        end) pre ist_init). intros st (A & B & C & D).
  assert (Yr : forall c, 0 <= var_y c) by (intros c; unfold var_y; apply Z.land_nonneg; lia).
  destruct n as [c|c|c a|d b|r b|r c b|r b|r f]; auto.
  - cbv zeta. repeat match goal with |- context [if ?b then _ else _] => destruct b end; cbn; auto; repeat split; auto; lia.
  - destruct (var_x c =? 4); auto. cbn. auto.
Qed.

Section Goes.
Context {S : Type} (W : walker S) (T : tables) (J : S -> Prop) (P : list node -> node -> Prop).
Context (HE : forall pre c s, var_f c = 0 -> P pre (NElement c) -> J s ->
  exists s', w_element W c (in_force pre, s) = Ok (in_force pre, s') /\ J s').
Context (HO : forall pre c next s, var_f c = 2 -> takes_arg c = false -> P pre (NOperator c) -> J s ->
  exists s', c_modifier (w_visitor W) T c next (in_force pre, w_operator W c next s) = Ok (next, in_force (pre ++ [NOperator c]), s') /\ J s').
Context (HA : forall pre c a next s, var_f c = 2 -> takes_arg c = true -> P pre (NOperand c a) -> J s ->
  exists s', c_modifier (w_visitor W) T c (a :: next) (in_force pre, w_operator W c (a :: next) s) =
    Ok (next, in_force (pre ++ [NOperand c a]), s') /\ J s').
Context (HR : forall body r d st st' s, J s -> (forall u, J u -> exists u', body (st, u) = Ok (st', u') /\ J u') ->
  exists s', w_repeat W body r d (st, s) = Ok (st', s') /\ J s').
Context (HB : forall pre r d f s, var_x r = 1 -> (var_y r = 0 -> f = [d]) -> P pre (NBitmap r f) -> J s ->
  exists s', w_bitmap W r d [wr_var 0 31 31] (in_force pre, s) = Ok (in_force (pre ++ [NBitmap r f]), s') /\ J s').
Context (HN : forall d s, J s -> J (w_enter W d s)).
Context (HL : forall s, J s -> J (w_leave W s)).

Lemma in_force_group pre n b : (match n with NSequence _ _ | NRepeat _ _ | NDelayed _ _ _ | NImplied _ _ | NElement _ => True | _ => False end) ->
  in_force (pre ++ n :: b) = in_force (pre ++ b).
Proof. clear. intros H. unfold in_force. rewrite !fold_left_app. destruct n; cbn [fold_left]; try contradiction; reflexivity. Qed.

Lemma flat_inside b :
  (fix inside (l : list node) : list node := match l with [] => [] | m :: r => flat_node m ++ inside r end) b = flat b.
Proof. induction b as [|n b IH]; [reflexivity|]. unfold flat in *. cbn [map concat]. rewrite IH. reflexivity. Qed.

Lemma waits_force b ops ns b' : reads T b ops ns b' -> forall pre, waits (in_force pre) = b -> waits (in_force (pre ++ flat ns)) = b'.
Proof.
  clear. assert (Fc : forall n ns, flat (n :: ns) = flat_node n ++ flat ns) by reflexivity.
  induction 1; intros pre Wp; try rewrite Fc.
  - rewrite app_nil_r. exact Wp.
  - cbn [flat_node app]. rewrite in_force_group by exact I. auto.
  - cbn [flat_node app]. replace (pre ++ NOperator c :: flat ns) with ((pre ++ [NOperator c]) ++ flat ns) by (rewrite <- app_assoc; reflexivity).
    apply IHreads. unfold next_bitmap, next_mode. cbn [m_bitmap m_refs].
    unfold in_force in *. rewrite fold_left_app. cbn [fold_left]. cbv zeta.
    match goal with |- waits (if _ then _ (fold_left ?f pre ist_init) _ else _) = _ => set (st := fold_left f pre ist_init) in * end.
    assert (Cn : c <> 0) by (intros ->; discriminate H). unfold takes_arg in H0.
    unfold waits in *. repeat match goal with |- context [if ?b then _ else _] => destruct b eqn:? end; cbn [is_pending with_width with_scale with_refbits with_af with_srw with_strlen with_pending m_bitmap] in *; try lia; congruence.
  - cbn [flat_node app]. replace (pre ++ NOperand c a :: flat ns) with ((pre ++ [NOperand c a]) ++ flat ns) by (rewrite <- app_assoc; reflexivity).
    apply IHreads. unfold in_force in *. rewrite fold_left_app. cbn [fold_left]. destruct (var_x c =? 4); exact Wp.
  - cbn [flat_node]. rewrite flat_inside. cbn [app]. rewrite in_force_group by exact I. rewrite app_assoc. auto.
  - cbn [flat_node]. rewrite flat_inside. cbn [app]. rewrite in_force_group by exact I. rewrite app_assoc. auto.
  - cbn [flat_node]. rewrite flat_inside. cbn [app]. rewrite in_force_group by exact I. rewrite app_assoc. auto.
  - cbn [flat_node]. rewrite flat_inside. cbn [app]. rewrite in_force_group by exact I. rewrite app_assoc. auto.
  - cbn [flat_node app]. replace (pre ++ NBitmap r [] :: flat ns) with ((pre ++ [NBitmap r []]) ++ flat ns) by (rewrite <- app_assoc; reflexivity).
    apply IHreads. unfold in_force. rewrite fold_left_app. reflexivity.
  - cbn [flat_node app]. replace (pre ++ NBitmap r [c] :: flat ns) with ((pre ++ [NBitmap r [c]]) ++ flat ns) by (rewrite <- app_assoc; reflexivity).
    apply IHreads. unfold in_force. rewrite fold_left_app. reflexivity.
Qed.

(** The states before and after a group are those before and after its body. *)
Definition fine (pre ns : list node) : Prop := forall p n q, flat ns = p ++ n :: q -> P (pre ++ p) n.

Lemma fine_leaf pre n ns : fine pre (n :: ns) -> flat_node n = [n] -> P pre n /\ fine (pre ++ [n]) ns.
Proof.
  clear. intros H L. unfold fine in *. assert (Fc : flat (n :: ns) = n :: flat ns) by (unfold flat; cbn [map concat]; rewrite L; reflexivity).
  rewrite Fc in H. split; [rewrite <- (app_nil_r pre); exact (H [] n (flat ns) eq_refl)|].
  intros p m q E. rewrite <- app_assoc. apply (H (n :: p) m q). cbn [app]. rewrite E. reflexivity.
Qed.

Lemma fine_group pre n b ns : flat_node n = n :: flat b -> fine pre (n :: ns) -> fine (pre ++ [n]) b /\ fine (pre ++ n :: flat b) ns.
Proof.
  clear. intros L H. unfold fine in *. assert (Fc : flat (n :: ns) = (n :: flat b) ++ flat ns) by (unfold flat at 1; cbn [map concat]; rewrite L; reflexivity).
  rewrite Fc in H. split.
  - intros p m q E. rewrite <- app_assoc. apply (H (n :: p) m (q ++ flat ns)). rewrite E. cbn [app]. rewrite <- app_assoc. reflexivity.
  - intros p m q E. replace ((pre ++ n :: flat b) ++ p) with (pre ++ ((n :: flat b) ++ p)) by (rewrite <- app_assoc; reflexivity).
    apply (H _ m q). rewrite E, <- app_assoc. reflexivity.
Qed.

Lemma walk_goes b ops ns b' : reads T b ops ns b' -> exists N, forall pre, waits (in_force pre) = b -> fine pre ns ->
  forall fuel, (N <= fuel)%nat -> forall s, J s ->
  exists s', walk W T fuel ops (in_force pre, s) = Ok (in_force (pre ++ flat ns), s') /\ J s'.
Proof.
  assert (Fc : forall n ns, flat (n :: ns) = flat_node n ++ flat ns) by reflexivity.
  induction 1 as [b|b c ops ns b' F R [N IH]|b c ops ns b' F A R [N IH]|b c a ops ns b' F A R [N IH]
    |b d body ns1 b1 ops ns2 b2 F D R1 [N1 IH1] R2 [N2 IH2]
    |r body ns1 b1 ops ns2 b2 F Y L R1 [N1 IH1] R2 [N2 IH2]
    |r c body ns1 b1 ops ns2 b2 F Y C L R1 [N1 IH1] R2 [N2 IH2]
    |r body ns1 b1 ops ns2 b2 F Y C L R1 [N1 IH1] R2 [N2 IH2]
    |r ops ns b' F X Y R [N IH]|r c ops ns b' F X Y C R [N IH]].
  - exists 1%nat. intros pre Wp Fi fuel Hf s Js. destruct fuel as [|k]; [lia|]. cbn [walk]. exists s. rewrite app_nil_r. auto.
  - exists (Datatypes.S N). intros pre Wp Fi fuel Hf s Js. destruct fuel as [|k]; [lia|]. cbn [walk]. cbv zeta. rewrite F. cbn [Z.eqb].
    destruct (fine_leaf _ _ _ Fi eq_refl) as [Pn Fi2]. destruct (HE _ _ _ F Pn Js) as [s1 [-> J1]]. cbn [bind].
    rewrite Fc. cbn [flat_node app]. rewrite in_force_group by exact I.
    assert (Q : forall l, in_force ((pre ++ [NElement c]) ++ l) = in_force (pre ++ l)) by (intros l; rewrite <- app_assoc; cbn [app]; apply in_force_group; exact I).
    destruct (IH (pre ++ [NElement c])) with (fuel := k) (s := s1) as [s2 [E2 J2]]; auto; [|lia|].
    + rewrite <- (app_nil_r (pre ++ [NElement c])), Q, app_nil_r. exact Wp.
    + rewrite Q in E2. rewrite <- (app_nil_r (pre ++ [NElement c])), Q, app_nil_r in E2. eauto.
  - exists (Datatypes.S N). intros pre Wp Fi fuel Hf s Js. destruct fuel as [|k]; [lia|]. cbn [walk]. cbv zeta. rewrite F. cbn [Z.eqb Pos.eqb].
    destruct (fine_leaf _ _ _ Fi eq_refl) as [Pn Fi2]. unfold on_snd. cbn [fst snd].
    destruct (HO _ _ ops _ F A Pn Js) as [s1 [-> J1]]. cbn [bind]. rewrite Fc. cbn [flat_node].
    rewrite app_assoc. apply IH; auto; [|lia].
    exact (waits_force _ _ _ _ (rd_operator T b c [] [] (next_bitmap c b) F A (rd_nil T _)) pre Wp).
  - exists (Datatypes.S N). intros pre Wp Fi fuel Hf s Js. destruct fuel as [|k]; [lia|]. cbn [walk]. cbv zeta. rewrite F. cbn [Z.eqb Pos.eqb].
    destruct (fine_leaf _ _ _ Fi eq_refl) as [Pn Fi2]. unfold on_snd. cbn [fst snd].
    destruct (HA _ _ a ops _ F A Pn Js) as [s1 [-> J1]]. cbn [bind]. rewrite Fc. cbn [flat_node].
    rewrite app_assoc. apply IH; auto; [|lia].
    exact (waits_force _ _ _ _ (rd_operand T b c a [] [] b F A (rd_nil T _)) pre Wp).
  - exists (Datatypes.S (N1 + N2)). intros pre Wp Fi fuel Hf s Js. destruct fuel as [|k]; [lia|]. cbn [walk]. cbv zeta. rewrite F. cbn [Z.eqb Pos.eqb].
    rewrite D. cbn [bind]. assert (Lf : flat_node (NSequence d ns1) = NSequence d ns1 :: flat ns1) by (cbn [flat_node]; rewrite flat_inside; reflexivity).
    destruct (fine_group _ _ _ _ Lf Fi) as [Fi1 Fi2].
    assert (Q : forall l, in_force ((pre ++ [NSequence d ns1]) ++ l) = in_force (pre ++ l)) by (intros l; rewrite <- app_assoc; cbn [app]; apply in_force_group; exact I).
    assert (Q0 : in_force (pre ++ [NSequence d ns1]) = in_force pre) by (rewrite <- (app_nil_r (pre ++ [NSequence d ns1])), Q, app_nil_r; reflexivity).
    unfold on_snd. cbn [fst snd].
    destruct (IH1 (pre ++ [NSequence d ns1])) with (fuel := k) (s := w_enter W d s) as [s1 [E1 J1]]; auto; [rewrite Q0; exact Wp|lia|].
    rewrite Q0, Q in E1. rewrite E1. cbn [bind fst snd].
    assert (Q2 : in_force (pre ++ NSequence d ns1 :: flat ns1) = in_force (pre ++ flat ns1)) by (apply in_force_group; exact I).
    destruct (IH2 (pre ++ NSequence d ns1 :: flat ns1)) with (fuel := k) (s := w_leave W s1) as [s2 [E2 J2]]; auto.
    + rewrite Q2. exact (waits_force _ _ _ _ R1 pre Wp).
    + lia.
    + rewrite Q2 in E2. rewrite E2. exists s2. rewrite Fc, Lf, app_assoc. auto.
  - exists (Datatypes.S (N1 + N2)). intros pre Wp Fi fuel Hf s Js. destruct fuel as [|k]; [lia|]. cbn [walk]. cbv zeta. rewrite F. cbn [Z.eqb Pos.eqb].
    unfold delayed_code. replace (var_y r =? 0) with false by lia. rewrite <- L, Nat2Z.id.
    replace (Nat.ltb (length (body ++ ops)) (length body)) with false by (symmetry; apply Nat.ltb_ge; rewrite app_length; lia).
    rewrite firstn_app, firstn_all, Nat.sub_diag, skipn_app, skipn_all, Nat.sub_diag. cbn [firstn skipn app]. rewrite app_nil_r.
    cbn [fst]. unfold waits in Wp. replace (is_pending (in_force pre) =? 0) with true by (destruct (is_pending (in_force pre) =? 0); [reflexivity|discriminate Wp]).
    assert (Lf : flat_node (NRepeat r ns1) = NRepeat r ns1 :: flat ns1) by (cbn [flat_node]; rewrite flat_inside; reflexivity).
    destruct (fine_group _ _ _ _ Lf Fi) as [Fi1 Fi2].
    assert (Q : forall l, in_force ((pre ++ [NRepeat r ns1]) ++ l) = in_force (pre ++ l)) by (intros l; rewrite <- app_assoc; cbn [app]; apply in_force_group; exact I).
    assert (Q0 : in_force (pre ++ [NRepeat r ns1]) = in_force pre) by (rewrite <- (app_nil_r (pre ++ [NRepeat r ns1])), Q, app_nil_r; reflexivity).
    destruct (HR (walk W T k body) r 0 (in_force pre) (in_force (pre ++ flat ns1)) s Js) as [s1 [E1 J1]].
    { intros u Ju. destruct (IH1 (pre ++ [NRepeat r ns1])) with (fuel := k) (s := u) as [u1 [E1 J1]]; auto; [rewrite Q0; exact Wp|lia|].
      rewrite Q0, Q in E1. eauto. }
    rewrite E1. cbn [bind].
    assert (Q2 : in_force (pre ++ NRepeat r ns1 :: flat ns1) = in_force (pre ++ flat ns1)) by (apply in_force_group; exact I).
    destruct (IH2 (pre ++ NRepeat r ns1 :: flat ns1)) with (fuel := k) (s := s1) as [s2 [E2 J2]]; auto.
    + rewrite Q2. exact (waits_force _ _ _ _ R1 pre Wp).
    + lia.
    + rewrite Q2 in E2. rewrite E2. exists s2. rewrite Fc, Lf, app_assoc. auto.
  - exists (Datatypes.S (N1 + N2)). intros pre Wp Fi fuel Hf s Js. destruct fuel as [|k]; [lia|]. cbn [walk]. cbv zeta. rewrite F. cbn [Z.eqb Pos.eqb].
    unfold delayed_code. replace (var_y r =? 0) with true by lia. destruct C as [Cf Cx]. rewrite Cf, Cx. cbn [Z.eqb Pos.eqb andb]. rewrite <- L, Nat2Z.id.
    replace (Nat.ltb (length (body ++ ops)) (length body)) with false by (symmetry; apply Nat.ltb_ge; rewrite app_length; lia).
    rewrite firstn_app, firstn_all, Nat.sub_diag, skipn_app, skipn_all, Nat.sub_diag. cbn [firstn skipn app]. rewrite app_nil_r.
    cbn [fst]. unfold waits in Wp. replace (is_pending (in_force pre) =? 0) with true by (destruct (is_pending (in_force pre) =? 0); [reflexivity|discriminate Wp]).
    assert (Lf : flat_node (NDelayed r c ns1) = NDelayed r c ns1 :: flat ns1) by (cbn [flat_node]; rewrite flat_inside; reflexivity).
    destruct (fine_group _ _ _ _ Lf Fi) as [Fi1 Fi2].
    assert (Q : forall l, in_force ((pre ++ [NDelayed r c ns1]) ++ l) = in_force (pre ++ l)) by (intros l; rewrite <- app_assoc; cbn [app]; apply in_force_group; exact I).
    assert (Q0 : in_force (pre ++ [NDelayed r c ns1]) = in_force pre) by (rewrite <- (app_nil_r (pre ++ [NDelayed r c ns1])), Q, app_nil_r; reflexivity).
    destruct (HR (walk W T k body) r c (in_force pre) (in_force (pre ++ flat ns1)) s Js) as [s1 [E1 J1]].
    { intros u Ju. destruct (IH1 (pre ++ [NDelayed r c ns1])) with (fuel := k) (s := u) as [u1 [E1 J1]]; auto; [rewrite Q0; exact Wp|lia|].
      rewrite Q0, Q in E1. eauto. }
    rewrite E1. cbn [bind].
    assert (Q2 : in_force (pre ++ NDelayed r c ns1 :: flat ns1) = in_force (pre ++ flat ns1)) by (apply in_force_group; exact I).
    destruct (IH2 (pre ++ NDelayed r c ns1 :: flat ns1)) with (fuel := k) (s := s1) as [s2 [E2 J2]]; auto.
    + rewrite Q2. exact (waits_force _ _ _ _ R1 pre Wp).
    + lia.
    + rewrite Q2 in E2. rewrite E2. exists s2. rewrite Fc, Lf, app_assoc. auto.
  - exists (Datatypes.S (N1 + N2)). intros pre Wp Fi fuel Hf s Js. destruct fuel as [|k]; [lia|]. cbn [walk]. cbv zeta. rewrite F. cbn [Z.eqb Pos.eqb].
    assert (Dc : delayed_code r (body ++ ops) = (var_B31012, body ++ ops)).
    { unfold delayed_code. replace (var_y r =? 0) with true by lia. destruct (body ++ ops) as [|n l] eqn:El; [reflexivity|].
      destruct ((var_f n =? 0) && (var_x n =? 31)) eqn:Q; [|reflexivity]. exfalso. apply (C n l eq_refl). unfold class31. lia. }
    rewrite Dc. rewrite <- L, Nat2Z.id.
    replace (Nat.ltb (length (body ++ ops)) (length body)) with false by (symmetry; apply Nat.ltb_ge; rewrite app_length; lia).
    rewrite firstn_app, firstn_all, Nat.sub_diag, skipn_app, skipn_all, Nat.sub_diag. cbn [firstn skipn app]. rewrite app_nil_r.
    cbn [fst]. unfold waits in Wp. replace (is_pending (in_force pre) =? 0) with true by (destruct (is_pending (in_force pre) =? 0); [reflexivity|discriminate Wp]).
    assert (Lf : flat_node (NImplied r ns1) = NImplied r ns1 :: flat ns1) by (cbn [flat_node]; rewrite flat_inside; reflexivity).
    destruct (fine_group _ _ _ _ Lf Fi) as [Fi1 Fi2].
    assert (Q : forall l, in_force ((pre ++ [NImplied r ns1]) ++ l) = in_force (pre ++ l)) by (intros l; rewrite <- app_assoc; cbn [app]; apply in_force_group; exact I).
    assert (Q0 : in_force (pre ++ [NImplied r ns1]) = in_force pre) by (rewrite <- (app_nil_r (pre ++ [NImplied r ns1])), Q, app_nil_r; reflexivity).
    destruct (HR (walk W T k body) r var_B31012 (in_force pre) (in_force (pre ++ flat ns1)) s Js) as [s1 [E1 J1]].
    { intros u Ju. destruct (IH1 (pre ++ [NImplied r ns1])) with (fuel := k) (s := u) as [u1 [E1 J1]]; auto; [rewrite Q0; exact Wp|lia|].
      rewrite Q0, Q in E1. eauto. }
    rewrite E1. cbn [bind].
    assert (Q2 : in_force (pre ++ NImplied r ns1 :: flat ns1) = in_force (pre ++ flat ns1)) by (apply in_force_group; exact I).
    destruct (IH2 (pre ++ NImplied r ns1 :: flat ns1)) with (fuel := k) (s := s1) as [s2 [E2 J2]]; auto.
    + rewrite Q2. exact (waits_force _ _ _ _ R1 pre Wp).
    + lia.
    + rewrite Q2 in E2. rewrite E2. exists s2. rewrite Fc, Lf, app_assoc. auto.
  - exists (Datatypes.S N). intros pre Wp Fi fuel Hf s Js. destruct fuel as [|k]; [lia|]. cbn [walk]. cbv zeta. rewrite F. cbn [Z.eqb Pos.eqb].
    unfold delayed_code. replace (var_y r =? 0) with false by lia. rewrite X. cbn [Z.to_nat Pos.to_nat Pos.iter_op length].
    change (Nat.ltb (Datatypes.S (length ops)) 1) with false. cbv iota. cbn [firstn skipn fst].
    unfold waits in Wp. replace (is_pending (in_force pre) =? 0) with false by (destruct (is_pending (in_force pre) =? 0); [discriminate Wp|reflexivity]).
    destruct (fine_leaf _ _ _ Fi eq_refl) as [Pn Fi2]. destruct (HB pre r 0 [] s X ltac:(lia) Pn Js) as [s1 [E1 J1]].
    change (Pos.to_nat 1) with 1%nat. cbn [firstn skipn]. rewrite E1. cbn [bind]. rewrite Fc. cbn [flat_node]. rewrite app_assoc. apply IH; auto; [|lia].
    unfold in_force. rewrite fold_left_app. reflexivity.
  - exists (Datatypes.S N). intros pre Wp Fi fuel Hf s Js. destruct fuel as [|k]; [lia|]. cbn [walk]. cbv zeta. rewrite F. cbn [Z.eqb Pos.eqb].
    unfold delayed_code. replace (var_y r =? 0) with true by lia. destruct C as [Cf Cx]. rewrite Cf, Cx. cbn [Z.eqb Pos.eqb andb]. rewrite X. cbn [Z.to_nat Pos.to_nat Pos.iter_op length].
    change (Nat.ltb (Datatypes.S (length ops)) 1) with false. cbv iota. cbn [firstn skipn fst].
    unfold waits in Wp. replace (is_pending (in_force pre) =? 0) with false by (destruct (is_pending (in_force pre) =? 0); [discriminate Wp|reflexivity]).
    destruct (fine_leaf _ _ _ Fi eq_refl) as [Pn Fi2]. destruct (HB pre r c [c] s X ltac:(auto) Pn Js) as [s1 [E1 J1]].
    change (Pos.to_nat 1) with 1%nat. cbn [firstn skipn]. rewrite E1. cbn [bind]. rewrite Fc. cbn [flat_node]. rewrite app_assoc. apply IH; auto; [|lia].
    unfold in_force. rewrite fold_left_app. reflexivity.
Qed.
End Goes.

(** From the checks to the tables that are loaded. *)
From Coq Require Import ZifyBool ZifyNat String List ZArith Sorting.Sorted.
From Verif Require Import Base Varcode.Model Varcode.Proofs Varinfo.Model Tables.Model Tables.Spec Tables.Proofs Tables.DtableProofs
  Tables.LoadProofs Interp.Model Interp.FuelProofs Shipped.Text Shipped.Check Shipped.Spec Shipped.Depths Shipped.Catalog
  Shipped.BChecked Shipped.CChecked Shipped.DChecked Shipped.WChecked.
Import ListNotations.
Local Open Scope Z_scope.

Lemma named_in n l : named n l = true <-> In n l.
Proof.
  unfold named. rewrite existsb_exists. split.
  - intros (x & I & E). apply String.eqb_eq in E as ->. exact I.
  - intros I. exists n. rewrite String.eqb_refl. auto.
Qed.

Lemma named_not n l : ~ In n l -> named n l = false.
Proof. intros H. destruct (named n l) eqn:E; auto. apply named_in in E. contradiction. Qed.

Lemma b_table n ls : In (n, ls) shipped_b -> ~ In n unloadable ->
  exists fs t, elements (crex_name n) ls = Some fs /\ load_b (crex_name n) (file ls) = Ok t /\ Forall2 entry_says fs t /\
    forall f, In f fs -> (width_ok (crex_name n) f = true \/ In (n, bf_code f) odd_elements) /\
      (crex_name n = true \/ whole_bytes f = true \/ In (bf_code f) wide_elements).
Proof.
  intros I U. pose proof (proj1 (forallb_forall bcheck shipped_b) b_checked _ I) as C.
  unfold bcheck in C. cbn [fst snd] in C. rewrite (named_not _ _ U) in C. cbn [orb] in C.
  destruct (elements (crex_name n) ls) as [fs|] eqn:E; [|discriminate].
  destruct (elements_load _ _ _ E) as (t & L & F). exists fs, t. split; [reflexivity|]. split; [exact L|]. split; [exact F|].
  intros f If. rewrite forallb_forall in C. specialize (C f If). apply andb_prop in C as [C _]. apply andb_prop in C as [C C']. split.
  2:{ apply orb_prop in C' as [C'|C']; [apply orb_prop in C' as [C'|C']; auto|]. right. right.
      apply existsb_exists in C' as (c & Ic & Ec). apply Z.eqb_eq in Ec as ->. exact Ic. }
  apply orb_prop in C as [C|C]; [auto|]. right.
  unfold is_odd in C. apply existsb_exists in C as ([a b] & Iq & Q). cbn [fst snd] in Q. apply andb_prop in Q as [Q1 Q2].
  apply String.eqb_eq in Q1 as ->. apply Z.eqb_eq in Q2 as ->. exact Iq.
Qed.

Lemma c_table n ls : In (n, ls) shipped_b -> In n crex_too ->
  exists fs t, elements true ls = Some fs /\ load_crex (file ls) = Ok t /\ Forall2 entry_says fs t /\
    forall f, In f fs -> width_ok true f = true.
Proof.
  intros I U. pose proof (proj1 (forallb_forall ccheck shipped_b) c_checked _ I) as C.
  unfold ccheck in C. cbn [fst snd] in C. rewrite (proj2 (named_in _ _) U) in C. cbn [negb orb] in C.
  destruct (elements true ls) as [fs|] eqn:E; [|discriminate].
  destruct (elements_load _ _ _ E) as (t & L & F). exists fs, t. split; [reflexivity|]. split; [exact L|]. split; [exact F|].
  intros f If. rewrite forallb_forall in C. specialize (C f If). apply andb_prop in C as [C _]. exact C.
Qed.

Lemma b_short n ls fs : In (n, ls) shipped_b -> ~ In n unloadable -> elements (crex_name n) ls = Some fs -> forallb short_number fs = true.
Proof.
  intros I U E. pose proof (proj1 (forallb_forall bcheck shipped_b) b_checked _ I) as C.
  unfold bcheck in C. cbn [fst snd] in C. rewrite (named_not _ _ U), E in C. cbn [orb] in C.
  apply forallb_forall. intros f If. rewrite forallb_forall in C. specialize (C f If). apply andb_prop in C as [_ C]. exact C.
Qed.
Lemma c_short n ls fs : In (n, ls) shipped_b -> In n crex_too -> elements true ls = Some fs -> forallb short_number fs = true.
Proof.
  intros I U E. pose proof (proj1 (forallb_forall ccheck shipped_b) c_checked _ I) as C.
  unfold ccheck in C. cbn [fst snd] in C. rewrite (proj2 (named_in _ _) U), E in C. cbn [negb orb] in C.
  apply forallb_forall. intros f If. rewrite forallb_forall in C. specialize (C f If). apply andb_prop in C as [_ C]. exact C.
Qed.

Lemma d_table n ls : In (n, ls) shipped_d ->
  exists bs, sequences ls = Some bs /\ load_dtable (file ls) = Ok (dtable_of bs) /\
    (~ In n cyclic_tables -> exists rank, ranked rank (dtable_of bs)) /\
    (~ In n unsorted_tables -> increasing (-1) (map fst bs) = true).
Proof.
  intros I. pose proof (proj1 (forallb_forall (dcheck depth_lists) shipped_d) d_checked _ I) as C.
  unfold dcheck in C. cbn [fst snd] in C. destruct (sequences ls) as [bs|] eqn:E; [|discriminate]. apply andb_prop in C as [C1 C2].
  exists bs. split; [reflexivity|]. split; [apply sequences_load; exact E|]. split.
  - intros U. rewrite (named_not _ _ U) in C1. cbn [orb] in C1. destruct (listed_in n depth_lists) as [l|]; [|discriminate].
    unfold nested in C1. exists (depth_in (depths l)). apply nested_by_ok. exact C1.
  - intros U. rewrite (named_not _ _ U) in C2. exact C2.
Qed.

Lemma listed_in_in {A} n (l : list (string * A)) a : listed_in n l = Some a -> In (n, a) l.
Proof.
  unfold listed_in. destruct (List.find (fun p => String.eqb (fst p) n) l) as [[m x]|] eqn:F; [|discriminate].
  apply find_some in F as [I E]. cbn in E. apply String.eqb_eq in E as ->. cbn. intros [= ->]. exact I.
Qed.

(** What a sequence may hold. *)
Definition fit_spec (body : list Z) : Prop := forall pre c rest, body = pre ++ c :: rest -> var_f c = 1 ->
  if var_y c =? 0 then exists f rest', rest = f :: rest' /\ var_f f = 0 /\ var_x f = 31 /\ (Z.to_nat (var_x c) <= length rest')%nat
  else (Z.to_nat (var_x c) <= length rest)%nat.

Lemma range_var_f c k : 0 <= c < 65536 -> 0 <= k < 4 -> (var_f c = k <-> k * 16384 <= c < (k + 1) * 16384).
Proof.
  intros R K. rewrite var_f_eq by lia. pose proof (Z.div_mod c 16384 ltac:(lia)) as E. pose proof (Z.mod_pos_bound c 16384 ltac:(lia)).
  rewrite (Z.mod_small (c / 16384) 4) by lia. lia.
Qed.

Lemma fits_ok body : fits body = true -> Forall (fun c => 0 <= c < 65536) body -> fit_spec body.
Proof.
  induction body as [|a body IH]; intros H F pre c rest E V; [destruct pre; discriminate|]. cbn [fits] in H. apply andb_prop in H as [H1 H2].
  inversion_clear F as [|? ? Fa Fb]. destruct pre as [|p pre]; cbn [app] in E; injection E as -> ->; [|eapply IH; eauto].
  apply (range_var_f c 1 Fa ltac:(lia)) in V. replace ((16384 <=? c) && (c <? 32768)) with true in H1 by lia.
  change (Z.land c 255) with (var_y c) in H1.
  assert (X : Z.shiftr (c - 16384) 8 = var_x c).
  { rewrite var_x_eq by lia. rewrite Z.shiftr_div_pow2 by lia. change (2 ^ 8) with 256. pose proof (Z.div_mod c 256 ltac:(lia)) as D.
    pose proof (Z.mod_pos_bound c 256 ltac:(lia)).
    replace (c - 16384) with ((c / 256 - 64) * 256 + c mod 256) by lia. rewrite Z.div_add_l by lia.
    rewrite (Z.div_small (c mod 256)) by lia. replace (c / 256) with (c / 256 - 64 + 1 * 64) at 2 by lia. rewrite Z.mod_add by lia.
    rewrite Z.mod_small by lia. lia. }
  rewrite X in H1. destruct (var_y c =? 0).
  - destruct rest as [|f rest]; [discriminate|]. exists f, rest. split; [reflexivity|]. inversion_clear Fb as [|? ? Ff _].
    split; [apply (range_var_f f 0 Ff ltac:(lia)); lia|]. split; [|lia].
    rewrite var_x_eq by lia. pose proof (Z.div_mod f 256 ltac:(lia)). pose proof (Z.mod_pos_bound f 256 ltac:(lia)).
    assert (f / 256 = 31) as -> by lia. reflexivity.
  - lia.
Qed.

Lemma in_find (bs : list dblock) c : In c (map fst bs) -> exists b, List.find (fun b : dblock => fst b =? c) bs = Some b.
Proof.
  intros I. destruct (List.find (fun b : dblock => fst b =? c) bs) as [b|] eqn:E; [eauto|]. apply in_map_iff in I as (b & <- & I).
  pose proof (find_none _ _ E b I) as N. cbn in N. lia.
Qed.

Definition defined_in (b : btable) (d : dtable) (c : Z) : Prop :=
  (var_f c = 0 -> exists i, query b c = Ok i) /\ (var_f c = 3 -> exists o, dquery d c = Ok o).

Lemma w_table n : In n whole_tables -> ~ In ("D" ++ n)%string unsorted_tables ->
  exists lb ld b d, In ("B" ++ n, lb)%string shipped_b /\ In ("D" ++ n, ld)%string shipped_d /\
    load_bufr (file lb) = Ok b /\ load_dtable (file ld) = Ok d /\
    forall code o, dquery d code = Ok o -> Forall (defined_in b d) (slice o) /\ fit_spec (slice o).
Proof.
  intros I U. pose proof (proj1 (forallb_forall (wcheck shipped_b shipped_d) whole_tables) w_checked _ I) as C. unfold wcheck in C.
  destruct (listed_in ("B" ++ n)%string shipped_b) as [lb|] eqn:Lb; [|discriminate].
  destruct (listed_in ("D" ++ n)%string shipped_d) as [ld|] eqn:Ld; [|discriminate].
  apply listed_in_in in Lb, Ld. unfold whole in C. destruct (elements false lb) as [fs|] eqn:E; [|discriminate].
  destruct (elements_load _ _ _ E) as (b & L & F). destruct (d_table _ _ Ld) as (bs & Sq & Dl & _ & Inc). specialize (Inc U).
  rewrite Sq in C. cbv zeta in C. rewrite forallb_forall in C.
  exists lb, ld, b, (dtable_of bs). repeat (split; [assumption|]). intros code o Q. pose proof (dquery_sorted bs code Inc) as Dq.
  unfold dblock in *. destruct (List.find (fun b : Z * list Z => fst b =? code) bs) as [blk|] eqn:Fd; [|congruence].
  destruct Dq as (o' & Q' & W & Sl). rewrite Q in Q'. injection Q' as <-. rewrite Sl. apply find_some in Fd as [Ib _].
  specialize (C blk Ib). apply andb_prop in C as [C1 C2]. rewrite forallb_forall in C1.
  destruct (elements_sorted _ _ _ E) as [_ Pos]. destruct (increasing_sorted _ _ Inc) as [_ Posd].
  assert (K : forall c, In c (snd blk) -> 0 <= c < 65536 /\ (c < 16384 -> In c (map bf_code fs)) /\ (49152 <= c -> In c (map fst bs))).
  { intros c Ic. specialize (C1 c Ic). unfold known in C1. destruct (Z.leb_spec 0 c) as [Hc|]; [|discriminate].
    assert (P1 : Forall (fun c => 0 <= c) (map bf_code fs)) by (eapply Forall_impl; [|exact Pos]; cbn; intros; lia).
    assert (P2 : Forall (fun c => 0 <= c) (map fst bs)) by (eapply Forall_impl; [|exact Posd]; cbn; intros; lia).
    destruct (Z.ltb_spec c 16384); [split; [lia|split; [intros _; apply marks_in; auto|lia]]|].
    destruct (Z.leb_spec 49152 c); [|lia]. apply andb_prop in C1 as [C1a C1b]. split; [lia|split; [lia|]].
    intros _; apply marks_in; auto. }
  split; [|apply fits_ok; [exact C2|apply Forall_forall; intros c Ic; apply K; exact Ic]].
  apply Forall_forall. intros c Ic. destruct (K c Ic) as (R & D0 & D3). split; intros V.
  - apply (range_var_f c 0 R ltac:(lia)) in V. specialize (D0 ltac:(lia)).
    apply in_map_iff in D0 as (f & <- & If). destruct (query_listed _ _ _ _ _ E F If) as (i & Qi & _). eauto.
  - apply (range_var_f c 3 R ltac:(lia)) in V. specialize (D3 ltac:(lia)).
    apply in_find in D3 as (b' & Fb). pose proof (dquery_sorted bs c Inc) as D'. unfold dblock in *. rewrite Fb in D'. destruct D' as (o' & -> & _). eauto.
Qed.

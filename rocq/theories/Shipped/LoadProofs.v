(** What is loaded for each identifier. *)
From Coq Require Import ZifyBool ZifyNat String List ZArith Permutation Ascii.
From Verif Require Import Base Bits.Model Bits.Spec Tables.Model Tables.DtableProofs Select.Model Select.Spec Interp.Model Interp.FuelProofs
  Message.Model Message.Spec Message.SafeProofs Shipped.Text Shipped.Catalog Shipped.Check Shipped.Spec Shipped.Model Shipped.Proofs
  Shipped.ChoiceProofs.
Import ListNotations.
Local Open Scope Z_scope.

Lemma chars_inj a : forall b, chars a = chars b -> a = b.
Proof.
  induction a as [|x a IH]; intros [|y b] E; cbn [chars] in E; try discriminate; [reflexivity|]. injection E as E1 E2.
  f_equal; [|apply IH; exact E2]. apply Nat2Z.inj in E1. rewrite <- (ascii_nat_embedding x), <- (ascii_nat_embedding y), E1. reflexivity.
Qed.

Lemma content_of l n : In n (map fst l) -> exists ls, In (n, ls) l /\ content l (chars n) = Some (file ls).
Proof.
  intros I. unfold content. destruct (List.find (fun p => zlist_eqb (chars (fst p)) (chars n)) l) as [[m ls]|] eqn:F.
  - apply find_some in F as [Im E]. cbn [fst] in E. apply list_eq, chars_inj in E as ->. exists ls. auto.
  - apply in_map_iff in I as (p & <- & I). pose proof (find_none _ _ F p I) as N. cbn beta in N.
    rewrite (proj2 (list_eq _ _) eq_refl) in N. discriminate.
Qed.

Lemma load_spec names id t : Permutation names shipped_names -> bufr_id_ok (wanted id) ->
  search_bufr (wanted id) (in_dir names) = Some t ->
  exists n m lb ld, In (n, lb) shipped_b /\ In (m, ld) shipped_d /\ crex_name n = false /\ chars n = tb_file t /\
    chars m = 68 :: tl (tb_file t) /\
    shipped_load names id = (b <- load_bufr (file lb) ;; d <- load_dtable (file ld) ;; Ok (mktables b d)).
Proof.
  intros P W S. destruct (choice _ _ _ P W S) as (c & v & l & n & Ii & -> & _).
  destruct (id_facts' _ _ _ _ Ii) as (_ & _ & Cn & Ib & m & Im & Em). cbn [tb_file table_of] in *.
  rewrite <- b_names_eq in Ib. rewrite <- d_names_eq in Im.
  destruct (content_of _ _ Ib) as (lb & Ilb & Cb). destruct (content_of _ _ Im) as (ld & Ild & Cd).
  exists n, m, lb, ld. repeat (split; [assumption||reflexivity|]). unfold shipped_load. rewrite S. cbn [tb_file table_of]. rewrite Cb, <- Em, Cd. reflexivity.
Qed.

Lemma eumetsat_choice names w t : Permutation names shipped_names -> bufr_id_ok w -> search_bufr w (in_dir names) = Some t ->
  (tb_file t = eumetsat_19 <-> bi_centre w = 254 /\ bi_mtv w = 19).
Proof.
  intros P W S. destruct (choice _ _ _ P W S) as (c & v & l & n & Ii & -> & Mt & U & M). cbn [tb_file table_of].
  destruct (id_facts' _ _ _ _ Ii) as (E & _). rewrite E. clear E.
  assert (I0 : In (254, 19, 1, "B0000000000254019001.txt"%string) ids) by (apply in_ids; vm_compute; reflexivity).
  destruct (wmo_ids 18 ltac:(lia)) as (n18 & I18). destruct (wmo_ids 19 ltac:(lia)) as (n19 & I19).
  split.
  - intros [-> ->]. assert (V : bi_mtv w = 19).
    { apply Z.le_antisymm; [exact U|]. apply Z.nlt_ge. intros X. destruct (M _ _ _ _ I18 ltac:(lia)). lia. }
    split; [|exact V]. destruct (M _ _ _ _ I19 ltac:(lia)) as [_ R]. specialize (R eq_refl). unfold centre_rank in R. revert R.
    repeat match goal with |- context [?a =? ?b] => destruct (Z.eqb_spec a b) end; lia.
  - intros [C V]. destruct (M _ _ _ _ I0 ltac:(lia)) as [A R]. assert (v = 19) by lia. subst v. specialize (R eq_refl).
    split; [|reflexivity]. rewrite C in R. unfold centre_rank in R. revert R.
    repeat match goal with |- context [?a =? ?b] => destruct (Z.eqb_spec a b) end; lia.
Qed.

Lemma eumetsat_name n : chars n = eumetsat_19 <-> In n unloadable.
Proof.
  unfold eumetsat_19, unloadable. split; [intros E; left; symmetry; apply chars_inj; exact E|intros [<-|[]]; reflexivity].
Qed.
Lemma cyclic_name t m r : tb_file t = 66 :: r -> chars m = 68 :: r -> In m cyclic_tables -> tb_file t = wmo_11 \/ tb_file t = ecmwf_2.
Proof.
  intros -> E [<-|[<-|[]]]; [left|right]; vm_compute in E; injection E as <-; reflexivity.
Qed.

(** What is loaded, but for centre 254 and version 19. *)
Lemma loaded names id : Permutation names shipped_names -> bufr_id_ok (wanted id) -> t_master_table id = 0 -> t_version id <= 33 ->
  ~ (t_centre id = 254 /\ t_version id = 19) ->
  exists T, shipped_load names id = Ok T /\
    (~ (1 <= t_version id <= 2 \/ 7 <= t_version id <= 11 /\ t_centre id <> 98 /\ t_centre id <> 255) -> well_founded (within T)).
Proof.
  intros P W M V U. destruct (search_bufr (wanted id) (in_dir names)) as [t|] eqn:S.
  2: { apply (no_choice names) in S; auto. cbn in S. lia. }
  destruct (load_spec names id t P W S) as (n & m & lb & ld & Ib & Im & Cn & En & Em & ->).
  destruct (b_table n lb Ib) as (fs & b & _ & Lb & _).
  { intros X. apply eumetsat_name in X. rewrite En in X. apply (eumetsat_choice names _ _ P W S) in X. contradiction. }
  rewrite Cn in Lb. unfold load_b in Lb. rewrite Lb. destruct (d_table m ld Im) as (bs & _ & Ld & Rk & _). rewrite Ld. cbn [bind].
  eexists. split; [reflexivity|]. intros C. destruct Rk as (rank & Rk).
  { intros X. apply C. destruct (choice _ _ _ P W S) as (c' & v' & l' & n' & Ii & Et & _). destruct (id_facts' _ _ _ _ Ii) as (_ & (r & Er) & _).
    assert (F : tb_file t = 66 :: r) by (rewrite Et; exact Er). rewrite F in Em. cbn [tl] in Em.
    apply (cyclic_choice names (wanted id) t P W S). eapply cyclic_name; eauto. }
  eapply ranked_well_founded; eauto.
Qed.

(** Names are unique. *)
Fixpoint distinct (l : list string) : bool := match l with [] => true | a :: r => negb (named a r) && distinct r end.
Lemma distinct_ok l : distinct l = true -> NoDup l.
Proof.
  induction l as [|a l IH]; cbn [distinct]; intros H; [constructor|]. apply andb_prop in H as [H1 H2]. constructor; [|apply IH; exact H2].
  intros I. apply named_in in I. rewrite I in H1. discriminate.
Qed.
Lemma one_entry {A} (l : list (string * A)) n a b : distinct (map fst l) = true -> In (n, a) l -> In (n, b) l -> a = b.
Proof.
  intros N Ia Ib. apply distinct_ok in N. induction l as [|[m x] l IH]; [destruct Ia|]. cbn [map fst] in N. inversion_clear N as [|? ? N1 N2].
  destruct Ia as [Ia|Ia], Ib as [Ib|Ib].
  - congruence.
  - exfalso. apply N1. injection Ia as -> ->. apply in_map_iff. exists (n, b). auto.
  - exfalso. apply N1. injection Ib as -> ->. apply in_map_iff. exists (n, a). auto.
  - auto.
Qed.
Lemma one_b n a b : In (n, a) shipped_b -> In (n, b) shipped_b -> a = b.
Proof. apply one_entry. rewrite b_names_eq. vm_compute. reflexivity. Qed.
Lemma one_d n a b : In (n, a) shipped_d -> In (n, b) shipped_d -> a = b.
Proof. apply one_entry. rewrite d_names_eq. vm_compute. reflexivity. Qed.

(** What is chosen for the recent tables of the WMO. *)
Lemma wmo_whole v : 21 <= v <= 31 \/ v = 33 -> exists n, In n whole_tables /\ ~ In ("D" ++ n)%string unsorted_tables /\
  chars ("B" ++ n) = wmo_file v /\ chars ("D" ++ n) = 68 :: tl (wmo_file v).
Proof.
  intros V. assert (H : forallb (fun v => existsb (fun n => negb (named ("D" ++ n) unsorted_tables)%string && zlist_eqb (chars ("B" ++ n)) (wmo_file v) &&
    zlist_eqb (chars ("D" ++ n)) (68 :: tl (wmo_file v))) whole_tables) [21; 22; 23; 24; 25; 26; 27; 28; 29; 30; 31; 33] = true) by (vm_compute; reflexivity).
  rewrite forallb_forall in H. specialize (H v ltac:(cbn [In]; lia)). apply existsb_exists in H as (n & I & H). exists n. split; [exact I|].
  rewrite !andb_true_iff in H. destruct H as [[H1 H2] H3]. apply list_eq in H2, H3. split; [|auto]. intros X. apply named_in in X. rewrite X in H1. discriminate.
Qed.

(** C49 with the tables that come with the library. *)
From Coq Require Import ZifyBool ZifyNat String List ZArith Permutation.
From Verif Require Import Base Bits.Model Bits.Spec Varcode.Model Varinfo.Model Tables.Model Tables.Spec Tables.LoadProofs Select.Model Select.Spec
  Var.Model Interp.Model Interp.Appears Interp.FuelProofs Codec.Model Codec.Spec Codec.EndProofs Codec.Checked Codec.CheckedEnc Codec.CheckedEncProofs
  Message.Model Message.Spec Message.CheckedEnc Message.EncodeProperties
  Shipped.Text Shipped.Catalog Shipped.Check Shipped.Spec Shipped.Model Shipped.Proofs Shipped.ChoiceProofs Shipped.LoadProofs Shipped.EndProofs
  Shipped.Properties Shipped.BytesProperties.
From Verif Require Interp.Example Codec.Properties Base.
Import ListNotations.
Local Open Scope Z_scope.

(** A template without the codes that are not usual (Shipped/BytesProperties.v) is tame. *)
Lemma usual_tame names id T ops : Permutation names shipped_names -> bufr_id_ok (wanted id) -> ~ (t_centre id = 254 /\ t_version id = 19) ->
  shipped_load names id = Ok T -> (forall code, appears T ops code -> usual_code code) -> tame T ops /\ entries_ok (tb_b T).
Proof.
  intros P Ids Hv Lo Hc.
  assert (X : exists n ls, In (n, ls) shipped_b /\ crex_name n = false /\ ~ In n unloadable /\ load_bufr (file ls) = Ok (tb_b T)).
  { pose proof Lo as Lo'. unfold shipped_load in Lo'. destruct (search_bufr (wanted id) (in_dir names)) as [t|] eqn:S; [|discriminate].
    destruct (load_spec names _ t P Ids S) as (n & m & lb & ld & Ib & Im & Cn & En & Em & X). rewrite Lo in X. clear Lo'.
    destruct (load_bufr (file lb)) as [b|e|] eqn:Lb; [|discriminate|discriminate]. cbn [bind] in X.
    destruct (load_dtable (file ld)) as [dt|e|]; [|discriminate|discriminate]. cbn [bind] in X. injection X as ->.
    exists n, lb. split; [exact Ib|]. split; [exact Cn|]. split; [|exact Lb]. intros Un. apply eumetsat_name in Un. rewrite En in Un. apply (eumetsat_choice names _ _ P Ids S) in Un.
    apply Hv. exact Un. }
  destruct X as (n & ls & Ib & Cn & Un & Lb). split; [|exact (load_bufr_entries _ _ Lb)].
  assert (K : forall code, code <> Properties.B 15 28 -> code <> Properties.B 8 193 -> element_ok (tb_b T) 0 code).
  { intros code N1 N2. eapply shipped_element; eauto. intros Io. apply (in_map snd) in Io.
    change (map snd odd_elements) with [3868; 3868; 3868; 3868; 3868; 2241] in Io. change (Properties.B 15 28) with 3868 in N1.
    change (Properties.B 8 193) with 2241 in N2. cbn [snd In] in Io. lia. }
  exists 0. split; [lia|]. split; [|split; apply K; discriminate].
  intros code Ap. destruct (Hc code Ap) as (O & N1 & N2). auto.
Qed.

Theorem C49_shipped_tables : forall names p opt id T fuel lt b, Permutation names shipped_names -> hook_safe opt -> hook_quiet opt ->
  bufr_id_ok (wanted id) -> ~ (t_centre id = 254 /\ t_version id = 19) -> shipped_load names id = Ok T ->
  (forall code, appears T (b_datadesc b) code -> usual_code code) -> bulletin_made b -> unknown_fine lt ->
  checked_encode p opt T fuel lt b <> UB /\
  (checked_encode p opt T fuel lt b <> Err EEof -> encode p opt T fuel lt b = UB -> checked_encode p opt T fuel lt b = Err EAlloc) /\
  (checked_encode p opt T fuel lt b = Err EAlloc -> encode p opt T fuel lt b = UB).
Proof.
  intros names p opt id T fuel lt b P H Q Ids Hv Lo Hc M U. destruct (usual_tame names id T _ P Ids Hv Lo Hc) as [Ht E].
  pose proof (C49_checked_safe p opt T fuel lt b H E Ht M U) as X. pose proof (C49_exactly p opt T fuel lt b H Q E Ht M U) as Y.
  revert X Y. generalize (encode p opt T fuel lt b) as m, (checked_encode p opt T fuel lt b) as m'. clear. intros m m' X Y. split; [exact X|].
  split; [intros N; exact (proj1 (Y N))|]. intros A. assert (N : m' <> Err EEof) by congruence. exact (proj2 (Y N) A).
Qed.

Example C49_shipped_example : forall names, Permutation names shipped_names ->
  exists id T, bufr_id_ok (wanted id) /\ ~ (t_centre id = 254 /\ t_version id = 19) /\ shipped_load names id = Ok T /\ ~ Properties.cyclic_id id /\
    let b := one_subset [wr_var 0 1 1; wr_var 0 12 101] [Codec.Properties.num 1 1 5; Codec.Properties.num 12 101 28315] in
    (forall code, appears T (b_datadesc b) code -> usual_code code) /\ bulletin_made b.
Proof.
  intros names P. set (id := mktableid 200 0 0 24 0).
  assert (Ids : bufr_id_ok (wanted id)) by (vm_compute; repeat split; discriminate).
  assert (Hv : ~ (t_centre id = 254 /\ t_version id = 19)) by (cbn; lia).
  destruct (loaded names id P Ids eq_refl ltac:(cbn; lia) Hv) as (T & Lo & _). exists id, T. split; [exact Ids|]. split; [exact Hv|]. split; [exact Lo|].
  split; [unfold Properties.cyclic_id; cbn; lia|]. cbv zeta. split; [|apply madeb_all_made; vm_compute; reflexivity]. cbn [one_subset b_datadesc]. intros code A.
  assert (K : code = wr_var 0 1 1 \/ code = wr_var 0 12 101).
  { induction A as [code [<-|[<-|[]]]|code d' body _ IH F3 _ _]; auto. destruct IH as [->| ->]; discriminate. }
  destruct K as [->| ->]; (split; [intros X; discriminate|split; discriminate]).
Qed.

(** Encoding ends, for every template and every bulletin with it, unless the tables are those where a sequence
    contains itself. *)
Theorem C49_shipped_tables_end : forall names p opt id T ops, Permutation names shipped_names -> options_end opt ->
  bufr_id_ok (wanted id) -> shipped_load names id = Ok T -> ~ Properties.cyclic_id id ->
  exists N, forall fuel lt b, b_datadesc b = ops -> (N <= fuel)%nat ->
    encode p opt T fuel lt b = encode p opt T N lt b /\ encode p opt T fuel lt b <> Err EFuel.
Proof.
  intros names p opt id T ops P O Ids Lo C. apply C49_encoding_ends; [exact O|].
  destruct (Properties.C46_found names id P Ids) as [F _].
  assert (M : t_master_table id = 0) by (destruct (Z.eq_dec (t_master_table id) 0) as [M|M]; [exact M|rewrite F in Lo by auto; discriminate]).
  assert (V : t_version id <= 33) by (destruct (Z.le_gt_cases (t_version id) 33) as [V|V]; [exact V|rewrite F in Lo by lia; discriminate]).
  assert (U : ~ (t_centre id = 254 /\ t_version id = 19)).
  { intros [U1 U2]. rewrite (Properties.C46_found_refuted names id P Ids M U1 U2) in Lo. discriminate. }
  destruct (loaded names id P Ids M V U) as (T' & L & W). rewrite L in Lo. apply (f_equal (get_ok T)) in Lo. cbn [get_ok] in Lo. subst T'. apply W. exact C.
Qed.

Print Assumptions C49_shipped_tables.
Print Assumptions C49_shipped_tables_end.

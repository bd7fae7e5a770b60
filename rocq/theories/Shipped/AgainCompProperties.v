(** C48 with the tables that come with the library, for messages with compression. *)
From Coq Require Import ZifyBool ZifyNat String List ZArith Permutation.
From Verif Require Import Base Bits.Model Bits.Spec Varcode.Model Varinfo.Model Varinfo.RangeProofs Tables.Model Tables.Spec Tables.LoadProofs Select.Model Select.Spec
  Var.Model Var.Spec Interp.Model Interp.Appears Codec.Model Codec.Compressed Codec.Spec Codec.ColumnProofs Codec.Sound Codec.Again Codec.AgainSteps Codec.AgainPlain Codec.AgainComp Codec.AgainCompPlain
  Message.Model Message.Spec Message.SafeProofs Message.Again Message.AgainProperties Message.AgainCompProperties
  Shipped.Text Shipped.Catalog Shipped.Check Shipped.Spec Shipped.Model Shipped.Proofs Shipped.ChoiceProofs Shipped.LoadProofs Shipped.EndProofs
  Shipped.Properties Shipped.AgainProperties.
From Verif Require Crex.SoundProperties.
Import ListNotations.
Local Open Scope Z_scope.

Lemma chosen_table names opt skip fuel d b T found : Permutation names shipped_names -> Forall is_byte d ->
  decode opt (shipped_load names) skip fuel d = Ok (b, T, found) -> ~ (h_centre (b_header b) = 254 /\ h_version (b_header b) = 19) ->
  exists n ls, In (n, ls) shipped_b /\ crex_name n = false /\ ~ In n unloadable /\ load_bufr (file ls) = Ok (tb_b T).
Proof.
  intros P F E Hv.
  assert (X : exists l, decode_lead d = Ok l /\ b_header b = l_header l /\ shipped_load names (tableid_of (l_header l)) = Ok T).
  { unfold decode in E. inv_bind E. inv_bind Hk. inv_bind Hk0. destruct a1. apply ok_inj in Hk. injection Hk as <- <- _. exists a. auto. }
  destruct X as (l & El & Hh & Lo). pose proof (lead_ids d F) as Ids. unfold defined in Ids. rewrite El in Ids.
  pose proof Lo as Lo'. unfold shipped_load in Lo'. destruct (search_bufr (wanted (tableid_of (l_header l))) (in_dir names)) as [t|] eqn:S; [|discriminate].
  destruct (load_spec names _ t P Ids S) as (n & m & lb & ld & Ib & Im & Cn & En & Em & X). rewrite Lo in X. clear Lo'.
  destruct (load_bufr (file lb)) as [bt|e|] eqn:Lb; [|discriminate|discriminate]. cbn [bind] in X.
  destruct (load_dtable (file ld)) as [dt|e|]; [|discriminate|discriminate]. cbn [bind] in X. injection X as ->.
  exists n, lb. split; [exact Ib|]. split; [exact Cn|]. split; [|exact Lb]. intros Un. apply eumetsat_name in Un. rewrite En in Un. apply (eumetsat_choice names _ _ P Ids S) in Un.
  apply Hv. rewrite Hh. exact Un.
Qed.

(** A message with compression, of the tables that come with the library and without operators: when it can be decoded, the
    bulletin that it is can be encoded, without compression, and decodes to the same bulletin.  Besides the conditions of
    C48_shipped_tables, the variables of class 31, and those of ten digits or more, must hold numbers of their fields
    (C48_compressed_class_31_refuted). *)
Theorem C48_compressed_shipped_tables : forall names opt skip fuel lt d b T found, Permutation names shipped_names -> Forall is_byte d -> strict_options opt ->
  decode opt (shipped_load names) skip fuel d = Ok (b, T, found) ->
  ~ (h_centre (b_header b) = 254 /\ h_version (b_header b) = 19) ->
  (forall code, appears T (b_datadesc b) code -> var_f code <> 2 /\ ~ In code wide_elements) ->
  b_compression b = true -> header_kept (b_header b) -> Nat.even (length (b_optional b)) = true -> b_datadesc b <> [] ->
  Forall (Forall (fun v => tidy v /\ settled v)) (b_subsets b) -> lt_unknown lt = [] ->
  exists bytes, encode X86 opt T fuel lt b = Ok bytes /\
    (Z.of_nat (length bytes) < 2 ^ 24 -> exists found', decode opt (shipped_load names) skip fuel bytes = Ok (uncompressed b, T, found')).
Proof.
  intros names opt skip fuel lt d b T found P F HO E Hv Hc Cp Hk Ev Nd Ht Lt.
  destruct (chosen_table names opt skip fuel d b T found P F E Hv) as (n & ls & Ib & Cn & Un & Lb). destruct (shipped_defs n ls (tb_b T) Ib Cn Un Lb) as [D R].
  pose proof (load_bufr_ok _ _ Lb) as TO.
  destruct (C48_compressed_messages_can_be_sent_again X86 opt (shipped_load names) skip fuel lt d b T found F HO E TO D Cp Hk Ev Nd Lt) as (reqs & Es & K).
  apply K. clear K. assert (HK : hook_ok opt) by (destruct HO as (_ & _ & H); unfold hook_ok; rewrite H; exact Logic.I).
  pose proof (Crex.SoundProperties.C56_bufr opt _ skip fuel d b T found HK E TO D) as So.
  assert (Hd : exists l, decode_lead d = Ok l /\ b_datadesc b = l_datadesc l /\ shipped_load names (tableid_of (l_header l)) = Ok T).
  { unfold decode in E. inv_bind E. inv_bind Hk0. inv_bind Hk1. destruct a1. apply ok_inj in Hk0. injection Hk0 as <- <- _. exists a. auto. }
  destruct Hd as (l & El & Hd & Lo).
  unfold record_compressed_message in Es. rewrite El in Es. cbn [bind] in Es. rewrite Lo in Es. cbn [bind] in Es. inv_bind Es. destruct a as [[[gots reqs'] lt'] inp']. apply ok_inj in Hk0. injection Hk0 as -> ->.
  rewrite Hd in *. eapply comp_plain; [exact HO|exact TO| |exact Hb|].
  - split.
    + intros code A. apply (Hc code A).
    + intros code i A Q. apply (R code i Q). destruct A as [->|[A _]]; [|apply (Hc code A)]. intros X. revert X. unfold wide_elements, var_B31012. change (wr_var 0 31 12) with 7948. cbn [In]. lia.
  - apply Forall_forall. intros vars A. rewrite Forall_forall in Ht, So. specialize (Ht _ A). specialize (So _ A). apply Forall_forall. intros v Iv. rewrite Forall_forall in Ht, So.
    destruct (So v Iv) as ([C|(C & _)] & _); [|destruct HO as (_ & HO & _); congruence]. split; [exact C|]. apply Ht. exact Iv.
Qed.

(** ** An example: two subsets of two values of B01001, for version 24; one value differs *)
Definition again_comp_message : list Z :=
  [66; 85; 70; 82; 0; 0; 54; 4; 0; 0; 22; 0; 0; 200; 0; 0; 1; 0; 0; 7; 5; 24; 0; 7; 234; 12; 31; 23; 59; 58;
   0; 0; 12; 0; 0; 2; 192; 1; 1; 1; 1; 0;
   0; 0; 8; 0; 10; 16; 135; 0; 55; 55; 55; 55].

Lemma crun_element o T skip k code i rest s s' : var_f code = 0 -> query (tb_b T) code = Ok i -> k_var o i s = Ok s' ->
  run (cdecoder o T skip) T (S k) (code :: rest) (ist_init, s) = run (cdecoder o T skip) T k rest (ist_init, s').
Proof.
  intros F Q D. cbn [run]. rewrite F. cbn [Z.eqb]. unfold b_variable. cbn [is_refbits ist_init Z.eqb negb]. unfold get_varinfo. rewrite Q. cbn [bind is_scale is_width is_strlen is_srw is_refs ist_init Z.eqb andb].
  cbn [is_cur is_afbits]. rewrite andb_false_r. cbn [Z.eqb negb on_var cdecoder]. rewrite D. reflexivity.
Qed.

Lemma two_columns T u : query (tb_b T) (wr_var 0 1 1) = compute_range (wr_var 0 1 1) TInteger u 0 3 0 7 ->
  exists i found, vi_code i = wr_var 0 1 1 /\ vi_len i = 3 /\ decode (mkopts false false None) (fun _ => Ok T) true 100 again_comp_message =
    Ok (mkbulletin (mkheader 4 0 200 0 1 0 7 5 24 0 2026 12 31 23 59 58) [] true [wr_var 0 1 1; wr_var 0 1 1]
          [[mkvar (mkcell i (Some (VInt 5))) []; mkvar (mkcell i (Some (VInt 7))) []]; [mkvar (mkcell i (Some (VInt 6))) []; mkvar (mkcell i (Some (VInt 7))) []]], T, found).
Proof.
  intros Q.
  assert (X : exists a b, compute_range (wr_var 0 1 1) TInteger u 0 3 0 7 = Ok (mkinfo (wr_var 0 1 1) TInteger u 0 3 0 7 0 126 a b)) by (do 2 eexists; reflexivity).
  destruct X as (a & b & X). rewrite X in Q. clear X. destruct T as [bt dt]. cbn [tb_b] in Q.
  change (wr_var 0 1 1) with 257 in *. set (i := mkinfo 257 TInteger u 0 3 0 7 0 126 a b) in *. exists i. unfold decode.
  assert (L : exists l, decode_lead again_comp_message = Ok l /\ l = mklead (l_header l) [] true [257; 257] (l_sections l) 2 /\
    l_header l = mkheader 4 0 200 0 1 0 7 5 24 0 2026 12 31 23 59 58 /\ s4 (l_sections l) = 42%nat /\ s5 (l_sections l) = 50%nat).
  { eexists. split; [vm_compute; reflexivity|]. repeat split. }
  destruct L as (l & -> & El & Hh & Hs & H5). rewrite El. cbn [bind]. unfold decode_data. cbn [l_expected l_compression l_header l_optional l_datadesc l_sections Z.eqb].
  rewrite Hs, H5, Hh. change (Z.to_nat 2) with 2%nat. change 100%nat with (S (S (S 97))). unfold decode_compressed.
  set (opt := mkopts false false None). cbn [repeat].
  assert (D1 : exists inp, k_var opt i (mkcdec (mkin again_comp_message (42 + 4) 0 0) [[]; []] empty_local) =
      Ok (mkcdec inp [[mkvar (mkcell i (Some (VInt 5))) []]; [mkvar (mkcell i (Some (VInt 6))) []]] empty_local) /\
    exists inp', k_var opt i (mkcdec inp [[mkvar (mkcell i (Some (VInt 5))) []]; [mkvar (mkcell i (Some (VInt 6))) []]] empty_local) =
      Ok (mkcdec inp' [[mkvar (mkcell i (Some (VInt 5))) []; mkvar (mkcell i (Some (VInt 7))) []]; [mkvar (mkcell i (Some (VInt 6))) []; mkvar (mkcell i (Some (VInt 7))) []]] empty_local)).
  { eexists. split; [vm_compute; reflexivity|]. eexists. vm_compute. reflexivity. }
  destruct D1 as (inp1 & D1 & inp2 & D2).
  rewrite (crun_element opt (mktables bt dt) true _ 257 i _ _ _ eq_refl Q D1). rewrite (crun_element opt (mktables bt dt) true _ 257 i _ _ _ eq_refl Q D2).
  cbn [run bind k_subs k_lt k_in]. replace (Nat.ltb (length again_comp_message) (50 + 4)) with false by reflexivity.
  replace (zlist_is again_comp_message 50 [55; 55; 55; 55]) with (Ok true) by reflexivity. cbn [bind negb]. eexists. split; [reflexivity|]. split; reflexivity.
Qed.

Example C48_compressed_shipped_example : forall names, Permutation names shipped_names -> Forall is_byte again_comp_message /\
  exists b T found, decode (mkopts false false None) (shipped_load names) true 100 again_comp_message = Ok (b, T, found) /\
    ~ (h_centre (b_header b) = 254 /\ h_version (b_header b) = 19) /\
    (forall code, appears T (b_datadesc b) code -> var_f code <> 2 /\ ~ In code wide_elements) /\
    b_compression b = true /\ header_kept (b_header b) /\ Nat.even (length (b_optional b)) = true /\ b_datadesc b <> [] /\
    Forall (Forall (fun v => tidy v /\ settled v)) (b_subsets b) /\ map (map (fun v => c_val (v_cell v))) (b_subsets b) = [[Some (VInt 5); Some (VInt 7)]; [Some (VInt 6); Some (VInt 7)]].
Proof.
  intros names P. split; [unfold again_comp_message; repeat (apply Forall_cons; [split; vm_compute; discriminate || reflexivity|]); apply Forall_nil|]. set (id := mktableid 200 0 0 24 0).
  assert (W : bufr_id_ok (wanted id)) by (cbv -[Z.le Z.lt]; lia).
  destruct (loaded names id P W eq_refl ltac:(cbn; lia) ltac:(cbn; lia)) as (T & Lo & _).
  assert (X : exists ls, In ("B0000000000000024000.txt"%string, ls) shipped_b /\ load_bufr (file ls) = Ok (tb_b T)).
  { pose proof Lo as Lo'. unfold shipped_load in Lo'. destruct (search_bufr (wanted id) (in_dir names)) as [t|] eqn:S; [|discriminate]. clear Lo'.
    destruct (load_spec names _ t P W S) as (n & m & lb & ld & Ib & Im & Cn & En & Em & X). rewrite Lo in X.
    destruct (load_bufr (file lb)) as [bt|e|] eqn:Lb; [|discriminate|discriminate]. cbn [bind] in X.
    destruct (load_dtable (file ld)) as [dt|e|]; [|discriminate|discriminate]. cbn [bind] in X. injection X as ->. exists lb. split; [|exact Lb].
    pose proof (C46_wmo names id t P W ltac:(cbn; lia) ltac:(cbn; lia) S) as Ft. rewrite Ft in En. cbn [t_version id Z.eqb Pos.eqb] in En.
    replace n with "B0000000000000024000.txt"%string in Ib; [exact Ib|]. apply chars_inj. rewrite En. vm_compute. reflexivity. }
  destruct X as (ls & I & Lb).
  assert (U : ~ In "B0000000000000024000.txt"%string unloadable) by (intros [X|[]]; discriminate).
  destruct (fact_query _ ls (tb_b T) _ _ _ _ _ _ I eq_refl U Lb facts_24) as (u & Q & _).
  destruct (two_columns T u Q) as (i & found & Ci & Li & D).
  exists (mkbulletin (mkheader 4 0 200 0 1 0 7 5 24 0 2026 12 31 23 59 58) [] true [wr_var 0 1 1; wr_var 0 1 1]
          [[mkvar (mkcell i (Some (VInt 5))) []; mkvar (mkcell i (Some (VInt 7))) []]; [mkvar (mkcell i (Some (VInt 6))) []; mkvar (mkcell i (Some (VInt 7))) []]]), T, found.
  split.
  { revert D. unfold decode. destruct (decode_lead again_comp_message) as [l| |] eqn:L; [|discriminate|discriminate].
    assert (Ti : tableid_of (l_header l) = id).
    { assert (Y : match decode_lead again_comp_message with Ok l => tableid_of (l_header l) = id | _ => True end) by (vm_compute; reflexivity). rewrite L in Y. exact Y. }
    cbn [bind]. rewrite Ti, Lo. cbn [bind]. exact (fun D => D). }
  cbn [b_header b_datadesc b_compression b_optional b_subsets h_centre h_version].
  split; [lia|]. split.
  { intros code A. assert (K : code = wr_var 0 1 1).
    { induction A as [code [<-|[<-|[]]]|code d' body _ IH F3 _ _]; auto. subst. discriminate. }
    subst code. split; [discriminate|]. intros X. vm_compute in X. repeat (destruct X as [X|X]; [discriminate|]). exact X. }
  split; [reflexivity|]. split; [reflexivity|]. split; [reflexivity|]. split; [discriminate|]. split; [|reflexivity].
  assert (S : forall n, tidy (mkvar (mkcell i (Some (VInt n))) []) /\ settled (mkvar (mkcell i (Some (VInt n))) [])).
  { intros n. split; [exact Logic.I|]. unfold settled. cbn [v_cell c_info]. rewrite Ci, Li. intros [X|X]; [discriminate X|]. lia. }
  repeat (apply Forall_cons || apply Forall_nil); apply S.
Qed.

Print Assumptions C48_compressed_shipped_tables.

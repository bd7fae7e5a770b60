(** C48 with the tables that come with the library. *)
From Coq Require Import ZifyBool ZifyNat String List ZArith Permutation.
From Verif Require Import Base Bits.Model Bits.Spec Varcode.Model Varinfo.Model Varinfo.RangeProofs Tables.Model Tables.Spec Tables.LoadProofs Select.Model Select.Spec
  Var.Model Interp.Model Interp.Appears Codec.Model Codec.Spec Codec.ColumnProofs Codec.Again Codec.AgainSteps Codec.AgainPlain
  Message.Model Message.Spec Message.SafeProofs Message.Again Message.AgainProperties
  Shipped.Text Shipped.Catalog Shipped.Check Shipped.Spec Shipped.Model Shipped.Proofs Shipped.ChoiceProofs Shipped.LoadProofs Shipped.EndProofs
  Shipped.Properties.
From Verif Require Interp.Example Codec.Properties.
Import ListNotations.
Local Open Scope Z_scope.

Lemma bfast_scales ls : forall last fs, bfast ls last = Some fs -> Forall (fun f => -2000000000 < bf_scale f < 2000000000) fs.
Proof.
  induction ls as [|l ls IH]; intros last fs H; cbn [bfast] in H; [injection H as <-; constructor|].
  destruct (bline_of (line_of l)) as [f|] eqn:B; [|discriminate]. destruct (Z.ltb last (bf_code f)); [|discriminate].
  destruct (bfast ls (bf_code f)) as [fs'|] eqn:R; [|discriminate]. injection H as <-. constructor; [|exact (IH _ _ R)]. clear - B. unfold bline_of in B.
  destruct (Nat.ltb (length (line_of l)) 119); [discriminate|]. destruct (fline_code (line_of l)); [|discriminate].
  destruct (fnum (skipn 98 (line_of l))) as [sc|] eqn:Sc; [|discriminate]. apply fnum_ok in Sc as [_ Sc]. destruct (fnum (skipn 102 (line_of l))); [|discriminate].
  destruct (fnum (skipn 115 (line_of l))); [|discriminate]. cbv zeta in B. destruct (_ <? 0); [discriminate|].
  destruct (String.eqb _ _); [injection B as <-; exact Sc|]. destruct (_ && _) in B; [|discriminate]. injection B as <-. exact Sc.
Qed.

Lemma shipped_defs n ls t : In (n, ls) shipped_b -> crex_name n = false -> ~ In n unloadable -> load_bufr (file ls) = Ok t ->
  defs_ok t /\ forall code i, query t code = Ok i -> ~ In code wide_elements -> roomy i /\ vi_type i <> TBinary.
Proof.
  intros I C U L. pose proof (load_bufr_entries _ _ L) as K. unfold entries_ok in K.
  destruct (b_table n ls I U) as (fs & t' & E & L' & F & W). rewrite C in *. unfold load_b in L'. assert (t' = t) by congruence. subst t'.
  assert (Sc : Forall (fun f => -2000000000 < bf_scale f < 2000000000) fs) by (unfold elements in E; destruct (forallb plain ls); [exact (bfast_scales _ _ _ E)|discriminate]).
  split.
  - unfold defs_ok. clear - K F Sc. induction F as [|f e fs t S F IH]; [constructor|]. inversion K; subst. inversion Sc; subst. constructor; [|auto].
    split; [assumption|]. destruct S as (_ & _ & -> & _). lia.
  - intros code i Q N. destruct (query_from _ _ _ _ F Q) as (f & If & Sy). pose proof (query_code _ _ _ Q) as Qc.
    destruct Sy as (S1 & S2 & S3 & S4 & S5 & S6 & S7). destruct (W f If) as [[Wf|Wf] Bf].
    2:{ exfalso. apply N. rewrite <- Qc, S1. apply (in_map snd) in Wf. cbn [snd] in Wf. change (map snd odd_elements) with [3868; 3868; 3868; 3868; 3868; 2241] in Wf.
        unfold wide_elements. cbn [In] in *. lia. }
    destruct Bf as [Bf|[Bf|Bf]]; [discriminate| |exfalso; apply N; rewrite <- Qc, S1; exact Bf].
    unfold width_ok in Wf. unfold whole_bytes in Bf. unfold roomy. rewrite S7, S5, S4. change (2 ^ 31) with 2147483648. destruct (bf_text f); [split; [lia|discriminate]|].
    destruct (bf_scale f =? 0); (split; [lia|discriminate]).
Qed.

(** A message of the tables that come with the library, without compression and operators: when it can be decoded, the bulletin
    that it is can be encoded, and decodes to the same bulletin.  The conditions are about ten elements,
    the header (C48_master_table_refuted, C48_year_refuted), the optional section (C40) and texts (C48_texts_refuted). *)
Theorem C48_shipped_tables : forall names opt skip fuel lt d b T found, Permutation names shipped_names -> Forall is_byte d -> strict_options opt ->
  decode opt (shipped_load names) skip fuel d = Ok (b, T, found) ->
  ~ (h_centre (b_header b) = 254 /\ h_version (b_header b) = 19) ->
  (forall code, appears T (b_datadesc b) code -> var_f code <> 2 /\ ~ In code wide_elements) ->
  b_compression b = false -> header_kept (b_header b) -> Nat.even (length (b_optional b)) = true -> b_datadesc b <> [] ->
  Forall (Forall tidy) (b_subsets b) -> lt_unknown lt = [] ->
  exists bytes, encode X86 opt T fuel lt b = Ok bytes /\
    (Z.of_nat (length bytes) < 2 ^ 24 -> exists found', decode opt (shipped_load names) skip fuel bytes = Ok (b, T, found')).
Proof.
  intros names opt skip fuel lt d b T found P F HO E Hv Hc Cp Hk Ev Nd Ht Lt.
  assert (X : exists l, decode_lead d = Ok l /\ b_header b = l_header l /\ b_datadesc b = l_datadesc l /\ shipped_load names (tableid_of (l_header l)) = Ok T).
  { unfold decode in E. inv_bind E. inv_bind Hk0. inv_bind Hk1. destruct a1. apply ok_inj in Hk0. injection Hk0 as <- <- _. exists a. auto. }
  destruct X as (l & El & Hh & Hd & Lo).
  pose proof (lead_ids d F) as Ids. unfold defined in Ids. rewrite El in Ids.
  assert (X : exists n ls, In (n, ls) shipped_b /\ crex_name n = false /\ ~ In n unloadable /\ load_bufr (file ls) = Ok (tb_b T)).
  { pose proof Lo as Lo'. unfold shipped_load in Lo'. destruct (search_bufr (wanted (tableid_of (l_header l))) (in_dir names)) as [t|] eqn:S; [|discriminate].
    destruct (load_spec names _ t P Ids S) as (n & m & lb & ld & Ib & Im & Cn & En & Em & X). rewrite Lo in X. clear Lo'.
    destruct (load_bufr (file lb)) as [bt|e|] eqn:Lb; [|discriminate|discriminate]. cbn [bind] in X.
    destruct (load_dtable (file ld)) as [dt|e|]; [|discriminate|discriminate]. cbn [bind] in X. injection X as ->.
    exists n, lb. split; [exact Ib|]. split; [exact Cn|]. split; [|exact Lb]. intros Un. apply eumetsat_name in Un. rewrite En in Un. apply (eumetsat_choice names _ _ P Ids S) in Un.
    apply Hv. rewrite Hh. exact Un. }
  destruct X as (n & ls & Ib & Cn & Un & Lb). destruct (shipped_defs n ls (tb_b T) Ib Cn Un Lb) as [D R].
  destruct (C48_messages_can_be_sent_again X86 opt (shipped_load names) skip fuel lt d b T found F HO E (load_bufr_ok _ _ Lb) D Cp Hk Ev Nd Lt) as (subs & Es & Em & K).
  apply K. unfold record_message in Es. rewrite El in Es. cbn [bind] in Es. rewrite Lo in Es. cbn [bind] in Es. inv_bind Es. destruct a as [[subs' lt'] inp']. apply ok_inj in Hk0. subst subs'.
  eapply plain_subsets; [|exact Hb|rewrite Em; exact Ht]. rewrite <- Hd. split.
  - intros code A. apply (Hc code A).
  - intros code i A Q. apply (R code i Q). destruct A as [->|[A _]]; [|apply (Hc code A)]. intros X. revert X. unfold wide_elements, var_B31012. change (wr_var 0 31 12) with 7948. cbn [In]. lia.
Qed.


(** ** An example: two values of B01001, for version 24 *)
Definition again_message : list Z := Eval vm_compute in
  Base.get_ok [] (encode X86 (mkopts false false None) Interp.Example.ex_tables 100 empty_local
    (mkbulletin (mkheader 4 0 200 0 1 0 7 5 24 0 2026 12 31 23 59 58) [] false [wr_var 0 1 1; wr_var 0 1 1]
      [[Codec.Properties.num 1 1 5; Codec.Properties.num 1 1 6]])).

Definition facts (n : string) (code : Z) : option (bool * Z * Z * Z * Z) :=
  match listed_in n shipped_b with
  | Some ls => match elements false ls with
               | Some fs => option_map (fun f => (bf_text f, bf_scale f, bf_ref f, bf_bits f, bf_len f)) (List.find (fun f => bf_code f =? code) fs)
               | None => None
               end
  | None => None
  end.
Lemma facts_24 : facts "B0000000000000024000.txt" (wr_var 0 1 1) = Some (false, 0, 0, 7, 3).
Proof. vm_cast_no_check (eq_refl (Some (false, 0, 0, 7, 3))). Qed.

Lemma fact_query n ls t code tx sc rf bi le : In (n, ls) shipped_b -> crex_name n = false -> ~ In n unloadable -> load_bufr (file ls) = Ok t ->
  facts n code = Some (tx, sc, rf, bi, le) ->
  exists u, query t code = compute_range code (if tx then TString else if sc =? 0 then TInteger else TDecimal) u sc le rf bi /\
    is_ok (query t code) = true.
Proof.
  intros I C U L Fc. unfold facts in Fc. destruct (listed_in n shipped_b) as [ls'|] eqn:Li; [|discriminate]. apply listed_in_in in Li.
  rewrite (one_b _ _ _ Li I) in Fc. destruct (b_table _ ls I U) as (fs & t' & E & L' & F & _).
  rewrite C in *. unfold load_b in L'. assert (t' = t) by congruence. subst t'. rewrite E in Fc.
  destruct (List.find (fun f => bf_code f =? code) fs) as [f|] eqn:Fd; [|discriminate]. cbn [option_map] in Fc. injection Fc as <- <- <- <- <-.
  apply find_some in Fd as [If Ef]. apply Z.eqb_eq in Ef. subst code. destruct (query_listed _ _ _ _ _ E F If) as (i & Q & S1 & S2 & S3 & S4 & S5 & S6 & S7).
  exists (vi_unit i). rewrite Q. split; [|reflexivity]. pose proof (io_built _ (load_bufr_ok _ _ L _ _ Q)) as B. unfold built in B.
  rewrite S1, S3, S4, S5, S6, S7 in B. symmetry. exact B.
Qed.

Lemma run_element o T skip k code i rest s s' : var_f code = 0 -> query (tb_b T) code = Ok i -> d_var o i s = Ok s' ->
  run (decoder o T skip) T (S k) (code :: rest) (ist_init, s) = run (decoder o T skip) T k rest (ist_init, s').
Proof.
  intros F Q D. cbn [run]. rewrite F. cbn [Z.eqb]. unfold b_variable. cbn [is_refbits ist_init Z.eqb negb]. unfold get_varinfo. rewrite Q. cbn [bind is_scale is_width is_strlen is_srw is_refs ist_init Z.eqb andb].
  cbn [is_cur is_afbits]. rewrite andb_false_r. cbn [Z.eqb negb on_var decoder]. rewrite D. reflexivity.
Qed.

Lemma two_values T u : query (tb_b T) (wr_var 0 1 1) = compute_range (wr_var 0 1 1) TInteger u 0 3 0 7 ->
  exists i found, decode (mkopts false false None) (fun _ => Ok T) true 100 again_message =
    Ok (mkbulletin (mkheader 4 0 200 0 1 0 7 5 24 0 2026 12 31 23 59 58) [] false [wr_var 0 1 1; wr_var 0 1 1]
          [[mkvar (mkcell i (Some (VInt 5))) []; mkvar (mkcell i (Some (VInt 6))) []]], T, found).
Proof.
  intros Q.
  assert (X : exists a b, compute_range (wr_var 0 1 1) TInteger u 0 3 0 7 = Ok (mkinfo (wr_var 0 1 1) TInteger u 0 3 0 7 0 126 a b)) by (do 2 eexists; reflexivity).
  destruct X as (a & b & X). rewrite X in Q. clear X. destruct T as [bt dt]. cbn [tb_b] in Q.
  change (wr_var 0 1 1) with 257 in *. set (i := mkinfo 257 TInteger u 0 3 0 7 0 126 a b) in *. exists i. unfold decode.
  assert (L : exists l, decode_lead again_message = Ok l /\ l = mklead (l_header l) [] false [257; 257] (l_sections l) 1 /\
    l_header l = mkheader 4 0 200 0 1 0 7 5 24 0 2026 12 31 23 59 58 /\ s4 (l_sections l) = 42%nat /\ s5 (l_sections l) = 48%nat).
  { eexists. split; [vm_compute; reflexivity|]. repeat split. }
  destruct L as (l & -> & El & Hh & Hs & H5). rewrite El. cbn [bind]. unfold decode_data. cbn [l_expected l_compression l_header l_optional l_datadesc l_sections Z.eqb].
  rewrite Hs, H5, Hh. change (Z.to_nat 1) with 1%nat. change 100%nat with (S (S (S 97))). cbn [decode_subsets].
  set (opt := mkopts false false None).
  assert (D1 : exists inp, d_var opt i (mkdec (mkin again_message (42 + 4) 0 0) [] empty_local) = Ok (mkdec inp [mkvar (mkcell i (Some (VInt 5))) []] empty_local) /\
    exists inp', d_var opt i (mkdec inp [mkvar (mkcell i (Some (VInt 5))) []] empty_local) =
      Ok (mkdec inp' [mkvar (mkcell i (Some (VInt 5))) []; mkvar (mkcell i (Some (VInt 6))) []] empty_local)).
  { eexists. split; [vm_compute; reflexivity|]. eexists. vm_compute. reflexivity. }
  destruct D1 as (inp1 & D1 & inp2 & D2).
  rewrite (run_element opt (mktables bt dt) true _ 257 i _ _ _ eq_refl Q D1). rewrite (run_element opt (mktables bt dt) true _ 257 i _ _ _ eq_refl Q D2).
  cbn [run bind d_vars d_lt d_in]. replace (Nat.ltb (length again_message) (48 + 4)) with false by reflexivity.
  replace (zlist_is again_message 48 [55; 55; 55; 55]) with (Ok true) by reflexivity. cbn [bind negb]. eexists. reflexivity.
Qed.

Example C48_shipped_example : forall names, Permutation names shipped_names ->
  exists b T found, decode (mkopts false false None) (shipped_load names) true 100 again_message = Ok (b, T, found) /\
    ~ (h_centre (b_header b) = 254 /\ h_version (b_header b) = 19) /\
    (forall code, appears T (b_datadesc b) code -> var_f code <> 2 /\ ~ In code wide_elements) /\
    b_compression b = false /\ header_kept (b_header b) /\ Nat.even (length (b_optional b)) = true /\ b_datadesc b <> [] /\
    Forall (Forall tidy) (b_subsets b) /\ map (map (fun v => c_val (v_cell v))) (b_subsets b) = [[Some (VInt 5); Some (VInt 6)]].
Proof.
  intros names P. set (id := mktableid 200 0 0 24 0).
  assert (W : bufr_id_ok (wanted id)) by (cbv -[Z.le Z.lt]; lia).
  destruct (loaded names id P W eq_refl ltac:(cbn; lia) ltac:(cbn; lia)) as (T & Lo & _).
  assert (X : exists ls, In ("B0000000000000024000.txt"%string, ls) shipped_b /\ load_bufr (file ls) = Ok (tb_b T)).
  { pose proof Lo as Lo'. unfold shipped_load in Lo'. destruct (search_bufr (wanted id) (in_dir names)) as [t|] eqn:S; [|discriminate]. clear Lo'.
    destruct (load_spec names _ t P W S) as (n & m & lb & ld & Ib & Im & Cn & En & Em & X). rewrite Lo in X.
    destruct (load_bufr (file lb)) as [bt|e|] eqn:Lb; [|discriminate|discriminate]. cbn [bind] in X.
    destruct (load_dtable (file ld)) as [dt|e|]; [|discriminate|discriminate]. cbn [bind] in X. injection X as ->. exists lb. split; [|exact Lb].
    pose proof (C46_wmo names id t P W ltac:(cbn; lia) ltac:(cbn; lia) S) as Ft. rewrite Ft in En. cbn [t_version id Z.eqb Pos.eqb] in En.
    replace n with "B0000000000000024000.txt"%string in Ib; [exact Ib|]. apply chars_inj. rewrite En. vm_compute. reflexivity. }
  destruct X as (ls & I & Lb). 
  assert (U : ~ In "B0000000000000024000.txt"%string unloadable) by (intros [X|[]]; discriminate).
  destruct (fact_query _ ls (tb_b T) _ _ _ _ _ _ I eq_refl U Lb facts_24) as (u & Q & _).
  destruct (two_values T u Q) as (i & found & D).
  exists (mkbulletin (mkheader 4 0 200 0 1 0 7 5 24 0 2026 12 31 23 59 58) [] false [wr_var 0 1 1; wr_var 0 1 1]
          [[mkvar (mkcell i (Some (VInt 5))) []; mkvar (mkcell i (Some (VInt 6))) []]]), T, found.
  split.
  { revert D. unfold decode. destruct (decode_lead again_message) as [l| |] eqn:L; [|discriminate|discriminate].
    assert (Ti : tableid_of (l_header l) = id).
    { assert (Y : match decode_lead again_message with Ok l => tableid_of (l_header l) = id | _ => True end) by (vm_compute; reflexivity). rewrite L in Y. exact Y. }
    cbn [bind]. rewrite Ti, Lo. cbn [bind]. exact (fun D => D). }
  cbn [b_header b_datadesc b_compression b_optional b_subsets h_centre h_version].
  split; [lia|]. split.
  { intros code A. assert (K : code = wr_var 0 1 1).
    { induction A as [code [<-|[<-|[]]]|code d' body _ IH F3 _ _]; auto. subst. discriminate. }
    subst code. split; [discriminate|]. intros X. vm_compute in X. repeat (destruct X as [X|X]; [discriminate|]). exact X. }
  split; [reflexivity|]. split; [reflexivity|]. split; [reflexivity|]. split; [discriminate|]. split; [|reflexivity]. repeat constructor.
Qed.

Print Assumptions C48_shipped_tables.

(** C56: the variables that decoding gives agree with their definitions. *)
From Coq Require Import ZArith Lia ZifyBool ZifyNat String.
From Verif Require Import Base Bits.Model Bits.Spec Num.Float Varcode.Model Varinfo.Model Varinfo.RangeProofs Tables.Model Tables.Spec Tables.LoadProofs Tables.Proofs Varinfo.Proofs
  Var.Model Var.Spec Var.Proofs Var.AttrProofs Interp.Model Interp.Appears Interp.Example Codec.Model Codec.Compressed Codec.ColumnProofs Codec.Checked Codec.CheckedEnc Codec.CheckedEncProofs
  Codec.AgainSteps Codec.AgainProperties Codec.Sound Codec.SoundProofs Codec.SoundRuns Message.Model Message.CheckedEnc Message.EncodeProperties
  Crex.Model Crex.Spec Crex.CheckedEnc Crex.EncodeProperties.
From Verif Require Num.FloatProofs Message.Properties Message.BytesProperties Crex.OperatorProperties Crex.AgainProperties.
Local Open Scope Z_scope.

(** ** Whatever the message *)
Theorem C56_bufr : forall opt load skip fuel d b T found, hook_ok opt ->
  decode opt load skip fuel d = Ok (b, T, found) -> table_ok (tb_b T) -> defs_ok (tb_b T) ->
  Forall (Forall (sound_var opt)) (b_subsets b).
Proof.
  intros opt load skip fuel d b T found HO E HT HD. unfold decode in E. inv_bind E. inv_bind Hk. inv_bind Hk0. destruct a1 as [subs lt]. apply ok_inj in Hk. injection Hk as <- <- _. cbn [b_subsets].
  unfold decode_data in Hb1. cbv zeta in Hb1. destruct (_ =? 0); [discriminate|]. inv_bind Hb1. destruct a1 as [[subs' lt'] inp].
  assert (X : all_sound opt subs').
  { destruct (l_compression a); [eapply compressed_sound|eapply subsets_sound]; eauto; apply C48_no_local_definitions. }
  destruct (Nat.ltb _ _); [discriminate|]. inv_bind Hk. destruct (negb a1); [discriminate|]. apply ok_inj in Hk0. injection Hk0 as <- _. exact X.
Qed.

Theorem C56_crex : forall o load fuel data b T, hook_ok o ->
  decode_crex o load fuel data = Ok b -> load (cb_header b) = Ok T -> table_ok (tb_b T) -> defs_ok (tb_b T) ->
  Forall (Forall (sound_var o)) (cb_subsets b).
Proof.
  intros o load fuel data b T HO E L HT HD. unfold decode_crex in E. inv_bind E. destruct a as [[h descs] c]. inv_bind Hk. inv_bind Hk0. apply ok_inj in Hk. subst b. cbn [cb_header cb_subsets] in *.
  assert (a = T) by congruence. subst a. unfold decode_cdata in Hb1. destruct (check_eof c); [|discriminate|discriminate]. cbn [bind] in Hb1.
  destruct (decode_csubsets o T fuel descs (S (length (ci_rest c))) empty_local c) as [[gots c1]| |] eqn:D; [|discriminate|discriminate]. cbn [bind] in Hb1. cbv zeta in Hb1.
  apply csubsets_sound in D; auto; [|apply C48_no_local_definitions].
  match goal with X : bind _ _ = Ok ?z |- _ => assert (Q : z = gots); [|rewrite Q; exact D]; revert X end. clear.
  repeat match goal with |- bind ?m _ = _ -> _ => destruct m; [cbn [bind]|discriminate|discriminate] end.
  match goal with |- (if ?b then _ else _) = _ -> _ => destruct b; [|discriminate] end. intros X. apply ok_inj in X. auto.
Qed.

Lemma crex_entries text t : load_crex text = Ok t -> entries_ok t.
Proof.
  unfold load_crex. intros H. revert H. assert (H0 : entries_ok []) by constructor. revert H0.
  generalize (@nil bentry). generalize (file_lines text). clear text.
  induction l as [|line l IH]; intros t0 H0 E; cbn [load_clines] in E; [congruence|].
  inv_bind E. destruct a as [i|]; [|eauto]. inv_bind Hk. eapply IH; [|exact Hk0]. eapply obtain_ok; eauto. eapply crex_line_ok; eauto.
Qed.

(** Tables that come from files, with scales that can be written. *)
Theorem C56_files : forall text t, (load_bufr text = Ok t \/ load_crex text = Ok t) -> Forall (fun e => -2000000000 <= vi_scale (be_info e) <= 2000000000) t ->
  table_ok t /\ defs_ok t.
Proof.
  intros text t L Sc. assert (K : entries_ok t) by (destruct L as [L|L]; [eapply load_bufr_entries|eapply crex_entries]; eauto).
  split; [apply entries_ok_table; exact K|]. unfold defs_ok. unfold entries_ok in K. rewrite Forall_forall in *. intros e Ie. split; auto.
Qed.

(** ** What this means *)

(** When values out of range are not replaced by the nearest limit, there is no exception. *)
Theorem C56_in_range : forall o v, o_clamp o = false -> sound_var o v -> cell_ok (v_cell v) /\ Forall cell_ok (v_attrs v).
Proof.
  intros o v C (A & B & _). assert (X : forall c, sound o c -> cell_ok c) by (intros c [H|(H & _)]; [exact H|congruence]). split; [apply X; exact A|]. eapply Forall_impl; [|exact B]. exact X.
Qed.

(** Decoded bulletins are among those of C49 and C53, whatever the options. *)
Lemma sound_made o c : sound o c -> made c.
Proof.
  intros H. pose proof (sound_info _ _ H) as Hi. split; [intros N; apply info_ok_numeric in Hi as (Hs & _); [unfold scale_ok in Hs; lia|exact N]|]. split; [apply Hi|].
  destruct H as [[_ H]|(_ & _ & N & _ & H)].
  - destruct (c_val c) as [v|]; [|exact I]. unfold value_ok in H. destruct (vi_type (c_info c)) eqn:Ty, v; try contradiction; try reflexivity;
      (destruct (info_ok_numeric _ Hi) as (_ & I1 & I2 & _); [rewrite Ty; reflexivity|]; split; [reflexivity|lia]).
  - destruct (info_ok_numeric _ Hi N) as (_ & I1 & I2 & _). destruct H as [-> | ->]; auto.
Qed.
Lemma all_made o subs : all_sound o subs -> Forall (Forall made_var) subs.
Proof.
  intros H. eapply Forall_impl; [|exact H]. intros vars V. eapply Forall_impl; [|exact V]. intros v (A & B & _). split; [eapply sound_made; eauto|]. eapply Forall_impl; [|exact B]. intros c. apply sound_made.
Qed.

(** So encoding the bulletin again, with any options and any fuel, stops in a defined way once the checks of C49 (C53 for
    CREX) are made: also with other tables and another template, and a BUFR bulletin as CREX. *)
Theorem C56_encode : forall opt load skip fuel d b T found p opt' T' fuel' lt ops, hook_ok opt ->
  decode opt load skip fuel d = Ok (b, T, found) -> table_ok (tb_b T) -> defs_ok (tb_b T) ->
  hook_safe opt' -> entries_ok (tb_b T') -> tame T' ops -> unknown_fine lt ->
  checked_encode p opt' T' fuel' lt (mkbulletin (b_header b) (b_optional b) (b_compression b) ops (b_subsets b)) <> UB.
Proof.
  intros opt load skip fuel d b T found p opt' T' fuel' lt ops HO E HT HD HS He Ht Hu. apply C49_checked_safe; auto. unfold bulletin_made. cbn [b_subsets].
  eapply all_made. exact (C56_bufr _ _ _ _ _ _ _ _ HO E HT HD).
Qed.
Theorem C56_bufr_as_crex : forall opt load skip fuel d b T found opt' T' fuel' lt h ops, hook_ok opt ->
  decode opt load skip fuel d = Ok (b, T, found) -> table_ok (tb_b T) -> defs_ok (tb_b T) ->
  hook_defined opt' -> crex_elements (tb_b T') -> calm_template T' ops ->
  checked_crex opt' T' fuel' lt (mkcb h ops (b_subsets b)) <> UB.
Proof.
  intros opt load skip fuel d b T found opt' T' fuel' lt h ops HO E HT HD HS He Ht. apply C53_checked_safe; auto. unfold cbulletin_made. cbn [cb_subsets].
  eapply all_made. exact (C56_bufr _ _ _ _ _ _ _ _ HO E HT HD).
Qed.
Theorem C56_crex_as_bufr : forall o load fuel data b T p opt' T' fuel' lt h optional ops, hook_ok o ->
  decode_crex o load fuel data = Ok b -> load (cb_header b) = Ok T -> table_ok (tb_b T) -> defs_ok (tb_b T) ->
  hook_safe opt' -> entries_ok (tb_b T') -> tame T' ops -> unknown_fine lt ->
  checked_encode p opt' T' fuel' lt (mkbulletin h optional false ops (cb_subsets b)) <> UB.
Proof.
  intros o load fuel data b T p opt' T' fuel' lt h optional ops HO E L HT HD HS He Ht Hu. apply C49_checked_safe; auto. unfold bulletin_made. cbn [b_subsets].
  eapply all_made. exact (C56_crex _ _ _ _ _ _ HO E L HT HD).
Qed.

(** ** Examples *)
Definition plain : options := mkopts false false None.
Definition clamping : options := mkopts false true None.

Definition values (subs : list (list var)) : list (list (option value)) := map (map (fun v => c_val (v_cell v))) subs.
Definition got (o : options) (d : list Z) : res (list (list (option value))) :=
  ' (b, _, _) <- decode o Message.Properties.ex_load true 100 d ;; Ok (values (b_subsets b)).

(** B01001 twice, 5 and missing; B01001 compressed, 5 and missing; a CREX message. *)
Definition two_values : list Z := [66; 85; 70; 82; 0; 0; 52; 4; 0; 0; 22; 0; 0; 200; 0; 0; 0; 0; 0; 0; 0; 13; 0; 7; 234; 11; 15; 18; 0; 0; 0; 0; 12; 0; 0; 1; 128; 1; 1; 1; 1; 0; 0; 0; 6; 0; 11; 252; 55; 55; 55; 55].
Definition compressed_values : list Z :=
  [66; 85; 70; 82; 0; 0; 52; 4; 0; 0; 22; 0; 0; 200; 0; 0; 0; 0; 0; 0; 0; 13; 0; 7; 234; 11; 15; 18; 0; 0; 0; 0; 10; 0; 0; 2; 192; 1; 1; 0; 0; 0; 8; 0; 10; 17; 128; 0; 55; 55; 55; 55].
Definition crex_text : list Z := Crex.AgainProperties.str "CREX++ T000103 A001 B12001 B01015++ 0283 Rome ++ 7777".
Example C56_example :
  hook_ok plain /\ table_ok (tb_b ex_tables) /\ defs_ok (tb_b ex_tables) /\
  got plain two_values = Ok [[Some (VInt 5); None]] /\ got plain compressed_values = Ok [[Some (VInt 5)]; [None]] /\
  table_ok (tb_b Crex.OperatorProperties.operator_tables) /\ defs_ok (tb_b Crex.OperatorProperties.operator_tables) /\
  (b <- decode_crex plain (fun _ => Ok Crex.OperatorProperties.operator_tables) 100 crex_text ;; Ok (values (cb_subsets b))) =
    Ok [[Some (VInt 283); Some (VStr [82; 111; 109; 101])]].
Proof.
  split; [exact I|]. split; [exact ex_btable_ok|]. split; [exact ex_defs_ok|]. split; [vm_compute; reflexivity|]. split; [vm_compute; reflexivity|].
  rewrite <- and_assoc. split; [|vm_compute; reflexivity]. apply (C56_files Crex.OperatorProperties.operator_file).
  - right. apply (get_ok_eq []). vm_compute. reflexivity.
  - assert (X : forallb (fun e => (-2000000000 <=? vi_scale (be_info e)) && (vi_scale (be_info e) <=? 2000000000)) (tb_b Crex.OperatorProperties.operator_tables) = true) by (vm_compute; reflexivity).
    rewrite forallb_forall in X. apply Forall_forall. intros e He. specialize (X e He). lia.
Qed.

(** 203016 B01001 (5000) 203255 B01001: the reference value is more than the three digits of the element, and no value is in
    the range.  When values out of range are replaced by the nearest limit, it is replaced by the upper limit, that is
    not in the range; otherwise the message is refused. *)
Definition big_reference : list Z :=
  [66; 85; 70; 82; 0; 0; 58; 4; 0; 0; 22; 0; 0; 200; 0; 0; 0; 0; 0; 0; 0; 13; 0; 7; 234; 11; 15; 18; 0; 0; 0; 0; 16; 0; 0; 1; 128; 131; 16; 1; 1; 131; 255; 1; 1; 0; 0; 0; 8; 0; 19; 136; 10; 0; 55; 55; 55; 55].
Theorem C56_empty_range_refuted :
  hook_ok clamping /\ got clamping big_reference = Ok [[Some (VInt 998)]] /\
  (' (b, _, _) <- decode clamping Message.Properties.ex_load true 100 big_reference ;;
   Ok (map (map (fun v => (vi_imin (c_info (v_cell v)), vi_imax (c_info (v_cell v))))) (b_subsets b))) = Ok [[(5000, 998)]] /\
  got plain big_reference = Err EDomain.
Proof. split; [exact I|]. split; [|split]; vm_compute; reflexivity. Qed.

Print Assumptions C56_bufr.
Print Assumptions C56_crex.
Print Assumptions C56_encode.
Print Assumptions C56_empty_range_refuted.

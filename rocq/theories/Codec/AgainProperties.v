(** C48: what is decoded can be encoded and decoded again. *)
From Coq Require Import ZArith Lia ZifyBool ZifyNat.
From Verif Require Import Base Bits.Model Bits.Spec Bits.StringProofs Num.Float Varcode.Model Varinfo.Model Varinfo.RangeProofs Tables.Model Tables.LoadProofs
  Var.Model Interp.Model Interp.Example Codec.Model Codec.Spec Codec.Proofs Codec.TransferProofs Codec.ColumnProofs Codec.Again Codec.AgainCheck Codec.AgainProofs Codec.AgainSteps.
From Verif Require Codec.Properties.
Local Open Scope Z_scope.

Lemma recorded o T skip fuel ops : forall n lt inp gots lt' inp', decode_subsets o T skip fuel ops n lt inp = Ok (gots, lt', inp') ->
  exists subs, record_subsets o T skip fuel ops n lt inp = Ok (subs, lt', inp') /\ map fst subs = gots.
Proof.
  induction n as [|n IH]; intros lt inp gots lt' inp' E; cbn [decode_subsets record_subsets] in *.
  - apply ok_inj in E. injection E as <- <- <-. exists []. auto.
  - inv_bind E. destruct a as [st s]. inv_bind Hk. destruct a as [[rest lt2] inp2]. apply ok_inj in Hk0. injection Hk0 as <- <- <-.
    destruct (recorded_run o T skip fuel ops _ _ [] _ _ Hb) as [l R]. rewrite R. cbn [bind fst snd]. destruct (IH _ _ _ _ _ Hb0) as (subs & Es & Em). rewrite Es. cbn [bind].
    eexists. split; [reflexivity|]. cbn [map fst]. rewrite Em. reflexivity.
Qed.

Lemma sent_again p o T skip fuel ops : strict_options o -> table_ok (tb_b T) -> defs_ok (tb_b T) -> forall n lt inp subs lt' inp',
  locals_ok lt -> record_subsets o T skip fuel ops n lt inp = Ok (subs, lt', inp') ->
  Forall (Forall var_infos_ok) (map fst subs) /\ length subs = n /\ locals_ok lt' /\
  (Forall (fun q => faithful p T (fst q) (snd q)) subs -> transfer_all p T skip fuel ops (map fst subs) lt = Ok (map fst subs, lt')).
Proof.
  intros HO HT HD. induction n as [|n IH]; intros lt inp subs lt' inp' L E; cbn [record_subsets] in E.
  - apply ok_inj in E. injection E as <- <- <-. cbn [map length transfer_all]. repeat (split; [auto|]). reflexivity.
  - inv_bind E. destruct a as [st [s l]]. inv_bind Hk. destruct a as [[rest lt2] inp2]. apply ok_inj in Hk0. injection Hk0 as <- <- <-. cbn [fst snd] in *.
    destruct (transmission o HO T skip p (d_vars s) HT HD fuel ops st (s, l) inp lt Hb L) as [(G1 & G2 & _) K]. cbn [fst snd] in *.
    destruct (IH _ _ _ _ _ G2 Hb0) as (I1 & I2 & I3 & I4). cbn [map fst length]. split; [|split; [lia|split; [exact I3|]]].
    + constructor; [eapply Forall_impl; [|exact G1]; cbv beta; tauto|exact I1].
    + intros Fa. inversion Fa as [|? ? F1 F2]; subst. cbn [fst snd] in F1. destruct (K eq_refl F1) as (x & Ex & Xg & Xl). cbn [transfer_all].
      unfold transfer. rewrite Ex. cbn [bind]. rewrite Xg, Xl, (I4 F2). reflexivity.
Qed.

(** Whatever bytes the subsets have been decoded from: if each subset is faithful to what the template
    asks for, then encoding it gives bytes that decode to the same variables, attributes included. *)
Theorem C48_data_can_be_sent_again : forall p o T skip fuel ops n lt inp gots lt' inp',
  strict_options o -> table_ok (tb_b T) -> defs_ok (tb_b T) -> locals_ok lt ->
  decode_subsets o T skip fuel ops n lt inp = Ok (gots, lt', inp') ->
  exists subs, record_subsets o T skip fuel ops n lt inp = Ok (subs, lt', inp') /\ map fst subs = gots /\
    (Forall (fun q => faithful p T (fst q) (snd q)) subs ->
     forall lte pre, lt_unknown lte = lt_unknown lt -> Forall is_byte pre ->
     exists lte' out bytes, encode_subsets p o T fuel ops gots lte (mkout pre 0 0) = Ok (lte', out) /\
       obytes (flush out) = pre ++ bytes /\ Forall is_byte bytes /\
       forall post, Forall is_byte post -> (1 <= length post)%nat ->
       exists inp2, decode_subsets o T skip fuel ops n lt (mkin (pre ++ bytes ++ post) (length pre) 0 0) = Ok (gots, lt', inp2)).
Proof.
  intros p o T skip fuel ops n lt inp gots lt' inp' HO HT HD L E. destruct (recorded _ _ _ _ _ _ _ _ _ _ _ E) as (subs & Es & <-). exists subs.
  split; [exact Es|]. split; [reflexivity|]. intros Fa lte pre Ll Fp. destruct (sent_again p o T skip fuel ops HO HT HD _ _ _ _ _ _ L Es) as (V & N & _ & K).
  destruct (bytes_roundtrip p o T skip fuel ops _ lt lte _ lt' pre HT V Ll Fp (K Fa)) as (lte' & out & bytes & E1 & E2 & E3 & E4).
  exists lte', out, bytes. split; [exact E1|]. split; [exact E2|]. split; [exact E3|]. intros post F1 F2. specialize (E4 post F1 F2). rewrite map_length, N in E4. exact E4.
Qed.

(** The tables of the library and the local tables at the start meet the conditions. *)
Theorem C48_no_local_definitions : locals_ok empty_local.
Proof. split; [constructor|]. split; constructor. Qed.

(** A template with a sequence, a delayed replication, a changed width and quality information that a
    bitmap selects: the two subsets can be sent again. *)
Definition ex_bytes : list Z :=
  get_ok [] (' (_, out) <- encode_subsets X86 (mkopts false false None) ex_tables 100 Codec.Properties.ex_ops
                            [Codec.Properties.ex_subset 300; Codec.Properties.ex_subset 400] empty_local out_empty ;; Ok (obytes (flush out) ++ [55])).

Lemma is_ok_exists {A} (m : res A) : is_ok m = true -> exists a, m = Ok a.
Proof. destruct m as [a| |]; try discriminate. intros _. exists a. reflexivity. Qed.

Lemma sizes_faithful p T (subs : list (list var * list request)) sizes :
  (if list_eq_dec Nat.eq_dec (map (fun q => length (snd q)) subs) sizes then true else false) && forallb (fun q => faithfulb p T (fst q) (snd q)) subs = true ->
  map (fun q => length (snd q)) subs = sizes /\ Forall (fun q => faithful p T (fst q) (snd q)) subs.
Proof. intros H. apply andb_true_iff in H as [H1 H2]. destruct (list_eq_dec _ _ _) as [L|]; [|discriminate]. split; [exact L|]. apply all_faithful. exact H2. Qed.

Lemma ex_defs_ok : defs_ok (tb_b ex_tables).
Proof.
  assert (X : forallb (fun e => (-2000000000 <=? vi_scale (be_info e)) && (vi_scale (be_info e) <=? 2000000000)) (tb_b ex_tables) = true) by (vm_compute; reflexivity).
  rewrite forallb_forall in X. pose proof (load_bufr_entries _ _ ex_btable_loads) as O. unfold entries_ok in O. rewrite Forall_forall in O.
  apply Forall_forall. intros e He. split; [exact (O e He)|specialize (X e He); lia].
Qed.

Example C48_example :
  strict_options (mkopts false false None) /\ table_ok (tb_b ex_tables) /\ defs_ok (tb_b ex_tables) /\ locals_ok empty_local /\
  exists gots lt' inp' subs,
    decode_subsets (mkopts false false None) ex_tables true 100 Codec.Properties.ex_ops 2 empty_local (mkin ex_bytes 0 0 0) = Ok (gots, lt', inp') /\
    record_subsets (mkopts false false None) ex_tables true 100 Codec.Properties.ex_ops 2 empty_local (mkin ex_bytes 0 0 0) = Ok (subs, lt', inp') /\
    map (fun q => length (snd q)) subs = [12; 12]%nat /\
    Forall (fun q => faithful X86 ex_tables (fst q) (snd q)) subs.
Proof.
  split; [repeat split|]. split; [exact ex_btable_ok|]. split; [exact ex_defs_ok|]. split; [exact C48_no_local_definitions|].
  assert (X : match record_subsets (mkopts false false None) ex_tables true 100 Codec.Properties.ex_ops 2 empty_local (mkin ex_bytes 0 0 0) with
              | Ok (subs, _, _) => (if list_eq_dec Nat.eq_dec (map (fun q => length (snd q)) subs) [12; 12]%nat then true else false) &&
                                   forallb (fun q => faithfulb X86 ex_tables (fst q) (snd q)) subs
              | _ => false
              end = true) by (vm_compute; reflexivity).
  assert (Y : is_ok (decode_subsets (mkopts false false None) ex_tables true 100 Codec.Properties.ex_ops 2 empty_local (mkin ex_bytes 0 0 0)) = true) by (vm_compute; reflexivity).
  apply is_ok_exists in Y as ([[gots lt'] inp'] & E).
  destruct (recorded _ _ _ _ _ _ _ _ _ _ _ E) as (subs & Es & Em). rewrite Es in X. exists gots, lt', inp', subs. split; [exact E|]. split; [exact Es|].
  exact (sizes_faithful _ _ _ _ X).
Qed.

(** ** What is not kept

    The variables that are decoded, and those that are decoded after they have been encoded. *)
Definition twice (ops data : list Z) :=
  ' (g, _, _) <- decode_subsets (mkopts false false None) ex_tables true 100 ops 1 empty_local (mkin data 0 0 0) ;;
  ' (_, out) <- encode_subsets X86 (mkopts false false None) ex_tables 100 ops g empty_local out_empty ;;
  ' (g', _, _) <- decode_subsets (mkopts false false None) ex_tables true 100 ops 1 empty_local (mkin (obytes (flush out) ++ [55]) 0 0 0) ;;
  Ok (map Codec.Properties.view g, map Codec.Properties.view g').

(** Texts: the decoder takes away the blanks at the end, then cuts at the first NUL.  What is left may
    end with blanks, which do not survive a second time, and empty texts come back as one
    blank.  Character data is cut in the same way and comes back longer. *)
Theorem C48_texts_refuted :
  twice [wr_var 0 1 11] [65; 32; 0; 66; 32; 32; 32; 32; 32; 55] =
    Ok ([[(wr_var 0 1 11, Some (VStr [65; 32]), [])]], [[(wr_var 0 1 11, Some (VStr [65]), [])]]) /\
  twice [wr_var 0 1 11] [0; 66; 0; 0; 0; 0; 0; 0; 0; 55] =
    Ok ([[(wr_var 0 1 11, Some (VStr []), [])]], [[(wr_var 0 1 11, Some (VStr [32]), [])]]) /\
  twice [wr_var 2 5 3] [65; 0; 66; 55] =
    Ok ([[(wr_var 2 5 3, Some (VStr [65]), [])]], [[(wr_var 2 5 3, Some (VStr [65; 32; 32]), [])]]).
Proof. repeat split; vm_compute; reflexivity. Qed.

(** A new reference value of zero can be decoded; encoding it counts the leading zeros of zero. *)
Theorem C48_reference_zero_refuted :
  let ops := [wr_var 2 3 8; wr_var 0 12 101; wr_var 2 3 255; wr_var 0 12 101; wr_var 0 1 1] in
  is_ok (decode_subsets (mkopts false false None) ex_tables true 100 ops 1 empty_local (mkin [0; 1; 2; 3; 4; 5; 55] 0 0 0)) = true /\
  twice ops [0; 1; 2; 3; 4; 5; 55] = UB.
Proof. split; vm_compute; reflexivity. Qed.

Print Assumptions C48_data_can_be_sent_again.
Print Assumptions C48_no_local_definitions.

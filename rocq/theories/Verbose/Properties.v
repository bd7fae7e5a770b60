(** C66: a decoding that tells what it does gives what a decoding gives, and tells it. *)
From Coq Require Import ZArith Lia ZifyBool ZifyNat String.
From Verif Require Import Base Bits.Model Bits.Spec Num.Float Varcode.Model Varinfo.Model Tables.Model Tables.Spec Tables.LoadProofs
  Var.Model Var.Spec Var.FormatSpec Var.Format Interp.Model Interp.Hom Interp.ExpandProofs Interp.Appears Interp.Holds Interp.Example
  Codec.Model Codec.AgainSteps Codec.AgainProperties Message.Model Message.SafeProofs Message.Properties Message.BytesProperties Codec.AgainCompProperties Message.AgainCompProperties
  Listing.Model Listing.Spec Verbose.Model Verbose.Spec Verbose.SameProofs Verbose.TextRuns.
Local Open Scope Z_scope.

(** The tables that are loaded have definitions that the formats allow. *)
Definition loads_defined (load : tableid -> res tables) : Prop := forall i T, load i = Ok T -> table_ok (tb_b T) /\ defs_ok (tb_b T).

(** The bulletin, the tables and the ends of the sections, or the error, are the same. *)
Theorem C66_same : forall fixed full path opt load skip fuel d, hook_ok opt -> loads_defined load -> Forall is_byte d ->
  rmap fst (decode_verbose fixed full path opt load skip fuel d) = decode opt load skip fuel d.
Proof.
  intros fixed full path opt load skip fuel d HO HL HB. unfold decode_verbose, decode.
  pose proof (lead_safe d HB) as D. destruct (decode_lead d) as [l| |]; cbn [bind]; [|reflexivity|reflexivity].
  destruct D as (_ & X & _). destruct (load _) as [T| |] eqn:ET; cbn [bind]; [|reflexivity|reflexivity].
  apply HL in ET as [HT HD]. rewrite <- (tell_data_same fixed full path opt HO T HT HD skip fuel d l (proj1 X)).
  destruct (tell_data _ _ _ _ _ _ _ _ l) as [[[subs lt] t]| |]; reflexivity.
Qed.
Print Assumptions C66_same.

(** The template has none of 203YYY, 204YYY, 222000, 223YYY and 237YYY. *)
Definition straightforward (T : tables) (ops : list Z) : Prop :=
  forall c, appears T ops c -> var_f c = 2 -> ~ In (var_x c) [3; 4; 22; 23; 37].

(** The text is that of the subsets, one after the other: each is told of its template and of its own variables. *)
Theorem C66_text : forall fixed full path opt load skip fuel d b T ends t,
  decode_verbose fixed full path opt load skip fuel d = Ok (b, T, ends, t) ->
  straightforward T (b_datadesc b) -> b_compression b = false ->
  exists texts, t = concat texts /\ Forall2 (told T full (var_shows fixed) var_counts 0 (b_datadesc b)) (b_subsets b) texts.
Proof.
  intros fixed full path opt load skip fuel d b T ends t E HX HC. unfold decode_verbose in E. inv_bind E. inv_bind Hk. inv_bind Hk0.
  destruct a1 as [[subs lt] u]. rename a0 into T0. apply same_ok, pair_equal_spec in Hk as [E <-]. apply pair_equal_spec in E as [E _]. apply pair_equal_spec in E as [<- <-].
  cbn [b_compression b_datadesc b_subsets] in *. unfold tell_data in Hb1. rewrite HC in Hb1. destruct (_ =? 0); [discriminate|]. inv_bind Hb1. destruct a0 as [[[subs1 lt1] inp] u1].
  destruct (Nat.ltb _ _); [discriminate|]. inv_bind Hk. destruct (negb a0); [discriminate|]. apply same_ok, pair_equal_spec in Hk0 as [Hk0 <-]. apply pair_equal_spec in Hk0 as [<- _].
  exact (tell_subsets_told fixed full path opt T0 skip _ HX _ _ _ _ _ _ _ _ Hb2).
Qed.
Print Assumptions C66_text.

(** With compression each line of values has those of all the subsets. *)
Theorem C66_compressed_text : forall fixed full path opt load skip fuel d b T ends t,
  decode_verbose fixed full path opt load skip fuel d = Ok (b, T, ends, t) ->
  straightforward T (b_datadesc b) -> b_compression b = true ->
  exists cols, b_subsets b = of_columns (length (b_subsets b)) cols /\ Forall (fun c => length c = length (b_subsets b)) cols /\
    told T full (column_shows fixed) column_counts 0 (b_datadesc b) cols t.
Proof.
  intros fixed full path opt load skip fuel d b T ends t E HX HC. unfold decode_verbose in E. inv_bind E. inv_bind Hk. inv_bind Hk0.
  destruct a1 as [[subs lt] u]. rename a0 into T0. apply same_ok, pair_equal_spec in Hk as [E <-]. apply pair_equal_spec in E as [E _]. apply pair_equal_spec in E as [<- <-].
  cbn [b_compression b_datadesc b_subsets] in *. unfold tell_data in Hb1. rewrite HC in Hb1. destruct (_ =? 0); [discriminate|]. inv_bind Hb1. destruct a0 as [[[subs1 lt1] inp] u1].
  destruct (Nat.ltb _ _); [discriminate|]. inv_bind Hk. destruct (negb a0); [discriminate|]. apply same_ok, pair_equal_spec in Hk0 as [Hk0 <-]. apply pair_equal_spec in Hk0 as [<- _].
  destruct (tell_compressed_told fixed full path opt T0 skip _ HX _ _ _ _ _ _ _ _ Hb2) as (cols & E1 & E2 & E3).
  assert (L : length subs1 = Z.to_nat (l_expected a)) by (rewrite E1; apply columns_size; exact E2). rewrite L. exists cols. auto.
Qed.
Print Assumptions C66_compressed_text.

(** ** Examples *)

Definition lines_of (l : list string) : list Z := flat_map (fun s => chars s ++ [10]) l.
Definition ex_decode (d : list Z) : res (bulletin * tables * list nat * list Z) :=
  decode_verbose (fun _ _ => chars "N") (fun _ => chars "D") (chars "P") (mkopts false false None) ex_load true 100 d.

Lemma ex_loads_defined : loads_defined ex_load.
Proof. intros i T. unfold ex_load. destruct (_ =? 13); [|discriminate]. intros E. apply same_ok in E. subst T. split; [exact ex_btable_ok|exact ex_defs_ok]. Qed.

(** A template with a quality bitmap meets the conditions of C66_same. *)
Example C66_same_example : hook_ok (mkopts false false None) /\ loads_defined ex_load /\ Forall is_byte (ex_encode 4 40000 2026) /\
  is_ok (decode (mkopts false false None) ex_load true 100 (ex_encode 4 40000 2026)) = true /\
  (' (_, t) <- ex_decode (ex_encode 4 40000 2026) ;; Ok (skipn (length t - 195) t)) = Ok (lines_of
  ["222000 quality information with bitmap"; "033007 D[%]"; "       attribute 033007 D"; "       at position 1: 012101 D"; "       N";
   "033007 D[%]"; "       attribute 033007 D"; "       at position 6: 012101 D"; "       N"]%string).
Proof.
  split; [exact I|]. split; [exact ex_loads_defined|]. split; [apply ex_bytes; vm_compute; reflexivity|]. split; vm_compute; reflexivity.
Qed.

(** A sequence, a delayed and a fixed replication, a missing value, a string, operators. *)
Definition ex_template : list Z := firstn 5 Codec.Properties.ex_ops ++ [wr_var 2 6 7; wr_var 0 1 1; wr_var 1 1 2; wr_var 0 1 1].
Definition ex_vars (wide : Z) : list var :=
  firstn 9 (Codec.Properties.ex_subset wide) ++ [Codec.Properties.num 1 1 3; Codec.Properties.num 1 1 1; Codec.Properties.num 1 1 2].
Definition ex_told : list Z :=
  get_ok [] (encode X86 (mkopts false false None) ex_tables 100 empty_local (mkbulletin (ex_header 4 40000 3 2026) [] false ex_template [ex_vars 300; ex_vars 400])).
Lemma ex_straight ops : forallb (fun c => negb (var_f c =? 2) || negb (existsb (Z.eqb (var_x c)) [3; 4; 22; 23; 37])) (ops ++ ex_dcodes) = true -> straightforward ex_tables ops.
Proof.
  intros H c A F. rewrite forallb_forall in H. specialize (H c). rewrite in_app_iff in H. specialize (H (appears_listed _ _ _ A)). rewrite F in H. cbn [negb Z.eqb Pos.eqb orb] in H.
  intros I. assert (X : existsb (Z.eqb (var_x c)) [3; 4; 22; 23; 37] = true) by (apply existsb_exists; exists (var_x c); split; [exact I|apply Z.eqb_refl]). rewrite X in H. discriminate.
Qed.
Lemma ex_checks d lines ops c n : (' (b, _, _, t) <- ex_decode d ;; Ok (t, b_datadesc b, b_compression b, length (b_subsets b))) = Ok (lines, ops, c, n) ->
  straightforward ex_tables ops ->
  exists b ends, ex_decode d = Ok (b, ex_tables, ends, lines) /\ straightforward ex_tables (b_datadesc b) /\ b_compression b = c /\ length (b_subsets b) = n.
Proof.
  intros X HS. inv_bind X. destruct a as [[[b T] ends] t]. apply same_ok, pair_equal_spec in Hk as [Hk X4]. apply pair_equal_spec in Hk as [Hk X3]. apply pair_equal_spec in Hk as [X1 X2].
  assert (HT : T = ex_tables).
  { pose proof Hb as E. unfold ex_decode, decode_verbose in E. inv_bind E. inv_bind Hk. unfold ex_load in Hb1. match type of Hb1 with (if ?c then _ else _) = _ => destruct c end; [|discriminate].
    apply same_ok in Hb1. subst a0. inv_bind Hk0.
    destruct a0 as [[u v] w]. apply same_ok, pair_equal_spec in Hk as [Hk _]. apply pair_equal_spec in Hk as [Hk _]. apply pair_equal_spec in Hk as [_ <-]. reflexivity. }
  exists b, ends. rewrite X1, HT in Hb. rewrite X2. auto.
Qed.
Definition ex_lines : list string :=
  ["301002  (group)"; "  301001  (group)"; "    001001 D[NUMERIC]"; "           N"; "    012101 D[K]"; "           N";
   "  101000 replicate 1 descriptors (delayed 031001) times"; "           delayed replication factor: 2";
   "    301001  (group)"; "      001001 D[NUMERIC]"; "             N"; "      012101 D[K]"; "             N";
   "    301001  (group)"; "      001001 D[NUMERIC]"; "             N"; "      012101 D[K]"; "             -";
   "001011 D[CCITTIA5]"; "       ABC"; "201130 change data width to 2"; "001001 D[NUMERIC]"; "       N"; "201000 change data width to 0";
   "206007 local descriptor 001001 7 bits long"; "       N"; "101002 replicate 1 descriptors 2 times"; "  001001 D[NUMERIC]"; "         N"; "  001001 D[NUMERIC]"; "         N"]%string.
Example C66_text_example : exists b ends, ex_decode ex_told = Ok (b, ex_tables, ends, lines_of (ex_lines ++ ex_lines)) /\
  straightforward ex_tables (b_datadesc b) /\ b_compression b = false /\ length (b_subsets b) = 2%nat.
Proof. apply (ex_checks ex_told (lines_of (ex_lines ++ ex_lines)) ex_template false 2%nat); [vm_compute; reflexivity|apply ex_straight; vm_compute; reflexivity]. Qed.

(** The same with compression: the data of the three subsets of C23, with a template that stops before the bitmap. *)
Definition ex_plain : list Z :=
  get_ok [] (encode X86 (mkopts false false None) ex_tables 100 empty_local
    (mkbulletin (ex_header 4 40000 3 2026) [] false (firstn 5 Codec.Properties.ex_ops) (map (firstn 9) Codec.CompressedProperties.ex_subs))).
Definition ex_squeezed : list Z :=
  let start := (30 + Z.to_nat (65536 * nth 30 ex_plain 0%Z + 256 * nth 31 ex_plain 0%Z + nth 32 ex_plain 0%Z))%nat in
  let data := firstn (length ex_comp - 2) ex_comp in
  let d := firstn start (Message.AgainProperties.put 36 192 ex_plain) ++ [0; 0; Z.of_nat (length data + 4); 0] ++ data ++ [55; 55; 55; 55] in
  Message.AgainProperties.put 6 (Z.of_nat (length d)) d.
Definition ex_columns : list string :=
  ["301002  (group)"; "  301001  (group)"; "    001001 D[NUMERIC]"; "           N N N "; "    012101 D[K]"; "           N N N ";
   "  101000 replicate 1 descriptors (delayed 031001) times"; "           delayed replication factor: 2";
   "    301001  (group)"; "      001001 D[NUMERIC]"; "             N N N "; "      012101 D[K]"; "             N N N ";
   "    301001  (group)"; "      001001 D[NUMERIC]"; "             N N N "; "      012101 D[K]"; "             - - - ";
   "001011 D[CCITTIA5]"; "       ABC X ZZ "; "201130 change data width to 2"; "001001 D[NUMERIC]"; "       N N N "; "201000 change data width to 0"]%string.
Example C66_compressed_text_example : exists b ends, ex_decode ex_squeezed = Ok (b, ex_tables, ends, lines_of ex_columns) /\
  straightforward ex_tables (b_datadesc b) /\ b_compression b = true /\ length (b_subsets b) = 3%nat.
Proof. apply (ex_checks ex_squeezed (lines_of ex_columns) (firstn 5 Codec.Properties.ex_ops) true 3%nat); [vm_compute; reflexivity|apply ex_straight; vm_compute; reflexivity]. Qed.

(** C41 for bulletins that were decoded: what is sent again, or printed as the same text, is found to be the same. *)
From Coq Require Import ZifyBool ZifyNat String List ZArith Permutation.
From Verif Require Import Base Bits.Model Bits.Spec Num.Float Varcode.Model Varinfo.Model Tables.Model Tables.LoadProofs Select.Model Var.Model Var.Spec Var.Format Var.FormatSpec Var.AttrProofs
  Var.DiffProofs Interp.Model Interp.Appears Codec.Model Codec.Spec Codec.Sound Codec.Again Codec.AgainSteps Codec.AgainPlain Codec.AgainCompPlain Message.Model Message.Spec Message.Again Message.AgainCompProperties Message.Diff Crex.Model Crex.Spec Crex.Again
  Crex.SoundProperties Print.Model Print.Spec Print.DecodedProperties Print.DecodedCrexProperties Message.Compare Message.CompareProperties
  Shipped.Text Shipped.Catalog Shipped.Check Shipped.Spec Shipped.Model Shipped.Proofs Shipped.AgainProperties Shipped.AgainCompProperties Shipped.CrexProperties.
From Verif Require Crex.AgainProperties.
Import ListNotations.
Local Open Scope Z_scope.

Lemma strict_hook opt : strict_options opt -> hook_ok opt.
Proof. intros (_ & _ & H). unfold hook_ok. rewrite H. exact I. Qed.

Lemma sound_ok opt v : o_clamp opt = false -> sound_var opt v -> var_ok v.
Proof. intros C S. destruct (C56_in_range opt v C S). constructor; assumption. Qed.

Lemma sound_subsets opt ss : o_clamp opt = false -> Forall (Forall (sound_var opt)) ss -> Forall (Forall var_ok) ss.
Proof. intros C F. eapply Forall_impl; [|exact F]. intros vars G. eapply Forall_impl; [|exact G]. intros v. apply sound_ok. exact C. Qed.

(** A bulletin that was decoded can be compared with itself, whatever its values: nothing is found. *)
Theorem C41_decoded : forall opt load skip fuel d b T found p q, strict_options opt ->
  decode opt load skip fuel d = Ok (b, T, found) -> table_ok (tb_b T) -> defs_ok (tb_b T) ->
  any_diff (BufrSheet (mksheet b (Some p) q)) (BufrSheet (mksheet b (Some p) q)) = Ok 0.
Proof.
  intros opt load skip fuel d b T found p q HO E HT HD. apply C41_any_self. split; [|intros _; discriminate]. cbn [subsets_of sh_bulletin].
  apply (sound_subsets opt); [apply HO|]. exact (C56_bufr _ _ _ _ _ _ _ _ (strict_hook _ HO) E HT HD).
Qed.

Theorem C41_decoded_crex : forall opt load fuel d b T x p q, strict_options opt ->
  decode_crex opt load fuel d = Ok b -> load (cb_header b) = Ok T -> table_ok (tb_b T) -> defs_ok (tb_b T) ->
  any_diff (CrexSheet (mkcsheet b x (Some p) q)) (CrexSheet (mkcsheet b x (Some p) q)) = Ok 0.
Proof.
  intros opt load fuel d b T x p q HO E L HT HD. apply C41_any_self. split; [|intros _; discriminate]. cbn [subsets_of cs_bulletin].
  apply (sound_subsets opt); [apply HO|]. exact (C56_crex _ _ _ _ _ _ (strict_hook _ HO) E L HT HD).
Qed.

Lemma cfast_scales ls : forall last fs, cfast ls last = Some fs -> Forall (fun f => -2000000000 < bf_scale f < 2000000000) fs.
Proof.
  induction ls as [|l ls IH]; intros last fs H; cbn [cfast] in H; [injection H as <-; constructor|].
  destruct (cline_of (line_of l)) as [[f|]|] eqn:B; [|exact (IH _ _ H)|discriminate]. destruct (Z.ltb last (bf_code f)); [|discriminate].
  destruct (cfast ls (bf_code f)) as [fs'|] eqn:R; [|discriminate]. injection H as <-. constructor; [|exact (IH _ _ R)]. clear - B. unfold cline_of in B.
  destruct (fline_code (line_of l)); [|discriminate]. destruct (Nat.ltb _ _); [destruct (negb _) in B; discriminate|].
  destruct (fnum (skipn 143 (line_of l))) as [sc|] eqn:Sc; [|discriminate]. apply fnum_ok in Sc as [_ Sc]. destruct (fnum (skipn 149 (line_of l))); [|discriminate].
  cbv zeta in B. destruct (_ <? 0); [discriminate|]. destruct (String.eqb _ _); [injection B as <-; exact Sc|]. destruct (small_scale sc); [|discriminate]. injection B as <-. exact Sc.
Qed.

Lemma shipped_crex n ls t : In (n, ls) shipped_b -> In n crex_too -> load_crex (file ls) = Ok t -> table_ok t /\ defs_ok t.
Proof.
  intros I C L. destruct (c_table n ls I C) as (fs & t' & E & L' & F & _). assert (t' = t) by congruence. subst t'.
  apply (C56_files (file ls)); [right; exact L|]. assert (Sc : Forall (fun f => -2000000000 < bf_scale f < 2000000000) fs) by (unfold elements in E; destruct (forallb plain ls); [exact (cfast_scales _ _ _ E)|discriminate]).
  clear - F Sc. induction F as [|f e fs t S F IH]; [constructor|]. apply Forall_cons_iff in Sc as [S1 Sc]. constructor; [|auto]. destruct S as (_ & _ & -> & _). lia.
Qed.

(** The conditions of C48 on a message of the tables that come with the library. *)
Definition can_be_sent_again (T : tables) (b : bulletin) : Prop :=
  ~ (h_centre (b_header b) = 254 /\ h_version (b_header b) = 19) /\
  (forall code, appears T (b_datadesc b) code -> var_f code <> 2 /\ ~ In code wide_elements) /\
  header_kept (b_header b) /\ Nat.even (length (b_optional b)) = true /\ b_datadesc b <> [] /\
  Forall (Forall tidy) (b_subsets b) /\ (b_compression b = true -> Forall (Forall settled) (b_subsets b)).

(** Such a message, compressed or not, can be decoded, encoded and decoded again, and comparing the two bulletins finds nothing. *)
Theorem C41_sent_again : forall names opt skip fuel lt d b T found p q, Permutation names shipped_names -> Forall is_byte d -> strict_options opt ->
  decode opt (shipped_load names) skip fuel d = Ok (b, T, found) -> can_be_sent_again T b -> lt_unknown lt = [] ->
  exists bytes, encode X86 opt T fuel lt b = Ok bytes /\
    (Z.of_nat (length bytes) < 2 ^ 24 -> exists b' found', decode opt (shipped_load names) skip fuel bytes = Ok (b', T, found') /\
       any_diff (BufrSheet (mksheet b (Some p) q)) (BufrSheet (mksheet b' (Some p) q)) = Ok 0).
Proof.
  intros names opt skip fuel lt d b T found p q P F HO E (A1 & A2 & A3 & A4 & A5 & A6 & A7) Lt.
  destruct (chosen_table names opt skip fuel d b T found P F E A1) as (n & ls & Ib & Cn & Un & Lb). destruct (shipped_defs n ls (tb_b T) Ib Cn Un Lb) as [D _].
  pose proof (load_bufr_ok _ _ Lb) as TO.
  pose proof (C56_bufr _ _ _ _ _ _ _ _ (strict_hook _ HO) E TO D) as So. apply (sound_subsets opt) in So; [|apply HO].
  destruct (b_compression b) eqn:Cp.
  - destruct (C48_compressed_shipped_tables names opt skip fuel lt d b T found P F HO E A1 A2 Cp A3 A4 A5) as (bytes & B1 & B2); [|exact Lt|].
    { specialize (A7 eq_refl). apply Forall_forall. intros vars Iv. rewrite Forall_forall in A6, A7. specialize (A6 _ Iv). specialize (A7 _ Iv). rewrite Forall_forall in A6, A7. apply Forall_forall. auto. }
    exists bytes. split; [exact B1|]. intros L. destruct (B2 L) as (found' & B3). exists (uncompressed b), found'. split; [exact B3|].
    apply C41_same; [split; [exact So|intros _; discriminate]|split; [exact So|intros _; discriminate]|]. repeat split. apply same_subsets_refl.
  - destruct (C48_shipped_tables names opt skip fuel lt d b T found P F HO E A1 A2 Cp A3 A4 A5 A6 Lt) as (bytes & B1 & B2).
    exists bytes. split; [exact B1|]. intros L. destruct (B2 L) as (found' & B3). exists b, found'. split; [exact B3|]. apply C41_any_self. split; [exact So|intros _; discriminate].
Qed.

(** The same for a CREX message (C55). *)
Theorem C41_crex_sent_again : forall n ls o load fuel data h ops vars T lt x p q, In (n, ls) shipped_b -> In n crex_too -> load_crex (file ls) = Ok (tb_b T) ->
  strict_options o -> Forall (fun x => 1 <= x < 256) data -> decode_crex o load fuel data = Ok (mkcb h ops [vars]) -> load h = Ok T ->
  again_header h = true -> crex_ops_ok ops = true -> (forall code, appears T ops code -> var_f code <> 2) -> again_factors vars = true ->
  exists text b', encode_crex o T fuel lt (mkcb h ops [vars]) = Ok text /\ decode_crex o load fuel text = Ok b' /\
    any_diff (CrexSheet (mkcsheet (mkcb h ops [vars]) x (Some p) q)) (CrexSheet (mkcsheet b' x (Some p) q)) = Ok 0.
Proof.
  intros n ls o load fuel data h ops vars T lt x p q I C L HO F D LT Hh Ho A K. destruct (shipped_crex n ls (tb_b T) I C L) as [HT HD].
  destruct (C55_shipped_tables n ls o load fuel data h ops vars T lt I C L HO F D LT Hh Ho A K) as (text & E1 & E2). exists text, (mkcb h ops [vars]). split; [exact E1|]. split; [exact E2|].
  eapply C41_decoded_crex; eassumption.
Qed.

(** Messages that are printed as the same text (C61) do not differ, if their optional sections do not. *)
Theorem C41_same_text : forall fixed full, printf_correct fixed -> forall opt load skip fuel d d' b b' T T' found found' bt dt bt' dt' t p q,
  strict_options opt -> Forall is_byte d -> Forall is_byte d' ->
  decode opt load skip fuel d = Ok (b, T, found) -> decode opt load skip fuel d' = Ok (b', T', found') ->
  table_ok (tb_b T) -> defs_ok (tb_b T) -> neat_table full (tb_b T) ->
  (forall code, appears T (b_datadesc b) code -> var_f code <> 2) ->
  good_path bt -> good_path dt -> good_path bt' -> good_path dt' ->
  Forall (Forall legible) (b_subsets b) -> Forall (Forall legible) (b_subsets b') ->
  print_bufr fixed full bt dt b = Ok t -> print_bufr fixed full bt' dt' b' = Ok t -> b_optional b = b_optional b' ->
  any_diff (BufrSheet (mksheet b (Some p) q)) (BufrSheet (mksheet b' (Some p) q)) = Ok 0.
Proof.
  intros fixed full P opt load skip fuel d d' b b' T T' found found' bt dt bt' dt' t p q HO Hd Hd' E E' HT HD HN HP G1 G2 G3 G4 L L' Pt Pt' Op.
  destruct (C61_decoded_text fixed full P opt load skip fuel d d' b b' T T' found found' bt dt bt' dt' t HO Hd Hd' E E' HT HD HN HP G1 G2 G3 G4 L L' Pt Pt') as (_ & _ & Eb).
  assert (b' = b) by (rewrite Eb, <- Op; destruct b; reflexivity). subst b'. exact (C41_decoded opt load skip fuel d b T found p q HO E HT HD).
Qed.

Theorem C41_crex_same_text : forall fixed full, printf_correct fixed -> forall opt load fuel d d' b b' T bt dt bt' dt' x x' t p q,
  strict_options opt -> decode_crex opt load fuel d = Ok b -> decode_crex opt load fuel d' = Ok b' ->
  load (cb_header b) = Ok T -> table_ok (tb_b T) -> defs_ok (tb_b T) -> neat_table full (tb_b T) ->
  (forall code, appears T (cb_datadesc b) code -> var_f code <> 2) ->
  good_path bt -> good_path dt -> good_path bt' -> good_path dt' ->
  Forall (fun n => 0 <= n) [ot_centre x; ot_subcentre x; ot_year x; ot_month x; ot_day x; ot_hour x; ot_minute x; ot_second x; ot_update x] ->
  Forall (fun n => 0 <= n) [ot_centre x'; ot_subcentre x'; ot_year x'; ot_month x'; ot_day x'; ot_hour x'; ot_minute x'; ot_second x'; ot_update x'] ->
  Forall (Forall legible) (cb_subsets b) -> Forall (Forall legible) (cb_subsets b') ->
  print_crex fixed full bt dt x b = Ok t -> print_crex fixed full bt' dt' x' b' = Ok t ->
  any_diff (CrexSheet (mkcsheet b x (Some p) q)) (CrexSheet (mkcsheet b' x' (Some p) q)) = Ok 0.
Proof.
  intros fixed full P opt load fuel d d' b b' T bt dt bt' dt' x x' t p q HO E E' HT HB HD HN HP G1 G2 G3 G4 X X' L L' Pt Pt'.
  destruct (C61_decoded_crex_text fixed full P opt load fuel d d' b b' T bt dt bt' dt' x x' t HO E E' HT HB HD HN HP G1 G2 G3 G4 X X' L L' Pt Pt') as [-> ->].
  eapply C41_decoded_crex; eassumption.
Qed.

(** ** Examples: the messages of C48 *)
Example C41_sent_again_example : forall names, Permutation names shipped_names -> exists b T found,
  decode (mkopts false false None) (shipped_load names) true 100 again_message = Ok (b, T, found) /\ can_be_sent_again T b /\ b_compression b = false /\
  concat (b_subsets b) <> [].
Proof.
  intros names P. destruct (C48_shipped_example names P) as (b & T & found & E & A1 & A2 & A3 & A4 & A5 & A6 & A7 & V). exists b, T, found. split; [exact E|].
  split; [repeat (split; [assumption|]); congruence|]. split; [exact A3|]. intros X. destruct (b_subsets b) as [|[|v s] l]; discriminate.
Qed.

Example C41_compressed_sent_again_example : forall names, Permutation names shipped_names -> exists b T found,
  decode (mkopts false false None) (shipped_load names) true 100 again_comp_message = Ok (b, T, found) /\ can_be_sent_again T b /\ b_compression b = true /\
  length (b_subsets b) = 2%nat.
Proof.
  intros names P. destruct (C48_compressed_shipped_example names P) as (_ & b & T & found & E & A1 & A2 & A3 & A4 & A5 & A6 & A7 & V). exists b, T, found. split; [exact E|].
  split; [repeat (split; [assumption|])|].
  - assert (X : Forall (Forall tidy) (b_subsets b) /\ Forall (Forall settled) (b_subsets b)); [|split; [apply X|intros _; apply X]].
    split; (eapply Forall_impl; [|exact A7]; intros vars F; eapply Forall_impl; [|exact F]; intros v H; apply H).
  - split; [exact A3|]. apply (f_equal (@length _)) in V. rewrite map_length in V. exact V.
Qed.

Print Assumptions C41_decoded.
Print Assumptions C41_sent_again.
Print Assumptions C41_crex_sent_again.
Print Assumptions C41_same_text.
Print Assumptions C41_crex_same_text.

(** C61 for decoded messages: messages with the same text are the same, but for the optional section. *)
From Coq Require Import String Lia ZifyBool ZifyNat.
From Verif Require Import Base Bits.Model Bits.Spec Num.Float Varcode.Model Varinfo.Model Varinfo.RangeProofs Tables.Model Tables.LoadProofs Var.Model Var.Spec
  Var.AttrProofs Var.FormatSpec Var.Format Interp.Model Interp.Appears Interp.SureProofs Interp.PlainRun Codec.Model Codec.Compressed Codec.Spec Codec.ColumnProofs Codec.Sound Codec.Again Codec.AgainSteps
  Codec.AgainComp Codec.AgainCompValue Codec.AgainCompSteps Message.Model Message.Spec Message.SafeProofs Message.AgainProperties
  Listing.Model Print.Model Print.Spec Print.Proofs Print.Properties.
From Verif Require Interp.Example Codec.Properties Codec.AgainProperties Codec.CompressedProperties Message.Properties Crex.SoundProperties.
Local Open Scope Z_scope.

(** ** What comes before the variables *)

(** Whatever the variables are: same text, same header, compression, descriptors, number of subsets and length of the
    optional section. *)
Theorem C61_bufr_header_text : forall fixed full bt dt bt' dt' b b' t,
  good_path bt -> good_path dt -> good_path bt' -> good_path dt' ->
  header_ok (b_header b) -> header_ok (b_header b') -> 0 <= h_edition (b_header b) -> 0 <= h_edition (b_header b') ->
  Forall in_u16 (b_datadesc b) -> Forall in_u16 (b_datadesc b') ->
  print_bufr fixed full bt dt b = Ok t -> print_bufr fixed full bt' dt' b' = Ok t ->
  b_header b = b_header b' /\ b_compression b = b_compression b' /\ length (b_optional b) = length (b_optional b') /\
  b_datadesc b = b_datadesc b' /\ length (b_subsets b) = length (b_subsets b').
Proof.
  intros fixed full bt dt bt' dt' b b' t G1 G2 G3 G4 H H' Ed Ed' D D' T T'. unfold print_bufr in T, T'.
  destruct (subsets_text fixed full 0 (b_subsets b)) as [v| |]; try discriminate T. destruct (subsets_text fixed full 0 (b_subsets b')) as [v'| |]; try discriminate T'. cbn [bind] in T, T'.
  rewrite <- T' in T. clear T' t. apply (f_equal (get_ok [])) in T. cbn [get_ok] in T.
  destruct H, H'. unfold in_u8, in_u16 in *.
  apply first_line_then in T as (E & En & T);
    [|repeat (apply Forall_cons; [cbn [b_header] in *; lia|]); apply Forall_nil|repeat (apply Forall_cons; [cbn [b_header] in *; lia|]); apply Forall_nil].
  apply tables_then in T; [|assumption..]. unfold descriptors_text in T. rewrite <- !app_assoc in T. apply app_inv_head in T. apply app_inv_head in T.
  apply descriptors_then in T as [Ed2 T]; [|exact D|exact D'|discriminate|discriminate].
  unfold bufr_details in T. repeat rewrite <- app_assoc in T. apply app_inv_head in T.
  apply padded_then in T as [Q1 T]; [|lia|lia|reflexivity|reflexivity]. apply app_inv_head in T.
  apply padded_then in T as [Q2 T]; [|lia|lia|reflexivity|reflexivity]. apply app_inv_head in T.
  apply padded_then in T as [Q3 T]; [|lia|lia|reflexivity|reflexivity]. apply app_inv_head in T.
  apply padded_then in T as [Q4 T]; [|lia|lia|reflexivity|reflexivity]. apply app_inv_head in T.
  assert (Cp : b_compression b = b_compression b').
  { apply (f_equal (hd 0)) in T. cbn [app hd] in T. destruct (b_compression b), (b_compression b'); try reflexivity; discriminate T. }
  rewrite Cp in T. apply app_inv_head in T. apply app_inv_head in T.
  apply padded_then in T as [Q5 T]; [|lia|lia|reflexivity|reflexivity].
  split; [|split; [exact Cp|split; [lia|split; [exact Ed2|lia]]]].
  destruct (b_header b), (b_header b'). cbn in *. injection E. intros. subst. reflexivity.
Qed.

(** ** The variables of templates without operators *)

(** A variable with the definition that the table has for its code, without attributes. *)
Definition from_table (B : btable) (v : var) : Prop := query B (c_code (v_cell v)) = Ok (c_info (v_cell v)) /\ v_attrs v = [].

Section Plain.
Context (o : options) (HO : strict_options o) (T : tables) (skip : bool) (ops : list Z).
Context (HB : table_ok (tb_b T)) (HP : forall code, appears T ops code -> var_f code <> 2).

Lemma in_table code i c : query (tb_b T) code = Ok i -> c_info c = i -> from_table (tb_b T) (mkvar c []).
Proof. intros Q E. split; [|reflexivity]. cbn [v_cell]. unfold c_code. rewrite E, (query_code _ _ _ Q). exact Q. Qed.

Lemma plain_subset fuel st s st' s' : st = ist_init -> Forall (from_table (tb_b T)) (d_vars s) -> run (decoder o T skip) T fuel ops (st, s) = Ok (st', s') -> Forall (from_table (tb_b T)) (d_vars s').
Proof.
  intros -> F E. eapply (plain_run_inv (decoder o T skip) T ops (fun s => Forall (from_table (tb_b T)) (d_vars s)) HP); [| |apply appears_here|exact F|exact E].
  - intros code i a a' Q Fa Ea. cbn [on_var decoder] in Ea. unfold d_var in Ea. inv_bind Ea. destruct a0 as [c inp]. apply ok_inj in Hk. subst a'. cbn [d_store d_vars].
    apply Forall_app. split; [exact Fa|]. constructor; [|constructor]. eapply in_table; [exact Q|]. exact (value_info _ _ _ _ _ HO Hb).
  - intros code i a n a' Q Fa Ea. cbn [on_factor decoder] in Ea. unfold d_factor in Ea. inv_bind Ea. destruct a0 as [c inp]. inv_bind Hk. apply ok_inj in Hk0. injection Hk0 as _ <-. cbn [d_store d_vars].
    apply Forall_app. split; [exact Fa|]. constructor; [|constructor]. eapply in_table; [exact Q|]. exact (value_info _ _ _ _ _ HO Hb).
Qed.

Lemma plain_subsets fuel : forall n lt inp subs lt' inp', decode_subsets o T skip fuel ops n lt inp = Ok (subs, lt', inp') -> Forall (Forall (from_table (tb_b T))) subs.
Proof.
  induction n as [|n IH]; intros lt inp subs lt' inp' E; cbn [decode_subsets] in E.
  - apply ok_inj in E. injection E as <- _ _. constructor.
  - inv_bind E. destruct a as [st s]. inv_bind Hk. destruct a as [[rest lt2] inp2]. apply ok_inj in Hk0. injection Hk0 as <- _ _. constructor; [|eapply IH; eauto].
    eapply plain_subset; [reflexivity| |exact Hb]. constructor.
Qed.

Lemma plain_push i code cs inp s : query (tb_b T) code = Ok i -> Forall (reads X86 i) cs -> Forall (Forall (from_table (tb_b T))) (k_subs s) ->
  Forall (Forall (from_table (tb_b T))) (k_subs (k_push cs inp s)).
Proof.
  intros Q R F. unfold k_push. cbn [k_subs]. apply Forall_forall. intros vars A. apply push_in in A as (a & v & A1 & A2 & ->). apply in_map_iff in A2 as (c & <- & A2).
  rewrite Forall_forall in F, R. apply Forall_app. split; [apply F; exact A1|]. constructor; [|constructor]. eapply in_table; [exact Q|]. apply (R c A2).
Qed.

Lemma plain_compressed fuel n lt inp subs lt' inp' : decode_compressed o T skip fuel ops n lt inp = Ok (subs, lt', inp') -> Forall (Forall (from_table (tb_b T))) subs.
Proof.
  intros E. unfold decode_compressed in E. inv_bind E. destruct a as [st s]. apply ok_inj in Hk. injection Hk as <- _ _.
  eapply (plain_run_inv (cdecoder o T skip) T ops (fun s => Forall (Forall (from_table (tb_b T))) (k_subs s)) HP); [| |apply appears_here| |exact Hb].
  - intros code i a a' Q Fa Ea. cbn [on_var cdecoder] in Ea. unfold k_var in Ea. inv_bind Ea. destruct a0 as [cs inp1]. apply ok_inj in Hk. subst a'.
    eapply plain_push; [exact Q|exact (proj1 (values_reads o HO X86 i _ _ _ _ (HB _ _ Q) Hb0))|exact Fa].
  - intros code i a m a' Q Fa Ea. cbn [on_factor cdecoder] in Ea. unfold k_factor in Ea. inv_bind Ea. destruct a0 as [c inp1]. inv_bind Hk. apply ok_inj in Hk0. injection Hk0 as _ <-.
    eapply plain_push; [exact Q|exact (proj1 (repeat_reads X86 i c _ (uniform_reads o HO X86 i _ _ _ _ (HB _ _ Q) Hb0)))|exact Fa].
  - cbn [k_subs]. apply Forall_forall. intros vars A. apply repeat_spec in A. subst. constructor.
Qed.
End Plain.

(** In a message without operators every variable has the definition of the table, and no attributes. *)
Theorem C61_decoded_definitions : forall opt load skip fuel d b T found, strict_options opt ->
  decode opt load skip fuel d = Ok (b, T, found) -> table_ok (tb_b T) ->
  (forall code, appears T (b_datadesc b) code -> var_f code <> 2) ->
  Forall (Forall (from_table (tb_b T))) (b_subsets b).
Proof.
  intros opt load skip fuel d b T found HO E HT HP. unfold decode in E. inv_bind E. inv_bind Hk. inv_bind Hk0. destruct a1 as [subs lt]. apply ok_inj in Hk. injection Hk as <- <- _. cbn [b_subsets b_datadesc] in *.
  unfold decode_data in Hb1. cbv zeta in Hb1. destruct (_ =? 0); [discriminate|]. inv_bind Hb1. destruct a1 as [[subs' lt'] inp].
  assert (X : Forall (Forall (from_table (tb_b a0))) subs').
  { destruct (l_compression a); [eapply plain_compressed|eapply plain_subsets]; eauto. }
  destruct (Nat.ltb _ _); [discriminate|]. inv_bind Hk. destruct (negb a1); [discriminate|]. apply ok_inj in Hk0. injection Hk0 as <- _. exact X.
Qed.

(** ** Same text, same message *)

(** Values that can be told from their text. *)
Definition legible (v : var) : Prop :=
  match c_val (v_cell v) with
  | Some (VStr s) => on_one_line s /\ s <> chars "(undef)"
  | Some (VBin b) => Forall (fun x => 0 <= x < 256) b
  | _ => True
  end.

(** The codes of a table are 16 bits and the descriptions and units have no newlines. *)
Definition neat_table (full : varinfo -> list Z) (B : btable) : Prop :=
  forall code i, query B code = Ok i -> in_u16 code /\ on_one_line (full i) /\ on_one_line (chars (vi_unit i)).

Definition table_label (full : varinfo -> list Z) (B : btable) (code : Z) : list Z :=
  match query B code with
  | Ok i => firstn 64 (full i) ++ chars "(" ++ chars (vi_unit i) ++ chars "): "
  | _ => []
  end.

Lemma one_line_first n t : on_one_line t -> on_one_line (firstn n t).
Proof. intros H. unfold on_one_line in *. rewrite Forall_forall in *. intros x X. apply H. rewrite <- (firstn_skipn n t). apply in_or_app. left. exact X. Qed.

Lemma decoded_readable full B o vars : o_clamp o = false -> neat_table full B -> Forall (from_table B) vars -> Forall (sound_var o) vars -> Forall legible vars ->
  Forall (fun v => Forall readable (cells v)) vars /\ Forall (fun v => Forall (labelled full (table_label full B)) (cells v)) vars.
Proof.
  intros Cl N F S L. rewrite Forall_forall in F, S, L.
  assert (X : forall v, In v vars -> Forall readable (cells v) /\ Forall (labelled full (table_label full B)) (cells v)).
  { intros v I. destruct (F v I) as [Q A]. unfold cells. rewrite A. destruct (N _ _ Q) as (N1 & N2 & N3).
    destruct (S v I) as ([C|(C & _)] & _); [|congruence]. split; (constructor; [|constructor]).
    - split; [exact C|]. split; [exact N1|exact (L v I)].
    - unfold labelled, table_label. rewrite Q. split; [|reflexivity]. unfold on_one_line in *. apply Forall_app. split; [apply one_line_first; exact N2|].
      apply Forall_app. split; [repeat (apply Forall_cons; [discriminate|]); apply Forall_nil|]. apply Forall_app. split; [exact N3|].
      repeat (apply Forall_cons; [discriminate|]); apply Forall_nil. }
  split; apply Forall_forall; intros v I; apply (X v I).
Qed.

(** Two messages that are decoded with the same tables and options, without operators in the template of the first, and that are printed
    as the same text, have the same header, template and subsets; only the content of the optional section can differ. *)
Theorem C61_decoded_text : forall fixed full, printf_correct fixed -> forall opt load skip fuel d d' b b' T T' found found' bt dt bt' dt' t,
  strict_options opt -> Forall is_byte d -> Forall is_byte d' ->
  decode opt load skip fuel d = Ok (b, T, found) -> decode opt load skip fuel d' = Ok (b', T', found') ->
  table_ok (tb_b T) -> defs_ok (tb_b T) -> neat_table full (tb_b T) ->
  (forall code, appears T (b_datadesc b) code -> var_f code <> 2) ->
  good_path bt -> good_path dt -> good_path bt' -> good_path dt' ->
  Forall (Forall legible) (b_subsets b) -> Forall (Forall legible) (b_subsets b') ->
  print_bufr fixed full bt dt b = Ok t -> print_bufr fixed full bt' dt' b' = Ok t ->
  T' = T /\ length (b_optional b') = length (b_optional b) /\
  b' = mkbulletin (b_header b) (b_optional b') (b_compression b) (b_datadesc b) (b_subsets b).
Proof.
  intros fixed full P opt load skip fuel d d' b b' T T' found found' bt dt bt' dt' t HO Hd Hd' E E' HT HD HN HP G1 G2 G3 G4 L L' Pt Pt'.
  assert (X : forall d b T found, Forall is_byte d -> decode opt load skip fuel d = Ok (b, T, found) ->
    header_ok (b_header b) /\ 0 <= h_edition (b_header b) /\ Forall in_u16 (b_datadesc b) /\ load (tableid_of (b_header b)) = Ok T).
  { clear. intros d b T found F E. unfold decode in E. inv_bind E. inv_bind Hk. inv_bind Hk0. destruct a1. apply ok_inj in Hk. injection Hk as <- <- _. cbn [b_header b_datadesc].
    pose proof (lead_fields d F) as Lo. unfold defined in Lo. rewrite Hb in Lo. destruct Lo as (L1 & L2 & _ & _ & L5 & _). split; [exact L1|]. split; [lia|]. split; [exact L5|exact Hb0]. }
  destruct (X _ _ _ _ Hd E) as (H1 & H2 & H3 & H4). destruct (X _ _ _ _ Hd' E') as (H1' & H2' & H3' & H4'). clear X.
  destruct (C61_bufr_header_text fixed full bt dt bt' dt' b b' t G1 G2 G3 G4 H1 H1' H2 H2' H3 H3' Pt Pt') as (Eh & Ec & Eo & Ed & En).
  assert (T' = T) by (rewrite <- Eh in H4'; congruence). subst T'. split; [reflexivity|]. split; [congruence|].
  assert (HK : hook_ok opt) by (destruct HO as (_ & _ & H); unfold hook_ok; rewrite H; exact Logic.I).
  assert (Cl : o_clamp opt = false) by apply HO.
  pose proof (Crex.SoundProperties.C56_bufr _ _ _ _ _ _ _ _ HK E HT HD) as S. pose proof (Crex.SoundProperties.C56_bufr _ _ _ _ _ _ _ _ HK E' HT HD) as S'.
  pose proof (C61_decoded_definitions _ _ _ _ _ _ _ _ HO E HT HP) as F. rewrite Ed in HP. pose proof (C61_decoded_definitions _ _ _ _ _ _ _ _ HO E' HT HP) as F'.
  assert (R : forall ss, Forall (Forall (from_table (tb_b T))) ss -> Forall (Forall (sound_var opt)) ss -> Forall (Forall legible) ss -> readable_subsets full (table_label full (tb_b T)) ss).
  { clear -HN Cl. intros ss F S L. rewrite Forall_forall in F, S, L. split; apply Forall_forall; intros vars I; apply (decoded_readable full (tb_b T) opt vars Cl HN (F _ I) (S _ I) (L _ I)). }
  destruct (C61_bufr_text fixed full (table_label full (tb_b T)) P bt dt bt' dt' b b' t G1 G2 G3 G4 H1 H1' H2 H2' H3 H3' (R _ F S L) (R _ F' S' L') Pt Pt') as (_ & _ & _ & _ & Ss).
  assert (Es : b_subsets b = b_subsets b').
  { apply C61_same_values; [exact Ss|]. clear -Ss F F'. revert F F'. induction Ss as [|vars vars' s s' Sv Ss IH]; intros F F'; [constructor|]. inversion F; inversion F'; subst. constructor; [|auto].
    clear -Sv H1 H5. revert H1 H5. induction Sv as [|v w l m Svw Sv IH]; intros A A'; [constructor|]. inversion A as [|? ? [Q N] A2]; inversion A' as [|? ? [Q' N'] A2']; subst. constructor; [|auto].
    unfold cells in *. rewrite N, N' in *. cbn [map]. unfold same_var, cells in Svw. rewrite N, N' in Svw. inversion Svw as [|? ? ? ? [Sc _] _]; subst. rewrite Sc in Q. congruence. }
  destruct b as [h1 o1 c1 e1 s1], b' as [h2 o2 c2 e2 s2]. cbn [b_header b_optional b_compression b_datadesc b_subsets] in *. congruence.
Qed.
Print Assumptions C61_decoded_text.

(** ** Two messages with different optional sections *)
Import Codec.Properties.

Definition ex_plain_subset : list var :=
  [num 1 1 5; num 12 101 28315; num 31 1 2; num 1 1 6; num 12 101 0; num 1 1 7; gone 12 101; mkvar (mkcell (Interp.Example.ex_info 1 11) (Some (VStr [65; 66; 67]))) []].
Definition ex_plain_ops : list Z := [wr_var 3 1 2; wr_var 0 1 11].
Definition ex_plain_bulletin (optional : list Z) : bulletin :=
  mkbulletin (Message.Properties.ex_header 4 98 3 2026) optional false ex_plain_ops [ex_plain_subset; ex_plain_subset].
Definition ex_plain_bytes (optional : list Z) : list Z := get_ok [] (encode X86 (mkopts false false None) Interp.Example.ex_tables 100 empty_local (ex_plain_bulletin optional)).

Lemma ex_plain_appears code : appears Interp.Example.ex_tables ex_plain_ops code -> var_f code <> 2.
Proof.
  intros A. enough (X : In code (ex_plain_ops ++ Interp.Example.ex_dcodes)).
  { unfold ex_plain_ops, Interp.Example.ex_dcodes in X. cbn [app In] in X. repeat (destruct X as [<-|X]; [discriminate|]). destruct X. }
  induction A as [code I|code d' body _ IH F3 Q I]; [apply in_or_app; left; exact I|]. apply in_or_app. right.
  unfold ex_plain_ops, Interp.Example.ex_dcodes in IH. cbn [app In] in IH.
  repeat (destruct IH as [<-|IH]; [(discriminate F3) || (vm_compute in Q; discriminate Q) ||
    (match type of Q with ?x = _ => let y := eval vm_compute in x in change y with x in Q end; apply (f_equal (get_ok [])) in Q; vm_compute in Q; subst body; vm_compute in I |- *; tauto)|]). destruct IH.
Qed.

Lemma ex_neat : neat_table ex_full (tb_b Interp.Example.ex_tables).
Proof.
  intros code i Q. pose proof (query_code _ _ _ Q) as Qc. pose proof (query_sure (tb_b Interp.Example.ex_tables) code) as X. rewrite Q in X. destruct X as (e & Ie & Ei).
  assert (B : forallb (fun e => (0 <=? vi_code (be_info e)) && (vi_code (be_info e) <? 65536) && forallb (fun x => negb (x =? 10)) (chars (vi_unit (be_info e)))) (tb_b Interp.Example.ex_tables) = true) by (vm_compute; reflexivity).
  rewrite forallb_forall in B. specialize (B e Ie). rewrite Ei, Qc in B. apply andb_true_iff in B as [B B3]. split; [unfold in_u16; lia|]. split.
  - unfold ex_full. repeat (apply Forall_cons; [discriminate|]). apply Forall_nil.
  - rewrite forallb_forall in B3. apply Forall_forall. intros x X. specialize (B3 x X). lia.
Qed.

Lemma ex_plain_decoded optional : Forall is_byte (ex_plain_bytes optional) -> get_ok false (' (b, _, _) <- decode (mkopts false false None) Message.Properties.ex_load true 100 (ex_plain_bytes optional) ;;
    Ok (if list_eq_dec Z.eq_dec (b_datadesc b) ex_plain_ops then
          forallb (forallb (fun v => match c_val (v_cell v) with
            | Some (VStr s) => forallb (fun x => negb (x =? 10)) s && (if list_eq_dec Z.eq_dec s (chars "(undef)") then false else true)
            | Some (VBin _) => false
            | _ => true end)) (b_subsets b) && (Nat.eqb (length (b_subsets b)) 2) && forallb (fun s => Nat.eqb (length s) 8) (b_subsets b) else false)) = true ->
  exists b found, decode (mkopts false false None) Message.Properties.ex_load true 100 (ex_plain_bytes optional) = Ok (b, Interp.Example.ex_tables, found) /\
    b_datadesc b = ex_plain_ops /\ map (length (A := var)) (b_subsets b) = [8; 8]%nat /\ Forall (Forall legible) (b_subsets b).
Proof.
  generalize (ex_plain_bytes optional). intros d F X.
  destruct (decode (mkopts false false None) Message.Properties.ex_load true 100 d) as [[[b T] found]| |] eqn:E; cbn [bind get_ok] in X; [|discriminate|discriminate].
  destruct (list_eq_dec Z.eq_dec (b_datadesc b) ex_plain_ops) as [D|]; [|discriminate]. apply andb_true_iff in X as [X X3]. apply andb_true_iff in X as [X1 X2].
  assert (HT : T = Interp.Example.ex_tables).
  { pose proof E as E0. unfold decode in E0. inv_bind E0. inv_bind Hk. inv_bind Hk0. destruct a1. apply ok_inj in Hk. injection Hk as <- <- _.
    unfold Message.Properties.ex_load in Hb0. destruct (_ =? 13); [|discriminate]. apply ok_inj in Hb0. symmetry. exact Hb0. }
  subst T. exists b, found. split; [reflexivity|]. split; [exact D|]. split.
  - destruct (b_subsets b) as [|s1 [|s2 [|s3 l]]]; try discriminate X2. cbn [forallb] in X3. cbn [map]. replace (length s1) with 8%nat by lia. replace (length s2) with 8%nat by lia. reflexivity.
  - rewrite forallb_forall in X1. apply Forall_forall. intros s I. specialize (X1 s I). rewrite forallb_forall in X1. apply Forall_forall. intros v Iv. specialize (X1 v Iv).
    unfold legible. destruct (c_val (v_cell v)) as [[n|t|u]|]; auto; [|discriminate]. apply andb_true_iff in X1 as [Y1 Y2]. split.
    + rewrite forallb_forall in Y1. apply Forall_forall. intros x Ix. specialize (Y1 x Ix). lia.
    + destruct (list_eq_dec Z.eq_dec t (chars "(undef)")); [discriminate|assumption].
Qed.

(** They meet the conditions of C61_decoded_text. *)
Example C61_decoded_text_example :
  let opt := mkopts false false None in let load := Message.Properties.ex_load in
  table_ok (tb_b Interp.Example.ex_tables) /\ defs_ok (tb_b Interp.Example.ex_tables) /\ neat_table ex_full (tb_b Interp.Example.ex_tables) /\
  (forall code, appears Interp.Example.ex_tables ex_plain_ops code -> var_f code <> 2) /\
  ex_plain_bytes [1; 2] <> ex_plain_bytes [3; 4] /\
  forall optional, optional = [1; 2] \/ optional = [3; 4] -> Forall is_byte (ex_plain_bytes optional) /\
  exists b found, decode opt load true 100 (ex_plain_bytes optional) = Ok (b, Interp.Example.ex_tables, found) /\
    b_datadesc b = ex_plain_ops /\ map (length (A := var)) (b_subsets b) = [8; 8]%nat /\ Forall (Forall legible) (b_subsets b).
Proof.
  cbv zeta. split; [exact Interp.Example.ex_btable_ok|]. split; [exact Codec.AgainProperties.ex_defs_ok|]. split; [exact ex_neat|]. split; [exact ex_plain_appears|]. split.
  { intros E. apply (f_equal (fun l => nth 34 l 0)) in E. revert E. vm_compute. discriminate. }
  assert (FB : forall optional, forallb (fun x => (0 <=? x) && (x <? 256)) (ex_plain_bytes optional) = true -> Forall is_byte (ex_plain_bytes optional)).
  { intros optional B. apply Forall_forall. intros x Hx. rewrite forallb_forall in B. specialize (B x Hx). unfold is_byte. lia. }
  intros optional [->| ->]; (split; [apply FB; vm_compute; reflexivity|]); (apply ex_plain_decoded; [apply FB; vm_compute; reflexivity|vm_compute; reflexivity]).
Qed.

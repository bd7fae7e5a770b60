(** C60: what wrep prints when it is given only file names. *)
From Coq Require Import String Ascii ZifyBool ZifyNat.
From Verif Require Import Base Bits.Model Bits.Spec Num.Float Varcode.Model Varinfo.Model Tables.Model Tables.LoadProofs Var.Model Var.Spec Var.Format Interp.Model Interp.Example
  Codec.Spec Codec.Proofs Codec.AgainSteps Message.Model Message.Spec Message.Proofs Message.LayoutProofs Message.ReadProofs Message.StreamProofs Message.RoundProofs Crex.Model Crex.Spec Listing.Model
  Structured.Model Print.Model Wrep.Model Wrep.Spec Wrep.Proofs Wrep.Dump.
From Verif Require Codec.Properties Codec.AgainProperties Message.Properties Crex.Properties Wrep.Properties Wrep.FileProperties Print.Properties Crex.SoundProperties.
Import Codec.Properties Message.Properties Crex.Properties Wrep.Properties Wrep.FileProperties.
Local Open Scope Z_scope.

Section Dump.
Context (fixed : nat -> f64 -> list Z) (full : varinfo -> list Z)
  (bufr_paths : header -> option (list Z) * option (list Z)) (crex_paths : cheader -> option (list Z) * option (list Z))
  (x : others) (W : world).
Context (HW : forall crex name off m, other W DUMP crex name off m = print_contents fixed full bufr_paths crex_paths x W crex m).

(** What is printed of a message: the text of its bulletin (C61), or a complaint with the place of the message. *)
Inductive dumped (name : list Z) : bool -> Z * list Z -> list Z -> list complaint -> Prop :=
| du_bufr : forall off m b t, full_bufr W m = Ok b -> bulletin_text fixed full bufr_paths b = Ok t -> dumped name false (off, m) t []
| du_crex : forall off m b t, full_crex W m = Ok b -> crex_text fixed full crex_paths x b = Ok t -> dumped name true (off, m) t []
| du_bufr_fail : forall off m e, full_bufr W m = Err e -> e <> EFuel -> dumped name false (off, m) [] [InMessage name off e]
| du_crex_fail : forall off m e, full_crex W m = Err e -> e <> EFuel -> dumped name true (off, m) [] [InMessage name off e].

Lemma handle_dump crex name titled om t c : dumped name crex om t c ->
  handle fixed W (with_action crex DUMP []) name titled (fst om) (snd om) = Ok (titled, t, c).
Proof.
  intros D. unfold handle, with_action. cbn [w_action w_crex]. rewrite HW. unfold print_contents.
  destruct D as [off m b t D T|off m b t D T|off m e D F|off m e D F]; cbn [fst snd]; rewrite D; cbn [bind];
    [rewrite T; reflexivity|rewrite T; reflexivity| |]; destruct e; try reflexivity; congruence.
Qed.

(** With -d, and with no action at all: the texts of the messages of all the files, one after the
    other; a message that cannot be decoded is reported and the following ones are printed. *)
Theorem C60_dump : forall crex jobs out log, jobs <> [] ->
  Forall (job_of W crex) jobs -> Forall (fun j => operand (j_name j)) jobs ->
  one_by_one (in_job (fun name => dumped name crex)) jobs out log ->
  wrep fixed W (crex_flag crex ++ chars "-d"%string :: map j_name jobs) = Ok (Exit 0 out log) /\
  wrep fixed W (crex_flag crex ++ map j_name jobs) = Ok (Exit 0 out log).
Proof.
  intros crex jobs out log N J O P.
  assert (O1 : Forall operand (map j_name jobs)) by (rewrite Forall_map; exact O).
  assert (N1 : map j_name jobs <> []) by (destruct jobs; [congruence|discriminate]).
  assert (Pr : (' (out, log) <- process fixed W (with_action crex DUMP []) false (map j_name jobs) ;; Ok (Exit 0 out log)) = Ok (Exit 0 out log)).
  { rewrite process_jobs by exact J.
    rewrite (all_one_by_one fixed W (with_action crex DUMP []) (fun name => dumped name crex) jobs out log); [reflexivity| |exact P].
    intros name titled om t c H. apply handle_dump. exact H. }
  split.
  - rewrite <- Pr. eapply (wrep_files _ _ _ ((if crex then [Opt 99 None] else []) ++ [Opt 100 None])); [| |exact N1|reflexivity].
    + rewrite scan_crex. change (scan_args (chars "-d"%string :: map j_name jobs)) with (let (es, names) := scan_args (map j_name jobs) in (Opt 100 None :: es, names)).
      rewrite (scan_operands _ O1). reflexivity.
    + destruct crex; reflexivity.
  - rewrite <- Pr. eapply (wrep_files _ _ _ (if crex then [Opt 99 None] else [])); [| |exact N1|reflexivity].
    + rewrite scan_crex, (scan_operands _ O1). rewrite app_nil_r. reflexivity.
    + destruct crex; reflexivity.
Qed.

(** With the decoders of the library and tables that can be loaded (C36), every file is printed to
    its end. *)
Theorem C60_dump_ends : forall opt load skip fuel o cload cfuel, hook_ok opt -> hook_ok o ->
  (forall m, full_bufr W m = (' (b, _, _) <- decode opt load skip fuel m ;; Ok b)) ->
  (forall m, full_crex W m = decode_crex o cload cfuel m) ->
  (forall id T, load id = Ok T -> table_ok (tb_b T) /\ defs_ok (tb_b T)) ->
  (forall h T, cload h = Ok T -> table_ok (tb_b T) /\ defs_ok (tb_b T)) ->
  forall crex jobs, jobs <> [] ->
  Forall (job_of W crex) jobs -> Forall (fun j => operand (j_name j)) jobs ->
  Forall (fun j => Forall (fun om => decides W crex (snd om)) (j_messages j)) jobs ->
  exists out log, one_by_one (in_job (fun name => dumped name crex)) jobs out log /\
    wrep fixed W (crex_flag crex ++ map j_name jobs) = Ok (Exit 0 out log).
Proof.
  intros opt load skip fuel o cload cfuel HO Ho HB HC HT HT' crex jobs N J O D.
  assert (M : forall name om, decides W crex (snd om) -> exists t c, dumped name crex om t c).
  { intros name [off m] R. cbn [snd] in R. unfold decides in R. destruct crex.
    - destruct (full_crex W m) as [b|e|] eqn:E; [| |destruct R as [R _]; congruence].
      + pose proof E as E2. rewrite HC in E2.
        assert (L : exists T, cload (cb_header b) = Ok T).
        { unfold decode_crex in E2. destruct (decode_cheader cfuel m) as [[[h descs] c]| |]; try discriminate E2. cbn [bind] in E2.
          destruct (cload h) as [T| |] eqn:L; try discriminate E2. cbn [bind] in E2. destruct (decode_cdata o T cfuel descs empty_local c); try discriminate E2.
          cbn [bind] in E2. apply (f_equal (get_ok b)) in E2. cbn [get_ok] in E2. subst b. cbn [cb_header]. eauto. }
        destruct L as (T & L). destruct (HT' _ _ L) as [T1 T2]. destruct (crex_paths (cb_header b)) as [bt dt] eqn:Pp.
        destruct (Print.Properties.C61_decoded_crex_is_printed fixed full bt dt x o cload cfuel m b T Ho E2 L T1 T2) as (t & Pt).
        exists t, []. eapply du_crex; [exact E|]. unfold crex_text. rewrite Pp. exact Pt.
      + exists [], [InMessage name off e]. apply du_crex_fail; [exact E|]. intros ->. destruct R as [_ R]. congruence.
    - destruct (full_bufr W m) as [b|e|] eqn:E; [| |destruct R as [R _]; congruence].
      + pose proof E as E2. rewrite HB in E2. destruct (decode opt load skip fuel m) as [[[b' T] found]| |] eqn:Dm; try discriminate E2. cbn [bind] in E2.
        apply (f_equal (get_ok b)) in E2. cbn [get_ok] in E2. subst b'.
        assert (L : table_ok (tb_b T) /\ defs_ok (tb_b T)).
        { pose proof Dm as D2. unfold decode in D2. inv_bind D2. inv_bind Hk. inv_bind Hk0. destruct a1. eapply HT. rewrite Hb0. congruence. }
        destruct L as [T1 T2]. destruct (bufr_paths (b_header b)) as [bt dt] eqn:Pp.
        destruct (Print.Properties.C61_decoded_bufr_is_printed fixed full bt dt opt load skip fuel m b T found HO Dm T1 T2) as (t & Pt).
        exists t, []. eapply du_bufr; [exact E|]. unfold bulletin_text. rewrite Pp. exact Pt.
      + exists [], [InMessage name off e]. apply du_bufr_fail; [exact E|]. intros ->. destruct R as [_ R]. congruence. }
  assert (X : exists out log, one_by_one (in_job (fun name => dumped name crex)) jobs out log).
  { clear -D M. induction D as [|j jobs Dj D (out & log & IH)]; [exists [], []; apply obo_nil|].
    assert (Y : exists t c, one_by_one (dumped (j_name j) crex) (j_messages j) t c).
    { clear -Dj M. induction Dj as [|om l R Dl (t & c & IH)]; [exists [], []; apply obo_nil|]. destruct (M (j_name j) om R) as (t1 & c1 & H1).
      exists (t1 ++ t), (c1 ++ c). apply obo_cons; assumption. }
    destruct Y as (t & c & Y). exists (t ++ out), ((c ++ j_trouble j) ++ log). apply obo_cons; [|exact IH]. exists c. auto. }
  destruct X as (out & log & X). exists out, log. split; [exact X|]. exact (proj2 (C60_dump crex jobs out log N J O X)).
Qed.

(** ** From bulletins to their texts

    A file of encoded bulletins: the texts of the bulletins that arrive (C40, C21), in their order,
    and nothing else. *)
Theorem C60_dump_encoded_file : forall opt load skip fuel n items tail texts,
  (forall m, full_bufr W m = (' (b, _, _) <- decode opt load skip fuel m ;; Ok b)) ->
  operand n -> files W n = Some (file_of items tail) -> ~ occurs [66; 85; 70; 82] tail ->
  Forall2 (fun i t => separator (fst i) /\ exists p T lt b gots lt',
    table_ok (tb_b T) /\ header_ok (b_header b) /\
    (h_edition (b_header b) = 2 \/ h_edition (b_header b) = 3 \/ h_edition (b_header b) = 4) /\
    Forall is_byte (b_optional b) /\ Forall in_u16 (b_datadesc b) /\ b_datadesc b <> [] /\
    b_subsets b <> [] /\ Z.of_nat (length (b_subsets b)) < 65536 /\ Forall (Forall var_infos_ok) (b_subsets b) /\
    lt_unknown lt = [] /\ load (tableid_of (read_header (b_header b))) = Ok T /\
    transfer_all p T skip fuel (b_datadesc b) (b_subsets b) empty_local = Ok (gots, lt') /\
    encode p opt T fuel lt b = Ok (snd i) /\ Z.of_nat (length (snd i)) < 2 ^ 24 /\
    bulletin_text fixed full bufr_paths (mkbulletin (read_header (b_header b)) (even_padded (b_optional b)) false (b_datadesc b) gots) = Ok t) items texts ->
  wrep fixed W [n] = Ok (Exit 0 (concat texts) []).
Proof.
  intros opt load skip fuel n items tail texts HB O Hf N F.
  assert (F1 : Forall (fun i => separator (fst i) /\ exists p opt T f lt b,
    encode p opt T f lt b = Ok (snd i) /\ Forall is_byte (b_optional b) /\ Z.of_nat (length (snd i)) < 2 ^ 24) items).
  { clear -F. induction F as [|i t items texts (Sp & p & T & lt & b & gots & lt' & M) F IH]; constructor; [|exact IH].
    split; [exact Sp|]. exists p, opt, T, fuel, lt, b. tauto. }
  destruct (file_delivers items tail F1 N 0) as (ms & D & Em).
  assert (F2 : Forall2 (fun m t => exists b, full_bufr W m = Ok b /\ bulletin_text fixed full bufr_paths b = Ok t) (map snd ms) texts).
  { rewrite Em. clear -F HB. induction F as [|i t items texts (Sp & p & T & lt & b & gots & lt' & M) F IH]; cbn [map]; constructor; [|exact IH].
    destruct M as (M1 & M2 & M3 & M4 & M5 & M6 & M7 & M8 & M9 & M10 & M11 & M12 & M13 & M14 & M15).
    destruct (C40_messages_round_trip p opt T load skip fuel lt b gots lt' M1 M2 M3 M4 M5 M6 M7 M8 M9 M10 M11 M12) as (bytes & E & R).
    rewrite M13 in E. apply (f_equal (fun r => match r with Ok x => x | _ => [] end)) in E. subst bytes.
    destruct (R M14) as (found & Dec). eexists. split; [rewrite HB, Dec; reflexivity|exact M15]. }
  assert (J : Forall (job_of W false) [((n, ms), @nil complaint)]) by (apply Forall_cons; [exact (in_whole W false n _ ms Hf D)|apply Forall_nil]).
  assert (O1 : Forall (fun j => operand (j_name j)) [((n, ms), @nil complaint)]) by (apply Forall_cons; [exact O|apply Forall_nil]).
  apply (C60_dump false [((n, ms), [])]); [discriminate|exact J|exact O1|].
  rewrite <- (app_nil_r (concat _)). apply (obo_cons _ _ _ []); [|apply obo_nil].
  exists []. split; [|reflexivity]. cbn [j_name j_messages fst snd].
  clear -F2. revert texts F2. induction ms as [|[off m] ms IH]; intros texts F2; cbn [map snd] in F2; inversion F2 as [|y t l texts' (b & Db & Tb) F2']; subst.
  - apply obo_nil.
  - cbn [concat]. apply (obo_cons _ _ _ []); [|apply IH; exact F2']. eapply du_bufr; eassumption.
Qed.

(** The same for CREX, with one subset (C42). *)
Theorem C60_dump_encoded_crex_file : forall o load fuel n items tail texts,
  (forall m, full_crex W m = decode_crex o load fuel m) ->
  operand n -> files W n = Some (file_of items tail) -> ~ occurs crex_start tail ->
  Forall2 (fun i t => crex_separator (fst i) /\ exists T lt h ops vars got,
    crex_header_ok h = true /\ crex_ops_ok ops = true /\ (length ops < fuel)%nat /\
    load (crex_received h) = Ok T /\ crex_transfer vars T fuel ops = Ok got /\
    vars <> [] /\ Forall (fun v => match c_val (v_cell v) with Some (VStr s) => ~ In 43 s | _ => True end) vars /\
    encode_crex o T fuel lt (mkcb h ops [vars]) = Ok (snd i) /\
    crex_text fixed full crex_paths x (mkcb (crex_received h) ops [map (fun v => mkvar (v_cell v) []) vars]) = Ok t) items texts ->
  wrep fixed W [chars "-c"%string; n] = Ok (Exit 0 (concat texts) []).
Proof.
  intros o load fuel n items tail texts HC O Hf N F.
  assert (X : forall pos lead, lead = [] \/ lead = [13; 13; 10] ->
    exists ms, delivers (read_of true) pos (lead ++ file_of items tail) ms None /\
      Forall2 (fun m t => exists b, full_crex W m = Ok b /\ crex_text fixed full crex_paths x b = Ok t) (map snd ms) texts).
  { clear O Hf. induction F as [|[sep text] t items texts [Sp Tr] F IH]; intros pos lead Le.
    - exists []. split; [|constructor]. apply dl_end. apply C29_end_of_file.
      destruct Le as [-> | ->]; [exact N|]. cbn [app file_of]. repeat (apply occurs_after; [discriminate|]). exact N.
    - cbn [fst snd file_of] in *.
      assert (S' : crex_separator (lead ++ sep)) by (destruct Le as [-> | ->]; [exact Sp|cbn [app]; repeat (apply separator_after; [discriminate|]); exact Sp]).
      destruct Tr as (T & lt & h & ops & sent & got & H1 & H2 & H3 & H4 & H5 & H6 & H7 & E & Tx). destruct S' as [S1 S2].
      destruct (C29_encoded_messages o load T fuel lt h ops sent got (lead ++ sep) (file_of items tail) H1 H2 H3 H4 H5 H6 H7 S1 S2) as (m & E' & R & D).
      rewrite E in E'. apply (f_equal (fun r => match r with Ok x => x | _ => [] end)) in E'. subst text.
      destruct (IH (pos + Z.of_nat (length (lead ++ sep)) + Z.of_nat (length m)) [13; 13; 10] (or_intror eq_refl)) as (ms & Dl & F2).
      exists ((pos + Z.of_nat (length (lead ++ sep)), m) :: ms). split.
      + replace (lead ++ sep ++ (m ++ [13; 13; 10]) ++ file_of items tail) with ((lead ++ sep) ++ m ++ [13; 13; 10] ++ file_of items tail)
          by (rewrite <- !app_assoc; reflexivity).
        apply (dl_message _ pos _ (lead ++ sep) m ([13; 13; 10] ++ file_of items tail)); [exact R|reflexivity|exact Dl].
      + cbn [map snd]. constructor; [|exact F2]. rewrite HC, D. eauto. }
  destruct (X 0 [] (or_introl eq_refl)) as (ms & D & F2). cbn [app] in D.
  assert (J : Forall (job_of W true) [((n, ms), @nil complaint)]) by (apply Forall_cons; [exact (in_whole W true n _ ms Hf D)|apply Forall_nil]).
  assert (O1 : Forall (fun j => operand (j_name j)) [((n, ms), @nil complaint)]) by (apply Forall_cons; [exact O|apply Forall_nil]).
  apply (C60_dump true [((n, ms), [])]); [discriminate|exact J|exact O1|].
  rewrite <- (app_nil_r (concat _)). apply (obo_cons _ _ _ []); [|apply obo_nil].
  exists []. split; [|reflexivity]. cbn [j_name j_messages fst snd].
  clear -F2. revert texts F2. induction ms as [|[off m] ms IH]; intros texts F2; cbn [map snd] in F2; inversion F2 as [|y t l texts' (b & Db & Tb) F2']; subst.
  - apply obo_nil.
  - cbn [concat]. apply (obo_cons _ _ _ []); [|apply IH; exact F2']. eapply du_crex; eassumption.
Qed.
End Dump.

(** ** Examples *)

Definition ex_full (i : varinfo) : list Z := chars "D"%string.
Definition ex_paths {A} (_ : A) : option (list Z) * option (list Z) := (Some (chars "b.txt"%string), None).
Definition ex_others : others := mkothers 0 0 0 0 0 0 0 0 0.

(** The tables [T] are those of all the CREX messages. *)
Definition dump_world (T : tables) : world :=
  let W := mkworld ex_files (full_bufr (ex_world 100)) (head_bufr (ex_world 100)) (decode_crex opts (fun _ => Ok T) 100) (features (ex_world 100))
             (fun _ _ _ _ _ => Ok ([], None)) (text (ex_world 100)) in
  mkworld ex_files (full_bufr W) (head_bufr W) (full_crex W) (features W)
    (fun a crex _ _ m => match a with DUMP => print_contents ex_fixed ex_full ex_paths ex_paths ex_others W crex m | _ => Ok ([], None) end)
    (text W).

Definition ex_dump (args : list string) : res ending := wrep ex_fixed (dump_world crex_tables) (map chars args).
Definition on_lines (l : list string) : list Z := flat_map (fun t => chars t ++ [10]) l.

Definition ex_subset_lines (n : string) : list string :=
  ["  [" ++ n ++ "][0] 001001 D(NUMERIC): number"; "  [" ++ n ++ "][1] 012101 D(K): number";
   "           033007 D(%): number";
   "  [" ++ n ++ "][2] 031001 D(NUMERIC): number"; "  [" ++ n ++ "][3] 001001 D(NUMERIC): number";
   "  [" ++ n ++ "][4] 012101 D(K): number"; "  [" ++ n ++ "][5] 001001 D(NUMERIC): number";
   "  [" ++ n ++ "][6] 012101 D(K): (undef)"; "           033007 D(%): number"; "  [" ++ n ++ "][7] 001011 D(CCITTIA5): ABC";
   "  [" ++ n ++ "][8] 001001 D(NUMERIC): number"; "  [" ++ n ++ "][9] 222000 D(CCITTIA5): -+----+--"]%string.
Definition ex_message_lines (title details : string) : list string :=
  ([title; " Tables: b.txt (not loaded)"; " Data descriptors:"; "  301002"; "  001011"; "  201130"; "  001001"; "  201000"; "  222000";
    "  101000"; "  031001"; "  031031"; "  033007"; "  033007"; details; " Variables:"] ++ ex_subset_lines "0" ++ ex_subset_lines "1")%list%string.

Definition ex_crex_lines : list string :=
  ["CREX 1:255:0 0:0 0000-00-00 00:00:00 0 1 subsets"; " Tables: b.txt (not loaded)"; " Data descriptors:"; "  001001"; "  001015"; "  102000";
   "  031012"; "  012001"; "  001001"; " CREX details: ed1 t0:3:0:0 -"; " Variables:"; "  [0][0] 001001 D(): number"; "  [0][1] 001015 D(): Rome";
   "  [0][2] 031012 D(): number"; "  [0][3] 012001 D(): number"; "  [0][4] 001001 D(): number"; "  [0][5] 012001 D(): number"; "  [0][6] 001001 D(): (undef)"]%string.

(** A file with a message that cannot be decoded between two that can, a missing file and a file that ends too early. *)
Example C60_dump_example :
  ex_dump ["f"; "nofile"; "cut"]%string = Ok (Exit 0
    (on_lines (ex_message_lines "BUFR 0:7:5 40000:3 2026-12-31 23:59:58 1 2 subsets" " BUFR details: ed4 t0:13:1 - osl4") ++
     on_lines (ex_message_lines "BUFR 0:255:5 200:3 2000-12-31 23:59:00 1 2 subsets" " BUFR details: ed3 t0:13:1 - osl4"))
    [InMessage (chars "f"%string) 129 EParse; Unopened (chars "nofile"%string); InMessage (chars "cut"%string) 0 EParse; InFile (chars "cut"%string) EConsistency]) /\
  ex_dump ["-d"; "f"; "nofile"; "cut"]%string = ex_dump ["f"; "nofile"; "cut"]%string /\
  ex_dump ["-c"; "c"]%string = Ok (Exit 0 (on_lines ex_crex_lines) [InMessage (chars "c"%string) 110 EParse]).
Proof. split; [|split]; vm_compute; reflexivity. Qed.

(** The conditions of the theorems are met. *)
Example C60_dump_conditions_example :
  (forall T crex name off m, other (dump_world T) DUMP crex name off m =
     print_contents ex_fixed ex_full ex_paths ex_paths ex_others (dump_world T) crex m) /\
  hook_ok (mkopts false false None) /\
  (forall id T, ex_load id = Ok T -> table_ok (tb_b T) /\ defs_ok (tb_b T)) /\
  (forall m, full_bufr (dump_world ex_tables) m = (' (b, _, _) <- decode (mkopts false false None) ex_load true 100 m ;; Ok b)) /\
  (forall m, full_crex (dump_world ex_tables) m = decode_crex opts (fun _ => Ok ex_tables) 100 m) /\
  Forall (job_of (dump_world ex_tables) false) ex_jobs /\ Forall (fun j => operand (j_name j)) ex_jobs /\
  Forall (fun j => Forall (fun om => decides (dump_world ex_tables) false (snd om)) (j_messages j)) ex_jobs.
Proof.
  split; [intros; reflexivity|]. split; [exact I|].
  split. { intros id T L. unfold ex_load in L. destruct (t_version id =? 13); [|discriminate]. apply (f_equal (get_ok ex_tables)) in L. cbn [get_ok] in L. subst T.
    split; [exact ex_btable_ok|exact Codec.AgainProperties.ex_defs_ok]. }
  split; [intros; reflexivity|]. split; [intros; reflexivity|].
  split. { eapply Forall_impl; [|exact ex_jobs_ok]. intros [[n ms] tr] H. unfold job_of in *. cbn [j_name j_messages j_trouble fst snd] in *.
    destruct H; [eapply in_missing|eapply in_whole|eapply in_broken]; eassumption. }
  split; [repeat (apply Forall_cons; [exact I|]); apply Forall_nil|].
  repeat (apply Forall_cons || apply Forall_nil); apply comes_back_returns; vm_compute; reflexivity.
Qed.

(** A CREX message of C42 sent twice. *)
Definition twice_world : world :=
  mkworld (fun _ => Some (file_of [([13; 10], ex_ctext); ([], ex_ctext)] [10])) (full_bufr (dump_world crex_tables)) (head_bufr (dump_world crex_tables))
    (full_crex (dump_world crex_tables)) (features (dump_world crex_tables)) (other (dump_world crex_tables)) (text (dump_world crex_tables)).
Example C60_dump_encoded_crex_file_example :
  wrep ex_fixed twice_world [chars "-c"%string; chars "sent"%string] = Ok (Exit 0 (on_lines ex_crex_lines ++ on_lines ex_crex_lines) []).
Proof.
  rewrite <- (app_nil_r (on_lines ex_crex_lines)) at 2.
  apply (C60_dump_encoded_crex_file ex_fixed ex_full ex_paths ex_paths ex_others twice_world (fun _ _ _ _ => eq_refl) opts (fun _ => Ok crex_tables) 100
    (chars "sent"%string) [([13; 10], ex_ctext); ([], ex_ctext)] [10] [on_lines ex_crex_lines; on_lines ex_crex_lines]);
    [intros; reflexivity|exact I|reflexivity| |].
  - apply occurs_after; [discriminate|]. intros (a & b & X). apply (f_equal (@length Z)) in X. rewrite !app_length in X. cbn [length crex_start] in X. lia.
  - assert (E : crex_separator []).
    { split.
      + intros (a & b & X). apply (f_equal (@length Z)) in X. rewrite !app_length in X. cbn [length crex_start] in X. lia.
      + intros k K (a & X). apply (f_equal (@length Z)) in X. rewrite app_length, firstn_length in X. cbn [length crex_start] in X. lia. }
    assert (Q : exists T lt h ops vars got,
      crex_header_ok h = true /\ crex_ops_ok ops = true /\ (length ops < 100)%nat /\
      Ok crex_tables = Ok T /\ crex_transfer vars T 100 ops = Ok got /\
      vars <> [] /\ Forall (fun v => match c_val (v_cell v) with Some (VStr s) => ~ In 43 s | _ => True end) vars /\
      encode_crex opts T 100 lt (mkcb h ops [vars]) = Ok ex_ctext /\
      crex_text ex_fixed ex_full ex_paths ex_others (mkcb (crex_received h) ops [map (fun v => mkvar (v_cell v) []) vars]) = Ok (on_lines ex_crex_lines)).
    { exists crex_tables, empty_local, ex_cheader, ex_cops, ex_cvars, ex_cvars.
      split; [reflexivity|]. split; [reflexivity|]. split; [cbn; lia|]. split; [reflexivity|]. split; [vm_compute; reflexivity|]. split; [discriminate|].
      split; [unfold ex_cvars; repeat (apply Forall_cons; [cbn; lia|]); apply Forall_nil|]. split; vm_compute; reflexivity. }
    constructor; [split; [do 2 (apply separator_after; [discriminate|]); exact E|exact Q]|]. constructor; [split; [exact E|exact Q]|]. constructor.
Qed.

Print Assumptions C60_dump.
Print Assumptions C60_dump_ends.
Print Assumptions C60_dump_encoded_file.
Print Assumptions C60_dump_encoded_crex_file.

(** C60: the command line program. *)
From Coq Require Import String Ascii ZifyBool ZifyNat.
From Verif Require Import Base Bits.Model Bits.Spec Num.Float Varcode.Model Varinfo.Model Tables.Model Var.Model Var.Format Interp.Model Interp.Hom Interp.Example
  Message.Model Crex.Model Crex.SafeProofs Listing.Model Wrep.Model Wrep.Spec Wrep.Proofs.
From Verif Require Codec.Properties Message.Properties Crex.Properties.
Local Open Scope Z_scope.

Section Program.
Context (fixed : nat -> f64 -> list Z) (W : world).

(** Whatever the bytes of a file, there is one list of messages that is found in it, and reading
    comes to an end. *)
Theorem C60_every_file_is_read : forall crex file, exists ms e, delivers (read_of crex) 0 file ms e /\
  (forall ms' e', delivers (read_of crex) 0 file ms' e' -> ms' = ms /\ e' = e).
Proof.
  intros crex file. destruct (delivers_total crex (S (length file)) file 0 ltac:(lia)) as (ms & e & D).
  exists ms, e. split; [exact D|]. intros ms' e' D'. exact (delivers_fun crex _ _ _ _ D _ _ D').
Qed.

(** -U copies the messages that cannot be decoded, all of them, whole, in order, and nothing else;
    files that are missing or broken do not stop it and are reported. *)
Theorem C60_unparsable : forall crex jobs, jobs <> [] ->
  Forall (job_of W crex) jobs -> Forall (fun j => operand (j_name j)) jobs ->
  Forall (fun j => Forall (fun om => decides W crex (snd om)) (j_messages j)) jobs ->
  exists log,
    wrep fixed W (crex_flag crex ++ chars "-U"%string :: map j_name jobs) =
    Ok (Exit 0 (concat (map (fun j => concat (filter (refused W crex) (map snd (j_messages j)))) jobs)) log) /\
    (forall j c, In j jobs -> In c (j_trouble j) -> In c log).
Proof.
  intros crex jobs N J O D. rewrite wrep_unparsable.
  - rewrite process_jobs by exact J.
    destruct (all_unparsable fixed W (with_action crex UNPARSABLE []) jobs eq_refl D false) as (log & -> & T).
    exists log. split; [reflexivity|exact T].
  - rewrite Forall_map. exact O.
  - destruct jobs; [congruence|discriminate].
Qed.

(** What -U writes is a file of its own: given back to -U, it is written again unchanged. *)
Theorem C60_unparsable_again : forall crex n n2 f ms e, operand n -> operand n2 ->
  files W n = Some f -> delivers (read_of crex) 0 f ms e -> Forall (fun om => decides W crex (snd om)) ms ->
  exists out log log2, wrep fixed W (crex_flag crex ++ [chars "-U"%string; n]) = Ok (Exit 0 out log) /\
    (files W n2 = Some out -> wrep fixed W (crex_flag crex ++ [chars "-U"%string; n2]) = Ok (Exit 0 out log2)).
Proof.
  intros crex n n2 f ms e O O2 F D R.
  set (ms0 := filter (fun om => refused W crex (snd om)) ms).
  assert (E0 : filter (refused W crex) (map snd ms) = map snd ms0).
  { unfold ms0. clear. induction ms as [|[o m] ms IH]; [reflexivity|]. cbn [map filter snd].
    destruct (refused W crex m); cbn [map snd]; rewrite IH; reflexivity. }
  destruct (delivers_again crex _ _ _ _ D ms0 (fun x Hx => proj1 (proj1 (filter_In _ _ _) Hx)) 0) as (ms1 & D1 & E1).
  set (out := concat (map snd ms0)) in *.
  assert (J1 : exists tr, job_of W crex ((n, ms), tr)).
  { destruct e as [e|]; eexists; [exact (in_broken W crex n f ms e F D)|exact (in_whole W crex n f ms F D)]. }
  destruct J1 as (tr & J1).
  destruct (C60_unparsable crex [((n, ms), tr)]) as (log & X & _); try (constructor; [assumption|constructor]); [discriminate|].
  cbn [map concat j_name j_messages fst snd] in X. rewrite app_nil_r, E0 in X. fold out in X.
  assert (R1 : Forall (fun om => decides W crex (snd om)) ms1).
  { apply Forall_forall. intros om Hin. apply (in_map snd) in Hin. rewrite E1 in Hin. apply in_map_iff in Hin as (om' & Eq & Hin).
    unfold ms0 in Hin. apply filter_In in Hin as [Hin _]. rewrite <- Eq. rewrite Forall_forall in R. apply R. exact Hin. }
  assert (E2 : filter (refused W crex) (map snd ms1) = map snd ms1).
  { rewrite E1. unfold ms0. clear. induction ms as [|[o m] ms IH]; [reflexivity|]. cbn [filter snd].
    destruct (refused W crex m) eqn:E; [|exact IH]. cbn [map snd filter]. rewrite E, IH. reflexivity. }
  exists out, log.
  destruct (files W n2) as [g|] eqn:F2; [|exists []; split; [exact X|discriminate]].
  destruct (list_eq_dec Z.eq_dec g out) as [->|Ne].
  - destruct (C60_unparsable crex [((n2, ms1), [])]) as (log2 & X2 & _); try (constructor; [|constructor]);
      [discriminate|exact (in_whole W crex n2 out ms1 F2 D1)|exact O2|exact R1|].
    cbn [map concat j_name j_messages fst snd] in X2. rewrite app_nil_r, E2, E1 in X2. fold out in X2.
    exists log2. split; [exact X|intros _; exact X2].
  - exists []. split; [exact X|]. intros H. injection H as H. congruence.
Qed.

(** --print with a list of codes: for each message that can be decoded one line per subset, with the
    values asked for, in the order asked for; a message that cannot be decoded is reported and the
    following ones are printed. *)
Theorem C60_print : forall crex codes jobs out log, jobs <> [] ->
  Forall (fun c => 0 <= c < 2 ^ 16) codes ->
  Forall (job_of W crex) jobs -> Forall (fun j => operand (j_name j)) jobs ->
  one_by_one (in_job (printed fixed W crex codes)) jobs out log ->
  wrep fixed W (crex_flag crex ++ (chars "--print="%string ++ code_list codes) :: map j_name jobs) = Ok (Exit 0 out log).
Proof.
  intros crex codes jobs out log N C J O P. rewrite wrep_print.
  - rewrite process_jobs by exact J.
    rewrite (all_one_by_one fixed W (with_action crex PRINT_VARS codes) (printed fixed W crex codes) jobs out log); [reflexivity| |exact P].
    intros name titled om t c H. apply handle_print; [reflexivity|exact H].
  - exact C.
  - rewrite Forall_map. exact O.
  - destruct jobs; [congruence|discriminate].
Qed.

(** -T: one title, then one line per message whose header can be decoded, over all the files. *)
Theorem C60_tables : forall crex jobs, jobs <> [] ->
  Forall (job_of W crex) jobs -> Forall (fun j => operand (j_name j)) jobs ->
  Forall (fun j => Forall (fun om => returns (table_line W crex (j_name j) om)) (j_messages j)) jobs ->
  exists log, wrep fixed W (crex_flag crex ++ chars "-T"%string :: map j_name jobs) =
    Ok (Exit 0 (with_title (table_lines W crex jobs)) log).
Proof.
  intros crex jobs N J O D. rewrite wrep_tables.
  - rewrite process_jobs by exact J.
    destruct (all_tables fixed W (with_action crex TABLES []) jobs eq_refl D false) as (log & ->). exists log. reflexivity.
  - rewrite Forall_map. exact O.
  - destruct jobs; [congruence|discriminate].
Qed.

(** ** The command line *)

(** The long and the short form of an option without an argument are the same, anywhere in a
    command line; -p and -h are excluded, see below. *)
Theorem C60_long_options : forall name c before after, In (name, c)
    [("crex", "c"); ("dump", "d"); ("trace", "t"); ("structure", "s"); ("dds", "D"); ("info", "i"); ("verbose", "v");
     ("unparsable", "U"); ("tables", "T"); ("features", "F"); ("list-tables", "L")]%string ->
  Forall operand before ->
  wrep fixed W (before ++ chars ("--" ++ name)%string :: after) = wrep fixed W (before ++ chars ("-" ++ c)%string :: after).
Proof.
  intros name c before after H O. unfold wrep. f_equal.
  assert (E : scan_args (chars ("--" ++ name)%string :: after) = scan_args (chars ("-" ++ c)%string :: after)).
  { repeat (destruct H as [H|H]; [injection H as <- <-; reflexivity|]). destruct H. }
  assert (E2 : scan_args (before ++ chars ("--" ++ name)%string :: after) = scan_args (before ++ chars ("-" ++ c)%string :: after)).
  { induction O as [|b before Ob O IH]; [exact E|]. cbn [app]. rewrite !(scan_operand b _ Ob), IH. reflexivity. }
  rewrite E2. reflexivity.
Qed.

(** Options and file names can be in any order. *)
Theorem C60_options_anywhere : forall a names after,
  In a (map chars ["-c"; "-d"; "-t"; "-s"; "-D"; "-i"; "-v"; "-U"; "-T"; "-F"; "-L"]%string) \/ (exists codes, a = chars "--print="%string ++ codes) ->
  Forall operand names ->
  wrep fixed W (names ++ a :: after) = wrep fixed W (a :: names ++ after).
Proof.
  intros a names after H O.
  assert (A : exists e, forall rest, scan_args (a :: rest) = let (es, ns) := scan_args rest in (e ++ es, ns)).
  { destruct H as [H|(codes & ->)].
    - cbn [map] in H. repeat (destruct H as [<-|H]; [eexists; intros rest; reflexivity|]). destruct H.
    - eexists. intros rest. reflexivity. }
  destruct A as (e & A).
  assert (N : forall rest, scan_args (names ++ rest) = let (es, ns) := scan_args rest in (es, names ++ ns)).
  { intros rest. induction O as [|n names On O IH]; [cbn [app]; destruct (scan_args rest); reflexivity|].
    cbn [app]. rewrite (scan_operand n _ On), IH. destruct (scan_args rest); reflexivity. }
  unfold wrep. rewrite N, !A, N. destruct (scan_args after). reflexivity.
Qed.

(** A list of codes separated by commas is understood, whatever the codes. *)
Theorem C60_code_list : forall codes, Forall (fun c => 0 <= c < 2 ^ 16) codes ->
  init_varcodes (Some (code_list codes)) = Ok codes.
Proof. exact init_varcodes_list. Qed.

(** Whatever the arguments and the files, the program ends, with status 0 or 1 or with the error of
    a code that is not a code, as long as what it calls comes back. *)
Theorem C60_always_ends : comes_back fixed W -> forall args,
  (exists status out log, wrep fixed W args = Ok (Exit status out log) /\ (status = 0 \/ status = 1)) \/
  wrep fixed W args = Ok (Terminated EConsistency).
Proof. intros B args. exact (wrep_ends fixed W B args). Qed.
End Program.

(** ** A world for the examples: the decoders of the library on the messages of C27 and C42 *)

Import Codec.Properties Message.Properties Crex.Properties.

(** The last 7777 is overwritten. *)
Definition good : list Z := Eval vm_compute in ex_encode 4 40000 2026.
Definition good2 : list Z := Eval vm_compute in ex_encode 3 200 2000.
Definition bad : list Z := Eval vm_compute in firstn 120 good ++ [55; 55; 55; 33].
Definition ctext : list Z := Eval vm_compute in firstn (length ex_ctext - 3) ex_ctext.
(** CREX++ T000103 A001 B12001 X++ 7777 *)
Definition cbad : list Z := ex_cut ++ [32; 43; 33; 43; 43; 13; 13; 10; 55; 55; 55; 55].
Definition chang : list Z := ex_cut ++ [32; 88; 43; 43; 13; 13; 10; 55; 55; 55; 55].

Definition ex_files (n : list Z) : option (list Z) :=
  if list_eqb n (chars "f"%string) then Some ([13; 10; 66; 85; 32] ++ good ++ bad ++ [1; 2] ++ good2 ++ [66; 85; 70])
  else if list_eqb n (chars "cut"%string) then Some (bad ++ firstn 60 good)
  else if list_eqb n (chars "c"%string) then Some (ctext ++ [13; 13; 10] ++ cbad ++ [13; 13; 10])
  else if list_eqb n (chars "hang"%string) then Some chang
  else if list_eqb n (chars "u"%string) then Some bad
  else None.

Definition ex_world (fuel : nat) : world :=
  mkworld ex_files
    (fun m => ' (b, _, _) <- decode (mkopts false false None) ex_load true 100 m ;; Ok b)
    (fun m => ' (b, _) <- decode_header ex_load m ;; Ok b)
    (fun m => decode_crex opts (fun _ => Ok crex_tables) fuel m)
    (fun _ _ => Ok [])
    (fun _ _ _ _ _ => Ok ([], None))
    (fun _ => chars "text"%string).

Definition ex_fixed (n : nat) (_ : f64) : list Z := chars "number"%string.

Definition ex_wrep (args : list string) : res ending := wrep ex_fixed (ex_world 100) (map chars args).

Definition comes_back_b {A} (r : res A) : bool := match r with UB | Err EFuel => false | _ => true end.
Lemma comes_back_returns {A} (r : res A) : comes_back_b r = true -> returns r.
Proof. intros H. split; intros ->; discriminate. Qed.

Definition ex_jobs : list job :=
  [(chars "f"%string, [(5, good); (129, bad); (255, good2)], []);
   (chars "nofile"%string, [], [Unopened (chars "nofile"%string)]);
   (chars "cut"%string, [(0, bad)], [InFile (chars "cut"%string) EConsistency])].

Lemma ex_jobs_ok : Forall (job_of (ex_world 100) false) ex_jobs.
Proof.
  apply Forall_cons; [|apply Forall_cons; [|apply Forall_cons; [|apply Forall_nil]]].
  - apply (in_whole _ _ _ ([13; 10; 66; 85; 32] ++ good ++ bad ++ [1; 2] ++ good2 ++ [66; 85; 70])); [reflexivity|].
    apply (dl_message _ 0 _ [13; 10; 66; 85; 32] good (bad ++ [1; 2] ++ good2 ++ [66; 85; 70])); [vm_compute; reflexivity|reflexivity|].
    apply (dl_message _ 129 _ [] bad ([1; 2] ++ good2 ++ [66; 85; 70])); [vm_compute; reflexivity|reflexivity|].
    apply (dl_message _ 253 _ [1; 2] good2 [66; 85; 70]); [vm_compute; reflexivity|reflexivity|].
    apply dl_end. vm_compute. reflexivity.
  - apply in_missing. reflexivity.
  - apply (in_broken _ _ _ (bad ++ firstn 60 good)); [reflexivity|].
    apply (dl_message _ 0 _ [] bad (firstn 60 good)); [vm_compute; reflexivity|reflexivity|].
    apply dl_error. vm_compute. reflexivity.
Qed.

Example C60_example :
  Forall (job_of (ex_world 100) false) ex_jobs /\ Forall (fun j => operand (j_name j)) ex_jobs /\
  Forall (fun j => Forall (fun om => decides (ex_world 100) false (snd om)) (j_messages j)) ex_jobs /\
  Forall (fun j => Forall (fun om => returns (table_line (ex_world 100) false (j_name j) om)) (j_messages j)) ex_jobs /\
  ex_wrep ["-U"; "f"; "nofile"; "cut"]%string =
    Ok (Exit 0 (bad ++ bad) [Unparsed EParse; Unopened (chars "nofile"%string); Unparsed EParse; InFile (chars "cut"%string) EConsistency]) /\
  ex_wrep ["-U"; "u"]%string = Ok (Exit 0 bad [Unparsed EParse]) /\
  ex_wrep ["-c"; "-U"; "c"]%string = Ok (Exit 0 cbad [Unparsed EParse]).
Proof.
  split; [exact ex_jobs_ok|]. split; [repeat (apply Forall_cons; [exact I|]); apply Forall_nil|].
  split; [|split; [|split; [vm_compute; reflexivity|split; vm_compute; reflexivity]]];
    repeat (apply Forall_cons || apply Forall_nil); apply comes_back_returns; vm_compute; reflexivity.
Qed.

(** The lines of --print and of -T. *)
Example C60_print_example :
  ex_wrep ["--print=B01011,B12101"; "f"; "nofile"]%string =
    Ok (Exit 0 (chars ("f:1:" ++ String (ascii_of_nat 9) "ABC" ++ String (ascii_of_nat 9) "number" ++ String (ascii_of_nat 10)
                       "f:2:" ++ String (ascii_of_nat 9) "ABC" ++ String (ascii_of_nat 9) "number" ++ String (ascii_of_nat 10)
                       "f:1:" ++ String (ascii_of_nat 9) "ABC" ++ String (ascii_of_nat 9) "number" ++ String (ascii_of_nat 10)
                       "f:2:" ++ String (ascii_of_nat 9) "ABC" ++ String (ascii_of_nat 9) "number" ++ String (ascii_of_nat 10) "")%string)
          [InMessage (chars "f"%string) 129 EParse; Unopened (chars "nofile"%string)]) /\
  code_list [wr_var 0 1 11; wr_var 0 12 101] = chars "B01011,B12101"%string /\
  exists colss, Forall2 (fun vars cols => columns ex_fixed vars [wr_var 0 1 11; wr_var 0 12 101] cols)
    (get_ok [] (subsets_of (ex_world 100) false good)) colss /\
    colss = [[chars "ABC"%string; chars "number"%string]; [chars "ABC"%string; chars "number"%string]].
Proof.
  split; [vm_compute; reflexivity|]. split; [vm_compute; reflexivity|]. eexists. split; [|reflexivity].
  assert (Col : forall vars v1 v2 s1 s2, find_varcode vars (wr_var 0 1 11) = Some v1 -> find_varcode vars (wr_var 0 12 101) = Some v2 ->
    format ex_fixed (v_cell v1) [] = Ok s1 -> format ex_fixed (v_cell v2) [] = Ok s2 ->
    columns ex_fixed vars [wr_var 0 1 11; wr_var 0 12 101] [s1; s2]).
  { intros vars v1 v2 s1 s2 F1 F2 E1 E2. apply find_varcode_first in F1, F2.
    eapply col_found; [exact F1|exact E1|]. eapply col_found; [exact F2|exact E2|]. apply col_nil. }
  assert (Len : map (fun vars => (rmap (fun v => format ex_fixed (v_cell v) []) (match find_varcode vars (wr_var 0 1 11) with Some v => Ok v | None => UB end),
      rmap (fun v => format ex_fixed (v_cell v) []) (match find_varcode vars (wr_var 0 12 101) with Some v => Ok v | None => UB end)))
      (get_ok [] (subsets_of (ex_world 100) false good)) =
    [(Ok (Ok (chars "ABC"%string)), Ok (Ok (chars "number"%string))); (Ok (Ok (chars "ABC"%string)), Ok (Ok (chars "number"%string)))])
    by (vm_compute; reflexivity).
  assert (One : forall vars, (rmap (fun v => format ex_fixed (v_cell v) []) (match find_varcode vars (wr_var 0 1 11) with Some v => Ok v | None => UB end),
      rmap (fun v => format ex_fixed (v_cell v) []) (match find_varcode vars (wr_var 0 12 101) with Some v => Ok v | None => UB end)) =
      (Ok (Ok (chars "ABC"%string)), Ok (Ok (chars "number"%string))) ->
    columns ex_fixed vars [wr_var 0 1 11; wr_var 0 12 101] [chars "ABC"%string; chars "number"%string]).
  { intros vars H. apply pair_equal_spec in H as [H1 H2].
    destruct (find_varcode vars (wr_var 0 1 11)) as [v1|] eqn:F1; [|discriminate].
    destruct (find_varcode vars (wr_var 0 12 101)) as [v2|] eqn:F2; [|discriminate].
    apply (f_equal (fun r => match r with Ok x => x | _ => UB end)) in H1, H2. exact (Col _ _ _ _ _ F1 F2 H1 H2). }
  destruct (get_ok [] (subsets_of (ex_world 100) false good)) as [|a [|b [|c l]]]; cbn [map] in Len; try discriminate Len.
  apply (f_equal (fun l => (nth 0 l (UB, UB), nth 1 l (UB, UB)))) in Len. cbn [nth] in Len. apply pair_equal_spec in Len as [L1 L2].
  constructor; [exact (One _ L1)|]. constructor; [exact (One _ L2)|]. constructor.
Qed.

Example C60_tables_example :
  ex_wrep ["-T"; "f"; "nofile"; "cut"]%string =
    Ok (Exit 0 (with_title (table_lines (ex_world 100) false ex_jobs))
          [Unopened (chars "nofile"%string); InFile (chars "cut"%string) EConsistency]) /\
  map snd (table_lines (ex_world 100) false ex_jobs) =
    map (fun s => tab_separated (map chars s) ++ [10])
      [["f"; "5"; "40000"; "3"; "13"; "1"]; ["f"; "129"; "40000"; "3"; "13"; "1"]; ["f"; "255"; "200"; "3"; "13"; "1"];
       ["cut"; "0"; "40000"; "3"; "13"; "1"]]%string.
Proof. split; vm_compute; reflexivity. Qed.

Definition calm_world : world :=
  mkworld ex_files (fun m => if Nat.ltb (length m) 124 then Err EParse else Ok (ex_bulletin 4 1 2026)) (fun _ => Err EParse) (fun _ => Err EParse)
    (fun _ _ => Ok []) (fun _ _ _ _ _ => Ok ([], Some EParse)) (fun _ => []).
Example C60_always_ends_example : comes_back ex_fixed calm_world /\
  ex_wrep ["--print=B0101x"; "f"]%string = Ok (Terminated EConsistency).
Proof.
  split; [|vm_compute; reflexivity]. constructor; cbn [full_bufr head_bufr full_crex features other calm_world].
  - intros m. destruct (Nat.ltb _ _); split; discriminate.
  - intros m. split; discriminate.
  - intros m. split; discriminate.
  - intros crex m. split; discriminate.
  - intros. eauto.
  - intros crex m ss vars v H. unfold subsets_of, calm_world in H. cbn [full_bufr full_crex] in H. destruct crex; [discriminate|].
    destruct (Nat.ltb _ _); [discriminate|]. apply (f_equal (fun r => get_ok [] r)) in H. cbn [get_ok b_subsets ex_bulletin] in H. subst ss.
    intros I1 I2.
    assert (A : forallb (fun v => match format ex_fixed (v_cell v) [] with Ok _ => true | _ => false end) (concat [ex_subset 300; ex_subset 400]) = true)
      by (vm_compute; reflexivity).
    rewrite forallb_forall in A. specialize (A v). assert (I : In v (concat [ex_subset 300; ex_subset 400])) by (apply in_concat; eauto).
    specialize (A I). destruct (format ex_fixed (v_cell v) []); try discriminate. eauto.
Qed.

(** ** What does not hold *)

(** The short option -p, as the help has it: its argument is taken for a file name and no value is
    printed; written together, it is refused. *)
Theorem C60_short_print_refuted :
  ex_wrep ["-p"; "B01011"; "u"]%string = Ok (Exit 0 [] [Unopened (chars "B01011"%string); InMessage (chars "u"%string) 0 EParse]) /\
  (exists out, ex_wrep ["-p"; "B01011"; "f"]%string = Ok (Exit 0 out [Unopened (chars "B01011"%string); InMessage (chars "f"%string) 129 EParse]) /\
     firstn 5 out = chars "f:1:"%string ++ [10]) /\
  ex_wrep ["-pB01011"; "f"]%string = Ok (Exit 1 [] [BadOption]).
Proof. split; [vm_compute; reflexivity|]. split; [|vm_compute; reflexivity]. eexists. split; vm_compute; reflexivity. Qed.

(** The short option -h alone is an error; it needs a word after it. *)
Theorem C60_short_help_refuted :
  ex_wrep ["-h"]%string = Ok (Exit 1 [] [BadOption]) /\
  ex_wrep ["-h"; "x"]%string = Ok (Exit 0 (chars "text"%string) []) /\
  ex_wrep ["--help"]%string = Ok (Exit 0 (chars "text"%string) []).
Proof. repeat split; vm_compute; reflexivity. Qed.

(** A code that is not a code ends the program with an exception that nobody catches; a code that is
    too short is ignored, with all those after it. *)
Theorem C60_bad_code_refuted :
  ex_wrep ["--print=B0101x"; "f"]%string = Ok (Terminated EConsistency) /\
  init_varcodes (Some (chars "B01011,B1,B1210"%string)) = Err EConsistency /\
  init_varcodes (Some (chars "B01011,B12"%string)) = Ok [wr_var 0 1 11] /\
  init_varcodes (Some (chars "B01011-B12101,B12101"%string)) = Ok [wr_var 0 1 11; wr_var 0 12 101].
Proof. repeat split; vm_compute; reflexivity. Qed.

(** The exit status says nothing about the messages and the files that failed. *)
Theorem C60_status_refuted :
  ex_wrep ["nofile"]%string = Ok (Exit 0 [] [Unopened (chars "nofile"%string)]) /\
  ex_wrep ["--print=B01011"; "u"]%string = Ok (Exit 0 [] [InMessage (chars "u"%string) 0 EParse]).
Proof. split; vm_compute; reflexivity. Qed.

(** A message that is cut by the end of the file is not copied by -U, although it cannot be parsed. *)
Theorem C60_cut_message_refuted : exists f,
  ex_files (chars "cut"%string) = Some (bad ++ f) /\ (0 < length f)%nat /\ firstn 4 f = [66; 85; 70; 82] /\
  ex_wrep ["-U"; "cut"]%string = Ok (Exit 0 bad [Unparsed EParse; InFile (chars "cut"%string) EConsistency]).
Proof. exists (firstn 60 good). repeat split; vm_compute; try reflexivity. repeat constructor. Qed.

(** A code that is not in the subset has no column, so that the columns cannot be told apart: B01001
    is 7 and B31012 is absent, or the other way round. *)
Theorem C60_columns_refuted : forall fixed, exists cols,
  columns fixed [sent block_info (Some (VInt 7))] [wr_var 0 1 1; wr_var 0 31 12] cols /\
  columns fixed [sent (count_info 12 5) (Some (VInt 7))] [wr_var 0 1 1; wr_var 0 31 12] cols.
Proof.
  intros fixed. exists [firstn 19 (fixed 0%nat (f_of_Z 7))]. split.
  - eapply col_found; [exists [], []; repeat split; constructor|reflexivity|].
    apply col_absent; [|apply col_nil]. apply Forall_cons; [vm_compute; discriminate|apply Forall_nil].
  - apply col_absent; [apply Forall_cons; [vm_compute; discriminate|apply Forall_nil]|].
    eapply col_found; [exists [], []; repeat split; constructor|reflexivity|]. apply col_nil.
Qed.

(** A CREX message with an unexpected character after its descriptors is read whole, and the program
    never ends. *)
Theorem C60_crex_ends_refuted : forall fuel,
  read_crex chang = Ok (Some (chang, [])) /\
  wrep ex_fixed (ex_world fuel) (map chars ["-c"; "-U"; "hang"]%string) = Err EFuel.
Proof.
  intros fuel. assert (R : read_crex chang = Ok (Some (chang, []))) by (vm_compute; reflexivity). split; [exact R|].
  assert (E : decode_crex opts (fun _ => Ok crex_tables) fuel chang = Err EFuel).
  { assert (E : decode_cheader fuel chang = Err EFuel).
    { destruct fuel as [|fuel]; [vm_compute; reflexivity|]. cbv - [decode_descs]. cbn [decode_descs].
      cbv - [decode_descs]. rewrite stuck; reflexivity. }
    unfold decode_crex. rewrite E. reflexivity. }
  change (map chars ["-c"; "-U"; "hang"]%string) with (crex_flag true ++ chars "-U"%string :: [chars "hang"%string]).
  rewrite wrep_unparsable; [|apply Forall_cons; [exact I|apply Forall_nil]|discriminate].
  change [chars "hang"%string] with (map j_name [((chars "hang"%string, [(0, chang)]), @nil complaint)]).
  rewrite process_jobs.
  - cbn [all_jobs each j_name j_messages fst snd]. unfold handle. cbn [w_action w_crex with_action full_crex ex_world].
    rewrite E. reflexivity.
  - apply Forall_cons; [|apply Forall_nil]. apply (in_whole _ _ _ chang); [reflexivity|].
    apply (dl_message _ 0 _ [] chang []); [exact R|rewrite app_nil_r; reflexivity|]. apply dl_end. reflexivity.
Qed.

Print Assumptions C60_every_file_is_read.
Print Assumptions C60_unparsable.
Print Assumptions C60_unparsable_again.
Print Assumptions C60_print.
Print Assumptions C60_tables.
Print Assumptions C60_long_options.
Print Assumptions C60_options_anywhere.
Print Assumptions C60_code_list.
Print Assumptions C60_always_ends.
Print Assumptions C60_short_print_refuted.
Print Assumptions C60_short_help_refuted.
Print Assumptions C60_bad_code_refuted.
Print Assumptions C60_status_refuted.
Print Assumptions C60_cut_message_refuted.
Print Assumptions C60_columns_refuted.
Print Assumptions C60_crex_ends_refuted.

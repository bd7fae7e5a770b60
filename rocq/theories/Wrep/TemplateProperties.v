(** C60: what wrep prints with -D and with -F. *)
From Coq Require Import String Sorting.Sorted ZifyBool ZifyNat.
From Verif Require Import Base Num.Float Varcode.Model Varinfo.Model Tables.Model Var.Model Interp.Model Interp.Example Message.Model Crex.Model
  Listing.Model Listing.Spec Print.Spec Select.Model Select.Spec Select.Explain Wrep.Model Wrep.Spec Wrep.Proofs Wrep.Template.
From Verif Require Listing.FaithfulProofs Listing.Properties Wrep.Properties Select.ExplainProperties.
From Verif Require Message.Properties Crex.Properties.
Import Message.Properties Crex.Properties Wrep.Properties.
Local Open Scope Z_scope.

(** Texts with commas between them. *)
Definition comma_separated (l : list (list Z)) : list Z :=
  match l with
  | [] => []
  | f :: rest => f ++ concat (map (fun g => chars ","%string ++ g) rest)
  end.
Lemma commas_separated : forall l, commas l = comma_separated l.
Proof.
  assert (X : forall r f, commas (f :: r) = f ++ concat (map (fun g => chars ","%string ++ g) r)).
  { induction r as [|g r IH]; intros f; [cbn; rewrite app_nil_r; reflexivity|]. cbn [map concat]. rewrite <- app_assoc, <- IH. reflexivity. }
  intros [|f r]; [reflexivity|apply X].
Qed.

Section Template.
Context (fixed : nat -> f64 -> list Z) (load : tableid -> res tables) (cload : cheader -> res tables) (fuel : nat)
  (describe : tables -> Z -> list Z) (path : tables -> list Z) (left_by : list Z -> localtables) (began : bool -> list Z -> list Z) (W : world).
Let template := template_of load cload left_by W.

(** What is printed with -F: the name of the file, the offset of the message, and the features of its template (C57), each
    once, in order; or a complaint with the place of the message. *)
Inductive featured (name : list Z) (crex : bool) : Z * list Z -> list Z -> list complaint -> Prop :=
| fe_ok : forall off m T lt ops ns b fs, template crex m = Ok (T, lt, ops) ->
    reads T false ops ns b -> ascending fs -> (forall f, In f fs <-> In f (Listing.Spec.features ns)) ->
    featured name crex (off, m) (name ++ chars ":"%string ++ decimal off ++ chars ":"%string ++ comma_separated fs ++ [10]) []
| fe_fail : forall off m e, features_of load cload fuel left_by W crex m = Err e -> e <> EFuel ->
    featured name crex (off, m) [] [InMessage name off e].

(** What is printed with -D: the tree of the template, with what the tables say of the elements. *)
Inductive described (name : list Z) (crex : bool) : Z * list Z -> list Z -> list complaint -> Prop :=
| de_ok : forall off m T lt ops ns b text, template crex m = Ok (T, lt, ops) ->
    reads T false ops ns b -> element_lines T (describe T) (path T) text ->
    described name crex (off, m) (listing text 0 ns) []
| de_refused : forall off m e, template crex m = Err e -> e <> EFuel ->
    described name crex (off, m) [] [InMessage name off e]
| de_fail : forall off m T lt ops e, template crex m = Ok (T, lt, ops) ->
    print_datadesc T (describe T) (path T) fuel lt ops 0 = Err e -> e <> EFuel ->
    described name crex (off, m) (began crex m) [InMessage name off e].

(** An action on every message of every file. *)
Lemma every_message (P : list Z -> Z * list Z -> list Z -> list complaint -> Prop) (o : wopts) jobs :
  Forall (job_of W (w_crex o)) jobs ->
  Forall (fun j => Forall (fun om => exists t c, P (j_name j) om t c /\ forall titled, handle fixed W o (j_name j) titled (fst om) (snd om) = Ok (titled, t, c)) (j_messages j)) jobs ->
  exists out log, one_by_one (in_job P) jobs out log /\ process fixed W o false (map j_name jobs) = Ok (out, log).
Proof.
  intros J D.
  set (Q := fun (name : list Z) (om : Z * list Z) t c => P name om t c /\ forall titled, handle fixed W o name titled (fst om) (snd om) = Ok (titled, t, c)).
  assert (X : exists out log, one_by_one (in_job Q) jobs out log).
  { clear J. induction D as [|j jobs Dj D (out & log & IH)]; [exists [], []; apply obo_nil|].
    assert (Y : exists t c, one_by_one (Q (j_name j)) (j_messages j) t c).
    { induction Dj as [|om l (t1 & c1 & R) Dl (t & c & IHl)]; [exists [], []; apply obo_nil|]. exists (t1 ++ t), (c1 ++ c). apply obo_cons; assumption. }
    destruct Y as (t & c & Y). exists (t ++ out), ((c ++ j_trouble j) ++ log). apply obo_cons; [|exact IH]. exists c. auto. }
  destruct X as (out & log & X). exists out, log. split.
  - clear -X. induction X as [|j t c l ts cs (c' & H1 & ->) H IH]; [apply obo_nil|]. apply obo_cons; [|exact IH]. exists c'. split; [|reflexivity].
    clear -H1. induction H1 as [|om t c l ts cs [H _] H1 IH]; [apply obo_nil|apply obo_cons; assumption].
  - rewrite process_jobs by exact J. apply (all_one_by_one fixed W o Q); [|exact X]. intros name titled om t c [_ H]. apply H.
Qed.

(** With -F: the features of all the messages of all the files. *)
Theorem C60_features : forall crex jobs, (forall m, Wrep.Model.features W crex m = features_of load cload fuel left_by W crex m) ->
  jobs <> [] -> Forall (job_of W crex) jobs -> Forall (fun j => operand (j_name j)) jobs ->
  Forall (fun j => Forall (fun om => returns (features_of load cload fuel left_by W crex (snd om))) (j_messages j)) jobs ->
  exists out log, one_by_one (in_job (fun name => featured name crex)) jobs out log /\
    wrep fixed W (crex_flag crex ++ chars "-F"%string :: map j_name jobs) = Ok (Exit 0 out log).
Proof.
  intros crex jobs HF N J O D.
  destruct (every_message (fun name => featured name crex) (with_action crex FEATURES []) jobs J) as (out & log & X & Pr).
  { eapply Forall_impl; [|exact D]. intros j Dj. eapply Forall_impl; [|exact Dj]. intros [off m] [R1 R2]. cbn [fst snd] in *.
    unfold handle, with_action. cbn [w_action w_crex]. rewrite HF.
    destruct (features_of load cload fuel left_by W crex m) as [fs|e|] eqn:E; [| |congruence].
    - exists (features_row (j_name j) off fs), []. split; [|intros titled; reflexivity]. unfold features_row. rewrite commas_separated.
      unfold features_of in E. destruct (template_of load cload left_by W crex m) as [[[T lt] ops]| |] eqn:Et; try discriminate E. cbn [bind] in E.
      destruct (Listing.Properties.C57_features T fuel lt ops fs E) as (ns & b & R & _ & A & F). eapply fe_ok; eassumption.
    - exists [], [InMessage (j_name j) off e]. assert (e <> EFuel) by congruence.
      split; [apply fe_fail; assumption|]. intros titled. cbn [bind guarded]. destruct e; try reflexivity; congruence. }
  exists out, log. split; [exact X|].
  rewrite (wrep_files fixed W _ ((if crex then [Opt 99 None] else []) ++ [Opt 70 None]) (map j_name jobs) (with_action crex FEATURES [])); [rewrite Pr; reflexivity| | |destruct jobs; [congruence|discriminate]|reflexivity].
  - rewrite scan_crex. change (scan_args (chars "-F"%string :: map j_name jobs)) with (let (es, names) := scan_args (map j_name jobs) in (Opt 70 None :: es, names)).
    rewrite scan_operands by (rewrite Forall_map; exact O). reflexivity.
  - destruct crex; reflexivity.
Qed.

(** The line of a message is one: its template has one tree, and the features are in order. *)
Lemma ascending_same : forall a b, ascending a -> ascending b -> (forall f, In f a <-> In f b) -> a = b.
Proof.
  assert (Irr : forall x, text_ltb x x = false) by (induction x as [|c x IH]; [reflexivity|]; cbn [text_ltb]; rewrite Z.ltb_irrefl, Z.eqb_refl; exact IH).
  assert (Asym : forall x y, text_ltb x y = true -> text_ltb y x = true -> False).
  { induction x as [|c x IH]; intros [|d y]; cbn [text_ltb]; try discriminate. intros H1 H2.
    destruct (c <? d) eqn:E1; destruct (d <? c) eqn:E2; try lia. cbn [orb] in *.
    apply andb_true_iff in H1 as [_ H1], H2 as [_ H2]. eauto. }
  induction a as [|x a IH]; intros [|y b] Ha Hb Eq; [reflexivity|destruct (proj2 (Eq y) (or_introl eq_refl))|destruct (proj1 (Eq x) (or_introl eq_refl))|].
  apply StronglySorted_inv in Ha as [Ha Fa], Hb as [Hb Fb]. rewrite Forall_forall in Fa, Fb.
  assert (x = y) as <-.
  { destruct (proj1 (Eq x) (or_introl eq_refl)) as [E|I1]; [symmetry; exact E|]. destruct (proj2 (Eq y) (or_introl eq_refl)) as [E|I2]; [exact E|].
    destruct (Asym _ _ (Fb _ I1) (Fa _ I2)). }
  f_equal. apply IH; [exact Ha|exact Hb|]. intros f. split; intros I.
  - destruct (proj1 (Eq f) (or_intror I)) as [<-|H]; [|exact H]. specialize (Fa _ I). rewrite Irr in Fa. discriminate.
  - destruct (proj2 (Eq f) (or_intror I)) as [<-|H]; [|exact H]. specialize (Fb _ I). rewrite Irr in Fb. discriminate.
Qed.

Theorem C60_features_one : forall name crex om t1 c1 t2 c2, featured name crex om t1 c1 -> featured name crex om t2 c2 ->
  c1 = [] -> c2 = [] -> t1 = t2.
Proof.
  intros name crex om t1 c1 t2 c2 F1 F2 -> ->. inversion F1; inversion F2; subst. match goal with H : (_, _) = (_, _) |- _ => apply pair_equal_spec in H as [-> ->] end.
  match goal with H : template crex m = _, H' : template crex m = _ |- _ => rewrite H in H'; apply (f_equal (fun r => match r with Ok x => x | _ => (T, lt, ops) end)) in H'; cbv beta iota in H' end.
  repeat match goal with H : (_, _) = (_, _) |- _ => apply pair_equal_spec in H as [? ?] end. subst.
  match goal with H : reads ?T _ _ ?n1 _, H' : reads ?T _ _ ?n2 _ |- _ => assert (n1 = n2) as -> by exact (proj1 (Listing.FaithfulProofs.reads_unique _ _ _ _ _ H _ _ H')) end.
  repeat f_equal. apply ascending_same; [assumption|assumption|]. intros f. etransitivity; [eauto|symmetry; eauto].
Qed.

(** With -D: the templates of all the messages of all the files. *)
Theorem C60_dds : forall crex jobs,
  (forall name off m, other W DUMP_DDS crex name off m = print_dds load cload fuel describe path left_by began W crex m) ->
  jobs <> [] -> Forall (job_of W crex) jobs -> Forall (fun j => operand (j_name j)) jobs ->
  Forall (fun j => Forall (fun om => returns (' (T, lt, ops) <- template crex (snd om) ;; print_datadesc T (describe T) (path T) fuel lt ops 0)) (j_messages j)) jobs ->
  exists out log, one_by_one (in_job (fun name => described name crex)) jobs out log /\
    wrep fixed W (crex_flag crex ++ chars "-D"%string :: map j_name jobs) = Ok (Exit 0 out log).
Proof.
  intros crex jobs HD N J O D.
  destruct (every_message (fun name => described name crex) (with_action crex DUMP_DDS []) jobs J) as (out & log & X & Pr).
  { eapply Forall_impl; [|exact D]. intros j Dj. eapply Forall_impl; [|exact Dj]. intros [off m] [R1 R2]. cbn [fst snd] in *.
    unfold handle, with_action. cbn [w_action w_crex]. rewrite HD. unfold print_dds. fold template.
    destruct (template crex m) as [[[T lt] ops]|e|] eqn:Et; cbn [bind] in R1, R2; [| |congruence].
    - destruct (print_datadesc T (describe T) (path T) fuel lt ops 0) as [t|e|] eqn:E; [| |congruence].
      + exists t, []. split; [|intros titled; cbn [guarded bind]; rewrite E; reflexivity].
        destruct (Listing.Properties.C57_listing _ _ _ _ _ _ _ _ E) as (ns & b & text & R & _ & _ & L & ->). eapply de_ok; eassumption.
      + exists (began crex m), [InMessage (j_name j) off e]. assert (e <> EFuel) by congruence. split; [eapply de_fail; eassumption|].
        intros titled. cbn [guarded bind]. rewrite E. cbn [guarded bind]. destruct e; try reflexivity; congruence.
    - exists [], [InMessage (j_name j) off e]. assert (e <> EFuel) by congruence. split; [apply de_refused; assumption|].
      intros titled. cbn [guarded bind]. destruct e; try reflexivity; congruence. }
  exists out, log. split; [exact X|].
  rewrite (wrep_files fixed W _ ((if crex then [Opt 99 None] else []) ++ [Opt 68 None]) (map j_name jobs) (with_action crex DUMP_DDS [])); [rewrite Pr; reflexivity| | |destruct jobs; [congruence|discriminate]|reflexivity].
  - rewrite scan_crex. change (scan_args (chars "-D"%string :: map j_name jobs)) with (let (es, names) := scan_args (map j_name jobs) in (Opt 68 None :: es, names)).
    rewrite scan_operands by (rewrite Forall_map; exact O). reflexivity.
  - destruct crex; reflexivity.
Qed.
End Template.

(** With -L: a line for each of the tables (C65), whatever names are on the command line. *)
Theorem C60_list_tables : forall fixed W fs calls names,
  text W LIST_TABLES = fst (print_tables fs (fold_left (ExplainProperties.run_xcall fs) calls (mkdirs [] None))) -> Forall operand names ->
  exists ls, wrep fixed W (chars "-L"%string :: names) = Ok (Exit 0 (unlines ls) []) /\
    Forall2 (fun line t => exists base, tb_file t = base ++ chars ".txt"%string /\
      line = tb_dir t ++ chars "/"%string ++ base ++ chars ":"%string ++ Explain.id_text t)
      ls (listed fs (known_dirs (flat_map ExplainProperties.plain calls))).
Proof.
  intros fixed W fs calls names E O. destruct (ExplainProperties.C65_list fs calls) as (ls & P & F). exists ls. split; [|exact F].
  unfold wrep. change (scan_args (chars "-L"%string :: names)) with (let (es, names) := scan_args names in (Opt 76 None :: es, names)).
  rewrite (scan_operands _ O). cbn [set_options bind guarded Z.eqb Pos.eqb w_action]. rewrite E, P. reflexivity.
Qed.

(** ** Examples *)

Definition ex_describe (T : tables) (c : Z) : list Z := chars "element "%string ++ fxy c.
Definition ex_path (T : tables) : list Z := chars "B.txt"%string.
Definition ex_left (m : list Z) : localtables := empty_local.
Definition ex_cload (h : cheader) : res tables := Ok crex_tables.

Definition template_world : world :=
  let W := ex_world 100 in
  mkworld ex_files (full_bufr W) (head_bufr W) (full_crex W) (features_of ex_load ex_cload 100 ex_left W)
    (fun a crex _ _ m => match a with
       | DUMP_DDS => print_dds ex_load ex_cload 100 ex_describe ex_path ex_left (fun _ _ => []) W crex m
       | _ => Ok ([], None) end)
    (text W).
Definition ex_template (args : list string) : res ending := wrep ex_fixed template_world (map chars args).

Definition ex_listing : list Z := unlines (map chars
  ["301002 (group)"; "  301001 (group)"; "    001001 element 001001"; "    012101 element 012101";
   "  101000 replicate 1 descriptors (delayed 031001) times"; "    301001 (group)"; "      001001 element 001001"; "      012101 element 012101";
   "001011 element 001011"; "201130 change data width to 2"; "001001 element 001001"; "201000 change data width to 0";
   "222000 quality information with bitmap"; "033007 element 033007"; "033007 element 033007"]%string).

(** The bad message of the file has a good header, so that its template is shown. *)
Example C60_template_example :
  ex_template ["-D"; "f"; "nofile"; "cut"]%string = Ok (Exit 0 (ex_listing ++ ex_listing ++ ex_listing ++ ex_listing)
    [Unopened (chars "nofile"%string); InFile (chars "cut"%string) EConsistency]) /\
  ex_template ["-F"; "f"; "nofile"]%string = Ok (Exit 0
    (unlines (map chars ["f:5:C01000,C01130,C22000,Rxx000:B31001"; "f:129:C01000,C01130,C22000,Rxx000:B31001"; "f:255:C01000,C01130,C22000,Rxx000:B31001"]%string))
    [Unopened (chars "nofile"%string)]) /\
  ex_template ["-c"; "-F"; "c"]%string = Ok (Exit 0 (unlines [chars "c:0:Rxx000:B31012"%string]) [InMessage (chars "c"%string) 110 EParse]).
Proof. split; [|split]; vm_compute; reflexivity. Qed.

(** The conditions of the theorems are met. *)
Example C60_template_conditions_example :
  (forall crex m, Wrep.Model.features template_world crex m = features_of ex_load ex_cload 100 ex_left template_world crex m) /\
  (forall crex name off m, other template_world DUMP_DDS crex name off m =
     print_dds ex_load ex_cload 100 ex_describe ex_path ex_left (fun _ _ => []) template_world crex m) /\
  Forall (job_of template_world false) ex_jobs /\ Forall (fun j => operand (j_name j)) ex_jobs /\
  Forall (fun j => Forall (fun om => returns (features_of ex_load ex_cload 100 ex_left template_world false (snd om))) (j_messages j)) ex_jobs /\
  Forall (fun j => Forall (fun om => returns (' (T, lt, ops) <- template_of ex_load ex_cload ex_left template_world false (snd om) ;;
    print_datadesc T (ex_describe T) (ex_path T) 100 lt ops 0)) (j_messages j)) ex_jobs.
Proof.
  split; [intros; reflexivity|]. split; [intros; reflexivity|].
  split. { eapply Forall_impl; [|exact ex_jobs_ok]. intros [[n ms] tr] H. unfold job_of in *. cbn [j_name j_messages j_trouble fst snd] in *.
    destruct H; [eapply in_missing|eapply in_whole|eapply in_broken]; eassumption. }
  split; [repeat (apply Forall_cons; [exact I|]); apply Forall_nil|].
  split; repeat (apply Forall_cons || apply Forall_nil); apply comes_back_returns; vm_compute; reflexivity.
Qed.

Print Assumptions C60_features.
Print Assumptions C60_features_one.
Print Assumptions C60_dds.
Print Assumptions C60_list_tables.

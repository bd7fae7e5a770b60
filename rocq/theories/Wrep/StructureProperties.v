(** C60: what wrep prints with -s. *)
From Coq Require Import String ZifyBool ZifyNat.
From Verif Require Import Base Num.Float Varcode.Model Varinfo.Model Tables.Model Tables.LoadProofs Var.Model Var.Spec Interp.Model Interp.Appears Interp.Example Interp.Holds
  Codec.Model Codec.AgainSteps Message.Model Crex.Model
  Listing.Model Listing.Spec Structured.Model Structured.Spec Structured.Proofs Structured.FollowProofs Structured.DecodedProofs
  Print.Model Print.Spec Wrep.Model Wrep.Spec Wrep.Proofs Wrep.Structure.
From Verif Require Codec.Properties Structured.Properties Codec.AgainProperties Message.Properties Crex.Properties Wrep.Properties Wrep.TemplateProperties.
Import Codec.Properties Message.Properties Crex.Properties Wrep.Properties.
Local Open Scope Z_scope.

(** ** Every entry has a text *)
Section Texts.
Context (fixed : nat -> f64 -> list Z) (desc : varinfo -> list Z) (o : options) (T : tables) (vars : list var) (sub : nat).
Let V := sp_visitor fixed desc o vars sub.
Let WW := structured_walker fixed desc o T vars sub.
Definition worded (s : sp) : Prop := Forall (fun e => exists t, entry_text fixed desc sub e = Ok t) (sp_out s).

Lemma show_worded pos code w s s' : show fixed desc sub pos code w s = Ok s' -> worded s -> worded s'.
Proof.
  unfold show. cbv zeta. destruct (entry_text _ _ _ _) as [t| |] eqn:E; [|discriminate|discriminate]. cbn [bind]. intros X H. apply same_ok in X. subst s'.
  unfold worded. cbn [sp_out]. apply Forall_app. split; [exact H|]. constructor; [exists t; exact E|constructor].
Qed.
Lemma next_worded s v s' : sp_next vars s = Ok (v, s') -> worded s -> worded s'.
Proof. unfold sp_next. destruct (get_var _ _); [|discriminate|discriminate]. cbn [bind]. intros E H. apply same_ok, pair_equal_spec in E as [_ <-]. exact H. Qed.
Lemma encode_worded i v s s' : sp_encode fixed desc sub i v s = Ok s' -> worded s -> worded s'.
Proof. apply show_worded. Qed.
Lemma var_worded i s s' : sp_var fixed desc vars sub i s = Ok s' -> worded s -> worded s'.
Proof. unfold sp_var. intros E H. inv_bind E. destruct a as [v s1]. eapply encode_worded; [exact Hk|]. eapply next_worded; eassumption. Qed.
Lemma var_af_worded b g i s s' : sp_var_af fixed desc vars sub b g i s = Ok s' -> worded s -> worded s'.
Proof.
  unfold sp_var_af. intros E H. inv_bind E. destruct a as [v s1]. inv_bind Hk. eapply encode_worded; [exact Hk0|]. unfold sp_field in Hb0. inv_bind Hb0.
  eapply show_worded; [exact Hk|]. eapply next_worded; eassumption.
Qed.
Lemma factor_worded i s n s' : sp_factor fixed desc vars sub i s = Ok (n, s') -> worded s -> worded s'.
Proof.
  unfold sp_factor. intros E H. inv_bind E. destruct a as [v s1]. inv_bind Hk. inv_bind Hk0. apply same_ok, pair_equal_spec in Hk as [_ <-].
  eapply encode_worded; [exact Hb0|]. eapply next_worded; eassumption.
Qed.
Lemma sig_worded i s n s' : sp_significance fixed desc vars sub i s = Ok (n, s') -> worded s -> worded s'.
Proof.
  unfold sp_significance. intros E H. inv_bind E. destruct a as [v s1]. inv_bind Hk. inv_bind Hk0. apply same_ok, pair_equal_spec in Hk as [_ <-].
  eapply encode_worded; [exact Hb0|]. eapply next_worded; eassumption.
Qed.
Lemma bf_worded i s n s' : sp_bitmap_factor fixed desc o vars sub i s = Ok (n, s') -> worded s -> worded s'.
Proof.
  unfold sp_bitmap_factor. cbv zeta. intros E H. inv_bind E. inv_bind Hk. inv_bind Hk0. apply same_ok, pair_equal_spec in Hk as [_ <-]. eapply show_worded; eassumption.
Qed.
Lemma attr_worded i p s s' : sp_attr fixed desc vars sub i p s = Ok s' -> worded s -> worded s'.
Proof. unfold sp_attr. intros E H. inv_bind E. eapply show_worded; eassumption. Qed.
Lemma subst_worded p s s' : sp_subst fixed desc vars sub p s = Ok s' -> worded s -> worded s'.
Proof. unfold sp_subst. destruct (nth_error vars p); [|discriminate]. apply attr_worded. Qed.
Lemma raw_worded c s s' : sp_raw fixed desc vars sub c s = Ok s' -> worded s -> worded s'.
Proof. unfold sp_raw. intros E H. inv_bind E. destruct a as [v s1]. eapply show_worded; [exact Hk|]. eapply next_worded; eassumption. Qed.
Lemma bitmap_worded p n s r s' : sp_bitmap fixed desc vars sub p n s = Ok (r, s') -> worded s -> worded s'.
Proof.
  unfold sp_bitmap. intros E H. inv_bind E. destruct a as [v s1]. destruct (negb _); [discriminate|]. inv_bind Hk. inv_bind Hk0.
  apply same_ok, pair_equal_spec in Hk as [_ <-]. eapply show_worded; [exact Hb1|]. eapply next_worded; eassumption.
Qed.
Lemma unknown_worded c b s i s' : sp_unknown c b s = Ok (i, s') -> worded s -> worded s'.
Proof. unfold sp_unknown. intros E H. inv_bind E. destruct a as [j lt]. apply same_ok, pair_equal_spec in Hk as [_ <-]. exact H. Qed.

Lemma element_worded c st s st' s' : b_variable V T c (st, s) = Ok (st', s') -> worded s -> worded s'.
Proof.
  unfold b_variable. destruct (negb (is_refbits st =? 0)).
  - intros E H. inv_bind E. discriminate Hb.
  - intros E H. inv_bind E. revert Hk.
    destruct ((var_f c =? 0) && (var_x c =? 33) && match is_cur st with Some _ => true | None => false end).
    + intros Hk. inv_bind Hk. destruct a0 as [pos st1]. inv_bind Hk0. apply same_ok, pair_equal_spec in Hk as [_ <-]. exact (attr_worded _ _ _ _ Hb1 H).
    + destruct (negb (is_afbits st =? 0)); intros Hk; inv_bind Hk; apply same_ok, pair_equal_spec in Hk0 as [_ <-]; [exact (var_af_worded (is_afbits st) (is_afsig st) _ _ _ Hb0 H)|exact (var_worded _ _ _ Hb0 H)].
Qed.

Lemma modifier_worded code next st s next' st' s' : c_modifier V T code next (st, s) = Ok (next', st', s') -> worded s -> worded s'.
Proof.
  assert (D : forall (a a' : list Z) (b b' : istate) (c c' : sp), Ok (a, b, c) = Ok (a', b', c') -> worded c -> worded c').
  { intros a a' b b' c c' E H. apply same_ok, pair_equal_spec in E as [_ <-]. exact H. }
  unfold c_modifier. cbv zeta.
  destruct (var_x code =? 1); [apply D|]. destruct (var_x code =? 2); [apply D|].
  destruct (var_x code =? 3). { destruct (var_y code =? 255); apply D. }
  destruct (var_x code =? 4).
  { destruct (negb (var_y code =? 0) && negb (is_afbits st =? 0)); [discriminate|].
    destruct (32 <? var_y code); [discriminate|].
    destruct (var_y code =? 0); [apply D|].
    destruct (pop_left next) as [[c nx]|e|]; cbn [bind]; try discriminate.
    destruct (negb (c =? var_B31021)); [discriminate|].
    intros E H. inv_bind E. inv_bind Hk. destruct a0. eapply D; [exact Hk0|]. exact (sig_worded _ _ _ _ Hb0 H). }
  destruct (var_x code =? 5). { intros E H. inv_bind E. eapply D; [exact Hk|]. exact (raw_worded _ _ _ Hb H). }
  destruct (var_x code =? 6).
  { destruct (pop_left next) as [[c nx]|e|]; cbn [bind]; try discriminate.
    destruct (var_y code =? 0); [apply D|]. intros E H. inv_bind E. inv_bind Hk. inv_bind Hk0. destruct a1.
    inv_bind Hk. eapply D; [exact Hk0|]. refine (var_worded _ _ _ Hb2 _).
    destruct a0 as [i|]; [apply same_ok, pair_equal_spec in Hb1 as [_ <-]; exact H|]. exact (unknown_worded _ _ _ _ _ Hb1 H). }
  destruct (var_x code =? 7); [apply D|]. destruct (var_x code =? 8); [apply D|].
  destruct (var_x code =? 22). { destruct (negb (var_y code =? 0)); [discriminate|apply D]. }
  destruct (var_x code =? 23).
  { destruct (var_y code =? 0); [apply D|]. destruct (var_y code =? 255); [|discriminate].
    intros E H. inv_bind E. destruct a as [pos st1]. inv_bind Hk. eapply D; [exact Hk0|]. exact (subst_worded _ _ _ Hb0 H). }
  destruct (var_x code =? 37).
  { destruct (var_y code =? 0); [apply D|]. destruct (var_y code =? 255); [apply D|discriminate]. }
  apply D.
Qed.

Lemma bitmaps_worded code delayed ops st s st' s' : r_bitmap V T code delayed ops (st, s) = Ok (st', s') -> worded s -> worded s'.
Proof.
  unfold r_bitmap. destruct (negb (var_x code =? 1)); [discriminate|]. destruct (negb (hd 0 ops =? var_B31031)); [discriminate|].
  intros E H. inv_bind E. destruct a as [n s1]. inv_bind Hk. destruct a as [[codes bits] s2]. inv_bind Hk0. apply same_ok, pair_equal_spec in Hk as [_ <-].
  refine (bitmap_worded (is_pending st) n _ _ _ Hb0 _). revert Hb. destruct (var_y code =? 0).
  - intros Hb. inv_bind Hb. exact (bf_worded _ _ _ _ Hk H).
  - intros X. apply same_ok, pair_equal_spec in X as [_ <-]. exact H.
Qed.

Lemma repeat_worded (f : istate * sp -> res (istate * sp)) : (forall x y, f x = Ok y -> worded (snd x) -> worded (snd y)) ->
  forall n x y, repeat_m n f x = Ok y -> worded (snd x) -> worded (snd y).
Proof. intros F. induction n as [|n IH]; intros x y E H; cbn [repeat_m] in E; [apply same_ok in E; subst; exact H|]. inv_bind E. eauto. Qed.

Lemma walk_worded : forall fuel ops x y, walk WW T fuel ops x = Ok y -> worded (snd x) -> worded (snd y).
Proof.
  induction fuel as [|k IH]; intros ops [st s] [st' s'] E H; cbn [walk] in E; [discriminate|]. cbn [fst snd] in *.
  destruct ops as [|cur rest]; [apply same_ok, pair_equal_spec in E as [_ <-]; exact H|]. cbv zeta in E.
  destruct (var_f cur =? 0).
  { inv_bind E. destruct a as [st1 s1]. eapply (IH _ _ _ Hk). cbn [snd]. exact (element_worded _ _ _ _ _ Hb H). }
  destruct (var_f cur =? 1).
  { destruct (delayed_code cur rest) as [delayed rest1]. destruct (Nat.ltb (length rest1) (Z.to_nat (var_x cur))); [discriminate|].
    inv_bind E. destruct a as [st1 s1]. eapply (IH _ _ _ Hk). cbn [snd]. revert Hb. destruct (is_pending st =? 0); intros Hb.
    - cbn [w_repeat WW structured_walker] in Hb. unfold sp_repeat in Hb. inv_bind Hb. apply same_ok in Hk0. apply (f_equal snd) in Hk0. cbn [on_snd snd] in Hk0. subst s1.
      unfold r_replication, on_snd in Hb0. cbn [fst snd] in Hb0. inv_bind Hb0. destruct a0 as [n s2]. destruct a as [st2 s3].
      assert (Y : worded s2).
      { revert Hb. destruct (var_y cur =? 0); intros Hb; [inv_bind Hb; exact (factor_worded _ _ _ _ Hk1 H)|apply same_ok, pair_equal_spec in Hb as [_ <-]; exact H]. }
      pose proof (repeat_worded _ (IH _) _ _ _ Hk0 Y) as R. exact R.
    - exact (bitmaps_worded _ _ _ _ _ _ _ Hb H). }
  destruct (var_f cur =? 2).
  { inv_bind E. destruct a as [[rest' st1] s1]. eapply (IH _ _ _ Hk). cbn [snd]. exact (modifier_worded _ _ _ _ _ _ _ Hb H). }
  inv_bind E. inv_bind Hk. destruct a0 as [st1 s1]. apply IH in Hb0; [|exact H]. eapply (IH _ _ _ Hk0). exact Hb0.
Qed.
End Texts.

Section Structure.
Context (fixed : nat -> f64 -> list Z) (full : varinfo -> list Z).

Lemma all_worded o T fuel ops : forall subs sub lt ess lt', Structured.Model.print_subsets fixed (shown full) o T fuel ops sub subs lt = Ok (ess, lt') ->
  exists t, all_entries_text fixed full sub ess = Ok t.
Proof.
  induction subs as [|vars subs IH]; intros sub lt ess lt' E; cbn [Structured.Model.print_subsets] in E; [apply same_ok, pair_equal_spec in E as [<- _]; exists []; reflexivity|].
  inv_bind E. destruct a as [st s]. inv_bind Hk. destruct a as [es lt1]. apply same_ok, pair_equal_spec in Hk0 as [<- _].
  apply walk_worded in Hb; [|constructor]. cbn [snd] in Hb. destruct (IH _ _ _ _ Hb0) as (u & U).
  assert (X : exists t, entries_text fixed full sub (sp_out s) = Ok t).
  { unfold worded in Hb. induction Hb as [|e l (t & Et) _ (r & R)]; [exists []; reflexivity|]. cbn [entries_text]. rewrite Et, R. eexists. reflexivity. }
  destruct X as (t & X). cbn [all_entries_text]. rewrite X, U. eexists. reflexivity.
Qed.

(** The lines of the entries, one after the other. *)
Inductive lines_of (sub : nat) : list entry -> list (list Z) -> Prop :=
| lo_nil : lines_of sub [] []
| lo_cons : forall e es t ts, entry_text fixed (shown full) sub e = Ok t -> lines_of sub es ts -> lines_of sub (e :: es) (t :: ts).
Inductive all_lines : nat -> list (list entry) -> list (list Z) -> Prop :=
| al_nil : forall sub, all_lines sub [] []
| al_cons : forall sub es ess ts tss, lines_of sub es ts -> all_lines (S sub) ess tss -> all_lines sub (es :: ess) (concat ts :: tss).

Lemma entries_lines sub : forall es t, entries_text fixed full sub es = Ok t -> exists ts, lines_of sub es ts /\ t = concat ts.
Proof.
  induction es as [|e es IH]; intros t E; cbn [entries_text] in E; [apply same_ok in E; subst; exists []; split; [constructor|reflexivity]|].
  inv_bind E. inv_bind Hk. apply same_ok in Hk0. subst t. destruct (IH _ Hb0) as (ts & L & ->). exists (a :: ts). split; [constructor; assumption|reflexivity].
Qed.
Lemma all_entries_lines : forall ess sub t, all_entries_text fixed full sub ess = Ok t -> exists ts, all_lines sub ess ts /\ t = concat ts.
Proof.
  induction ess as [|es ess IH]; intros sub t E; cbn [all_entries_text] in E; [apply same_ok in E; subst; exists []; split; [constructor|reflexivity]|].
  inv_bind E. inv_bind Hk. apply same_ok in Hk0. subst t. destruct (IH _ _ Hb0) as (ts & L & ->). destruct (entries_lines _ _ _ Hb) as (us & U & ->).
  exists (concat us :: ts). split; [constructor; assumption|reflexivity].
Qed.

Context (opt : options) (load : tableid -> res tables) (skip : bool) (copt : options) (cload : cheader -> res tables) (fuel : nat)
  (bufr_paths : header -> option (list Z) * option (list Z)) (crex_paths : cheader -> option (list Z) * option (list Z)) (x : others)
  (left_by : list Z -> localtables) (began : bool -> list Z -> list Z) (W : world).
Let get := decoded opt load skip copt cload fuel bufr_paths crex_paths x left_by.

(** What is printed with -s of a message: the text before the variables is that of -d; then the lines of each subset, which
    are those of the descriptors of the template, inside the sequences and the replications where they are, with the
    variables of the subset from the first on (C58).  Or a complaint with the place of the message. *)
Inductive structured (name : list Z) (crex : bool) : Z * list Z -> list Z -> list complaint -> Prop :=
| st_ok : forall off m head o T ops subsets lt ess ts, get crex m = Ok (head, o, T, ops, subsets, lt) ->
    Forall2 (fun vars es => (exists b, outline T false [] ops es b) /\ exists n, follows o vars 0 es n /\ Structured.Spec.printed es = firstn n vars) subsets ess ->
    all_lines 0 ess ts ->
    structured name crex (off, m) (head ++ concat ts) []
| st_refused : forall off m e, get crex m = Err e -> e <> EFuel -> structured name crex (off, m) [] [InMessage name off e]
| st_fail : forall off m head o T ops subsets lt e, get crex m = Ok (head, o, T, ops, subsets, lt) ->
    structured_text fixed full o T fuel ops subsets lt = Err e -> e <> EFuel ->
    structured name crex (off, m) (head ++ began crex m) [InMessage name off e].

Theorem C60_structure : forall crex jobs,
  (forall name off m, other W DUMP_STRUCTURE crex name off m =
     print_structure fixed full opt load skip copt cload fuel bufr_paths crex_paths x left_by began crex m) ->
  jobs <> [] -> Forall (job_of W crex) jobs -> Forall (fun j => operand (j_name j)) jobs ->
  Forall (fun j => Forall (fun om => returns (' (head, o, T, ops, subsets, lt) <- get crex (snd om) ;; structured_text fixed full o T fuel ops subsets lt)) (j_messages j)) jobs ->
  exists out log, one_by_one (in_job (fun name => structured name crex)) jobs out log /\
    wrep fixed W (crex_flag crex ++ chars "-s"%string :: map j_name jobs) = Ok (Exit 0 out log).
Proof.
  intros crex jobs HD N J O D.
  destruct (TemplateProperties.every_message fixed W (fun name => structured name crex) (with_action crex DUMP_STRUCTURE []) jobs J) as (out & log & X & Pr).
  { eapply Forall_impl; [|exact D]. intros j Dj. eapply Forall_impl; [|exact Dj]. intros [off m] [R1 R2]. cbn [fst snd] in *.
    unfold handle, with_action. cbn [w_action w_crex]. rewrite HD. unfold print_structure. fold get.
    destruct (get crex m) as [[[[[[head o] T] ops] subsets] lt]|e|] eqn:Et; cbn [bind] in R1, R2; [| |congruence].
    - destruct (structured_text fixed full o T fuel ops subsets lt) as [t|e|] eqn:E; [| |congruence].
      + exists (head ++ t), []. split; [|intros titled; cbn [guarded bind]; rewrite E; reflexivity].
        unfold structured_text in E. inv_bind E. destruct a as [ess lt']. destruct (all_entries_lines _ _ _ Hk) as (ts & L & ->).
        eapply st_ok; [exact Et| |exact L].
        pose proof (Structured.Properties.printed_inv _ _ _ _ _ _ _ _ _ _ _ Hb) as F.
        clear -F. induction F as [|vars es subs ess (n & b & Fo & Ol) F IH]; constructor; [|exact IH]. split; [exists b; exact Ol|]. exists n. split; [exact Fo|].
        apply follows_printed in Fo as [_ ->]. rewrite Nat.sub_0_r, skipn_O. reflexivity.
      + exists (head ++ began crex m), [InMessage (j_name j) off e]. assert (e <> EFuel) by congruence. split; [eapply st_fail; eassumption|].
        intros titled. cbn [guarded bind]. rewrite E. cbn [guarded bind]. destruct e; try reflexivity; congruence.
    - exists [], [InMessage (j_name j) off e]. assert (e <> EFuel) by congruence. split; [apply st_refused; assumption|].
      intros titled. cbn [guarded bind]. destruct e; try reflexivity; congruence. }
  exists out, log. split; [exact X|].
  rewrite (wrep_files fixed W _ ((if crex then [Opt 99 None] else []) ++ [Opt 115 None]) (map j_name jobs) (with_action crex DUMP_STRUCTURE [])); [rewrite Pr; reflexivity| | |destruct jobs; [congruence|discriminate]|reflexivity].
  - rewrite scan_crex. change (scan_args (chars "-s"%string :: map j_name jobs)) with (let (es, names) := scan_args (map j_name jobs) in (Opt 115 None :: es, names)).
    rewrite scan_operands by (rewrite Forall_map; exact O). reflexivity.
  - destruct crex; reflexivity.
Qed.

(** The text before the variables is the same with -d. *)
Theorem C60_structure_head : 
  (forall bt dt b t, print_bufr fixed full bt dt b = Ok t -> exists u, t = bufr_head bt dt b ++ u) /\
  (forall bt dt y b t, print_crex fixed full bt dt y b = Ok t -> exists u, t = crex_head bt dt y b ++ u).
Proof.
  split; intros bt dt.
  - intros b t E. unfold print_bufr in E. inv_bind E. apply same_ok in Hk. subst t. exists a. unfold bufr_head. rewrite <- !app_assoc. reflexivity.
  - intros y b t E. unfold print_crex in E. inv_bind E. apply same_ok in Hk. subst t. exists a. unfold crex_head. rewrite <- !app_assoc. reflexivity.
Qed.

(** A BUFR message that is decoded is printed to its end, with all its variables, each once and in order, unless its template
    has 203YYY, or 204YYY and it is compressed. *)
Theorem C60_structure_complete : hook_ok opt -> (forall id T, load id = Ok T -> table_ok (tb_b T) /\ defs_ok (tb_b T)) ->
  forall m b T found, decode opt load skip fuel m = Ok (b, T, found) ->
  (forall c, appears T (b_datadesc b) c -> new_refvals c = false /\ (b_compression b = true -> new_fields c = false)) ->
  let (bt, dt) := bufr_paths (b_header b) in
  exists ess ts, print_structure fixed full opt load skip copt cload fuel bufr_paths crex_paths x left_by began false m =
      Ok (bufr_head bt dt b ++ concat ts, None) /\
    all_lines 0 ess ts /\ map Structured.Spec.printed ess = b_subsets b /\ Forall (fun es => exists c, outline T false [] (b_datadesc b) es c) ess.
Proof.
  intros HO HL m b T found E A. destruct (bufr_paths (b_header b)) as [bt dt] eqn:Pp.
  unfold decode in E. inv_bind E. rename a into l. inv_bind Hk. rename a into T1. inv_bind Hk0. destruct a as [subs lt]. apply same_ok, pair_equal_spec in Hk as [Hk _].
  apply pair_equal_spec in Hk as [<- <-]. cbn [b_datadesc b_compression b_header b_subsets] in *. destruct (HL _ _ Hb0) as [T2 T3].
  destruct (Structured.Properties.C58_decoded fixed (shown full) opt T1 HO T2 T3 skip fuel m l subs lt A Hb1) as (ess & P & Q).
  destruct (all_worded _ _ _ _ _ _ _ _ _ P) as (t & Et). destruct (all_entries_lines _ _ _ Et) as (ts & L & ->). exists ess, ts.
  split; [|split; [exact L|split; [exact Q|]]].
  - unfold print_structure, decoded, decoded_bufr. rewrite Hb. cbn [bind]. rewrite Hb0. cbn [bind]. rewrite Hb1. cbn [bind b_header]. rewrite Pp. cbn [bind guarded b_datadesc b_subsets].
    unfold structured_text. rewrite P. cbn [bind]. rewrite Et. reflexivity.
  - exact (proj2 (Structured.Properties.C58_structure _ _ _ _ _ _ _ _ _ _ P)).
Qed.
End Structure.

(** ** Examples *)

Definition ex_full (i : varinfo) : list Z := chars "D"%string.
Definition ex_paths {A} (_ : A) : option (list Z) * option (list Z) := (Some (chars "b.txt"%string), None).
Definition ex_print_structure : bool -> list Z -> res (list Z * option err) :=
  print_structure ex_fixed ex_full (mkopts false false None) ex_load true opts (fun _ => Ok crex_tables) 100 ex_paths ex_paths
    (mkothers 0 0 0 0 0 0 0 0 0) (fun _ => empty_local) (fun _ _ => []).
Definition structure_world : world :=
  let W := ex_world 100 in
  mkworld ex_files (full_bufr W) (head_bufr W) (full_crex W) (Wrep.Model.features W)
    (fun a crex _ _ m => match a with DUMP_STRUCTURE => ex_print_structure crex m | _ => Ok ([], None) end) (text W).
Definition ex_structure (args : list string) : res ending := wrep ex_fixed structure_world (map chars args).

Definition ex_subset_structure (n : string) : list string :=
  map (fun l => if prefix " " l then l else (" " ++ n ++ ". " ++ l)%string)
  ["1 301002/301001/001001: 001001 D(NUMERIC): number"; "2 301002/301001/012101: 012101 D(K): number"; "           033007 D(%): number";
   "3 301002/101000/031001: 031001 D(NUMERIC): number"; "4 301002/101000/301001/001001: 001001 D(NUMERIC): number";
   "5 301002/101000/301001/012101: 012101 D(K): number"; "6 301002/101000/301001/001001: 001001 D(NUMERIC): number";
   "7 301002/101000/301001/012101: 012101 D(K): (undef)"; "           033007 D(%): number"; "8 001011: 001011 D(CCITTIA5): ABC";
   "9 001001: 001001 D(NUMERIC): number"; "9 031001: 031001 D(NUMERIC): number"; "0 222000: 222000 D(CCITTIA5): -+----+--";
   "1 033007: (attr)033007 D(%): number"; "6 033007: (attr)033007 D(%): number"]%string.
Definition ex_message_structure (title details : string) : list string :=
  ([title; " Tables: b.txt (not loaded)"; " Data descriptors:"; "  301002"; "  001011"; "  201130"; "  001001"; "  201000"; "  222000";
    "  101000"; "  031001"; "  031031"; "  033007"; "  033007"; details; " Variables:"] ++ ex_subset_structure "0" ++ ex_subset_structure "1")%list%string.

Example C60_structure_example :
  ex_structure ["-s"; "f"; "nofile"; "cut"]%string = Ok (Exit 0
    (unlines (map chars (ex_message_structure "BUFR 0:7:5 40000:3 2026-12-31 23:59:58 1 2 subsets" " BUFR details: ed4 t0:13:1 - osl4")) ++
     unlines (map chars (ex_message_structure "BUFR 0:255:5 200:3 2000-12-31 23:59:00 1 2 subsets" " BUFR details: ed3 t0:13:1 - osl4")))
    [InMessage (chars "f"%string) 129 EParse; Unopened (chars "nofile"%string); InMessage (chars "cut"%string) 0 EParse; InFile (chars "cut"%string) EConsistency]) /\
  ex_structure ["-c"; "-s"; "c"]%string = Ok (Exit 0
    (unlines (map chars ["CREX 1:255:0 0:0 0000-00-00 00:00:00 0 1 subsets"; " Tables: b.txt (not loaded)"; " Data descriptors:"; "  001001"; "  001015";
      "  102000"; "  031012"; "  012001"; "  001001"; " CREX details: ed1 t0:3:0:0 -"; " Variables:"; " 0. 1 001001: 001001 D(): number";
      " 0. 2 001015: 001015 D(): Rome"; " 0. 3 102000/031012: 031012 D(): number"; " 0. 4 102000/012001: 012001 D(): number";
      " 0. 5 102000/001001: 001001 D(): number"; " 0. 6 102000/012001: 012001 D(): number"; " 0. 7 102000/001001: 001001 D(): (undef)"]%string))
    [InMessage (chars "c"%string) 110 EParse]).
Proof. split; vm_compute; reflexivity. Qed.

(** The conditions of the theorems are met. *)
Example C60_structure_conditions_example :
  (forall crex name off m, other structure_world DUMP_STRUCTURE crex name off m = ex_print_structure crex m) /\
  Forall (job_of structure_world false) ex_jobs /\ Forall (fun j => operand (j_name j)) ex_jobs /\
  Forall (fun j => Forall (fun om => returns (' (head, o, T, ops, subsets, lt) <-
      decoded (mkopts false false None) ex_load true opts (fun _ => Ok crex_tables) 100 ex_paths ex_paths (mkothers 0 0 0 0 0 0 0 0 0) (fun _ => empty_local) false (snd om) ;;
    structured_text ex_fixed ex_full o T 100 ops subsets lt)) (j_messages j)) ex_jobs /\
  hook_ok (mkopts false false None) /\ (forall id T, ex_load id = Ok T -> table_ok (tb_b T) /\ defs_ok (tb_b T)) /\
  (forall b T found, decode (mkopts false false None) ex_load true 100 good = Ok (b, T, found) ->
     forall c, appears T (b_datadesc b) c -> new_refvals c = false /\ (b_compression b = true -> new_fields c = false)).
Proof.
  split; [intros; reflexivity|].
  split. { eapply Forall_impl; [|exact ex_jobs_ok]. intros [[n ms] tr] H. unfold job_of in *. cbn [j_name j_messages j_trouble fst snd] in *.
    destruct H; [eapply in_missing|eapply in_whole|eapply in_broken]; eassumption. }
  split; [repeat (apply Forall_cons; [exact I|]); apply Forall_nil|].
  split; [repeat (apply Forall_cons || apply Forall_nil); apply comes_back_returns; vm_compute; reflexivity|].
  split; [exact I|].
  assert (LT : forall id T, ex_load id = Ok T -> T = ex_tables).
  { intros id T L. unfold ex_load in L. destruct (t_version id =? 13); [|discriminate]. apply (f_equal (get_ok ex_tables)) in L. cbn [get_ok] in L. auto. }
  split. { intros id T L. rewrite (LT _ _ L). split; [exact ex_btable_ok|exact Codec.AgainProperties.ex_defs_ok]. }
  intros b T found E c A.
  assert (D : T = ex_tables /\ b_datadesc b = get_ok [] (l <- decode_lead good ;; Ok (l_datadesc l))).
  { unfold decode in E. inv_bind E. inv_bind Hk. inv_bind Hk0. destruct a1 as [subs lt]. apply same_ok, pair_equal_spec in Hk as [Hk _]. apply pair_equal_spec in Hk as [<- <-].
    split; [exact (LT _ _ Hb0)|]. rewrite Hb. reflexivity. }
  destruct D as [-> D]. rewrite D in A.
  assert (D2 : get_ok [] (l <- decode_lead good ;; Ok (l_datadesc l)) = ex_ops) by (vm_compute; reflexivity). rewrite D2 in A.
  assert (X : In c (ex_ops ++ [wr_var 3 1 1; wr_var 1 1 0; wr_var 0 31 1; wr_var 0 1 1; wr_var 0 12 101])).
  { clear D D2. induction A as [c Ic|c d body _ IH F Dx Ic]; [apply in_or_app; left; exact Ic|].
    cbn [ex_ops app In] in IH. repeat (destruct IH as [<-|IH]; [first [discriminate F|vm_compute in Dx; injection Dx as <-; cbn in Ic |- *; intuition]|]). contradiction. }
  cbn [ex_ops app In] in X. repeat (destruct X as [<-|X]; [split; [reflexivity|intros; reflexivity]|]). contradiction.
Qed.

Print Assumptions C60_structure.
Print Assumptions C60_structure_head.
Print Assumptions C60_structure_complete.

(** Properties C18, C19, C20 and the template part of C36. *)
From Coq Require Import String.
From Verif Require Import Base Varcode.Model Varinfo.Model Tables.Model Tables.Spec Tables.AlterProofs Tables.LoadProofs
  Interp.Model Interp.Example Interp.Spec Interp.Hom Interp.ExpandProofs Interp.BitmapProofs Interp.EventProofs
  Interp.FuelProofs Interp.InlineProofs.
Local Open Scope Z_scope.

(** ** A visitor for the examples: it answers questions from a list and remembers the
    codes of the variables. *)
Definition pop (s : list Z * list Z) (i : varinfo) : res (Z * (list Z * list Z)) :=
  match fst s with [] => Err EParse | n :: a => Ok (n, (a, snd s ++ [vi_code i])) end.
Definition probe : visitor (list Z * list Z) :=
  {| on_var i s := Ok (fst s, snd s ++ [vi_code i]);
     on_var_af b g i s := Ok (fst s, snd s ++ [vi_code i]);
     on_factor i s := pop s i;
     on_bitmap_factor i s := pop s i;
     on_significance i s := pop s i;
     on_subst pos s := Ok s;
     on_attr i pos s := Ok s;
     on_raw c s := Ok (fst s, snd s ++ [c]);
     on_refval b c s := match fst s with [] => Err EParse | n :: a => Ok (n, (a, snd s)) end;
     on_bitmap op n s := let k := Z.to_nat n in
       Ok (snd s, firstn k (fst s), (skipn k (fst s), snd s ++ [op]));
     on_unknown c b s := Err EUnimpl |}.

(** What can be seen of an event: its kind, and code, scale, width and reference value,
    or position, or numbers. *)
Definition shown (i : varinfo) : list Z := [vi_code i; vi_scale i; vi_bit_len i; vi_bit_ref i].
Definition view (e : event) : list Z :=
  match e with
  | EvVar i => 0 :: shown i
  | EvVarAf b g i => 1 :: b :: g :: shown i
  | EvFactor i n => 2 :: n :: shown i
  | EvBitmapFactor i n => 3 :: n :: shown i
  | EvSignificance i n => 4 :: n :: shown i
  | EvSubst pos => [5; Z.of_nat pos]
  | EvAttr i pos => 6 :: Z.of_nat pos :: shown i
  | EvRaw c => [7; c]
  | EvRefval b c r => [8; b; c; r]
  | EvBitmap op n codes bits => 9 :: op :: n :: bits
  | EvUnknown c b i => [10; c; b]
  end.
Definition ask_probe (fuel : nat) (ops answers : list Z) : res (istate * (list event * (list Z * list Z))) :=
  run (watch probe) ex_tables fuel ops (ist_init, ([], (answers, []))).
Definition see (fuel : nat) (ops answers : list Z) : res (list (list Z)) :=
  x <- ask_probe fuel ops answers ;; Ok (map view (fst (snd x))).

Definition B := wr_var 0. Definition R := wr_var 1. Definition C := wr_var 2. Definition D := wr_var 3.

(** ** C18 *)

(** Watching a visitor does not change what it does. *)
Theorem C18_watching_is_harmless : forall (S : Type) (V : visitor S) T k ops st log s,
  run V T k ops (st, s) = rmap (fun x => (fst x, snd (snd x))) (run (watch V) T k ops (st, (log, s))).
Proof. intros. symmetry. exact (run_hom (watch V) V snd T (watch_hom V) k ops (st, (log, s))). Qed.

(** A template that is processed without error makes exactly the calls of its
    expansion, in order. *)
Theorem C18_template_expansion : forall (S : Type) (V : visitor S) T text k ops s st' s',
  load_bufr text = Ok (tb_b T) ->
  run V T k ops (ist_init, s) = Ok (st', s') ->
  exists log items m', run (watch V) T k ops (ist_init, ([], s)) = Ok (st', (log, s')) /\
    expands T (mkmode false false) ops items m' /\ script T [] items log.
Proof.
  intros S V T text k ops s st' s' L H. destruct (load_bufr_spec _ _ L) as [[Sd _] _].
  rewrite (C18_watching_is_harmless S V T k ops ist_init [] s) in H.
  destruct (run (watch V) T k ops (ist_init, ([], s))) as [[st [log s2]]| |] eqn:E; [|discriminate|discriminate].
  injection H as <- <-. destruct (run_script V T Sd (load_bufr_ok _ _ L) _ _ _ _ _ _ E) as (items & m' & X & Sc).
  exists log, items, m'. auto.
Qed.

(** Every expansion that can be executed is what some run does. *)
Theorem C18_expansion_is_run : forall (S : Type) (V : visitor S) T ops items m' s st' s',
  expands T (mkmode false false) ops items m' -> exec V T items (ist_init, s) = Ok (st', s') ->
  exists k, run V T k ops (ist_init, s) = Ok (st', s').
Proof.
  intros S V T ops items m' s st' s' X E. exact (proj2 (proj1 (expands_run_both V T) _ _ _ _ X ist_init s st' s' eq_refl E)).
Qed.

(** A sequence behaves as its content; a replication as its repeated content. *)
Theorem C18_sequence_is_its_content : forall (S : Type) (V : visitor S) T k d body rest x y,
  var_f d = 3 -> dexpand (tb_d T) d = Ok body -> no_factor_first rest ->
  run V T k (d :: rest) x = Ok y -> exists j, run V T j (body ++ rest) x = Ok y.
Proof. exact @sequence_inlined. Qed.

Theorem C18_replication_is_repetition : forall (S : Type) (V : visitor S) T k r body rest st s y,
  var_f r = 1 -> var_y r <> 0 -> Z.of_nat (length body) = var_x r ->
  is_pending st = 0 -> no_factor_first body -> no_factor_first rest ->
  run V T k (r :: body ++ rest) (st, s) = Ok y ->
  exists j, run V T j (concat (repeat body (Z.to_nat (var_y r))) ++ rest) (st, s) = Ok y.
Proof. exact @replication_inlined. Qed.

(** Nested sequences and a delayed replication (two repetitions). *)
Example C18_example :
  see 20 [D 1 2; R 2 2; B 1 1; D 1 1] [2] =
  Ok [[0; B 1 1; 0; 7; 0]; [0; B 12 101; 2; 16; 0]; [2; 2; B 31 1; 0; 8; 0];
      [0; B 1 1; 0; 7; 0]; [0; B 12 101; 2; 16; 0]; [0; B 1 1; 0; 7; 0]; [0; B 12 101; 2; 16; 0];
      [0; B 1 1; 0; 7; 0]; [0; B 1 1; 0; 7; 0]; [0; B 12 101; 2; 16; 0];
      [0; B 1 1; 0; 7; 0]; [0; B 1 1; 0; 7; 0]; [0; B 12 101; 2; 16; 0]].
Proof. vm_compute. reflexivity. Qed.

(** ** C19 *)

(** The definition told to the visitor with an element. *)
Definition told_info (e : event) : option varinfo :=
  match e with EvVar i => Some i | EvVarAf _ _ i => Some i | EvAttr i _ => Some i | _ => None end.

Lemma script_split T : forall items pre log it post rest, script T pre log rest -> log = items ++ it :: post ->
  exists l1 evs l2, rest = l1 ++ evs ++ l2 /\ script T pre items l1 /\ says T (pre ++ items) it evs.
Proof.
  induction items as [|a items IH]; intros pre log it post rest H E; subst log; inversion H; subst; clear H.
  - exists [], evs, more. rewrite app_nil_r. split; auto. split; [constructor|auto].
  - destruct (IH _ _ it post _ H5 eq_refl) as (l1 & evs' & l2 & -> & Sc & Sy). exists (evs ++ l1), evs', l2. rewrite <- app_assoc. split; auto.
    split; [econstructor; eauto|]. rewrite <- app_assoc in Sy. exact Sy.
Qed.

(** Every element gets the definition that the operators before it in the expansion
    give it; with none in force, the definition of table B. *)
Theorem C19_definition_of_every_element : forall (S : Type) (V : visitor S) T text k ops s st' log s',
  load_bufr text = Ok (tb_b T) ->
  run (watch V) T k ops (ist_init, ([], s)) = Ok (st', (log, s')) ->
  exists items m', expands T (mkmode false false) ops items m' /\
    forall pre c post, items = pre ++ IElem c :: post ->
    exists before e after i, log = before ++ e :: after /\ script T [] pre before /\
      told_info e = Some i /\ defines (tb_b T) pre c i.
Proof.
  intros S V T text k ops s st' log s' L H. destruct (load_bufr_spec _ _ L) as [[Sd _] _].
  destruct (run_script V T Sd (load_bufr_ok _ _ L) _ _ _ _ _ _ H) as (items & m' & X & Sc). exists items, m'. split; auto.
  intros pre c post E. destruct (script_split T _ _ _ _ _ _ Sc E) as (l1 & evs & l2 & -> & S1 & i & e & Df & Ee & ->).
  exists l1, e, l2, i. split; auto. split; auto. split; auto. cbn [app] in *. unfold element_event in Ee.
  assert (P : told_info (plainly pre i) = Some i) by (unfold plainly; destruct (associated pre) as [[b g]|]; reflexivity).
  destruct (var_x c =? 33); [|subst e; exact P]. destruct Ee as [[-> |(pos & ->)] _]; [exact P|reflexivity].
Qed.

(** After cancellation the definition is that of table B again. *)
Theorem C19_cancelled : forall t pre c i, defines t pre c i ->
  In (operand 1 pre) [None; Some 0] -> In (operand 2 pre) [None; Some 0] -> In (operand 7 pre) [None; Some 0] ->
  In (operand 8 pre) [None; Some 0] -> (forall d, new_reference d pre = None) -> query t c = Ok i.
Proof.
  intros t pre c i (_ & base & Q & U & _) H1 H2 H7 H8 H3. rewrite Q. f_equal. symmetry. apply U.
  unfold unchanged, width_change, scale_change, increase, string_length. cbn [In] in *.
  destruct H1 as [<-|[<-|[]]], H2 as [<-|[<-|[]]], H7 as [<-|[<-|[]]], H8 as [<-|[<-|[]]]; cbn [change Z.eqb]; auto.
Qed.

(** Interleaved scopes: 201132 (+4 bits), 202129 (scale +1), 207002. *)
Example C19_example :
  see 20 [B 12 101; C 1 132; B 12 101; C 2 129; B 12 101; C 1 0; B 12 101; C 2 0; C 7 2; B 12 101; C 7 0; B 12 101] [] =
  Ok [[0; B 12 101; 2; 16; 0]; [0; B 12 101; 2; 20; 0]; [0; B 12 101; 3; 20; 0]; [0; B 12 101; 3; 16; 0];
      [0; B 12 101; 4; 23; 0]; [0; B 12 101; 2; 16; 0]].
Proof. vm_compute. reflexivity. Qed.

Example C19_new_reference_example :
  see 20 [C 3 10; B 12 101; C 3 255; B 12 101; B 1 1] [-500] =
  Ok [[8; 10; B 12 101; -500]; [0; B 12 101; 2; 16; -500]; [0; B 1 1; 0; 7; 0]].
Proof. vm_compute. reflexivity. Qed.

(** "And of no other" does not hold: character data and code tables are changed as
    well by a change of width ... *)
Theorem C19_other_elements_refuted :
  see 20 [C 1 132; B 1 11; B 33 2] [] = Ok [[0; B 1 11; 0; 76; 0]; [0; B 33 2; 0; 6; 0]] /\
  see 20 [B 1 11; B 33 2] [] = Ok [[0; B 1 11; 0; 72; 0]; [0; B 33 2; 0; 2; 0]].
Proof. vm_compute. auto. Qed.

(** ... new reference values are not cancelled by 203000 ... *)
Theorem C19_references_not_cancelled_refuted :
  see 20 [C 3 10; B 12 101; C 3 255; C 3 0; B 12 101] [-500] =
  Ok [[8; 10; B 12 101; -500]; [0; B 12 101; 2; 16; -500]].
Proof. vm_compute. reflexivity. Qed.

(** ... and 207YYY with YYY above 9 reads past the end of a table. *)
Theorem C19_large_increase_refuted : see 20 [C 7 10; B 12 101] [] = UB.
Proof. vm_compute. reflexivity. Qed.

(** ** C20 *)

(** A bitmap of N entries refers to the last N data elements before it. *)
Theorem C20_positions : forall codes bits,
  make_bitmap codes bits =
    if (Nat.leb 1 (length bits) && Nat.leb (length bits) (length (data_positions codes)))%bool
    then Ok (present codes bits) else Err EConsistency.
Proof. exact make_bitmap_present. Qed.

(** [present], entry by entry. *)
Theorem C20_present : forall codes bits p,
  In p (present codes bits) <->
  exists j, nth_error (lastn (length bits) (data_positions codes)) j = Some p /\ nth_error bits j = Some 43.
Proof.
  intros codes bits p. unfold present. rewrite in_map_iff. generalize (lastn (length bits) (data_positions codes)) as ps. intros ps. split.
  - intros ([q b] & <- & I). apply filter_In in I as [I E]. cbn [snd fst] in *. apply Z.eqb_eq in E. subst b.
    revert bits I. induction ps as [|x ps IH]; intros [|b bits] I; cbn [combine In] in I; try contradiction. destruct I as [[= -> ->]|I].
    + exists O. auto.
    + destruct (IH _ I) as (j & H). exists (S j). exact H.
  - intros (j & H1 & H2). exists (p, 43). split; auto. apply filter_In. split; [|reflexivity].
    revert ps bits H1 H2. induction j as [|j IH]; intros [|x ps] [|b bits] H1 H2; cbn [nth_error combine In] in *; try discriminate.
    + injection H1 as ->. injection H2 as ->. auto.
    + right. eauto.
Qed.

Theorem C20_data_elements : forall codes bits p, In p (present codes bits) ->
  (p < length codes)%nat /\ var_f (nth p codes 0) = 0.
Proof. exact present_data. Qed.

(** The k-th value after a bitmap is attached to the k-th element marked present; when
    all were used, class 33 elements are ordinary variables; 237000 starts again. *)
Theorem C20_values_follow_bitmap : forall (S : Type) (V : visitor S) T text k ops s st' log s',
  load_bufr text = Ok (tb_b T) ->
  run (watch V) T k ops (ist_init, ([], s)) = Ok (st', (log, s')) ->
  exists items m', expands T (mkmode false false) ops items m' /\
    forall pre it post refs n, items = pre ++ it :: post -> consumer it = true -> serves pre refs n ->
    exists before e after, log = before ++ e :: after /\ script T [] pre before /\
      match it with
      | IElem c => exists i, defines (tb_b T) pre c i /\
                   e = match nth_error refs n with Some pos => EvAttr i pos | None => plainly pre i end
      | _ => exists pos, nth_error refs n = Some pos /\ e = EvSubst pos
      end.
Proof.
  intros S V T text k ops s st' log s' L H. destruct (load_bufr_spec _ _ L) as [[Sd _] _].
  destruct (run_script V T Sd (load_bufr_ok _ _ L) _ _ _ _ _ _ H) as (items & m' & X & Sc). exists items, m'. split; auto.
  intros pre it post refs n E Cn Sv. destruct (script_split T _ _ _ _ _ _ Sc E) as (l1 & evs & l2 & -> & S1 & Sy). cbn [app] in Sy.
  destruct it as [c|c r|c|c g|c a|c m|r d codes bits]; try discriminate; cbn [consumer] in Cn; apply andb_prop in Cn as [C1 C2].
  - destruct Sy as (i & e & Df & Ee & ->). exists l1, e, l2. split; auto. split; auto. exists i. split; auto.
    unfold element_event in Ee. rewrite C2 in Ee. apply Ee. exact Sv.
  - cbn [says consumer] in Sy. apply Z.eqb_eq in C1. rewrite C1, C2 in Sy. cbn [Z.eqb Pos.eqb andb] in Sy. destruct Sy as (_ & pos & -> & Hp).
    exists l1, (EvSubst pos), l2. split; auto. split; auto. exists pos. split; auto.
Qed.

(** Without a bitmap, class 33 elements are ordinary variables. *)
Theorem C20_no_bitmap : forall (S : Type) (V : visitor S) T text k ops s st' log s',
  load_bufr text = Ok (tb_b T) ->
  run (watch V) T k ops (ist_init, ([], s)) = Ok (st', (log, s')) ->
  exists items m', expands T (mkmode false false) ops items m' /\
    forall pre c post, items = pre ++ IElem c :: post -> no_bitmap pre ->
    exists before after i, log = before ++ plainly pre i :: after /\ defines (tb_b T) pre c i.
Proof.
  intros S V T text k ops s st' log s' L H. destruct (load_bufr_spec _ _ L) as [[Sd _] _].
  destruct (run_script V T Sd (load_bufr_ok _ _ L) _ _ _ _ _ _ H) as (items & m' & X & Sc). exists items, m'. split; auto.
  intros pre c post E N. destruct (script_split T _ _ _ _ _ _ Sc E) as (l1 & evs & l2 & -> & S1 & i & e & Df & Ee & ->).
  cbn [app] in *. exists l1, l2, i. split; auto. unfold element_event in Ee. destruct (var_x c =? 33); [|subst e; reflexivity].
  destruct Ee as (_ & Ee & _). rewrite (Ee N). reflexivity.
Qed.

(** Bitmap "+-+" over B01001 B12101 and B01011: values for positions 0 and 3 (position 1 is
    an operator entry), then an ordinary B33007, then reuse. *)
Definition bitmap_ops : list Z :=
  [B 1 1; C 5 3; B 12 101; B 1 11; C 22 0; R 1 3; B 31 31; B 33 7; B 33 7; B 33 7; C 22 0; C 37 0; B 33 2; B 33 2].
Example C20_example :
  see 20 bitmap_ops [43; 45; 43] =
  Ok [[0; B 1 1; 0; 7; 0]; [7; C 5 3]; [0; B 12 101; 2; 16; 0]; [0; B 1 11; 0; 72; 0]; [9; C 22 0; 3; 43; 45; 43];
      [6; 0; B 33 7; 0; 7; 0]; [6; 3; B 33 7; 0; 7; 0]; [0; B 33 7; 0; 7; 0];
      [6; 0; B 33 2; 0; 2; 0]; [6; 3; B 33 2; 0; 2; 0]].
Proof. vm_compute. reflexivity. Qed.

Example C20_serves_example : forall pre r d,
  serves (pre ++ [IBitmap r d [B 1 1; C 5 3; B 12 101; B 1 11] [43; 45; 43]] ++ [IElem (B 33 7)]) [0; 3]%nat 1.
Proof.
  intros pre r d. rewrite app_assoc.
  assert (E : [0; 3]%nat = present [B 1 1; C 5 3; B 12 101; B 1 11] [43; 45; 43]) by reflexivity. rewrite E.
  apply (sv_more _ _ 0 (IElem (B 33 7))); [apply sv_define|discriminate|discriminate].
Qed.

(** A bitmap that marks nothing as present: the next value reads before the start of a
    vector. *)
Theorem C20_empty_bitmap_refuted : see 20 [B 1 1; C 22 0; R 1 1; B 31 31; B 33 7] [45] = UB.
Proof. vm_compute. reflexivity. Qed.

(** A second bitmap that is too long while the first is in use: the first is freed
    twice.  When no bitmap is in use, it is an error. *)
Theorem C20_second_bitmap_refuted :
  see 20 [B 1 1; C 22 0; R 1 1; B 31 31; C 22 0; R 1 2; B 31 31] [43; 43; 43] = UB /\
  see 20 [B 1 1; C 22 0; R 1 2; B 31 31] [43; 43; 43] = Err EConsistency.
Proof. vm_compute. auto. Qed.

(** Asking for the last bitmap twice in a row forgets it: the values that follow are
    ordinary variables. *)
Theorem C20_reuse_twice_refuted :
  see 20 [B 1 1; B 12 101; C 22 0; R 1 2; B 31 31; B 33 7; B 33 7; C 37 0; B 33 2; B 33 2] [43; 43] =
    Ok [[0; B 1 1; 0; 7; 0]; [0; B 12 101; 2; 16; 0]; [9; C 22 0; 2; 43; 43]; [6; 0; B 33 7; 0; 7; 0]; [6; 1; B 33 7; 0; 7; 0];
        [6; 0; B 33 2; 0; 2; 0]; [6; 1; B 33 2; 0; 2; 0]] /\
  see 20 [B 1 1; B 12 101; C 22 0; R 1 2; B 31 31; B 33 7; B 33 7; C 37 0; C 37 0; B 33 2; B 33 2] [43; 43] =
    Ok [[0; B 1 1; 0; 7; 0]; [0; B 12 101; 2; 16; 0]; [9; C 22 0; 2; 43; 43]; [6; 0; B 33 7; 0; 7; 0]; [6; 1; B 33 7; 0; 7; 0];
        [0; B 33 2; 0; 2; 0]; [0; B 33 2; 0; 2; 0]].
Proof. vm_compute. auto. Qed.

(** ** C36: templates *)

(** If no sequence of table D contains itself, directly or not, the work done for a
    template ends: with enough fuel the result does not depend on the fuel any more, and
    how much is enough does not depend on the data nor on the visitor. *)
Theorem C36_templates_end : forall T ops, well_founded (within T) ->
  exists N, forall (S : Type) (V : visitor S) k x, (N <= k)%nat -> run V T k ops x = run V T N ops x.
Proof. exact template_settles. Qed.


Theorem C36_ranked_tables : forall rank T ops, ranked rank (tb_d T) ->
  exists N, forall (S : Type) (V : visitor S) k x, (N <= k)%nat -> run V T k ops x = run V T N ops x.
Proof. intros rank T ops H. apply template_settles. eapply ranked_well_founded; eauto. Qed.

Example C36_example : ranked (fun c => if c =? D 1 2 then 2%nat else if c =? D 1 1 then 1%nat else 0%nat) (tb_d ex_tables).
Proof. repeat (apply Forall_cons || apply Forall_nil); vm_compute; auto. Qed.

(** A table where a sequence contains itself is loaded without complaint and makes
    the interpreter recurse without end. *)
Definition cyclic_file : list dblock := [(D 1 1, [B 1 1; D 1 1])].
Definition cyclic_dtable : dtable := get_ok (mkdtable [] []) (load_dtable (render cyclic_file)).
Theorem C36_cyclic_table_refuted :
  dsource_ok cyclic_file /\ load_dtable (render cyclic_file) = Ok cyclic_dtable /\
  forall k answers, run probe (mktables ex_btable cyclic_dtable) k [D 1 1] (ist_init, answers) = Err EFuel.
Proof.
  split; [|split].
  - split; [discriminate|]. split; [|repeat constructor]. constructor; [|constructor].
    split; [reflexivity|]. split; [vm_compute; split; [discriminate|reflexivity]|]. split; [cbn [snd length]; lia|].
    constructor; [|constructor; [|constructor]]; vm_compute; split; discriminate || reflexivity.
  - apply get_ok_eq. vm_compute. reflexivity.
  - set (T := mktables ex_btable cyclic_dtable).
    assert (Dx : dexpand (tb_d T) (D 1 1) = Ok [B 1 1; D 1 1]) by (vm_compute; reflexivity).
    assert (Q : query (tb_b T) (B 1 1) = Ok (ex_info 1 1)) by (apply (get_ok_eq no_info); vm_compute; reflexivity).
    assert (Bv : forall s, b_variable probe T (B 1 1) (ist_init, s) = Ok (ist_init, (fst s, snd s ++ [vi_code (ex_info 1 1)]))).
    { intros s. unfold b_variable, get_varinfo. rewrite Q. reflexivity. }
    assert (F3 : var_f (D 1 1) = 3) by reflexivity. assert (F0 : var_f (B 1 1) = 0) by reflexivity.
    generalize dependent T. intros T Dx Q Bv.
    assert (Both : forall k s, run probe T k [D 1 1] (ist_init, s) = Err EFuel /\ run probe T k [B 1 1; D 1 1] (ist_init, s) = Err EFuel).
    { induction k as [|k IH]; intros s; [auto|]. cbn [run]. rewrite F3, F0, Dx, Bv. cbn [Z.eqb Pos.eqb bind].
      rewrite (proj2 (IH s)). split; [reflexivity|]. apply IH. }
    intros k s. apply Both.
Qed.

Print Assumptions C18_template_expansion.
Print Assumptions C19_definition_of_every_element.
Print Assumptions C20_values_follow_bitmap.
Print Assumptions C36_templates_end.

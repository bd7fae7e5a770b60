(** C57: the listing of a template, and the scan of its features. *)
From Coq Require Import String Sorting.Sorted ZArith Lia ZifyBool ZifyNat.
From Verif Require Import Base Varcode.Model Varinfo.Model Tables.Model Tables.Spec Bits.Model Var.Model Var.Spec Interp.Model Interp.Spec Interp.Example Codec.Model
  Interp.ExpandProofs Listing.Model Listing.Spec Listing.Proofs Listing.ListProofs Listing.WhenProofs Listing.FaithfulProofs.
Local Open Scope Z_scope.

(** The listing is that of the tree of the template: a line per descriptor, those inside
    a sequence or a replication two columns to the right.  There is one such tree, and
    its descriptors are those of the template. *)
Theorem C57_listing T describe path fuel lt ops i out : print_datadesc T describe path fuel lt ops i = Ok out ->
  exists ns b text, reads T false ops ns b /\ (forall ns' b', reads T false ops ns' b' -> ns' = ns) /\ written ns = ops /\
    element_lines T describe path text /\ out = listing text i ns.
Proof.
  intros E. destruct (listing_shows _ _ _ _ _ _ _ _ E) as (ns & b & R & ->). exists ns, b, (element_text T describe path).
  split; [exact R|]. split; [intros ns' b' R'; symmetry; exact (proj1 (reads_unique _ _ _ _ _ R _ _ R'))|].
  split; [exact (reads_written _ _ _ _ _ R)|]. split; [|reflexivity].
  intros c. unfold element_text, in_table. destruct (contains_query (tb_b T) c) as [[-> H]|[-> H]]; split; intros H'.
  - reflexivity.
  - contradiction.
  - destruct H' as [j H']. congruence.
  - reflexivity.
Qed.

(** The scan gives the features of the tree of the template, each once, in order. *)
Theorem C57_features T fuel lt ops fs : scan_features T fuel lt ops = Ok fs ->
  exists ns b, reads T false ops ns b /\ (forall ns' b', reads T false ops ns' b' -> ns' = ns) /\
    ascending fs /\ forall f, In f fs <-> In f (features ns).
Proof.
  intros E. destruct (scan_shows _ _ _ _ _ E) as (ns & b & R & A & F). exists ns, b.
  split; [exact R|]. split; [intros ns' b' R'; symmetry; exact (proj1 (reads_unique _ _ _ _ _ R _ _ R'))|]. split; assumption.
Qed.

Theorem C57_when_listed T describe path name b ops ns : reads T false ops ns b -> throughout (listable T name) ns ->
  exists N, forall fuel lt i, (N <= fuel)%nat -> named name lt -> exists out, print_datadesc T describe path fuel lt ops i = Ok out.
Proof. apply listing_goes. Qed.

Theorem C57_when_scanned T name b ops ns : reads T false ops ns b -> throughout (scannable T name) ns ->
  exists N, forall fuel lt, (N <= fuel)%nat -> named name lt -> exists fs, scan_features T fuel lt ops = Ok fs.
Proof. apply scan_goes. Qed.

(** A template can be known from its listing, if it has no data present bitmaps and its
    factors are written. *)
Theorem C57_listing_faithful T describe path i f1 lt1 ops1 out f2 lt2 ops2 :
  (forall d body, dexpand (tb_d T) d = Ok body -> Forall code16 body) ->
  (forall c, one_line (describe c)) -> one_line path -> Forall code16 ops1 -> Forall code16 ops2 ->
  (forall ns b, reads T false ops1 ns b -> all_shown ns) -> (forall ns b, reads T false ops2 ns b -> all_shown ns) ->
  print_datadesc T describe path f1 lt1 ops1 i = Ok out -> print_datadesc T describe path f2 lt2 ops2 i = Ok out -> ops1 = ops2.
Proof.
  intros TD L P C1 C2 S1 S2 E1 E2.
  destruct (listing_shows _ _ _ _ _ _ _ _ E1) as (ns1 & b1 & R1 & O1). destruct (listing_shows _ _ _ _ _ _ _ _ E2) as (ns2 & b2 & R2 & O2).
  apply (listing_inj T TD (element_text T describe path) i ops1 ns1 b1 ops2 ns2 b2); [|exact C1|exact C2|exact R1|exact R2|exact (S1 _ _ R1)|exact (S2 _ _ R2)|rewrite <- O1; exact O2].
  intros c. unfold element_text. destruct (contains (tb_b T) c) as [[|]| |]; auto;
    (apply Forall_app; split; [|apply Forall_app; split; [exact P|]]); (apply (chars_one_line (fun _ => [])); vm_compute; reflexivity).
Qed.

(** Without the methods that listing and scanning replace, the walk is that of the decoders. *)
Theorem C57_same_walk {S} (V : visitor S) (T : tables) fuel ops x : walk (ordinary V T) T fuel ops x = run V T fuel ops x.
Proof. apply ordinary_walk. Qed.

(** ** Examples *)

Definition no_local : localtables := mklocal [] [] [].
Definition ex_describe (c : Z) : list Z := chars "element " ++ fxy c.
Definition ex_print (ops : list Z) : res (list Z) := print_datadesc ex_tables ex_describe (chars "B.txt") 20 no_local ops 0.
Definition ex_scan (ops : list Z) : res (list (list Z)) := scan_features ex_tables 20 no_local ops.

Definition ex_template : list Z :=
  [wr_var 3 1 2; wr_var 2 1 130; wr_var 0 1 1; wr_var 2 1 0; wr_var 1 2 3; wr_var 0 12 101; wr_var 0 9 9].

Example C57_listed : ex_print ex_template = Ok (
  chars "301002 (group)" ++ [10] ++
  chars "  301001 (group)" ++ [10] ++
  chars "    001001 element 001001" ++ [10] ++
  chars "    012101 element 012101" ++ [10] ++
  chars "  101000 replicate 1 descriptors (delayed 031001) times" ++ [10] ++
  chars "    301001 (group)" ++ [10] ++
  chars "      001001 element 001001" ++ [10] ++
  chars "      012101 element 012101" ++ [10] ++
  chars "201130 change data width to 2" ++ [10] ++
  chars "001001 element 001001" ++ [10] ++
  chars "201000 change data width to 0" ++ [10] ++
  chars "102003 replicate 2 descriptors 3 times" ++ [10] ++
  chars "  012101 element 012101" ++ [10] ++
  chars "  009009 (missing in B table B.txt)" ++ [10]).
Proof. vm_compute. reflexivity. Qed.

Example C57_scanned : ex_scan (ex_template ++ [wr_var 2 6 8; wr_var 0 63 1]) = Err ENotFound /\
  ex_scan [wr_var 3 1 2; wr_var 2 1 130; wr_var 0 1 1; wr_var 2 1 0; wr_var 1 1 3; wr_var 0 12 101; wr_var 2 6 8; wr_var 0 63 1] =
  Ok [chars "C01000"; chars "C01130"; chars "C06008:B63001"; chars "Rxx000:B31001"; chars "Rxxyyy"].
Proof. split; vm_compute; reflexivity. Qed.

(** The two theorems on when they can be made, applied. *)
Definition ex_tree : list node :=
  [NSequence (wr_var 3 1 2)
     [NSequence (wr_var 3 1 1) [NElement (wr_var 0 1 1); NElement (wr_var 0 12 101)];
      NDelayed (wr_var 1 1 0) (wr_var 0 31 1) [NSequence (wr_var 3 1 1) [NElement (wr_var 0 1 1); NElement (wr_var 0 12 101)]]];
   NOperator (wr_var 2 1 130); NElement (wr_var 0 1 1); NOperator (wr_var 2 1 0);
   NOperand (wr_var 2 4 7) (wr_var 0 31 21); NElement (wr_var 0 12 101); NOperator (wr_var 2 4 0);
   NOperator (wr_var 2 22 0); NBitmap (wr_var 1 1 5) []; NElement (wr_var 0 33 7)].
Definition ex_ops : list Z :=
  [wr_var 3 1 2; wr_var 2 1 130; wr_var 0 1 1; wr_var 2 1 0; wr_var 2 4 7; wr_var 0 31 21; wr_var 0 12 101; wr_var 2 4 0;
   wr_var 2 22 0; wr_var 1 1 5; wr_var 0 31 31; wr_var 0 33 7].

Lemma ex_reads : reads ex_tables false ex_ops ex_tree false.
Proof.
  assert (S : reads ex_tables false [wr_var 0 1 1; wr_var 0 12 101] [NElement (wr_var 0 1 1); NElement (wr_var 0 12 101)] false)
    by (repeat constructor).
  assert (S' : forall b, reads ex_tables b [wr_var 3 1 1] [NSequence (wr_var 3 1 1) [NElement (wr_var 0 1 1); NElement (wr_var 0 12 101)]] b).
  { intros b. eapply rd_sequence; [reflexivity|reflexivity| |constructor]. repeat constructor. }
  unfold ex_ops, ex_tree. eapply rd_sequence; [reflexivity|reflexivity| |].
  - eapply rd_sequence; [reflexivity|reflexivity|exact S|].
    apply (rd_delayed ex_tables (wr_var 1 1 0) (wr_var 0 31 1) [wr_var 3 1 1] _ false [] [] false); try reflexivity; [|apply S'|constructor].
    split; reflexivity.
  - apply rd_operator; [reflexivity|reflexivity|]. apply rd_element; [reflexivity|]. apply rd_operator; [reflexivity|reflexivity|].
    apply rd_operand; [reflexivity|reflexivity|]. apply rd_element; [reflexivity|]. apply rd_operator; [reflexivity|reflexivity|].
    apply rd_operator; [reflexivity|reflexivity|]. apply (rd_bitmap ex_tables (wr_var 1 1 5)); [reflexivity|reflexivity|discriminate|].
    repeat constructor.
Qed.

(** [throughout], node by node. *)
Lemma throughout_nth (P : list node -> node -> Prop) ns : (forall k n, nth_error (flat ns) k = Some n -> P (firstn k (flat ns)) n) -> throughout P ns.
Proof.
  intros H pre n post E. replace pre with (firstn (length pre) (flat ns)).
  - apply H. rewrite E, nth_error_app2, Nat.sub_diag by lia. reflexivity.
  - rewrite E, firstn_app, Nat.sub_diag, firstn_all, app_nil_r. reflexivity.
Qed.

Lemma in_table_ex x y : is_ok (query ex_btable (wr_var 0 x y)) = true -> in_table ex_tables (wr_var 0 x y).
Proof. intros H. exists (ex_info x y). exact (get_ok_eq no_info _ H). Qed.

Example C57_listable : forall name, throughout (listable ex_tables name) ex_tree.
Proof.
  intros name. apply throughout_nth. intros k n. unfold ex_tree, flat. cbn [map concat flat_node app].
  assert (In : in_table ex_tables (wr_var 0 31 21)) by (apply in_table_ex; vm_compute; reflexivity).
  do 17 (destruct k as [|k];
    [cbn [nth_error]; intros E; injection E as <-; cbn [listable firstn];
     match goal with
     | |- True => exact I
     | |- Forall _ _ => constructor
     | |- if _ then _ else _ => split; [vm_compute; discriminate|]; split; [reflexivity|]; split; [exact In|]; reflexivity
     | |- _ => vm_compute; intuition discriminate
     end
    |cbn [nth_error]]).
  destruct k; discriminate.
Qed.

Example C57_scannable : forall name, throughout (scannable ex_tables name)
  [NSequence (wr_var 3 1 1) [NElement (wr_var 0 1 1); NElement (wr_var 0 12 101)]; NOperator (wr_var 2 1 130); NElement (wr_var 0 1 1)].
Proof.
  intros name. apply throughout_nth. intros k n. unfold flat. cbn [map concat flat_node app].
  do 5 (destruct k as [|k];
    [cbn [nth_error]; intros E; injection E as <-; unfold scannable; cbn [listable firstn];
     match goal with
     | |- True /\ True => split; exact I
     | |- True /\ _ =>
       split; [exact I|]; split; [reflexivity|]; split; [reflexivity|];
       match goal with |- exists i, ?m = Ok i =>
         assert (H : is_ok m = true) by (vm_compute; reflexivity); exists (get_ok no_info m); exact (get_ok_eq no_info m H) end
     | |- _ => split; [vm_compute; intuition discriminate|exact I]
     end
    |cbn [nth_error]]).
  destruct k; discriminate.
Qed.

(** The templates of [C57_listing_faithful]. *)
Example C57_shown : forall ns b, reads ex_tables false ex_template ns b -> all_shown ns.
Proof.
  intros ns b R.
  assert (R' : exists ns' b', reads ex_tables false ex_template ns' b' /\ all_shown ns').
  2: { destruct R' as (ns' & b' & R' & A). rewrite (proj1 (reads_unique _ _ _ _ _ R _ _ R')). exact A. }
  eexists. exists false. split.
  - unfold ex_template. eapply rd_sequence; [reflexivity|reflexivity| |].
    + eapply rd_sequence; [reflexivity|reflexivity| |].
      { apply rd_element; [reflexivity|]. apply rd_element; [reflexivity|]. apply rd_nil. }
      eapply (rd_delayed ex_tables (wr_var 1 1 0) (wr_var 0 31 1) [wr_var 3 1 1] _ false [] [] false); try reflexivity; [split; reflexivity| |constructor].
      eapply rd_sequence; [reflexivity|reflexivity| |apply rd_nil].
      apply rd_element; [reflexivity|]. apply rd_element; [reflexivity|]. apply rd_nil.
    + apply rd_operator; [reflexivity|reflexivity|]. apply rd_element; [reflexivity|]. apply rd_operator; [reflexivity|reflexivity|].
      eapply (rd_repeat ex_tables (wr_var 1 2 3) [wr_var 0 12 101; wr_var 0 9 9] _ false [] [] false); try reflexivity; [discriminate| |constructor].
      apply rd_element; [reflexivity|]. apply rd_element; [reflexivity|]. apply rd_nil.
  - unfold all_shown, flat. cbn [map concat flat_node app]. repeat (constructor; [exact I|]). constructor.
Qed.

(** ** What is not so *)

(** The length of a bitmap is not in the listing ... *)
Theorem C57_bitmap_hidden_refuted : exists ops1 ops2 out, ops1 <> ops2 /\ ex_print ops1 = Ok out /\ ex_print ops2 = Ok out.
Proof.
  exists [wr_var 2 22 0; wr_var 1 1 5; wr_var 0 31 31], [wr_var 2 22 0; wr_var 1 1 6; wr_var 0 31 31].
  eexists. split; [discriminate|]. split; vm_compute; reflexivity.
Qed.

(** ... and neither is whether a factor is written; without it, the decoder reads one of 16 bits
    as with 031012, and the templates have not the same descriptors. *)
Theorem C57_implied_factor_refuted : exists ops1 ops2 out, ops1 <> ops2 /\ (forall a, In a (ops1 ++ ops2) -> var_f a < 2) /\
  ex_print ops1 = Ok out /\ ex_print ops2 = Ok out.
Proof.
  exists [wr_var 1 1 0; wr_var 0 12 101], [wr_var 1 1 0; wr_var 0 31 12; wr_var 0 12 101].
  eexists. split; [discriminate|]. split; [|split; vm_compute; reflexivity].
  intros a H. cbn [app In] in H. repeat destruct H as [<-|H]; try (vm_compute; reflexivity). contradiction.
Qed.

(** Templates that a message can be decoded with, of which there is no listing (205YYY) ... *)
Definition ex_decodes (ops bytes : list Z) : bool :=
  is_ok (decode_subsets (mkopts false false None) ex_tables true 20 ops 1 no_local (mkin bytes 0 0 0)).

Theorem C57_character_data_refuted : exists ops bytes, ex_decodes ops bytes = true /\
  ex_print ops = Err EUnimpl /\ ex_scan ops = Err EUnimpl.
Proof. exists [wr_var 2 5 2], [65; 66]. split; [|split]; vm_compute; reflexivity. Qed.

(** ... and templates with a listing that cannot be scanned: new reference values, and
    associated fields. *)
Theorem C57_not_scanned_refuted : exists ops1 bytes1 ops2 bytes2,
  ex_decodes ops1 bytes1 = true /\ is_ok (ex_print ops1) = true /\ ex_scan ops1 = Err EUnimpl /\
  ex_decodes ops2 bytes2 = true /\ is_ok (ex_print ops2) = true /\ ex_scan ops2 = Err EUnimpl.
Proof.
  exists [wr_var 2 3 8; wr_var 0 12 101; wr_var 2 3 255; wr_var 0 12 101; wr_var 2 3 0], [5; 0; 7],
    [wr_var 2 4 8; wr_var 0 31 21; wr_var 0 12 101; wr_var 2 4 0], [4; 0; 0; 0; 0].
  repeat split; vm_compute; reflexivity.
Qed.

Print Assumptions C57_listing.
Print Assumptions C57_features.
Print Assumptions C57_when_listed.
Print Assumptions C57_when_scanned.
Print Assumptions C57_listing_faithful.
Print Assumptions C57_same_walk.
Print Assumptions C57_character_data_refuted.

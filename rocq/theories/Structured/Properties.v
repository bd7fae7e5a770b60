(** C58: a message printed along its template. *)
From Coq Require Import String ZArith Lia ZifyBool ZifyNat.
From Verif Require Import Base Num.Float Bits.Model Varcode.Model Varinfo.Model Tables.Model Tables.Spec Tables.LoadProofs
  Var.Model Var.Spec Var.FormatSpec Var.Format Var.FormatProofs Interp.Model Interp.Spec Interp.Appears Interp.Example Interp.Holds
  Codec.Model Codec.Compressed Codec.AgainSteps Codec.AgainProperties Codec.Sound Message.Model
  Listing.Model Listing.Spec Listing.Proofs Listing.FaithfulProofs Structured.Model Structured.Spec Structured.Proofs Structured.FollowProofs Structured.DecodedProofs.
Local Open Scope Z_scope.

Section Every.
Context (fixed : nat -> f64 -> list Z) (desc : varinfo -> list Z) (o : options) (T : tables).

Lemma printed_inv fuel ops : forall subs sub lt ess lt', print_subsets fixed desc o T fuel ops sub subs lt = Ok (ess, lt') ->
  Forall2 (fun vars es => exists n b, follows o vars 0 es n /\ outline T false [] ops es b) subs ess.
Proof.
  induction subs as [|vars subs IH]; intros sub lt ess lt' E; cbn [print_subsets] in E; [apply same_ok, pair_equal_spec in E as [<- _]; constructor|].
  inv_bind E. destruct a as [st s]. inv_bind Hk. destruct a as [es lt1]. apply same_ok, pair_equal_spec in Hk0 as [<- _]. constructor; [|eapply IH; eauto].
  apply walk_outline in Hb as (l & (E1 & _ & Fo) & Ol). cbn [sp_out sp_pos sp_path app] in *. rewrite E1. exists (sp_pos s), (waits st). auto.
Qed.

(** Whatever the message, if printing ends the variables of each subset were printed one after
    the other from the first, each with its number. *)
Theorem C58_variables fuel ops subs lt ess lt' : print_subsets fixed desc o T fuel ops 0 subs lt = Ok (ess, lt') ->
  Forall2 (fun vars es => exists n, follows o vars 0 es n /\ printed es = firstn n vars) subs ess.
Proof.
  intros E. apply printed_inv in E. induction E as [|vars es subs ess (n & b & Fo & _) _ IH]; constructor; [|exact IH].
  exists n. split; [exact Fo|]. apply follows_printed in Fo as [_ ->]. rewrite Nat.sub_0_r, skipn_O. reflexivity.
Qed.

(** The lines are those of the descriptors of the template, inside the sequences and the
    replications where they are. *)
Theorem C58_structure fuel ops subs lt ess lt' : print_subsets fixed desc o T fuel ops 0 subs lt = Ok (ess, lt') ->
  length ess = length subs /\ Forall (fun es => exists b, outline T false [] ops es b) ess.
Proof.
  intros E. apply printed_inv in E. induction E as [|vars es subs ess (n & b & _ & Ol) _ [I1 I2]]; split; auto; [cbn; lia|]. constructor; eauto.
Qed.

Context (HO : hook_ok o) (HT : table_ok (tb_b T)) (HD : defs_ok (tb_b T)).

(** The subsets decoded from a message can be printed and all their variables are, each once,
    if the template has no 203YYY ... *)
Theorem C58_decoded_one_by_one skip fuel ops n inp subs lt inp' :
  (forall c, appears T ops c -> new_refvals c = false) ->
  decode_subsets o T skip fuel ops n empty_local inp = Ok (subs, lt, inp') ->
  exists ess, print_subsets fixed desc o T fuel ops 0 subs lt = Ok (ess, lt) /\ map printed ess = subs.
Proof.
  intros A E. destruct (subsets_unknown fixed desc o HO T skip HT HD n fuel ops empty_local inp subs lt inp' C48_no_local_definitions A E) as (_ & _ & P).
  apply prints_all. intros j sub J. apply P; auto.
Qed.

(** ... nor, if it is compressed, 204YYY. *)
Theorem C58_decoded_compressed skip fuel ops n inp subs lt inp' :
  (forall c, appears T ops c -> new_refvals c = false /\ new_fields c = false) ->
  decode_compressed o T skip fuel ops n empty_local inp = Ok (subs, lt, inp') ->
  exists ess, print_subsets fixed desc o T fuel ops 0 subs lt = Ok (ess, lt) /\ map printed ess = subs.
Proof.
  intros A E. unfold decode_compressed in E. inv_bind E. destruct a as [st s]. apply same_ok, pair_equal_spec in Hk as [Hk _]. apply pair_equal_spec in Hk as [<- <-].
  assert (B : forall c, appears T ops c -> barred true c = false) by (intros c Ac; destruct (A c Ac) as [A1 A2]; unfold barred; rewrite A1, A2; reflexivity).
  apply prints_all. intros j sub J. assert (N : n <> O) by (intros ->; apply no_subsets in Hb; rewrite Hb in J; cbn in J; lia).
  assert (Len : length (k_subs s) = n) by (destruct (printed_compressed fixed desc o HO T skip HT HD 0 n ltac:(lia) sub fuel ops st s inp empty_local B C48_no_local_definitions Hb) as [Q _]; exact Q).
  rewrite Len in J. destruct (printed_compressed fixed desc o HO T skip HT HD j n J sub fuel ops st s inp empty_local B C48_no_local_definitions Hb) as (_ & x & E & P). eauto.
Qed.

(** The same, from the bytes of a message. *)
Theorem C58_decoded skip fuel d l subs lt :
  (forall c, appears T (l_datadesc l) c -> new_refvals c = false /\ (l_compression l = true -> new_fields c = false)) ->
  decode_data o T skip fuel d l = Ok (subs, lt) ->
  exists ess, print_subsets fixed desc o T fuel (l_datadesc l) 0 subs lt = Ok (ess, lt) /\ map printed ess = subs.
Proof.
  intros A E. unfold decode_data in E. cbv zeta in E. destruct (Z.eqb_spec (l_expected l) 0) as [|Ne]; [discriminate|]. inv_bind E. destruct a as [[subs1 lt1] inp1].
  destruct (Nat.ltb _ _); [discriminate|]. inv_bind Hk. destruct (negb a); [discriminate|]. apply same_ok, pair_equal_spec in Hk0 as [<- <-].
  destruct (l_compression l).
  - apply C58_decoded_compressed in Hb; [exact Hb|]. intros c Ac. destruct (A c Ac). auto.
  - apply C58_decoded_one_by_one in Hb; [exact Hb|]. intros c Ac. apply A, Ac.
Qed.
End Every.

(** ** The text *)

Fact lead_digits a b c r s t : forallb c_isdigit a = true -> forallb c_isdigit b = true -> c_isdigit c = false -> a ++ c :: r = b ++ s -> s = c :: t ->
  a = b /\ r = t.
Proof.
  intros A B C E ->. revert b B E. induction a as [|x a IH]; intros [|y b] B E; cbn in *.
  - injection E as ->. auto.
  - injection E as -> _. rewrite C in B. discriminate.
  - injection E as -> _. rewrite C in A. discriminate.
  - injection E as -> E. apply andb_prop in A as [_ A]. apply andb_prop in B as [_ B]. destruct (IH A b B E) as [-> ->]. auto.
Qed.
Lemma two_inj m n c r s : c_isdigit c = false -> two m ++ c :: r = two n ++ c :: s -> m = n /\ r = s.
Proof.
  intros C E. unfold two in E.
  destruct (digits_spec (Z.of_nat m)) as (Dm & Vm & _ & Lm); [lia|]. destruct (digits_spec (Z.of_nat n)) as (Dn & Vn & _ & Ln); [lia|].
  rewrite <- !app_assoc in E. destruct (digits (Z.of_nat m)) as [|x xs] eqn:Em; [cbn in Lm; lia|]. destruct (digits (Z.of_nat n)) as [|y ys] eqn:En; [cbn in Ln; lia|].
  cbn [app] in E. apply split_spaces in E as [_ E].
  - change (x :: xs ++ c :: r) with ((x :: xs) ++ c :: r) in E. change (y :: ys ++ c :: s) with ((y :: ys) ++ c :: s) in E.
    destruct (lead_digits _ _ _ _ _ _ Dm Dn C E eq_refl) as [E1 E2]. rewrite E1 in Vm. split; [lia|exact E2].
  - intros ->. discriminate Dm.
  - intros ->. discriminate Dn.
Qed.
Lemma path_inj p : forall q c d r s, Forall code16 p -> Forall code16 q -> code16 c -> code16 d ->
  flat_map (fun c => fxy c ++ [47]) p ++ fxy c ++ [58] ++ r = flat_map (fun c => fxy c ++ [47]) q ++ fxy d ++ [58] ++ s -> p = q /\ c = d /\ r = s.
Proof.
  assert (C : forall a b x y r s, code16 a -> code16 b -> fxy a ++ x :: r = fxy b ++ y :: s -> a = b /\ x = y /\ r = s).
  { intros a b x y r s Ha Hb E. 
    assert (E1 : fxy a = fxy b).
    { destruct (fxy_six (fun _ => []) a) as (a1 & a2 & a3 & a4 & a5 & a6 & Ea & _). destruct (fxy_six (fun _ => []) b) as (b1 & b2 & b3 & b4 & b5 & b6 & Eb & _).
      rewrite Ea, Eb in E |- *. cbn [app] in E. congruence. }
    rewrite E1 in E. apply app_inv_head in E. injection E as -> ->. split; [apply (fxy_inj (fun _ => [])); auto|auto]. }
  induction p as [|a p IH]; intros [|b q] c d r s P Q Hc Hd E; cbn [flat_map app] in E; repeat rewrite <- app_assoc in E; cbn [app] in E.
  - destruct (C _ _ _ _ _ _ Hc Hd E) as (-> & _ & ->). auto.
  - inversion Q; subst. apply C in E; auto. destruct E as (_ & E & _). discriminate.
  - inversion P; subst. apply C in E; auto. destruct E as (_ & E & _). discriminate.
  - inversion P; inversion Q; subst. apply C in E; auto. destruct E as (-> & _ & E). apply IH in E as (-> & -> & ->); auto.
Qed.

(** The beginning of a line tells the subset, the number of the variable, where in the template it
    is and the descriptor; what comes after it is what is said of it. *)
Theorem C58_lines fixed desc s1 e1 s2 e2 t : Forall code16 (en_path e1) -> Forall code16 (en_path e2) -> code16 (en_code e1) -> code16 (en_code e2) ->
  entry_text fixed desc s1 e1 = Ok t -> entry_text fixed desc s2 e2 = Ok t ->
  s1 = s2 /\ en_pos e1 = en_pos e2 /\ en_path e1 = en_path e2 /\ en_code e1 = en_code e2 /\
  content_text fixed desc (en_what e1) = content_text fixed desc (en_what e2).
Proof.
  intros P1 P2 C1 C2 E1 E2. unfold entry_text in *. inv_bind E1. inv_bind E2. apply same_ok in Hk, Hk0. rewrite <- Hk0 in Hk. clear Hk0 t.
  unfold context_text in Hk. rewrite <- !app_assoc in Hk. cbn [app] in Hk. apply two_inj in Hk as [-> Hk]; [|reflexivity]. apply two_inj in Hk as [-> Hk]; [|reflexivity].
  apply path_inj in Hk as (-> & -> & Hk); auto. injection Hk as ->. rewrite Hb, Hb0. auto.
Qed.

(** ** Examples *)

Definition bits_of (w : nat) (v : Z) : list bool := map (fun k => Z.testbit v (Z.of_nat k)) (rev (seq 0 w)).
Fixpoint pack (fuel : nat) (l : list bool) : list Z :=
  match fuel, l with
  | S k, _ :: _ => fold_left (fun a (b : bool) => 2 * a + (if b then 1 else 0)) (firstn 8 (l ++ repeat false 8)) 0 :: pack k (skipn 8 l)
  | _, _ => []
  end.
Definition ex_opts : options := mkopts false false None.
Definition ex_fixed (n : nat) (d : f64) : list Z := chars "N".
Definition ex_desc (i : varinfo) : list Z := chars "D".
(** Decodes and prints. *)
Definition ex_subsets (ops : list Z) (n : nat) (fields : list (nat * Z)) : res (list (list var) * localtables * input) :=
  decode_subsets ex_opts ex_tables true 30 ops n empty_local (mkin (pack 40 (flat_map (fun p => bits_of (fst p) (snd p)) fields)) 0 0 0).
Definition ex_structured (ops : list Z) (n : nat) (fields : list (nat * Z)) : res (list (list entry)) :=
  ' (subs, lt, _) <- ex_subsets ops n fields ;; ' (es, _) <- print_subsets ex_fixed ex_desc ex_opts ex_tables 30 ops 0 subs lt ;; Ok es.
Fixpoint texts (sub : nat) (l : list (list entry)) : res (list Z) :=
  match l with
  | [] => Ok []
  | es :: r => t <- fold_right (fun e acc => a <- entry_text ex_fixed ex_desc sub e ;; b <- acc ;; Ok (a ++ b)) (Ok []) es ;; u <- texts (S sub) r ;; Ok (t ++ u)
  end.
Definition ex_text (ops : list Z) (n : nat) (fields : list (nat * Z)) : res (list Z) := es <- ex_structured ops n fields ;; texts 0 es.

Definition ex_ops : list Z :=
  [wr_var 3 1 1; wr_var 1 1 0; wr_var 0 31 1; wr_var 0 1 1; wr_var 2 22 0; wr_var 1 1 5; wr_var 0 31 31; wr_var 0 33 7].
Definition ex_fields : list (nat * Z) :=
  [(7%nat, 5); (16%nat, 28000); (8%nat, 2); (7%nat, 6); (7%nat, 7); (5%nat, 29); (7%nat, 90)].

Example C58_printed : ex_text ex_ops 1 ex_fields = Ok (
  chars " 0. 1 301001/001001: 001001 D(NUMERIC): N" ++ [10] ++
  chars " 0. 2 301001/012101: 012101 D(K): N" ++ [10] ++
  chars " 0. 3 101000/031001: 031001 D(NUMERIC): N" ++ [10] ++
  chars " 0. 4 101000/001001: 001001 D(NUMERIC): N" ++ [10] ++
  chars "           033007 D(%): N" ++ [10] ++
  chars " 0. 5 101000/001001: 001001 D(NUMERIC): N" ++ [10] ++
  chars " 0. 0 222000: 222000 D(CCITTIA5): ---+-" ++ [10] ++
  chars " 0. 3 033007: (attr)033007 D(%): N" ++ [10]).
Proof. vm_compute. reflexivity. Qed.

(** The hypotheses of [C58_decoded_one_by_one]. *)
Lemma ex_appears c : appears ex_tables ex_ops c -> In c (ex_ops ++ [wr_var 0 1 1; wr_var 0 12 101]).
Proof.
  induction 1 as [c I|c d body _ IH F D I]; [apply in_or_app; left; exact I|].
  cbn [ex_ops app In] in IH. repeat (destruct IH as [<-|IH]; [first [discriminate F|vm_compute in D; injection D as <-; cbn in I |- *; intuition]|]). contradiction.
Qed.
Example C58_hypotheses : hook_ok ex_opts /\ table_ok (tb_b ex_tables) /\ defs_ok (tb_b ex_tables) /\
  (forall c, appears ex_tables ex_ops c -> new_refvals c = false /\ new_fields c = false) /\
  is_ok (ex_subsets ex_ops 1 ex_fields) = true /\
  is_ok (decode_compressed ex_opts ex_tables true 30 ex_ops 2 empty_local
    (mkin (pack 40 (flat_map (fun p => bits_of (fst p) (snd p) ++ bits_of 6 0)
      [(7%nat, 5); (16%nat, 28000); (8%nat, 2); (7%nat, 6); (7%nat, 7); (1%nat, 1); (1%nat, 1); (1%nat, 1); (1%nat, 0); (1%nat, 1); (7%nat, 90)])) 0 0 0)) = true.
Proof.
  split; [exact I|]. split; [exact ex_btable_ok|]. split; [exact ex_defs_ok|]. split; [|split; vm_compute; reflexivity].
  intros c H. apply ex_appears in H. cbn [ex_ops app In] in H. repeat (destruct H as [<-|H]; [split; reflexivity|]). contradiction.
Qed.

(** ** What is not so *)

(** With new reference values a message is decoded and not printed ... *)
Theorem C58_new_references_refuted : exists ops fields, is_ok (ex_subsets ops 1 fields) = true /\ ex_structured ops 1 fields = Err EUnimpl.
Proof.
  exists [wr_var 2 3 8; wr_var 0 12 101; wr_var 2 3 255; wr_var 0 12 101], [(8%nat, 5); (16%nat, 7)]. split; vm_compute; reflexivity.
Qed.

(** ... nor is one with an associated field of an unknown kind, if it is compressed and the field is missing. *)
Theorem C58_unknown_field_refuted : exists ops fields,
  match decode_compressed ex_opts ex_tables true 30 ops 1 empty_local (mkin (pack 40 (flat_map (fun p => bits_of (fst p) (snd p)) fields)) 0 0 0) with
  | Ok (subs, lt, _) => print_subsets ex_fixed ex_desc ex_opts ex_tables 30 ops 0 subs lt = Err EUnimpl
  | _ => False
  end.
Proof.
  exists [wr_var 2 4 8; wr_var 0 31 21; wr_var 0 1 1; wr_var 2 4 0], [(6%nat, 0); (6%nat, 0); (8%nat, 255); (6%nat, 0); (7%nat, 3); (6%nat, 0); (8%nat, 0)].
  vm_compute. reflexivity.
Qed.

(** The line of an attribute has not the number of the variable. *)
Definition attr_numbers (es : list entry) : list nat := flat_map (fun e => match en_what e with PAttr (Some _) => [en_pos e] | _ => [] end) es.
Definition bearer_numbers (es : list entry) : list nat :=
  flat_map (fun e => match en_what e with PVar v => match v_attrs v with [] => [] | _ => [en_pos e] end | _ => [] end) es.
Theorem C58_attribute_number_refuted : match ex_structured ex_ops 1 ex_fields with
  | Ok [es] => attr_numbers es = [3%nat] /\ bearer_numbers es = [4%nat]
  | _ => False
  end.
Proof. vm_compute. split; reflexivity. Qed.

(** A missing associated field, and a missing attribute, are followed by the next line on the same line. *)
Theorem C58_newline_refuted :
  ex_text [wr_var 2 4 8; wr_var 0 31 21; wr_var 0 1 1; wr_var 2 4 0] 1 [(6%nat, 21); (8%nat, 255); (7%nat, 3)] = Ok (
    chars " 0. 1 031021: 031021 D(CODE TABLE): N" ++ [10] ++
    chars " 0. 2 001001: associated field with significance 21 is not present 0. 2 001001: 001001 D(NUMERIC): N" ++ [10]) /\
  ex_text [wr_var 0 1 1; wr_var 2 22 0; wr_var 1 1 1; wr_var 0 31 31; wr_var 0 33 7; wr_var 0 1 1] 1 [(7%nat, 3); (1%nat, 0); (7%nat, 127); (7%nat, 3)] = Ok (
    chars " 0. 1 001001: 001001 D(NUMERIC): N" ++ [10] ++
    chars " 0. 0 222000: 222000 D(CCITTIA5): +" ++ [10] ++
    chars " 0. 0 033007: (attr)(undef) 0. 3 001001: 001001 D(NUMERIC): N" ++ [10]).
Proof. split; vm_compute; reflexivity. Qed.

Print Assumptions C58_variables.
Print Assumptions C58_structure.
Print Assumptions C58_decoded.
Print Assumptions C58_decoded_one_by_one.
Print Assumptions C58_decoded_compressed.
Print Assumptions C58_lines.
Print Assumptions C58_new_references_refuted.

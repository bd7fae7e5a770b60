(** C09: variables stored in a subset by code and value. *)
From Coq Require Import String Reals.
From Flocq Require Import Core BinarySingleNaN.
From Verif Require Import Base Bits.Spec Num.Float Varcode.Model Varinfo.Model Varinfo.RangeProofs Tables.Model Var.Model Var.Spec Var.Proofs Var.CodecProofs Codec.Model Subset.Model.
From Verif Require Var.Properties.
Local Open Scope Z_scope.

(** What is stored goes after what was there, which stays; the new variable has the definition of the table, no attributes, and the value given. *)
Theorem C09_store_integer : forall o t code i v vars, query t code = Ok i -> is_numeric (vi_type i) = true -> vi_imin i <= v <= vi_imax i ->
  exists x, store_variable_i o t code v vars = Ok (vars ++ [x]) /\ c_info (v_cell x) = i /\ v_attrs x = [] /\ enqi (v_cell x) = Ok v.
Proof.
  intros o t code i v vars Q N R. destruct (Var.Properties.C09_seti_enqi o (fresh i) v N R) as (c & S & E & I).
  exists (mkvar c []). unfold store_variable_i. rewrite Q. cbn [bind]. rewrite S. cbn [of_outcome bind]. auto.
Qed.
Print Assumptions C09_store_integer.

Theorem C09_store_double : forall o t code i (d : f64) vars, query t code = Ok i -> info_ok i -> vi_type i = TDecimal ->
  fisnan d = false -> flt d (vi_dmin i) = false -> flt (vi_dmax i) d = false ->
  exists x n r, store_variable_d o t code d vars = Ok (vars ++ [x]) /\ c_info (v_cell x) = i /\ v_attrs x = [] /\
    (Rabs (IZR n - unscaled (vi_scale i) d) <= / 2 + / 100000)%R /\ enqd (v_cell x) = Ok r /\ decode_decimal (vi_scale i) n = Ok r.
Proof.
  intros o t code i d vars Q I T N L H. destruct (Var.Properties.C09_setd_enqd o (fresh i) d) as (n & r & S & _ & A & E & D); auto.
  { split; [exact I|exact Logic.I]. }
  exists (mkvar (with_val (fresh i) (VInt n)) []), n, r. unfold store_variable_d. rewrite Q. cbn [bind]. rewrite S. cbn [of_outcome bind]. auto 10.
Qed.
Print Assumptions C09_store_double.

Theorem C09_store_string : forall o t code i s vars, query t code = Ok i -> vi_type i = TString ->
  exists x, store_variable_c o t code (s ++ [0]) vars = Ok (vars ++ [x]) /\ c_info (v_cell x) = i /\ v_attrs x = [] /\ enqs (v_cell x) = Ok (firstn (ilen i) (cstr s)).
Proof.
  intros o t code i s vars Q T. destruct (Var.Properties.C09_string o (fresh i) s T) as (c & S & _ & E).
  exists (mkvar c []). unfold store_variable_c. rewrite Q. cbn [bind]. rewrite S. cbn [of_outcome bind v_cell v_attrs]. repeat split; auto.
  unfold setc in S. cbn [fresh c_info] in S. rewrite T in S. unfold assign_c_checked in S.
  repeat match type of S with context [match ?b with _ => _ end] => destruct b end; try discriminate S; injection S as <-; reflexivity.
Qed.
Print Assumptions C09_store_string.

Theorem C09_store_undef : forall t code i vars, query t code = Ok i ->
  exists x, store_variable_undef t code vars = Ok (vars ++ [x]) /\ c_info (v_cell x) = i /\ v_attrs x = [] /\ isset (v_cell x) = false.
Proof. intros t code i vars Q. exists (mkvar (fresh i) []). unfold store_variable_undef. rewrite Q. auto. Qed.
Print Assumptions C09_store_undef.

(** A code that the table does not have is refused by all, and so is a number for a text variable; nothing is stored. *)
Theorem C09_store_refused : forall o t code vars v d s,
  (query t code = Err ENotFound -> store_variable_i o t code v vars = Err ENotFound /\ store_variable_d o t code d vars = Err ENotFound /\
    store_variable_c o t code s vars = Err ENotFound /\ store_variable_undef t code vars = Err ENotFound) /\
  (forall i, query t code = Ok i -> is_numeric (vi_type i) = false ->
    store_variable_i o t code v vars = Err EType /\ store_variable_d o t code d vars = Err EType).
Proof.
  intros o t code vars v d s. unfold store_variable_i, store_variable_d, store_variable_c, store_variable_undef. split.
  - intros ->. cbn [bind]. auto.
  - intros i -> N. cbn [bind]. unfold seti, setd. cbn [fresh c_info]. rewrite N. destruct (vi_type i); try discriminate; auto.
Qed.
Print Assumptions C09_store_refused.

(** A table of one temperature. *)
Example C09_store_example : exists i, Var.Properties.temp = Ok i /\
  exists x, store_variable_i default_options [mkbentry i []] (vi_code i) 28315 [] = Ok [x] /\ enqi (v_cell x) = Ok 28315.
Proof.
  Var.Properties.get_info Var.Properties.temp (fun i => (vi_type i, vi_imin i, vi_imax i)) (TDecimal, 0, 65534). injection V as V1 V2 V3.
  exists i. split; [auto|].
  destruct (C09_store_integer default_options [mkbentry i []] (vi_code i) i 28315 []) as (x & S & _ & _ & Q).
  - unfold query, query_entry, find_code. cbn [map length bsearch be_code be_info]. change (1 <? Z.of_nat 1 - -1) with true. change (Z.quot (Z.of_nat 1 + -1) 2) with 0.
    cbn [at_code Z.ltb Z.compare Z.to_nat nth_error bind]. rewrite Z.ltb_irrefl. change (1 <? Z.of_nat 1 - 0) with false. cbn [bind Z.eqb at_code Z.ltb Z.compare Z.to_nat nth_error].
    rewrite Z.eqb_refl. reflexivity.
  - rewrite V1. reflexivity.
  - rewrite V2, V3. split; discriminate.
  - exists x. auto.
Qed.

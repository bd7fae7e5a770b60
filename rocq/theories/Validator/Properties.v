(** C33: what the pre-encoding check accepts can be encoded without loss. *)
From Coq Require Import String ZifyBool.
From Verif Require Import Base Bits.Model Num.Float Varcode.Model Varinfo.Model Varinfo.RangeProofs Tables.Model Tables.LoadProofs
  Var.Model Var.Spec Interp.Model Interp.Example Codec.Model Codec.Spec Codec.Proofs Codec.Properties
  Validator.Model Validator.Spec Validator.Proofs Validator.CompleteProofs.
Local Open Scope Z_scope.

(** ** Soundness

    For templates made of elements, replications, sequences and operators that change the
    definition of elements: when the check accepts, the encoder succeeds, and it does what
    the exact encoder does, which stops as soon as a number does not fit in its field.
    [Strict] makes the shift by 32 that the check does on 32-bit fields undefined, so those
    are not accepted; [X86] is how the encoder writes missing strings of more than 32 bits.
    Missing: templates with associated fields, character data, local descriptors and
    bitmaps, for which the check is not sound (see below). *)
Theorem C33_accepted_is_encoded_partial : forall o T vars fuel ops lt st k out,
  Forall sound_var vars -> table_types T vars -> simple_template T ops ->
  validate Strict o false T vars fuel ops lt = Ok (st, k) ->
  exists e, run (encoder X86 o T vars) T fuel ops (ist_init, mkenc 0 out lt) = Ok (st, e) /\
            run (exact_encoder X86 o T vars) T fuel ops (ist_init, mkenc 0 out lt) = Ok (st, e) /\
            k_pos k = e_pos e.
Proof.
  intros o T vars fuel ops lt st k out S Ty Si H. apply (simple_validate _ _ _ _ Ty _ _ _ _ _ Si) in H.
  destruct (careful_exact _ _ _ S _ _ _ out _ _ H) as (e & E & P & _). exists e. split; [apply exact_same; exact E|]. auto.
Qed.

(** For all templates, with the checks that are missing (Validator/Spec.v). *)
Theorem C33_careful_check_is_sound : forall o T vars fuel ops lt st k out,
  Forall sound_var vars ->
  run (careful_validator Strict o T vars) T fuel ops (ist_init, mkcheck 0 lt) = Ok (st, k) ->
  exists e, run (encoder X86 o T vars) T fuel ops (ist_init, mkenc 0 out lt) = Ok (st, e) /\
            run (exact_encoder X86 o T vars) T fuel ops (ist_init, mkenc 0 out lt) = Ok (st, e) /\
            k_pos k = e_pos e.
Proof.
  intros o T vars fuel ops lt st k out S H.
  destruct (careful_exact _ _ _ S _ _ _ out _ _ H) as (e & E & P & _). exists e. split; [apply exact_same; exact E|]. auto.
Qed.

(** ** Completeness: whatever can be sent without loss is accepted, as long as numbers take
    less than 32 bits. *)
Theorem C33_sendable_is_accepted : forall p o T skip vars fuel ops lt got lt',
  Forall var_infos_ok vars -> table_ok (tb_b T) ->
  Forall (fun v => Forall (fun c => narrow (c_info c)) (v_cell v :: v_attrs v)) vars ->
  (forall c i, query (tb_b T) c = Ok i -> narrow i) ->
  transfer p T skip vars fuel ops lt = Ok (got, lt') ->
  exists st k, validate Strict o false T vars fuel ops lt = Ok (st, k) /\ k_pos k = length vars.
Proof. intros. eapply complete; eauto. Qed.

(** ** Examples *)
Definition opts : options := mkopts false false None.
Definition accepts (p : shift_policy) (ops : list Z) (vars : list var) : res nat :=
  ' (_, k) <- validate p opts false ex_tables vars 100 ops empty_local ;; Ok (k_pos k).
Definition encodes (ops : list Z) (vars : list var) : res (list Z) :=
  ' (_, e) <- run (encoder X86 opts ex_tables vars) ex_tables 100 ops (ist_init, mkenc 0 out_empty empty_local) ;;
  Ok (obytes (flush (e_out e))).
Definition encodes_exactly (ops : list Z) (vars : list var) : res (list Z) :=
  ' (_, e) <- run (exact_encoder X86 opts ex_tables vars) ex_tables 100 ops (ist_init, mkenc 0 out_empty empty_local) ;;
  Ok (obytes (flush (e_out e))).

(** A sequence with a delayed replication, a string and a wider element. *)
Definition simple_ops : list Z := [wr_var 3 1 2; wr_var 0 1 11; wr_var 2 1 130; wr_var 0 1 1; wr_var 2 1 0].
Definition simple_vars : list var := firstn 9 (ex_subset 300).

Lemma sound_number i v : (vi_imin i <=? v) && (v <=? vi_imax i) = true -> is_numeric (vi_type i) = true ->
  sound_cell (mkcell i (Some (VInt v))).
Proof. intros H N. unfold sound_cell, value_ok. cbn [c_val c_info]. destruct (vi_type i); try discriminate; lia. Qed.
Lemma not_binary t : negb (match t with TBinary => true | _ => false end) = true -> t <> TBinary.
Proof. intros H ->. discriminate. Qed.
Lemma string_type t : is_string t = true -> t = TString.
Proof. destruct t; try discriminate; reflexivity. Qed.

Example C33_example_hypotheses :
  Forall sound_var simple_vars /\ table_types ex_tables simple_vars /\ simple_template ex_tables simple_ops.
Proof.
  assert (N : forall x y v, (vi_imin (ex_info x y) <=? v) && (v <=? vi_imax (ex_info x y)) && is_numeric (vi_type (ex_info x y)) = true ->
    sound_var (num x y v)).
  { intros x y v H. apply andb_prop in H as [H1 H2]. apply Forall_cons; [apply sound_number; auto|constructor]. }
  assert (A : forall v x y k, sound_var v -> v_attrs v = [] -> (vi_imin (ex_info x y) <=? k) && (k <=? vi_imax (ex_info x y)) && is_numeric (vi_type (ex_info x y)) = true ->
    sound_var (with_attr v x y k)).
  { intros v x y k S Ev H. apply andb_prop in H as [H1 H2]. unfold sound_var, with_attr in *. cbn [v_cell v_attrs]. rewrite Ev in *. cbn [seta].
    apply Forall_cons_iff in S as [S _]. apply Forall_cons; [exact S|]. apply Forall_cons; [apply sound_number; auto|constructor]. }
  split; [|split; [|split]].
  - unfold simple_vars, ex_subset. cbn [firstn].
    apply Forall_cons; [apply N; vm_compute; reflexivity|].
    apply Forall_cons; [apply A; [apply N; vm_compute; reflexivity|reflexivity|vm_compute; reflexivity]|].
    apply Forall_cons; [apply N; vm_compute; reflexivity|].
    apply Forall_cons; [apply N; vm_compute; reflexivity|].
    apply Forall_cons; [apply N; vm_compute; reflexivity|].
    apply Forall_cons; [apply N; vm_compute; reflexivity|].
    apply Forall_cons; [apply A; [apply Forall_cons; [exact I|constructor]|reflexivity|vm_compute; reflexivity]|].
    apply Forall_cons; [|].
    { apply Forall_cons; [|constructor]. unfold sound_cell, value_ok. cbn [v_cell c_val c_info].
      assert (E : vi_type (ex_info 1 11) = TString) by (vm_compute; reflexivity). rewrite E.
      assert (L : ilen (ex_info 1 11) = 9%nat) by (vm_compute; reflexivity). rewrite L. split; [cbn; apply Nat.leb_le; reflexivity|].
      repeat (apply Forall_cons; [discriminate|]). constructor. }
    apply Forall_cons; [|constructor].
    { apply Forall_cons; [|constructor]. apply sound_number; vm_compute; reflexivity. }
  - assert (K : forallb (fun e => negb (match vi_type (be_info e) with TBinary => true | _ => false end) &&
        (negb (is_string (vi_type (be_info e))) ||
         forallb (fun v => negb (c_code (v_cell v) =? be_code e) || is_string (vi_type (c_info (v_cell v)))) simple_vars)) ex_btable = true)
      by (vm_compute; reflexivity).
    rewrite forallb_forall in K. intros e He. specialize (K e He). apply andb_prop in K as [K1 K2]. split.
    + apply not_binary. exact K1.
    + intros Ts v Hv Hc. rewrite Ts in K2. cbn [is_string negb orb] in K2. rewrite forallb_forall in K2. specialize (K2 v Hv).
      rewrite Hc, Z.eqb_refl in K2. cbn [negb orb] in K2. apply string_type. exact K2.
  - vm_compute. reflexivity.
  - intros d body H. unfold dexpand in H. inv_bind H. injection Hk as <-. revert Hb. unfold dquery. cbn [ex_tables tb_d].
    destruct (find_code _ d) as [[n|]| |]; cbn [bind]; try discriminate. intros H.
    destruct n as [|[|n]]; cbn in H; [injection H as <-; vm_compute; reflexivity|injection H as <-; vm_compute; reflexivity|].
    destruct n; discriminate.
Qed.

Example C33_example :
  accepts Strict simple_ops simple_vars = Ok 9%nat /\
  is_ok (encodes simple_ops simple_vars) = true /\
  encodes simple_ops simple_vars = encodes_exactly simple_ops simple_vars /\
  (* 128 in 7 bits *)
  accepts Strict [wr_var 0 1 1] [num 1 1 128] = Err EConsistency /\
  encodes [wr_var 0 1 1] [num 1 1 128] = Ok [0] /\
  (* another element *)
  accepts Strict [wr_var 0 1 1] [num 12 101 3] = Err EConsistency.
Proof. vm_compute. auto 10. Qed.

(** The whole example of C21, which has bitmaps, is accepted; the hypotheses of completeness
    are met. *)
Example C33_sendable_example :
  (forall c i, query (tb_b ex_tables) c = Ok i -> narrow i) /\
  Forall (fun v => Forall (fun c => narrow (c_info c)) (v_cell v :: v_attrs v)) (ex_subset 300) /\
  accepts Strict ex_ops (ex_subset 300) = Ok 10%nat.
Proof.
  assert (Nb : forall i, negb (is_numeric (vi_type i)) || (vi_bit_len i <? 32) = true -> narrow i).
  { intros i H N. rewrite N in H. cbn [negb orb] in H. apply Z.ltb_lt. exact H. }
  split; [|split].
  - intros c i H. unfold query in H. inv_bind H. destruct a as [n|]; [|discriminate]. inv_bind Hk. injection Hk0 as <-.
    unfold entry_at in Hb0. destruct (nth_error _ n) as [e|] eqn:E; [|discriminate]. injection Hb0 as <-. apply nth_error_In in E.
    assert (K : forallb (fun e => negb (is_numeric (vi_type (be_info e))) || (vi_bit_len (be_info e) <? 32)) ex_btable = true) by (vm_compute; reflexivity).
    rewrite forallb_forall in K. apply Nb. exact (K e E).
  - assert (K : forallb (fun v => forallb (fun c => negb (is_numeric (vi_type (c_info c))) || (vi_bit_len (c_info c) <? 32)) (v_cell v :: v_attrs v)) (ex_subset 300) = true)
      by (vm_compute; reflexivity).
    rewrite forallb_forall in K. apply Forall_forall. intros v Hv. specialize (K v Hv). rewrite forallb_forall in K.
    apply Forall_forall. intros c Hc. apply Nb. exact (K c Hc).
  - vm_compute. reflexivity.
Qed.

(** ** What the check lets through

    An associated field of one bit with the value 2: it is accepted and loses its value. *)
Theorem C33_associated_field_refuted :
  let ops := [wr_var 2 4 1; wr_var 0 31 21; wr_var 0 1 1] in
  let vars k := [num 31 21 1; with_attr (num 1 1 5) 33 2 k] in
  accepts Strict ops (vars 2) = Ok 2%nat /\ encodes ops (vars 2) = encodes ops (vars 0) /\
  is_ok (encodes ops (vars 2)) = true /\ encodes_exactly ops (vars 2) = Err EConsistency.
Proof. vm_compute. auto. Qed.

(** An associated field whose significance is unknown is accepted and cannot be encoded. *)
Theorem C33_significance_refuted :
  let ops := [wr_var 2 4 1; wr_var 0 31 21; wr_var 0 1 1] in
  let vars := [num 31 21 0; num 1 1 5] in
  accepts Strict ops vars = Ok 2%nat /\ encodes ops vars = Err EUnimpl.
Proof. vm_compute. auto. Qed.

(** A bitmap with another length than the template says is accepted and cannot be encoded. *)
Theorem C33_bitmap_size_refuted :
  let ops := [wr_var 0 1 1; wr_var 0 1 1; wr_var 2 22 0; wr_var 1 1 2; wr_var 0 31 31] in
  let vars := [num 1 1 5; num 1 1 6; mkvar (mkcell (bitmap_info 1) (Some (VStr [43]))) []] in
  accepts Strict ops vars = Ok 3%nat /\ encodes ops vars = Err EConsistency.
Proof. vm_compute. auto. Qed.

(** A local descriptor of 32 bits with a value of one byte is accepted; the encoder reads
    after the end of the value. *)
Theorem C33_unknown_size_refuted :
  let ops := [wr_var 2 6 32; wr_var 0 63 250] in
  let byte := get_ok no_info (set_binary (wr_var 0 63 250) 8) in
  let vars := [mkvar (mkcell byte (Some (VBin [7]))) []] in
  accepts Strict ops vars = Ok 1%nat /\ encodes ops vars = UB.
Proof. vm_compute. auto. Qed.

(** A 32-bit number: the check shifts by the whole width of the word.  On machines that take
    the count modulo 32 it rejects a value that can be sent. *)
Theorem C33_32_bits_refuted :
  let ops := [wr_var 2 1 153; wr_var 0 1 1] in
  let info := get_ok no_info (alter_checked (ex_info 1 1) 0 32 0) in
  let vars := [mkvar (mkcell info (Some (VInt 5))) []] in
  vi_bit_len info = 32 /\ accepts Strict ops vars = UB /\ accepts X86 ops vars = Err EConsistency /\
  encodes ops vars = Ok [0; 0; 0; 5] /\ encodes_exactly ops vars = Ok [0; 0; 0; 5] /\
  is_ok (transfer Strict ex_tables true vars 100 ops empty_local) = true.
Proof. vm_compute. auto 10. Qed.

Print Assumptions C33_accepted_is_encoded_partial.
Print Assumptions C33_careful_check_is_sound.
Print Assumptions C33_sendable_is_accepted.

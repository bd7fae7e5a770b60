(** C33: the pre-encoding check and CREX. *)
From Coq Require Import String ZifyBool ZifyNat.
From Verif Require Import Base Bits.Model Num.Float Varcode.Model Varinfo.Model Varinfo.Proofs Tables.Model Tables.LoadProofs
  Var.Model Var.Spec Interp.Model Interp.Hom Interp.Appears Codec.Model Codec.Spec Crex.Model Crex.Spec Crex.MessageProofs
  Validator.Model Validator.Spec Validator.CrexSpec Validator.CrexProofs.
From Verif Require Crex.Properties.
Import Crex.Properties.
Local Open Scope Z_scope.

(** What the check accepts is encoded: the encoder does not stop, and it writes the variables that were
    checked. *)
Theorem C33_crex_accepted_is_encoded : forall p o T vars fuel ops lt st k out lt',
  Forall sound_var vars -> table_types T vars -> (forall e, In e (tb_b T) -> vi_len (be_info e) <= 254) ->
  plain_template T ops ->
  validate p o true T vars fuel ops lt = Ok (st, k) ->
  exists s, run (c_encoder o vars) T fuel ops (ist_init, mkcenc 0 out lt') = Ok (st, s) /\ ce_pos s = k_pos k.
Proof. intros. eapply accepted_encoded; eauto. Qed.

(** The check says nothing of lengths and definitions.  When the variables have the definitions of the tables and
    their values fit, what it accepts can be sent ([crex_transfer]: C42), and the other way round. *)
Theorem C33_crex_accepted_iff_sendable : forall p o T vars fuel ops lt,
  Forall (own_definition T) vars -> Forall fits_field vars -> factors_fit vars -> factors_set vars ->
  Forall (fun v => usual_scale (c_info (v_cell v))) vars -> plain_template T ops ->
  (exists st k, validate p o true T vars fuel ops lt = Ok (st, k) /\ k_pos k = length vars) <->
  crex_transfer vars T fuel ops = Ok (map without_attrs vars).
Proof.
  intros p o T vars fuel ops lt Ow Fi Fa Fs Us P. split.
  - intros (st & k & V & L). eapply accepted_sent; eauto.
  - intros H. eapply sendable_accepted; eauto.
Qed.

(** Whatever can be sent is accepted. *)
Theorem C33_crex_sendable_is_accepted : forall p o T vars fuel ops lt got,
  Forall (fun v => usual_scale (c_info (v_cell v))) vars -> factors_set vars -> plain_template T ops ->
  crex_transfer vars T fuel ops = Ok got ->
  exists st k, validate p o true T vars fuel ops lt = Ok (st, k) /\ k_pos k = length vars.
Proof. intros. eapply sendable_accepted; eauto. Qed.

(** So a message with an accepted subset is read back. *)
Theorem C33_crex_accepted_round_trip : forall p o load T fuel lt h ops vars lt' st k,
  crex_header_ok h = true -> crex_ops_ok ops = true -> (length ops < fuel)%nat -> load (crex_received h) = Ok T ->
  Forall (own_definition T) vars -> Forall fits_field vars -> factors_fit vars -> plain_template T ops ->
  validate p o true T vars fuel ops lt' = Ok (st, k) -> k_pos k = length vars ->
  exists text, encode_crex o T fuel lt (mkcb h ops [vars]) = Ok text /\
    decode_crex o load fuel text = Ok (mkcb (crex_received h) ops [map without_attrs vars]).
Proof.
  intros p o load T fuel lt h ops vars lt' st k Hh Ho L HT Ow Fi Fa P V Lk.
  eapply C42_message_round_trip; eauto. eapply accepted_sent; eauto.
Qed.

(** ** Example *)
Definition crex_accepts (T : tables) (ops : list Z) (vars : list var) : res nat :=
  ' (_, k) <- validate Strict opts true T vars 100 ops empty_local ;; Ok (k_pos k).
Definition crex_encodes (T : tables) (ops : list Z) (vars : list var) : res (list Z) :=
  ' (_, e) <- run (c_encoder opts vars) T 100 ops (ist_init, mkcenc 0 cout_empty empty_local) ;; Ok (co_text (ce_out e)).

(** A table with a sequence: B 01 001, B 01 015. *)
Definition seq_tables : tables := mktables (tb_b crex_tables) (mkdtable [wr_var 0 1 1; wr_var 0 1 15] [mkdentry (wr_var 3 1 1) 0 2]).
Definition seq_ops : list Z := [wr_var 3 1 1; wr_var 1 2 0; wr_var 0 31 12; wr_var 0 12 1; wr_var 0 1 1].


(** Checks of the hypotheses. *)
Definition sound_b (c : cell) : bool :=
  match c_val c with
  | None => true
  | Some (VInt n) => is_numeric (vi_type (c_info c)) && (vi_imin (c_info c) <=? n) && (n <=? vi_imax (c_info c))
  | Some (VStr s) => is_string (vi_type (c_info c)) && Nat.leb (length s) (ilen (c_info c)) && forallb (fun ch => negb (ch =? 0)) s
  | Some (VBin _) => false
  end.
Lemma sound_b_ok c : sound_b c = true -> sound_cell c.
Proof.
  unfold sound_b, sound_cell, value_ok. destruct (c_val c) as [[n|s|b]|]; try discriminate; auto; intros H; rewrite !andb_true_iff in H.
  - destruct (vi_type (c_info c)); destruct H as ((H & A) & B); try discriminate; lia.
  - destruct (vi_type (c_info c)); destruct H as ((H & A) & B); try discriminate. split; [lia|].
    rewrite forallb_forall in B. apply Forall_forall. intros x Hx. specialize (B x Hx). lia.
Qed.

Example C33_crex_hypotheses :
  Forall sound_var ex_cvars /\ table_types seq_tables ex_cvars /\ (forall e, In e (tb_b seq_tables) -> vi_len (be_info e) <= 254) /\
  Forall (own_definition seq_tables) ex_cvars /\ Forall fits_field ex_cvars /\ factors_fit ex_cvars /\ factors_set ex_cvars /\
  Forall (fun v => usual_scale (c_info (v_cell v))) ex_cvars /\ plain_template seq_tables seq_ops.
Proof.
  split; [|split; [|split; [|split; [|split; [|split; [|split; [|split]]]]]]].
  - assert (K : forallb (fun v => forallb sound_b (v_cell v :: v_attrs v)) ex_cvars = true) by (vm_compute; reflexivity).
    rewrite forallb_forall in K. apply Forall_forall. intros v Hv. specialize (K v Hv). rewrite forallb_forall in K.
    apply Forall_forall. intros c Hc. apply sound_b_ok. auto.
  - assert (K : forallb (fun e => negb (match vi_type (be_info e) with TBinary => true | _ => false end) &&
        (negb (is_string (vi_type (be_info e))) ||
         forallb (fun v => negb (c_code (v_cell v) =? be_code e) || is_string (vi_type (c_info (v_cell v)))) ex_cvars)) (tb_b seq_tables) = true)
      by (vm_compute; reflexivity).
    rewrite forallb_forall in K. intros e He. specialize (K e He). apply andb_prop in K as [K1 K2]. split.
    + intros E. rewrite E in K1. discriminate.
    + intros Ts v Hv Hc. rewrite Ts in K2. cbn [is_string negb orb] in K2. rewrite forallb_forall in K2. specialize (K2 v Hv).
      rewrite Hc, Z.eqb_refl in K2. cbn [negb orb] in K2. destruct (vi_type (c_info (v_cell v))); try discriminate. reflexivity.
  - assert (K : forallb (fun e => vi_len (be_info e) <=? 254) (tb_b seq_tables) = true) by (vm_compute; reflexivity).
    rewrite forallb_forall in K. intros e He. specialize (K e He). lia.
  - apply Forall_forall. intros v Hv i Q.
    assert (K : forallb (fun v => match query (tb_b seq_tables) (c_code (v_cell v)) with Ok j => if varinfo_eq_dec (c_info (v_cell v)) j then true else false | _ => true end) ex_cvars = true)
      by (vm_compute; reflexivity).
    rewrite forallb_forall in K. specialize (K v Hv). rewrite Q in K. destruct (varinfo_eq_dec (c_info (v_cell v)) i); [auto|discriminate].
  - assert (K : forallb (fun v => crex_fits false (c_info (v_cell v)) (c_val (v_cell v))) ex_cvars = true) by (vm_compute; reflexivity).
    rewrite forallb_forall in K. apply Forall_forall. exact K.
  - intros n v N F. do 7 (destruct n as [|n]; [cbn [nth_error ex_cvars] in N; injection N as <-; try (vm_compute in F; discriminate); exists 2; split; vm_compute; reflexivity|]).
    destruct n; discriminate.
  - assert (K : forallb (fun v => negb (var_x (c_code (v_cell v)) =? 31) || isset (v_cell v)) ex_cvars = true) by (vm_compute; reflexivity).
    rewrite forallb_forall in K. intros v Hv X. specialize (K v Hv). rewrite X in K. exact K.
  - assert (K : forallb (fun v => vi_scale (c_info (v_cell v)) =? 0) ex_cvars = true) by (vm_compute; reflexivity).
    rewrite forallb_forall in K. apply Forall_forall. intros v Hv _. specialize (K v Hv). unfold scale_ok. lia.
  - assert (C : forall d body, dexpand (tb_d seq_tables) d = Ok body -> forallb plain_op body = true).
    { intros d body H. unfold dexpand in H. apply bind_ok in H as (b & Hb & Hk). injection Hk as <-. revert Hb. unfold dquery. cbn [seq_tables tb_d].
      destruct (find_code _ d) as [[n|]| |]; cbn [bind]; try discriminate. intros H.
      destruct n as [|n]; cbn in H; [injection H as <-; vm_compute; reflexivity|]. destruct n; discriminate. }
    intros c Ap. induction Ap as [c H|c d body A IA F D In1].
    + assert (K : forallb plain_op seq_ops = true) by (vm_compute; reflexivity). rewrite forallb_forall in K. auto.
    + apply C in D. rewrite forallb_forall in D. auto.
Qed.

Example C33_crex_example :
  crex_accepts seq_tables seq_ops ex_cvars = Ok 7%nat /\
  is_ok (crex_encodes seq_tables seq_ops ex_cvars) = true /\
  crex_transfer ex_cvars seq_tables 100 seq_ops = Ok (map without_attrs ex_cvars) /\
  (* another variable, and no variable *)
  crex_accepts seq_tables [wr_var 0 1 1] [sent temp_info (Some (VInt 1))] = Err EConsistency /\
  crex_accepts seq_tables [wr_var 0 1 1] [] = Err EConsistency.
Proof. repeat split; vm_compute; reflexivity. Qed.

(** ** Where the check does not help

    The definitions are not compared: B 12 001 in tenths of a degree (28.3) is accepted for a field in degrees, and read as 283. *)
Theorem C33_crex_scale_refuted :
  let tenths := mkinfo (wr_var 0 12 1) TDecimal ""%string 1 4 0 0 (-9999) 9999 fzero fzero in
  let vars := [sent tenths (Some (VInt 283))] in
  Forall sound_var vars /\ crex_accepts seq_tables [wr_var 0 12 1] vars = Ok 1%nat /\
  crex_encodes seq_tables [wr_var 0 12 1] vars = Ok [32; 48; 50; 56; 51] /\
  crex_encodes seq_tables [wr_var 0 12 1] [sent temp_info (Some (VInt 283))] = Ok [32; 48; 50; 56; 51].
Proof.
  split; [|repeat split; vm_compute; reflexivity].
  apply Forall_cons; [|constructor]. apply Forall_cons; [|constructor]. apply sound_b_ok. vm_compute. reflexivity.
Qed.

(** Nor are the lengths: three digits are accepted for a field of two, and are what is written; the message cannot be
    read (the library reads all the digits that are there, 123, and 123 is out of range). *)
Theorem C33_crex_length_refuted :
  let wide := crex_info 1 1 TInteger 3 (-999) 999 in
  let vars := [sent wide (Some (VInt 123)); sent temp_info (Some (VInt 283))] in
  Forall sound_var vars /\ crex_accepts seq_tables [wr_var 0 1 1; wr_var 0 12 1] vars = Ok 2%nat /\
  crex_encodes seq_tables [wr_var 0 1 1; wr_var 0 12 1] vars = Ok [32; 49; 50; 51; 32; 48; 50; 56; 51] /\
  (text <- encode_crex opts seq_tables 100 empty_local (mkcb ex_cheader [wr_var 0 1 1; wr_var 0 12 1] [vars]) ;;
   decode_crex opts (fun _ => Ok seq_tables) 100 text) = Err EDomain.
Proof.
  split; [|repeat split; vm_compute; reflexivity].
  apply Forall_cons; [|apply Forall_cons; [|constructor]]; (apply Forall_cons; [|constructor]); apply sound_b_ok; vm_compute; reflexivity.
Qed.

(** Character data (205YYY) is accepted, and the encoder throws. *)
Theorem C33_crex_raw_refuted :
  let raw := mkinfo (wr_var 2 5 3) TString ""%string 0 3 0 24 0 0 fzero fzero in
  let vars := [sent raw (Some (VStr [65; 66; 67]))] in
  crex_accepts seq_tables [wr_var 2 5 3] vars = Ok 1%nat /\ crex_encodes seq_tables [wr_var 2 5 3] vars = Err EUnimpl.
Proof. split; vm_compute; reflexivity. Qed.

Print Assumptions C33_crex_accepted_is_encoded.
Print Assumptions C33_crex_accepted_iff_sendable.
Print Assumptions C33_crex_accepted_round_trip.

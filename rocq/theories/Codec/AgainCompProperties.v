(** C48 for compressed data: what is decoded can be encoded, without compression, and decoded again. *)
From Coq Require Import ZArith Lia ZifyBool ZifyNat.
From Verif Require Import Base Bits.Model Bits.Spec Bits.StringProofs Num.Float Varcode.Model Varinfo.Model Varinfo.RangeProofs Tables.Model Tables.LoadProofs
  Var.Model Var.Spec Interp.Model Interp.Example Interp.Follow Codec.Model Codec.Compressed Codec.Spec Codec.Proofs Codec.TransferProofs Codec.ColumnProofs Codec.Again Codec.AgainCheck Codec.AgainProofs Codec.AgainSteps
  Codec.AgainProperties Codec.AgainComp Codec.AgainCompValue Codec.AgainCompSteps.
From Verif Require Codec.Properties.
Local Open Scope Z_scope.

(** ** The recorder is the decoder *)
Lemma comp_recorded_run o T skip fuel ops st s l st' s' : run (cdecoder o T skip) T fuel ops (st, s) = Ok (st', s') ->
  exists l', run (comp_recorder o T skip) T fuel ops (st, (s, l)) = Ok (st', (s', l')).
Proof.
  intros E.
  destruct (run_follows (cdecoder o T skip) (comp_recorder o T skip) T (fun _ => True) (fun _ _ => True) (fun _ => True) (fun s x => fst x = s)
    (fun _ _ => True) (fun _ => True) (fun _ _ => True)) with (fuel := fuel) (ops := ops) (st := st) (s := s) (st' := st') (s' := s') as (_ & _ & _ & K); auto.
  - intros; repeat split.
  - intros i _ a a' _ _ E1. repeat split. intros _ [b k] Eb. cbn [fst] in Eb. subst b. cbn [on_var comp_recorder]. unfold comp_note. cbn [fst snd].
    cbn [cdecoder on_var] in E1. rewrite E1. eexists. split; reflexivity.
  - intros st0 i _ _ a a' _ _ E1. repeat split. intros _ [b k] Eb. cbn [fst] in Eb. subst b. cbn [on_var_af comp_recorder]. unfold comp_note. cbn [fst snd].
    cbn [cdecoder on_var_af] in E1. rewrite E1. eexists. split; reflexivity.
  - intros i _ _ a n a' _ E1. repeat split. intros _ [b k] Eb. cbn [fst] in Eb. subst b. cbn [on_factor comp_recorder]. unfold comp_note_with. cbn [fst snd].
    cbn [cdecoder on_factor] in E1. rewrite E1. eexists. split; reflexivity.
  - intros i _ a n a' _ E1. repeat split. intros _ [b k] Eb. cbn [fst] in Eb. subst b. cbn [on_significance comp_recorder]. unfold comp_note_with. cbn [fst snd].
    cbn [cdecoder on_significance] in E1. rewrite E1. eexists. split; reflexivity.
  - intros p a a' _ _ E1. repeat split. intros _ [b k] Eb. cbn [fst] in Eb. subst b. cbn [on_subst comp_recorder]. unfold comp_note. cbn [fst snd].
    pose proof E1 as E2. cbn [on_subst cdecoder] in E2. unfold k_subst in E2. destruct (k_subs a) as [|h r]; [discriminate|]. destruct (nth_error h p); [|discriminate].
    cbn [on_subst cdecoder] in E1. rewrite E1. eexists. split; reflexivity.
  - intros i p _ a a' _ _ E1. repeat split. intros _ [b k] Eb. cbn [fst] in Eb. subst b. cbn [on_attr comp_recorder]. unfold comp_note. cbn [fst snd].
    cbn [cdecoder on_attr] in E1. rewrite E1. eexists. split; reflexivity.
  - intros code a a' _ _ E1. repeat split. intros _ [b k] Eb. cbn [fst] in Eb. subst b. cbn [on_raw comp_recorder]. unfold comp_note. cbn [fst snd].
    cbn [cdecoder on_raw] in E1. rewrite E1. eexists. split; reflexivity.
  - intros st0 s0 code _ _ a r a' _ E1. cbn [on_refval cdecoder] in E1. discriminate.
  - intros code op _ a i a' _ E1. repeat split. intros _ [b k] Eb. cbn [fst] in Eb. subst b. cbn [on_unknown comp_recorder]. cbn [fst snd].
    cbn [on_unknown cdecoder] in E1. rewrite E1. eexists. split; reflexivity.
  - intros code delayed ops0 st0 s0 st1 s1 _ _ _ E1. repeat split. intros _ [b k] Eb. cbn [fst] in Eb. subst b.
    unfold r_bitmap in *. destruct (negb (var_x code =? 1)); [discriminate|]. destruct (negb (hd 0 ops0 =? var_B31031)); [discriminate|].
    inv_bind E1. destruct a as [n s2]. inv_bind Hk. destruct a as [[codes bits] s3]. inv_bind Hk0. injection Hk as <- <-.
    assert (X : exists k', (if var_y code =? 0 then info <- query (tb_b T) delayed;; on_bitmap_factor (comp_recorder o T skip) info (s0, k) else Ok (var_y code, (s0, k))) = Ok (n, (s2, k'))).
    { destruct (var_y code =? 0).
      - destruct (query (tb_b T) delayed) as [i|e|]; cbn [bind] in *; try discriminate. cbn [on_bitmap_factor comp_recorder cdecoder] in *. unfold comp_note_with. cbn [fst snd].
        rewrite Hb. eexists. reflexivity.
      - injection Hb as <- <-. eexists. reflexivity. }
    destruct X as [k' ->]. cbn [bind]. cbn [on_bitmap comp_recorder cdecoder fst snd] in *. rewrite Hb0. cbn [bind]. rewrite Hb1. eexists. split; reflexivity.
  - destruct (K Logic.I (s, l) eq_refl) as ([s2 l2] & E2 & <-). exists l2. exact E2.
Qed.

Lemma comp_recorded o T skip fuel ops n lt inp gots lt' inp' : decode_compressed o T skip fuel ops n lt inp = Ok (gots, lt', inp') ->
  exists reqs, record_compressed o T skip fuel ops n lt inp = Ok (gots, reqs, lt', inp').
Proof.
  unfold decode_compressed, record_compressed. intros E. inv_bind E. destruct a as [st s]. apply ok_inj in Hk. injection Hk as <- <- <-.
  destruct (comp_recorded_run o T skip fuel ops _ _ [] _ _ Hb) as [l ->]. cbn [bind fst snd]. exists l. reflexivity.
Qed.

(** ** All the subsets *)
Section Sent.
Context (p : shift_policy) (o : options) (HO : strict_options o) (T : tables) (skip : bool) (HT : table_ok (tb_b T)) (HD : defs_ok (tb_b T)) (fuel : nat) (ops : list Z).

Lemma transfer_later reqs L : forall subs,
  (forall vars, In vars subs -> comp_faithful p vars reqs -> exists x, transfer_state p T skip vars fuel ops L = Ok x /\ x_got x = vars /\ x_lt x = L) ->
  Forall (fun vars => comp_faithful p vars reqs) subs -> transfer_all p T skip fuel ops subs L = Ok (subs, L).
Proof.
  induction subs as [|vars subs IH]; intros K Fa; cbn [transfer_all]; [reflexivity|]. inversion Fa as [|? ? F1 F2]; subst.
  destruct (K vars (or_introl eq_refl) F1) as (x & Ex & Xg & Xl). unfold transfer at 1. rewrite Ex. cbn [bind]. rewrite Xg, Xl. rewrite IH; [reflexivity| |exact F2].
  intros w Iw. apply K. right. exact Iw.
Qed.

Lemma comp_sent n lt inp gots reqs lt' inp' : locals_ok lt -> (0 < n)%nat -> record_compressed o T skip fuel ops n lt inp = Ok (gots, reqs, lt', inp') ->
  Forall (Forall var_infos_ok) gots /\ length gots = n /\ (Forall (fun vars => comp_faithful p vars reqs) gots -> transfer_all p T skip fuel ops gots lt = Ok (gots, lt')).
Proof.
  intros Lo Hn E. unfold record_compressed in E. inv_bind E. destruct a as [st [s l]]. cbn [fst snd] in Hk. apply ok_inj in Hk. injection Hk as <- <- <- <-.
  assert (One : forall k Q, (k < n)%nat -> carried (k_lt s) Q ->
    cgood k n (s, l) /\ (comp_faithful p (one k s) l -> forall m, Q lt m -> exists x, transfer_state p T skip (one k s) fuel ops m = Ok x /\ x_got x = one k s /\ Q (k_lt s) (x_lt x))).
  { intros k Q Hk HQ. split.
    - exact (proj1 (comp_transmission o HO T skip p HT HD (one k s) k n (k_lt s) Q HQ fuel ops st (s, l) inp lt lt Hb Lo Hk)).
    - intros Fa m Qm. exact (proj2 (proj2 (comp_transmission o HO T skip p HT HD (one k s) k n (k_lt s) Q HQ fuel ops st (s, l) inp lt m Hb Lo Hk)) eq_refl Fa eq_refl Qm). }
  assert (Ln : length (k_subs s) = n) by (destruct (One O eq Hn (carried_first _)) as [(_ & _ & _ & X) _]; exact X).
  split; [|split; [exact Ln|]].
  - apply Forall_forall. intros vars Iv. apply (In_nth _ _ []) in Iv as (k & Hk & <-). rewrite Ln in Hk. destruct (One k eq Hk (carried_first _)) as [((G & _) & _) _]. cbn [view fst d_vars] in G.
    eapply Forall_impl; [|exact G]. cbv beta. tauto.
  - intros Fa. destruct (k_subs s) as [|h rest] eqn:Es; [cbn in Ln; lia|]. inversion Fa as [|? ? F1 F2]; subst. cbn [transfer_all].
    destruct (One O eq Hn (carried_first _)) as [_ K]. unfold one in K. rewrite Es in K. cbn [nth] in K. destruct (K F1 lt eq_refl) as (x & Ex & Xg & Xl).
    unfold transfer. rewrite Ex. cbn [bind]. rewrite Xg, <- Xl. rewrite (transfer_later l (k_lt s) rest); [reflexivity| |exact F2].
    intros vars Iv Fv. apply (In_nth _ _ []) in Iv as (k & Hk & <-). cbn [length] in *. destruct (One (Datatypes.S k) (fun _ m => m = k_lt s) ltac:(lia) (carried_later _)) as [_ K'].
    unfold one in K'. rewrite Es in K'. cbn [nth] in K'. exact (K' Fv (k_lt s) eq_refl).
Qed.
End Sent.

(** Whatever compressed data the subsets have been decoded from: if each subset is faithful to what the
    template asks for, then encoding it, which is done without compression, gives bytes that decode
    to the same variables, attributes included. *)
Theorem C48_compressed_data_can_be_sent_again : forall p o T skip fuel ops n lt inp gots lt' inp',
  strict_options o -> table_ok (tb_b T) -> defs_ok (tb_b T) -> locals_ok lt -> (0 < n)%nat ->
  decode_compressed o T skip fuel ops n lt inp = Ok (gots, lt', inp') ->
  exists reqs, record_compressed o T skip fuel ops n lt inp = Ok (gots, reqs, lt', inp') /\ length gots = n /\
    (Forall (fun vars => comp_faithful p vars reqs) gots ->
     forall lte pre, lt_unknown lte = lt_unknown lt -> Forall is_byte pre ->
     exists lte' out bytes, encode_subsets p o T fuel ops gots lte (mkout pre 0 0) = Ok (lte', out) /\
       obytes (flush out) = pre ++ bytes /\ Forall is_byte bytes /\
       forall post, Forall is_byte post -> (1 <= length post)%nat ->
       exists inp2, decode_subsets o T skip fuel ops n lt (mkin (pre ++ bytes ++ post) (length pre) 0 0) = Ok (gots, lt', inp2)).
Proof.
  intros p o T skip fuel ops n lt inp gots lt' inp' HO HT HD L Hn E. destruct (comp_recorded _ _ _ _ _ _ _ _ _ _ _ E) as (reqs & Es). exists reqs.
  destruct (comp_sent p o HO T skip HT HD fuel ops _ _ _ _ _ _ _ L Hn Es) as (V & N & K).
  split; [exact Es|]. split; [exact N|]. intros Fa lte pre Ll Fp.
  destruct (bytes_roundtrip p o T skip fuel ops _ lt lte _ lt' pre HT V Ll Fp (K Fa)) as (lte' & out & bytes & E1 & E2 & E3 & E4).
  exists lte', out, bytes. split; [exact E1|]. split; [exact E2|]. split; [exact E3|]. intros post F1 F2. specialize (E4 post F1 F2). rewrite N in E4. exact E4.
Qed.

(** ** The conditions as a function *)
Definition insideb (i : varinfo) (v : option value) : bool :=
  match v with
  | None => negb (is_numeric (vi_type i)) || negb (no_missing (vi_code i))
  | Some (VInt k) => (vi_bit_ref i <=? k) && (k <? vi_bit_ref i + 2 ^ vi_bit_len i - 1)
  | Some _ => true
  end.
Definition comp_request_okb (p : shift_policy) (vars : list var) (r : request) : bool :=
  match r with
  | RField pos i => roomyb i && value_atb vars pos (fun c => neatb p i (c_val c) && insideb i (c_val c))
  | RCount i => is_numeric (vi_type i) && roomyb i && (0 <=? vi_bit_ref i)
  | RAttr pos i => roomyb i &&
      match nth_error vars pos with
      | Some v => let a := match var_enqa v (vi_code i) with Some a => c_val a | None => None end in neatb p i a && insideb i a
      | None => true
      end
  | _ => false
  end.
Definition comp_faithfulb (p : shift_policy) (vars : list var) (reqs : list request) : bool :=
  distinctb (keys reqs) && forallb (comp_request_okb p vars) reqs.

Lemma insideb_iff i v : insideb i v = true <-> inside i v.
Proof.
  unfold insideb, inside. destruct v as [[n|s|b]|]; try tauto; [lia|]. destruct (is_numeric (vi_type i)), (no_missing (vi_code i)); cbn; split; auto; discriminate || (intros H; specialize (H eq_refl); discriminate) || idtac.
Qed.
Lemma comp_request_okb_iff p vars r : comp_request_okb p vars r = true <-> comp_request_ok p vars r.
Proof.
  unfold comp_request_okb, comp_request_ok. destruct r as [pos i|pos bits sig i|i|pos i|pos code|bits code r]; try (split; [discriminate|intros []]).
  - rewrite andb_true_iff, roomyb_iff, (value_atb_iff vars pos _ (fun c => neat p i (c_val c) /\ inside i (c_val c))) by (intros c; rewrite andb_true_iff, neatb_iff, insideb_iff; reflexivity). tauto.
  - rewrite !andb_true_iff, roomyb_iff, Z.leb_le. tauto.
  - rewrite andb_true_iff, roomyb_iff. destruct (nth_error vars pos) as [v|].
    + cbv zeta. rewrite andb_true_iff, neatb_iff, insideb_iff. split; [intros [H1 H2]; split; [exact H1|]; intros w E; injection E as <-; exact H2|intros [H1 H2]; auto].
    + split; [intros [H _]; split; [exact H|discriminate]|tauto].
Qed.
Lemma comp_all_faithful p subs reqs : forallb (fun vars => comp_faithfulb p vars reqs) subs = true -> Forall (fun vars => comp_faithful p vars reqs) subs.
Proof.
  intros H. rewrite forallb_forall in H. apply Forall_forall. intros vars Hv. specialize (H vars Hv). unfold comp_faithfulb in H. rewrite andb_true_iff, distinctb_iff, forallb_forall in H. destruct H as [H1 H2].
  split; [exact H1|]. apply Forall_forall. intros r Hr. apply comp_request_okb_iff. auto.
Qed.

From Verif Require Import Codec.CompressedSpec.
From Verif Require Codec.CompressedProperties.
Import Codec.Properties Codec.CompressedProperties.

(** The data of C23: a delayed replication, a missing value, a text, a changed width and quality
    information that a bitmap selects. *)
Definition ex_comp : list Z :=
  get_ok [] (' (_, bits) <- compress X86 ex_tables true ex_subs ex_plan 100 ex_ops empty_local ;; Ok (as_bytes bits ++ [55; 55])).

Lemma comp_checks p gots reqs n m : Nat.eqb (length gots) n && Nat.eqb (length reqs) m && forallb (fun vars => comp_faithfulb p vars reqs) gots = true ->
  length gots = n /\ length reqs = m /\ Forall (fun vars => comp_faithful p vars reqs) gots.
Proof. intros H. apply andb_true_iff in H as [H H3]. split; [lia|]. split; [lia|]. apply comp_all_faithful. exact H3. Qed.

Example C48_compressed_example :
  strict_options (mkopts false false None) /\ table_ok (tb_b ex_tables) /\ defs_ok (tb_b ex_tables) /\ locals_ok empty_local /\
  exists gots reqs lt' inp',
    decode_compressed (mkopts false false None) ex_tables true 100 ex_ops 3 empty_local (mkin ex_comp 0 0 0) = Ok (gots, lt', inp') /\
    record_compressed (mkopts false false None) ex_tables true 100 ex_ops 3 empty_local (mkin ex_comp 0 0 0) = Ok (gots, reqs, lt', inp') /\
    length gots = 3%nat /\ length reqs = 12%nat /\ Forall (fun vars => comp_faithful X86 vars reqs) gots.
Proof.
  split; [repeat split|]. split; [exact ex_btable_ok|]. split; [exact ex_defs_ok|]. split; [exact C48_no_local_definitions|].
  assert (X : match record_compressed (mkopts false false None) ex_tables true 100 ex_ops 3 empty_local (mkin ex_comp 0 0 0) with
              | Ok (gots, reqs, _, _) => Nat.eqb (length gots) 3 && Nat.eqb (length reqs) 12 && forallb (fun vars => comp_faithfulb X86 vars reqs) gots
              | _ => false
              end = true) by (vm_compute; reflexivity).
  assert (Y : is_ok (decode_compressed (mkopts false false None) ex_tables true 100 ex_ops 3 empty_local (mkin ex_comp 0 0 0)) = true) by (vm_compute; reflexivity).
  apply is_ok_exists in Y as ([[gots lt'] inp'] & E).
  destruct (comp_recorded _ _ _ _ _ _ _ _ _ _ _ E) as (reqs & Es). rewrite Es in X. exists gots, reqs, lt', inp'. split; [exact E|]. split; [exact Es|].
  exact (comp_checks _ _ _ _ _ X).
Qed.

(** ** What is not kept *)
Definition comp_twice (ops : list Z) (n : nat) (l : list bool) :=
  ' (g, _, _) <- decode_compressed (mkopts false false None) ex_tables true 100 ops n empty_local (mkin (as_bytes l ++ [55; 55]) 0 0 0) ;;
  ' (_, out) <- encode_subsets X86 (mkopts false false None) ex_tables 100 ops g empty_local out_empty ;;
  ' (g', _, _) <- decode_subsets (mkopts false false None) ex_tables true 100 ops n empty_local (mkin (obytes (flush out) ++ [55]) 0 0 0) ;;
  Ok (map view g, map view g').

(** Numbers of class 31: base and difference can add up to more than the field holds, and all ones in the base
    is a missing value.  Sent without compression the first loses its high bit and the second is a number. *)
Theorem C48_compressed_class_31_refuted :
  comp_twice [wr_var 0 31 1] 2 (bits_of 8 200 ++ bits_of 6 6 ++ bits_of 6 1 ++ bits_of 6 56) =
    Ok ([[(wr_var 0 31 1, Some (VInt 201), [])]; [(wr_var 0 31 1, Some (VInt 256), [])]],
        [[(wr_var 0 31 1, Some (VInt 201), [])]; [(wr_var 0 31 1, Some (VInt 0), [])]]) /\
  comp_twice [wr_var 0 31 1] 1 (bits_of 8 255 ++ bits_of 6 0) =
    Ok ([[(wr_var 0 31 1, None, [])]], [[(wr_var 0 31 1, Some (VInt 255), [])]]).
Proof. split; vm_compute; reflexivity. Qed.

(** Associated fields: a column of missing ones, and the one of a text, leave no attribute; sent without compression
    they are there and missing. *)
Theorem C48_compressed_associated_fields_refuted :
  comp_twice leak_ops 1 (bits_of 6 1 ++ bits_of 6 0 ++ bits_of 7 127 ++ bits_of 6 0 ++ bits_of 7 5 ++ bits_of 6 0) =
    Ok ([[(wr_var 0 31 21, Some (VInt 1), []); (wr_var 0 1 1, Some (VInt 5), [])]],
        [[(wr_var 0 31 21, Some (VInt 1), []); (wr_var 0 1 1, Some (VInt 5), [(wr_var 0 33 2, None)])]]) /\
  comp_twice text_af_ops 1 (bits_of 6 1 ++ bits_of 6 0 ++ bits_of_bytes some_text ++ bits_of 6 0) =
    Ok ([[(wr_var 0 31 21, Some (VInt 1), []); (wr_var 0 1 11, Some (VStr some_text), [])]],
        [[(wr_var 0 31 21, Some (VInt 1), []); (wr_var 0 1 11, Some (VStr some_text), [(wr_var 0 33 2, None)])]]).
Proof. split; vm_compute; reflexivity. Qed.

(** Outside class 31, and with less than 10 digits, a value in the range of its definition is always inside its field. *)
Theorem C48_inside_outside_class_31 : forall i c,
  cell_ok c -> c_info c = i -> vi_len i < 10 -> 1 <= vi_bit_len i -> var_x (vi_code i) <> 31 -> inside i (c_val c).
Proof.
  intros i c [K V] <- Hl Hb Hx. unfold inside. destruct (c_val c) as [[n|s|b]|]; auto.
  - assert (N : is_numeric (vi_type (c_info c)) = true) by (unfold value_ok in V; destruct (vi_type (c_info c)); [reflexivity|reflexivity|contradiction|contradiction]).
    assert (R : vi_imin (c_info c) <= n <= vi_imax (c_info c)) by (unfold value_ok in V; destruct (vi_type (c_info c)); [exact V|exact V|contradiction|contradiction]).
    pose proof (range_encodable (c_info c) n K N Hl ltac:(lia) Hx R). lia.
  - intros _. unfold no_missing. replace (var_x (vi_code (c_info c)) =? 31) with false by lia. rewrite andb_false_r. reflexivity.
Qed.

Example C48_inside_example : cell_ok (mkcell (ex_info 12 101) (Some (VInt 28315))) /\ vi_len (ex_info 12 101) < 10 /\ 1 <= vi_bit_len (ex_info 12 101) /\ var_x (vi_code (ex_info 12 101)) <> 31.
Proof.
  split; [split; [exact (ex_info_ok 12 101 ltac:(vm_compute; reflexivity))|vm_compute; split; discriminate]|]. vm_compute. repeat split; discriminate.
Qed.

Print Assumptions C48_compressed_data_can_be_sent_again.
Print Assumptions C48_inside_outside_class_31.

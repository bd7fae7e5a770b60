(** C49: encoding arbitrary bulletins. *)
From Coq Require Import ZifyBool ZifyNat String.
From Verif Require Import Base Bits.Model Bits.Spec Num.Float Varcode.Model Varinfo.Model Varinfo.RangeProofs
  Tables.Model Tables.Spec Tables.LoadProofs Var.Model Var.Spec Interp.Model Interp.Spec Interp.FuelProofs Interp.Appears Interp.SureProofs Interp.Example Codec.Model
  Codec.Spec Codec.EndProofs Codec.Checked Codec.CheckedEnc Codec.CheckedEncProofs Codec.Properties
  Message.Model Message.Spec Message.Properties Message.BytesProperties Message.CheckedEnc.
Local Open Scope Z_scope.

(** ** The bulletins of the claim: variables as the library makes them, in any number and order, with any
    template that is tame (Codec/Checked.v); the definitions that the bulletin made for 206YYY can be used. *)
Definition bulletin_made (b : bulletin) : Prop := Forall (Forall made_var) (b_subsets b).

Lemma write_fields_sure p : forall fs o, Forall (fun f => 1 <= snd f <= 32)%nat fs -> sure (write_fields p fs o) any.
Proof.
  induction fs as [|[v n] fs IH]; intros o F; cbn [write_fields]; [exact I|]. inversion F as [|? ? F1 F2]; subst. cbn [snd] in F1.
  eapply sure_bind; [apply add_bits_sure; right; exact F1|]. intros o1 _. apply IH. exact F2.
Qed.
Ltac widths := repeat constructor; cbn [snd three byte short]; lia.

Lemma sec4_sure p opt T fuel lt b o : hook_safe opt -> entries_ok (tb_b T) -> tame T (b_datadesc b) -> bulletin_made b -> unknown_fine lt ->
  sure (checked_sec4 p opt T fuel lt b o) any.
Proof.
  intros H E Ht M U. unfold checked_sec4. cbv zeta. eapply sure_bind; [apply write_fields_sure; widths|]. intros o1 _.
  eapply sure_bind; [apply subsets_sure; auto|].
  { intros e Ie. unfold entries_ok in E. rewrite Forall_forall in E. destruct (E e Ie) as [_ R _ _ _ _]. exact R. }
  intros [lt' o2] _. eapply sure_bind; [|intros; exact I]. instantiate (1 := any).
  destruct (Nat.odd _); [apply append_byte_sure|exact I].
Qed.

(** The encoder that checks has no undefined behaviour, whatever the variables. *)
Theorem C49_checked_safe : forall p opt T fuel lt b,
  hook_safe opt -> entries_ok (tb_b T) -> tame T (b_datadesc b) -> bulletin_made b -> unknown_fine lt ->
  checked_encode p opt T fuel lt b <> UB.
Proof.
  intros p opt T fuel lt b H E Ht M U. apply (sure_not_ub _ any). unfold checked_encode. cbv zeta.
  eapply sure_bind; [apply append_byte_sure|]. intros o0 _. apply sure_bind with (P := any).
  { destruct (_ || _); [apply write_fields_sure; unfold sec1_ed3; widths|]. destruct (_ =? 4); [apply write_fields_sure; unfold sec1_ed4; widths|exact I]. }
  intros o1 _. apply sure_bind with (P := any).
  { unfold encode_sec2. destruct (b_optional b); [exact I|]. cbv zeta. eapply sure_bind; [apply write_fields_sure; widths|]. intros o2 _.
    destruct (Nat.odd _); [apply append_byte_sure|exact I]. }
  intros o2 _. apply sure_bind with (P := any).
  { unfold encode_sec3. destruct (Nat.eqb _ 0); [exact I|]. destruct (Nat.eqb _ 0); [exact I|]. apply write_fields_sure.
    apply Forall_app. split; [widths|]. apply Forall_app. split; [|widths]. apply Forall_forall. intros f If. apply in_map_iff in If as (c & <- & _). cbn. lia. }
  intros o3 _. eapply sure_bind; [apply sec4_sure; auto|]. intros o4 _. exact I.
Qed.

(** The library gives what the encoder that checks gives, when that does not stop at a check. *)
Lemma encode_agree p opt T fuel lt b : agree (encode p opt T fuel lt b) (checked_encode p opt T fuel lt b).
Proof.
  unfold encode, checked_encode. cbv zeta. do 4 (apply agree_bind; [apply agree_refl|intros ?]).
  apply agree_bind; [|intros; apply agree_refl]. unfold encode_sec4, checked_sec4. cbv zeta. apply agree_bind; [apply agree_refl|]. intros o1.
  apply agree_bind; [apply subsets_agree|]. intros [lt' o2]. apply agree_refl.
Qed.

Theorem C49_same_without_checks : forall p opt T fuel lt b,
  checked_encode p opt T fuel lt b <> Err EAlloc -> checked_encode p opt T fuel lt b <> Err EEof ->
  encode p opt T fuel lt b = checked_encode p opt T fuel lt b.
Proof. intros p opt T fuel lt b N1 N2. destruct (encode_agree p opt T fuel lt b) as [X|[[_ X]|X]]; [exact X|contradiction|contradiction]. Qed.

(** The library has undefined behaviour exactly where the checks stop it, unless there is a bitmap that
    cannot be used (EEof): there it has none before it uses the bitmap. *)
Lemma write_fields_quiet p : forall fs o, quiet (write_fields p fs o).
Proof. induction fs as [|[v n] fs IH]; intros o; cbn [write_fields]; [discriminate|]. apply quiet_bind; [apply add_bits_quiet|]. intros o1. apply IH. Qed.
Lemma encode_quiet p opt T fuel lt b : hook_quiet opt -> quiet (encode p opt T fuel lt b).
Proof.
  intros H. unfold encode. cbv zeta. apply quiet_bind; [apply add_bits_quiet|]. intros o0. apply quiet_bind.
  { destruct (_ || _); [apply write_fields_quiet|]. destruct (_ =? 4); [apply write_fields_quiet|discriminate]. }
  intros o1. apply quiet_bind.
  { unfold encode_sec2. destruct (b_optional b); [discriminate|]. cbv zeta. apply quiet_bind; [apply write_fields_quiet|]. intros o2.
    destruct (Nat.odd _); [apply add_bits_quiet|discriminate]. }
  intros o2. apply quiet_bind.
  { unfold encode_sec3. destruct (Nat.eqb _ 0); [discriminate|]. destruct (Nat.eqb _ 0); [discriminate|]. apply write_fields_quiet. }
  intros o3. apply quiet_bind; [|discriminate]. unfold encode_sec4. cbv zeta. apply quiet_bind; [apply write_fields_quiet|]. intros o4.
  apply quiet_bind; [apply subsets_quiet; exact H|]. intros [lt' o5]. apply quiet_bind; [|discriminate]. destruct (Nat.odd _); [apply add_bits_quiet|discriminate].
Qed.

Theorem C49_exactly : forall p opt T fuel lt b,
  hook_safe opt -> hook_quiet opt -> entries_ok (tb_b T) -> tame T (b_datadesc b) -> bulletin_made b -> unknown_fine lt ->
  checked_encode p opt T fuel lt b <> Err EEof ->
  (encode p opt T fuel lt b = UB <-> checked_encode p opt T fuel lt b = Err EAlloc).
Proof.
  intros p opt T fuel lt b H Q E Ht M U N. pose proof (C49_checked_safe p opt T fuel lt b H E Ht M U) as X.
  pose proof (encode_quiet p opt T fuel lt b Q) as K. pose proof (encode_agree p opt T fuel lt b) as Y.
  revert X K Y N. generalize (encode p opt T fuel lt b) as m, (checked_encode p opt T fuel lt b) as m'. clear.
  intros m m' X K [Y|[[Y Z]|Y]] N; unfold quiet in K; split; congruence.
Qed.

(** Encoding ends: with enough fuel the result does not depend on it, and is not "still running". *)
Lemma write_fields_ended p : forall fs o, ended (write_fields p fs o).
Proof. induction fs as [|[v n] fs IH]; intros o; cbn [write_fields]; [discriminate|]. apply ended_bind; [apply add_bits_ended|]. intros o1 _. apply IH. Qed.

Theorem C49_encoding_ends : forall p opt T ops, options_end opt -> well_founded (within T) ->
  exists N, forall fuel lt b, b_datadesc b = ops -> (N <= fuel)%nat ->
    encode p opt T fuel lt b = encode p opt T N lt b /\ encode p opt T fuel lt b <> Err EFuel.
Proof.
  intros p opt T ops O W. destruct (encoding_ends p opt T ops O W) as (N & E). exists N. intros fuel lt b D L.
  assert (X : forall o, encode_sec4 p opt T fuel lt b o = encode_sec4 p opt T N lt b o /\ ended (encode_sec4 p opt T fuel lt b o)).
  { intros o. unfold encode_sec4. cbv zeta. rewrite D. pose proof (write_fields_ended p [three 0; byte 0] o) as W0.
    destruct (write_fields p [three 0; byte 0] o) as [o1|e|]; cbn [bind]; [|auto|split; [auto|discriminate]].
    destruct (E fuel (b_subsets b) lt o1 L) as [<- En]. split; [reflexivity|].
    apply ended_bind; [exact En|]. intros [lt' o2] _. apply ended_bind; [destruct (Nat.odd _); [apply add_bits_ended|discriminate]|]. discriminate. }
  unfold encode. cbv zeta. split.
  - destruct (append_byte p _ _) as [o0|e|]; cbn [bind]; [|reflexivity|reflexivity]. destruct (if _ || _ then _ else _) as [o1|e|]; cbn [bind]; [|reflexivity|reflexivity].
    destruct (encode_sec2 p b o1) as [o2|e|]; cbn [bind]; [|reflexivity|reflexivity]. destruct (encode_sec3 p b o2) as [o3|e|]; cbn [bind]; [|reflexivity|reflexivity].
    rewrite (proj1 (X o3)). reflexivity.
  - change (ended (o0 <- append_byte p (h_edition (b_header b)) (raw_append [66; 85; 70; 82; 0; 0; 0] out_empty);;
      o1 <- (if (h_edition (b_header b) =? 2) || (h_edition (b_header b) =? 3) then write_fields p (sec1_ed3 b) o0
             else if h_edition (b_header b) =? 4 then write_fields p (sec1_ed4 b) o0 else Err EUnimpl);;
      o2 <- encode_sec2 p b o1;; o3 <- encode_sec3 p b o2;; o4 <- encode_sec4 p opt T fuel lt b o3;;
      Ok (patch (obytes (raw_append [55; 55; 55; 55] o4)) 4 (be3 (u32 (Z.of_nat (length (obytes (raw_append [55; 55; 55; 55] o4))))))))).
    apply ended_bind; [apply add_bits_ended|]. intros o0 _. apply ended_bind.
    { destruct (_ || _); [apply write_fields_ended|]. destruct (_ =? 4); [apply write_fields_ended|discriminate]. }
    intros o1 _. apply ended_bind.
    { unfold encode_sec2. destruct (b_optional b); [discriminate|]. cbv zeta. apply ended_bind; [apply write_fields_ended|]. intros o2 _.
      destruct (Nat.odd _); [apply add_bits_ended|discriminate]. }
    intros o2 _. apply ended_bind.
    { unfold encode_sec3. destruct (Nat.eqb _ 0); [discriminate|]. destruct (Nat.eqb _ 0); [discriminate|]. apply write_fields_ended. }
    intros o3 _. apply ended_bind; [apply X|]. discriminate.
Qed.

(** ** The variables of the claim: all those that keep the invariant of C07 *)
Lemma cell_ok_made c : cell_ok c -> made c.
Proof.
  intros [K V]. split; [|split].
  - intros N. apply (proj1 (info_ok_numeric _ K N)).
  - destruct K as [_ R _ _ _ _]. exact R.
  - destruct (c_val c) as [v|]; [|exact I]. unfold value_ok in V. destruct (vi_type (c_info c)) eqn:Ty; destruct v; try contradiction; try reflexivity.
    + assert (N : is_numeric (vi_type (c_info c)) = true) by (rewrite Ty; reflexivity). destruct (info_ok_numeric _ K N) as (_ & I1 & I2 & _). split; [reflexivity|lia].
    + assert (N : is_numeric (vi_type (c_info c)) = true) by (rewrite Ty; reflexivity). destruct (info_ok_numeric _ K N) as (_ & I1 & I2 & _). split; [reflexivity|lia].
Qed.

Definition madeb (c : cell) : bool :=
  let i := c_info c in
  (negb (is_numeric (vi_type i)) || ((-16 <=? vi_scale i) && (vi_scale i <=? 16))) &&
  ((int_min <=? vi_bit_ref i) && (vi_bit_ref i <=? int_max)) &&
  match c_val c with
  | None => true
  | Some (VInt v) => is_numeric (vi_type i) && ((int_min <=? v) && (v <=? int_max))
  | Some (VStr _) => vartype_eqb (vi_type i) TString
  | Some (VBin _) => vartype_eqb (vi_type i) TBinary
  end.
Definition madeb_all (l : list (list var)) : bool := forallb (forallb (fun v => madeb (v_cell v) && forallb madeb (v_attrs v))) l.
Lemma madeb_made c : madeb c = true -> made c.
Proof.
  unfold madeb, made. cbv zeta. intros H. apply andb_prop in H as [H H3]. apply andb_prop in H as [H1 H2]. split; [|split].
  - intros N. rewrite N in H1. cbn [negb orb] in H1. lia.
  - lia.
  - destruct (c_val c) as [[v|s|b]|]; [|destruct (vi_type (c_info c)); try discriminate; reflexivity|destruct (vi_type (c_info c)); try discriminate; reflexivity|exact I].
    apply andb_prop in H3 as [N R]. split; [exact N|lia].
Qed.
Lemma madeb_all_made l : madeb_all l = true -> Forall (Forall made_var) l.
Proof.
  intros H. apply Forall_forall. intros vs Iv. apply Forall_forall. intros v Ix. unfold madeb_all in H. rewrite forallb_forall in H. specialize (H vs Iv).
  rewrite forallb_forall in H. specialize (H v Ix). apply andb_prop in H as [H1 H2]. split; [apply madeb_made; exact H1|].
  apply Forall_forall. intros a Ia. apply madeb_made. rewrite forallb_forall in H2. auto.
Qed.

Lemma ex_unknown_fine : unknown_fine empty_local.
Proof. constructor. Qed.
Lemma ex_entries_ok : entries_ok (tb_b ex_tables).
Proof. exact (load_bufr_entries _ _ ex_btable_loads). Qed.

(** ** Examples: a bulletin that is sent, and bulletins with variables that do not fit the template. *)
Definition one_subset (ops : list Z) (vars : list var) : bulletin := mkbulletin (ex_header 4 200 0 2026) [] false ops [vars].
Definition written (p : shift_policy) (ops : list Z) (vars : list var) : res (list Z) :=
  encode p (mkopts false false None) ex_tables 100 empty_local (one_subset ops vars).
Definition written_checked (p : shift_policy) (ops : list Z) (vars : list var) : res (list Z) :=
  checked_encode p (mkopts false false None) ex_tables 100 empty_local (one_subset ops vars).

Definition word (s : list Z) : var := mkvar (mkcell (ex_info 1 11) (Some (VStr s))) [].
Example C49_example :
  hook_safe (mkopts false false None) /\ hook_quiet (mkopts false false None) /\ entries_ok (tb_b ex_tables) /\ unknown_fine empty_local /\
  tame ex_tables ex_ops /\ bulletin_made (ex_bulletin 4 40000 2026) /\
  checked_encode X86 (mkopts false false None) ex_tables 100 empty_local (ex_bulletin 4 40000 2026) = Ok (ex_encode 4 40000 2026) /\
  (* a text for a number, a number for a text, too few variables *)
  bulletin_made (one_subset ex_ops [word [65]; num 1 1 5]) /\
  written_checked Strict [wr_var 0 1 1] [word [65]] = Err EType /\
  is_ok (written_checked Strict [wr_var 0 1 11] [num 1 1 5]) = true /\
  written_checked Strict ex_ops [] = Err EConsistency.
Proof.
  split; [exact I|]. split; [exact I|]. split; [exact ex_entries_ok|]. split; [exact ex_unknown_fine|]. split; [apply ex_tame; vm_compute; reflexivity|].
  split; [apply madeb_all_made; vm_compute; reflexivity|]. split; [vm_compute; reflexivity|]. split; [apply madeb_all_made; vm_compute; reflexivity|].
  split; [|split]; vm_compute; reflexivity.
Qed.

(** Each check stops a bulletin that the library does not. *)
Definition undefined (p : shift_policy) (ops : list Z) (vars : list var) : Prop :=
  tame ex_tables ops /\ bulletin_made (one_subset ops vars) /\ written p ops vars = UB /\ written_checked p ops vars = Err EAlloc.
Definition undefined_bitmap (p : shift_policy) (ops : list Z) (vars : list var) : Prop :=
  tame ex_tables ops /\ bulletin_made (one_subset ops vars) /\ written p ops vars = UB /\ written_checked p ops vars = Err EEof.

(** A temperature of 283.15 K, as it is in the table, where 202138 asks for ten more decimal digits: the
    conversion of 283150000000000 to an unsigned int is undefined. *)
Theorem C49_big_number_refuted : forall p, undefined p [wr_var 2 2 138; wr_var 0 12 101] [num 12 101 28315].
Proof.
  intros p. split; [apply ex_tame; vm_compute; reflexivity|]. split; [apply madeb_all_made; vm_compute; reflexivity|].
  destruct p; split; vm_compute; reflexivity.
Qed.

(** A binary value of one byte where there are nine characters to write; a text of one character where there are
    four bytes; a number that is the smallest int where there is a text. *)
Definition byte_info : varinfo := get_ok no_info (set_binary (wr_var 0 63 1) 8).
Definition hertz_info : varinfo := get_ok no_info (set_bufr (wr_var 0 2 121) "Hz" (-8) 10 0 32).
Theorem C49_other_type_refuted : forall p,
  undefined p [wr_var 0 1 11] [mkvar (mkcell byte_info (Some (VBin [65]))) []] /\
  undefined p [wr_var 2 6 32; wr_var 0 63 1] [word [65]] /\
  undefined p [wr_var 0 1 11] [mkvar (mkcell hertz_info (Some (VInt int_min))) []].
Proof.
  intros p. unfold undefined, undefined_bitmap. repeat split; try (apply ex_tame; vm_compute; reflexivity); try (apply madeb_all_made; vm_compute; reflexivity);
    destruct p; vm_compute; reflexivity.
Qed.

(** 203YYY on an element whose reference value is zero, as it is in most of the table. *)
Theorem C49_reference_zero_refuted : forall p, undefined p [wr_var 2 3 10; wr_var 0 1 1; wr_var 2 3 255; wr_var 0 1 1] [num 1 1 5].
Proof.
  intros p. split; [apply ex_tame; vm_compute; reflexivity|]. split; [apply madeb_all_made; vm_compute; reflexivity|].
  destruct p; split; vm_compute; reflexivity.
Qed.

(** A bitmap that marks nothing, and one with fewer characters than it says. *)
Definition marks (n : Z) (s : list Z) : var := mkvar (mkcell (bitmap_info n) (Some (VStr s))) [].
Theorem C49_bitmap_refuted : forall p,
  undefined_bitmap p [wr_var 0 1 1; wr_var 2 22 0; wr_var 1 1 1; wr_var 0 31 31; wr_var 0 33 7] [num 1 1 5; marks 1 [45]] /\
  undefined p [wr_var 0 1 1; wr_var 2 22 0; wr_var 1 1 3; wr_var 0 31 31; wr_var 0 33 7] [num 1 1 5; marks 3 [43]].
Proof.
  intros p. unfold undefined, undefined_bitmap. repeat split; try (apply ex_tame; vm_compute; reflexivity); try (apply madeb_all_made; vm_compute; reflexivity);
    destruct p; vm_compute; reflexivity.
Qed.

(** A text of more than four characters that is not set: a shift by more than 31 bits. *)
Theorem C49_missing_text_refuted : undefined Strict [wr_var 0 1 11] [gone 1 11].
Proof.
  split; [apply ex_tame; vm_compute; reflexivity|]. split; [apply madeb_all_made; vm_compute; reflexivity|]. split; vm_compute; reflexivity.
Qed.

Print Assumptions C49_checked_safe.
Print Assumptions C49_same_without_checks.
Print Assumptions C49_exactly.
Print Assumptions C49_encoding_ends.
Print Assumptions C49_big_number_refuted.
Print Assumptions C49_other_type_refuted.
Print Assumptions C49_reference_zero_refuted.
Print Assumptions C49_bitmap_refuted.
Print Assumptions C49_missing_text_refuted.

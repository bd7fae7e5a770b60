From Coq Require Import ZifyBool ZifyNat.
From Verif Require Import Base Bits.Model Bits.Spec.
Local Open Scope Z_scope.

(** ** Bit lists *)

Lemma bits_of_length n v : length (bits_of n v) = n.
Proof. induction n; simpl; auto. Qed.

Lemma val_of_app_acc l acc :
  fold_left (fun a b => 2 * a + Z.b2z b) l acc = acc * 2 ^ Z.of_nat (length l) + val_of l.
Proof.
  unfold val_of. revert acc.
  induction l as [|b l IH]; intros acc; cbn [fold_left length].
  - rewrite Z.mul_1_r. lia.
  - rewrite IH, (IH (2 * 0 + Z.b2z b)). rewrite Nat2Z.inj_succ, Z.pow_succ_r by lia. ring.
Qed.

Lemma val_of_cons b l : val_of (b :: l) = Z.b2z b * 2 ^ Z.of_nat (length l) + val_of l.
Proof. unfold val_of at 1. cbn [fold_left]. rewrite val_of_app_acc. f_equal. Qed.

Lemma val_of_app l1 l2 : val_of (l1 ++ l2) = val_of l1 * 2 ^ Z.of_nat (length l2) + val_of l2.
Proof. unfold val_of at 1. rewrite fold_left_app. fold (val_of l1). apply val_of_app_acc. Qed.

Lemma val_of_range l : 0 <= val_of l < 2 ^ Z.of_nat (length l).
Proof.
  induction l as [|b l IH].
  - cbv; split; congruence.
  - rewrite val_of_cons. cbn [length]. rewrite Nat2Z.inj_succ, Z.pow_succ_r by lia.
    destruct b; cbn [Z.b2z]; lia.
Qed.

Lemma testbit_mod_step v k : 0 <= k ->
  v mod 2 ^ (k + 1) = Z.b2z (Z.testbit v k) * 2 ^ k + v mod 2 ^ k.
Proof.
  intros Hk. rewrite Z.testbit_spec' by lia.
  rewrite Z.pow_add_r by lia. rewrite Z.pow_1_r.
  rewrite Z.rem_mul_r by lia. lia.
Qed.

Lemma val_of_bits_of n v : val_of (bits_of n v) = v mod 2 ^ Z.of_nat n.
Proof.
  induction n as [|n IH].
  - cbn. rewrite Z.mod_1_r. reflexivity.
  - cbn [bits_of]. rewrite val_of_cons, IH, bits_of_length.
    rewrite Nat2Z.inj_succ, <- Z.add_1_r. symmetry. apply testbit_mod_step. lia.
Qed.

Lemma bits_of_ext n v w :
  (forall k, (k < n)%nat -> Z.testbit v (Z.of_nat k) = Z.testbit w (Z.of_nat k)) ->
  bits_of n v = bits_of n w.
Proof. induction n; intros H; cbn [bits_of]; auto. f_equal; auto. Qed.

Lemma bits_of_mod n m v : (n <= m)%nat -> bits_of n (v mod 2 ^ Z.of_nat m) = bits_of n v.
Proof.
  intros H. apply bits_of_ext. intros k Hk. apply Z.mod_pow2_bits_low. lia.
Qed.

Lemma bits_of_mod_Z n m v : Z.of_nat n <= m -> bits_of n (v mod 2 ^ m) = bits_of n v.
Proof.
  intros H. apply bits_of_ext. intros k Hk. apply Z.mod_pow2_bits_low. lia.
Qed.

Lemma bits_of_u32 n v : (n <= 32)%nat -> bits_of n (u32 v) = bits_of n v.
Proof. intros. unfold u32. apply bits_of_mod_Z. lia. Qed.

Lemma bits_of_app n m v : bits_of (n + m) v = bits_of n (v / 2 ^ Z.of_nat m) ++ bits_of m v.
Proof.
  induction n as [|n IH]; cbn [bits_of Nat.add app]; auto.
  rewrite IH. f_equal. rewrite Z.div_pow2_bits by lia. f_equal. lia.
Qed.

Lemma val_of_testbit l k : (k < length l)%nat ->
  Z.testbit (val_of l) (Z.of_nat k) = nth (length l - 1 - k) l false.
Proof.
  induction l as [|b l IH]; intros Hk; cbn [length] in *; [lia|].
  rewrite val_of_cons. pose proof (val_of_range l) as R.
  destruct (Nat.eq_dec k (length l)) as [->|Hne].
  - replace (S (length l) - 1 - length l)%nat with 0%nat by lia. cbn [nth].
    rewrite Z.testbit_eqb by lia.
    replace ((Z.b2z b * 2 ^ Z.of_nat (length l) + val_of l) / 2 ^ Z.of_nat (length l)) with (Z.b2z b).
    + destruct b; reflexivity.
    + rewrite Z.div_add_l by lia. rewrite Z.div_small by lia. lia.
  - replace (S (length l) - 1 - k)%nat with (S (length l - 1 - k)) by lia. cbn [nth].
    rewrite <- IH by lia.
    rewrite <- (Z.mod_pow2_bits_low (Z.b2z b * _ + _) (Z.of_nat (length l))) by lia.
    rewrite Z.add_comm, Z.mod_add by lia. rewrite Z.mod_small by lia. reflexivity.
Qed.

Lemma bits_of_val_of_n n l : (n <= length l)%nat ->
  bits_of n (val_of l) = skipn (length l - n) l.
Proof.
  induction n as [|n IH]; intros H; cbn [bits_of].
  - rewrite Nat.sub_0_r, skipn_all. reflexivity.
  - rewrite IH by lia. rewrite val_of_testbit by lia.
    replace (length l - n)%nat with (S (length l - S n)) by lia.
    replace (length l - 1 - n)%nat with (length l - S n)%nat by lia.
    assert (Hl : (length l - S n < length l)%nat) by lia.
    generalize dependent (length l - S n)%nat. clear. intros k Hk.
    revert k Hk. induction l as [|b l IHl]; intros k Hk; cbn [length] in *; [lia|].
    destruct k; cbn [nth skipn]; auto. apply IHl. lia.
Qed.

Lemma bits_of_val_of l : bits_of (length l) (val_of l) = l.
Proof. rewrite bits_of_val_of_n by lia. rewrite Nat.sub_diag. reflexivity. Qed.

Lemma bits_of_inj n v w : 0 <= v < 2 ^ Z.of_nat n -> 0 <= w < 2 ^ Z.of_nat n ->
  bits_of n v = bits_of n w -> v = w.
Proof.
  intros Hv Hw H. rewrite <- (Z.mod_small v (2 ^ Z.of_nat n)) by lia.
  rewrite <- (Z.mod_small w (2 ^ Z.of_nat n)) by lia.
  rewrite <- !val_of_bits_of. congruence.
Qed.

Lemma bits_of_bytes_app a b : bits_of_bytes (a ++ b) = bits_of_bytes a ++ bits_of_bytes b.
Proof. apply flat_map_app. Qed.

Lemma bits_of_bytes_length d : length (bits_of_bytes d) = (8 * length d)%nat.
Proof.
  induction d; cbn [bits_of_bytes flat_map length]; auto.
  rewrite app_length, bits_of_length. fold (bits_of_bytes d). lia.
Qed.

(** ** Writer *)

Definition wf_out (o : bufout) : Prop :=
  (oplen o < 8)%nat /\ 0 <= opbyte o < 2 ^ Z.of_nat (oplen o) /\ Forall is_byte (obytes o).

Definition out_bits (o : bufout) : list bool :=
  bits_of_bytes (obytes o) ++ bits_of (oplen o) (opbyte o).

Lemma wf_out_empty : wf_out out_empty.
Proof. repeat split; cbn; auto; lia. Qed.

Lemma flush_pad_spec k : forall x, 0 <= x -> x * 2 ^ Z.of_nat k < 256 ->
  flush_pad k x = x * 2 ^ Z.of_nat k.
Proof.
  induction k as [|k IH]; intros x Hx Hlt; cbn [flush_pad].
  - lia.
  - rewrite Nat2Z.inj_succ, Z.pow_succ_r in * by lia.
    assert (0 < 2 ^ Z.of_nat k) by lia.
    assert (2 * x < 256) by nia.
    unfold u8. rewrite Z.mod_small by lia. rewrite IH by nia. ring.
Qed.

Lemma bits_of_shift_low n k x :
  bits_of (n + k) (x * 2 ^ Z.of_nat k) = bits_of n x ++ repeat false k.
Proof.
  rewrite bits_of_app. rewrite Z.div_mul by lia. f_equal.
  induction k as [|k IH] in x |- *; cbn [bits_of repeat]; auto.
  rewrite Z.mul_pow2_bits_low by lia. f_equal.
  rewrite Nat2Z.inj_succ, Z.pow_succ_r by lia.
  replace (x * (2 * 2 ^ Z.of_nat k)) with ((x * 2) * 2 ^ Z.of_nat k) by ring. apply IH.
Qed.

Lemma flush_spec o : wf_out o ->
  exists k, (k < 8)%nat /\ ((oplen o + k) mod 8 = 0)%nat /\
    bits_of_bytes (obytes (flush o)) = out_bits o ++ repeat false k /\
    opbyte (flush o) = 0 /\ oplen (flush o) = 0%nat /\ Forall is_byte (obytes (flush o)).
Proof.
  intros (Hl & Hp & Hb). unfold flush, out_bits.
  destruct (Nat.eqb_spec (oplen o) 0) as [E|E].
  - exists 0%nat. rewrite E in *. cbn [bits_of repeat]. rewrite !app_nil_r.
    cbn in Hp. repeat split; auto; lia.
  - exists (8 - oplen o)%nat. cbn [obytes opbyte oplen].
    assert (HP : opbyte o * 2 ^ Z.of_nat (8 - oplen o) < 256).
    { replace 256 with (2 ^ Z.of_nat (oplen o) * 2 ^ Z.of_nat (8 - oplen o)).
      - apply Z.mul_lt_mono_pos_r; lia.
      - rewrite <- Z.pow_add_r by lia. replace (_ + _) with 8 by lia. reflexivity. }
    rewrite flush_pad_spec by lia.
    replace (oplen o + (8 - oplen o))%nat with 8%nat by lia.
    split; [lia|]. split; [reflexivity|]. split; [|split; [reflexivity|split; [reflexivity|]]].
    + rewrite bits_of_bytes_app, <- app_assoc. f_equal. cbn [bits_of_bytes flat_map].
      rewrite app_nil_r. rewrite <- bits_of_shift_low.
      replace (oplen o + (8 - oplen o))%nat with 8%nat by lia. reflexivity.
    + apply Forall_app. split; auto. constructor; auto. unfold is_byte. nia.
Qed.

Lemma wf_flush o : wf_out o -> wf_out (flush o).
Proof.
  intros H. destruct (flush_spec o H) as (k & _ & _ & _ & E1 & E2 & E3).
  unfold wf_out. rewrite E1, E2. repeat split; auto; cbn; lia.
Qed.

Lemma lor_double_bit x (b : bool) : 0 <= x -> Z.lor (2 * x) (if b then 1 else 0) = 2 * x + Z.b2z b.
Proof.
  intros Hx. destruct x as [|x|x]; [destruct b; reflexivity| |lia].
  destruct b; cbn; reflexivity.
Qed.

Lemma push_bit_spec b o : wf_out o ->
  out_bits (push_bit b o) = out_bits o ++ [b] /\ wf_out (push_bit b o).
Proof.
  intros (Hl & Hp & Hb).
  assert (HP : 2 ^ Z.of_nat (oplen o) <= 2 ^ 7) by (apply Z.pow_le_mono_r; lia).
  change (2 ^ 7) with 128 in HP.
  assert (E : Z.lor (u8 (2 * opbyte o)) (if b then 1 else 0) = 2 * opbyte o + Z.b2z b).
  { unfold u8. rewrite Z.mod_small by lia. apply lor_double_bit. lia. }
  assert (B : bits_of (S (oplen o)) (2 * opbyte o + Z.b2z b) = bits_of (oplen o) (opbyte o) ++ [b]).
  { replace (S (oplen o)) with (oplen o + 1)%nat by lia. rewrite bits_of_app.
    change (2 ^ Z.of_nat 1) with 2. f_equal.
    - f_equal. rewrite Z.add_comm, Z.mul_comm, Z.div_add by lia. destruct b; reflexivity.
    - cbn [bits_of Z.of_nat]. f_equal. rewrite Z.add_comm.
      destruct b; cbn [Z.b2z]; [|apply Z.testbit_even_0].
      rewrite Z.add_comm. apply Z.testbit_odd_0. }
  unfold push_bit. rewrite E.
  destruct (Nat.eqb_spec (S (oplen o)) 8) as [E8|E8].
  - unfold flush. cbn [oplen]. rewrite E8. cbn [Nat.eqb].
    replace (8 - 8)%nat with 0%nat by lia. cbn [flush_pad obytes opbyte].
    assert (oplen o = 7%nat) by lia.
    rewrite E8 in B. change (2 ^ 7) with 128 in *.
    rewrite H in Hp. change (2 ^ Z.of_nat 7) with 128 in Hp.
    split.
    + unfold out_bits. cbn [obytes opbyte oplen bits_of]. rewrite app_nil_r, bits_of_bytes_app, <- app_assoc.
      f_equal. unfold bits_of_bytes. cbn [flat_map]. rewrite app_nil_r. exact B.
    + repeat split; cbn [obytes opbyte oplen]; try lia.
      apply Forall_app. split; auto. constructor; auto. unfold is_byte. destruct b; cbn [Z.b2z]; lia.
  - split.
    + unfold out_bits. cbn [obytes opbyte oplen]. rewrite B, app_assoc. reflexivity.
    + split; cbn [obytes opbyte oplen]; [lia|]. split; [|exact Hb].
      rewrite Nat2Z.inj_succ, Z.pow_succ_r by lia. destruct b; cbn [Z.b2z]; lia.
Qed.

Lemma land_pow2_eqb v k : 0 <= k -> negb (Z.land v (2 ^ k) =? 0) = Z.testbit v k.
Proof.
  intros Hk. destruct (Z.testbit v k) eqn:E.
  - apply Bool.negb_true_iff, Z.eqb_neq. intros H.
    assert (Z.testbit (Z.land v (2 ^ k)) k = false) by (rewrite H; apply Z.bits_0).
    rewrite Z.land_spec, E, Z.pow2_bits_true in H0 by lia. discriminate.
  - apply Bool.negb_false_iff, Z.eqb_eq. apply Z.bits_inj'. intros n Hn.
    rewrite Z.land_spec, Z.bits_0. destruct (Z.eq_dec n k) as [->|].
    + rewrite E. reflexivity.
    + rewrite Z.pow2_bits_false by lia. apply andb_false_r.
Qed.

(** The bits that the writing loop emits: the masked bit of successive left
    shifts. *)
Lemma add_bits_loop_spec n : forall k v o, 0 <= k < 32 -> wf_out o -> 0 <= v ->
  let o' := add_bits_loop n (2 ^ k) v o in
  out_bits o' = out_bits o ++
    map (fun i => Z.testbit v (k - Z.of_nat i)) (seq 0 n) /\ wf_out o'.
Proof.
  induction n as [|n IH]; intros k v o Hk Hw Hv; cbn [add_bits_loop].
  - cbn. rewrite app_nil_r. auto.
  - rewrite land_pow2_eqb by lia.
    destruct (push_bit_spec (Z.testbit v k) o Hw) as [E W].
    specialize (IH k (u32 (2 * v)) (push_bit (Z.testbit v k) o) Hk W).
    destruct IH as [IH1 IH2]; [unfold u32; apply Z.mod_pos_bound; lia|].
    split; auto. rewrite IH1, E, <- app_assoc. f_equal.
    cbn [seq map app]. rewrite Z.sub_0_r. f_equal.
    rewrite <- seq_shift, map_map. apply map_ext_in. intros i Hi.
    destruct (Z.ltb_spec (k - Z.of_nat i) 0).
    + rewrite !Z.testbit_neg_r by lia. reflexivity.
    + unfold u32. rewrite Z.mod_pow2_bits_low by lia.
      rewrite Z.double_bits. f_equal. lia.
Qed.

Lemma map_testbit_bits_of n v :
  map (fun i => Z.testbit v (Z.of_nat n - 1 - Z.of_nat i)) (seq 0 n) = bits_of n v.
Proof.
  induction n as [|n IH]; cbn [seq map bits_of]; auto.
  f_equal. { f_equal. lia. }
  rewrite <- seq_shift, map_map, <- IH. apply map_ext. intros i. f_equal. lia.
Qed.

Lemma add_bits_spec p v n o : (1 <= n <= 32)%nat -> wf_out o ->
  exists o', add_bits p v n o = Ok o' /\ out_bits o' = out_bits o ++ bits_of n v /\ wf_out o'.
Proof.
  intros Hn Hw. unfold add_bits, shl1.
  replace ((0 <=? Z.of_nat n - 1) && (Z.of_nat n - 1 <? 32)) with true by lia.
  cbn [bind]. eexists. split; [reflexivity|].
  destruct (add_bits_loop_spec n (Z.of_nat n - 1) (u32 v) o) as [E W]; auto; try lia.
  { unfold u32; apply Z.mod_pos_bound; lia. }
  split; auto. rewrite E. f_equal. rewrite map_testbit_bits_of. apply bits_of_u32. lia.
Qed.

Lemma add_bits_strict_ub v n o : (n = 0 \/ 32 < n)%nat -> add_bits Strict v n o = UB.
Proof.
  intros Hn. unfold add_bits, shl1.
  replace ((0 <=? Z.of_nat n - 1) && (Z.of_nat n - 1 <? 32)) with false by lia. reflexivity.
Qed.

(** On x86, a missing value wider than 32 bits is written as a run of ones
    followed by zeros. *)
Lemma append_missing_x86 n o : (32 < n)%nat -> wf_out o ->
  let k := ((n - 1) mod 32 + 1)%nat in
  exists o', append_missing X86 n o = Ok o' /\
    out_bits o' = out_bits o ++ repeat true k ++ repeat false (n - k) /\ wf_out o'.
Proof.
  intros Hn Hw k. unfold append_missing, add_bits, shl1.
  replace ((0 <=? Z.of_nat n - 1) && (Z.of_nat n - 1 <? 32)) with false by lia.
  cbn [bind]. eexists. split; [reflexivity|].
  assert (Hmod : (Z.of_nat n - 1) mod 32 = Z.of_nat ((n - 1) mod 32)).
  { rewrite Nat2Z.inj_mod. f_equal. lia. }
  assert (Hk : ((n - 1) mod 32 < 32)%nat) by (apply Nat.mod_upper_bound; lia).
  assert (Hkn : (k <= n)%nat) by (unfold k; lia).
  rewrite Hmod.
  destruct (add_bits_loop_spec n (Z.of_nat ((n - 1) mod 32)) (u32 (2 ^ 32 - 1)) o) as [E W]; auto; try lia.
  { unfold u32; apply Z.mod_pos_bound; lia. }
  split; auto. rewrite E. f_equal.
  change (u32 (2 ^ 32 - 1)) with (Z.ones 32).
  replace (seq 0 n) with (seq 0 k ++ seq k (n - k)).
  2:{ replace n with (k + (n - k))%nat at 2 by lia. rewrite seq_app. reflexivity. }
  rewrite map_app. f_equal.
  - clear E W Hkn Hmod. assert (k <= S ((n - 1) mod 32))%nat by (unfold k; lia). clearbody k.
    rewrite (map_ext_in _ (fun _ => true)).
    + clear. generalize 0%nat. induction k; intros s; cbn; auto. f_equal. auto.
    + intros i Hi. apply in_seq in Hi. apply Z.ones_spec_low. lia.
  - rewrite (map_ext_in _ (fun _ => false)).
    + generalize k at 1. generalize (n - k)%nat. clear. induction n; intros s; cbn; auto. f_equal. auto.
    + intros i Hi. apply in_seq in Hi. apply Z.testbit_neg_r. unfold k in *. lia.
Qed.

(** ** Reader *)

Definition wf_in (i : input) : Prop :=
  (iplen i < 8)%nat /\ 0 <= ipbyte i < 256 /\ (icur i <= length (idata i))%nat.

(** The bits not read yet. *)
Definition in_bits (i : input) : list bool :=
  firstn (iplen i) (bits_of 8 (ipbyte i)) ++ bits_of_bytes (skipn (icur i) (idata i)).

Lemma bits_of_shl1 n x : (1 <= n)%nat -> bits_of n (2 * x) = skipn 1 (bits_of n x) ++ [false].
Proof.
  intros Hn. destruct n as [|n]; [lia|]. cbn [bits_of skipn].
  clear Hn. replace (Z.testbit (2 * x) (Z.of_nat n) :: bits_of n (2 * x)) with (bits_of (n + 1) (2 * x)).
  - rewrite bits_of_app. change (2 ^ Z.of_nat 1) with 2. f_equal.
    + f_equal. rewrite Z.mul_comm. apply Z.div_mul. lia.
    + cbn [bits_of Z.of_nat]. rewrite Z.testbit_even_0. reflexivity.
  - replace (n + 1)%nat with (S n) by lia. reflexivity.
Qed.

Lemma skipn_cons_nth {A} (l : list A) k x : nth_error l k = Some x -> skipn k l = x :: skipn (S k) l.
Proof.
  revert k. induction l as [|y l IH]; intros [|k] H; cbn in *; try discriminate.
  - congruence.
  - apply IH. auto.
Qed.

Lemma pull_bit_spec i b rest : Forall is_byte (idata i) -> wf_in i -> in_bits i = b :: rest ->
  exists i', pull_bit i = Ok (b, i') /\ in_bits i' = rest /\ wf_in i' /\ idata i' = idata i.
Proof.
  intros HB (Hl & Hp & Hc) Hin. unfold pull_bit.
  destruct (Nat.eqb_spec (iplen i) 0) as [E|E].
  - unfold in_bits in Hin. rewrite E in Hin. cbn [firstn app] in Hin.
    destruct (nth_error (idata i) (icur i)) as [x|] eqn:N.
    2:{ apply nth_error_None in N. rewrite skipn_all2 in Hin by lia. discriminate. }
    unfold read_at. rewrite N. cbn [bind ipbyte idata icur iplen].
    rewrite (skipn_cons_nth _ _ _ N) in Hin. cbn [bits_of_bytes flat_map] in Hin.
    cbn [bits_of app] in Hin. injection Hin as Hb Hr.
    assert (Bx : is_byte x). { rewrite Forall_forall in HB. apply HB. eapply nth_error_In; eauto. }
    unfold is_byte in Bx.
    eexists. split; [f_equal; f_equal|].
    + change 128 with (2 ^ 7). rewrite land_pow2_eqb by lia. exact Hb.
    + split; [|split]; auto.
      * unfold in_bits. cbn [iplen ipbyte icur idata]. rewrite <- Hr.
        unfold u8. rewrite bits_of_mod_Z by lia.
        rewrite bits_of_shl1 by lia. cbn [bits_of skipn app Nat.sub firstn]. reflexivity.
      * unfold wf_in. cbn [iplen ipbyte icur idata].
        assert (icur i < length (idata i))%nat by (apply nth_error_Some; congruence).
        unfold u8. repeat split; try lia; apply Z.mod_pos_bound; lia.
  - cbn [bind]. unfold in_bits in Hin.
    destruct (iplen i) as [|l] eqn:L; [lia|].
    cbn [bits_of firstn app] in Hin. injection Hin as Hb Hr.
    eexists. split; [f_equal; f_equal|].
    + change 128 with (2 ^ 7). rewrite land_pow2_eqb by lia. exact Hb.
    + split; [|split]; auto.
      * unfold in_bits. cbn [iplen ipbyte icur idata]. rewrite <- Hr.
        unfold u8. rewrite bits_of_mod_Z by lia.
        rewrite bits_of_shl1 by lia. cbn [Nat.sub]. rewrite Nat.sub_0_r.
        f_equal. rewrite firstn_app. cbn [bits_of skipn length].
        replace (l - 7)%nat with 0%nat by lia. cbn [firstn]. rewrite app_nil_r. reflexivity.
      * unfold wf_in. cbn [iplen ipbyte icur idata]. unfold u8.
        repeat split; try lia; apply Z.mod_pos_bound; lia.
Qed.

Lemma get_bits_loop_spec bits : forall acc i rest, Forall is_byte (idata i) -> wf_in i ->
  in_bits i = bits ++ rest -> 0 <= acc ->
  exists i', get_bits_loop (length bits) acc i
             = Ok (if Nat.eqb (length bits) 0 then acc
                   else u32 (acc * 2 ^ Z.of_nat (length bits) + val_of bits), i')
             /\ in_bits i' = rest /\ wf_in i' /\ idata i' = idata i.
Proof.
  induction bits as [|b bits IH]; intros acc i rest HB Hw Hin Hacc; cbn [length get_bits_loop].
  - exists i. auto.
  - cbn [app] in Hin. destruct (pull_bit_spec i b (bits ++ rest) HB Hw Hin) as (i1 & E1 & B1 & W1 & D1).
    rewrite E1. cbn [bind].
    rewrite <- D1 in HB.
    assert (Hacc' : 0 <= Z.lor (u32 (2 * acc)) (if b then 1 else 0)).
    { apply Z.lor_nonneg. split; [unfold u32; apply Z.mod_pos_bound; lia|destruct b; lia]. }
    destruct (IH _ i1 rest HB W1 B1 Hacc') as (i' & E & B' & W' & D').
    exists i'. rewrite E. split; [|rewrite D'; auto].
    f_equal. f_equal. cbn [Nat.eqb].
    assert (EL : Z.lor (u32 (2 * acc)) (if b then 1 else 0) = u32 (2 * acc + Z.b2z b)).
    { assert (u32 (2 * acc) = 2 * (acc mod 2 ^ 31)) as ->.
      { unfold u32. change (2 ^ 32) with (2 * 2 ^ 31). rewrite Z.mul_mod_distr_l by lia. reflexivity. }
      rewrite lor_double_bit by (apply Z.mod_pos_bound; lia).
      unfold u32. change (2 ^ 32) with (2 * 2 ^ 31).
      rewrite Z.rem_mul_r by lia.
      replace ((2 * acc + Z.b2z b) mod 2) with (Z.b2z b).
      2:{ rewrite Z.add_comm, Z.mul_comm, Z.mod_add by lia. destruct b; reflexivity. }
      replace ((2 * acc + Z.b2z b) / 2) with acc; [ring|].
      rewrite Z.add_comm, Z.mul_comm, Z.div_add by lia. destruct b; reflexivity. }
    rewrite EL.
    destruct (Nat.eqb_spec (length bits) 0) as [L0|L0].
    + destruct bits; [|discriminate]. rewrite val_of_cons. cbn [length val_of fold_left].
      change (Z.of_nat 1) with 1. rewrite Z.pow_1_r. cbn [Z.of_nat]. f_equal. change (2 ^ 0) with 1. lia.
    + rewrite val_of_cons. unfold u32. rewrite Z.add_mod, Z.mul_mod_idemp_l, <- Z.add_mod by lia.
      f_equal. rewrite Nat2Z.inj_succ, Z.pow_succ_r by lia. ring.
Qed.

Lemma in_bits_avail i : wf_in i -> (8 <= length (in_bits i))%nat -> icur i <> length (idata i).
Proof.
  intros (Hl & _ & _) H E. unfold in_bits in H.
  rewrite E, skipn_all in H. cbn [bits_of_bytes flat_map] in H. rewrite app_nil_r in H.
  rewrite firstn_length in H. lia.
Qed.

Lemma get_bits_spec bits i rest : Forall is_byte (idata i) -> wf_in i ->
  in_bits i = bits ++ rest -> (8 <= length (bits ++ rest))%nat ->
  exists i', get_bits (length bits) i = Ok (u32 (val_of bits), i')
             /\ in_bits i' = rest /\ wf_in i' /\ idata i' = idata i.
Proof.
  intros HB Hw Hin Hlen. unfold get_bits.
  pose proof (in_bits_avail i Hw) as Ha. rewrite Hin in Ha. specialize (Ha Hlen).
  apply Nat.eqb_neq in Ha. rewrite Ha.
  destruct (get_bits_loop_spec bits 0 i rest HB Hw Hin ltac:(lia)) as (i' & E & R).
  exists i'. rewrite E. split; auto.
  destruct bits; cbn [length Nat.eqb]; reflexivity.
Qed.

Lemma get_bits_val n v i rest : Forall is_byte (idata i) -> wf_in i -> (n <= 32)%nat ->
  in_bits i = bits_of n v ++ rest -> (8 <= length (bits_of n v ++ rest))%nat ->
  exists i', get_bits n i = Ok (v mod 2 ^ Z.of_nat n, i')
             /\ in_bits i' = rest /\ wf_in i' /\ idata i' = idata i.
Proof.
  intros HB Hw Hn Hin Hlen.
  destruct (get_bits_spec _ i rest HB Hw Hin Hlen) as (i' & E & R).
  rewrite bits_of_length in E. exists i'. rewrite E. split; auto.
  f_equal. f_equal. rewrite val_of_bits_of. unfold u32. apply Z.mod_small.
  assert (0 <= v mod 2 ^ Z.of_nat n < 2 ^ Z.of_nat n) by (apply Z.mod_pos_bound; lia).
  assert (2 ^ Z.of_nat n <= 2 ^ 32) by (apply Z.pow_le_mono_r; lia). lia.
Qed.

(** ** Sequences of fields *)

Definition widths_ok (fs : list (Z * nat)) : Prop :=
  Forall (fun f => (1 <= snd f <= 32)%nat) fs.

Lemma write_fields_spec p fs : forall o, widths_ok fs -> wf_out o ->
  exists o', write_fields p fs o = Ok o' /\ out_bits o' = out_bits o ++ fields_bits fs /\ wf_out o'.
Proof.
  induction fs as [|(v, n) fs IH]; intros o Hf Hw; cbn [write_fields].
  - exists o. cbn. rewrite app_nil_r. auto.
  - inversion Hf; subst. cbn [snd] in *.
    destruct (add_bits_spec p v n o) as (o1 & E1 & B1 & W1); auto.
    destruct (IH o1) as (o' & E & B & W); auto.
    exists o'. rewrite E1. cbn [bind]. split; auto. split; auto.
    rewrite B, B1, <- app_assoc. reflexivity.
Qed.

Lemma read_fields_spec fs : forall i rest, Forall is_byte (idata i) -> wf_in i -> widths_ok fs ->
  in_bits i = fields_bits fs ++ rest -> (8 <= length rest)%nat ->
  exists i', read_fields (map snd fs) i
             = Ok (map (fun f => fst f mod 2 ^ Z.of_nat (snd f)) fs, i')
             /\ in_bits i' = rest /\ wf_in i' /\ idata i' = idata i.
Proof.
  induction fs as [|(v, n) fs IH]; intros i rest HB Hw Hf Hin Hr; cbn [map read_fields].
  - exists i. auto.
  - inversion Hf; subst. cbn [snd fst] in *.
    cbn [fields_bits flat_map fst snd] in Hin. fold (fields_bits fs) in Hin.
    rewrite <- app_assoc in Hin.
    destruct (get_bits_val n v i (fields_bits fs ++ rest)) as (i1 & E1 & B1 & W1 & D1); auto; try lia.
    { rewrite !app_length. lia. }
    rewrite <- D1 in HB.
    destruct (IH i1 rest HB W1 H2 B1 Hr) as (i' & E & B & W & D).
    exists i'. rewrite E1. cbn [bind]. rewrite E. cbn [bind]. rewrite D. auto.
Qed.

(** ** Exact behaviour of get_bits at the end of the buffer *)

(** Same as [in_bits], counting the string terminator as a readable byte. *)
Definition in_bits_ext (i : input) : list bool :=
  firstn (iplen i) (bits_of 8 (ipbyte i)) ++ bits_of_bytes (skipn (icur i) (idata i ++ [0])).

Definition wf_ext (i : input) : Prop :=
  (iplen i < 8)%nat /\ 0 <= ipbyte i < 256 /\ (icur i <= S (length (idata i)))%nat.

Lemma pull_bit_ext i : Forall is_byte (idata i) -> wf_ext i ->
  match in_bits_ext i with
  | [] => pull_bit i = UB
  | b :: rest => exists i', pull_bit i = Ok (b, i') /\ in_bits_ext i' = rest /\ wf_ext i' /\ idata i' = idata i
  end.
Proof.
  intros HB (Hl & Hp & Hc). unfold pull_bit.
  destruct (Nat.eqb_spec (iplen i) 0) as [E|E].
  - assert (R : read_at (idata i) (icur i) =
                match nth_error (idata i ++ [0]) (icur i) with Some x => Ok x | None => UB end).
    { unfold read_at. destruct (nth_error (idata i) (icur i)) as [x|] eqn:N.
      - rewrite nth_error_app1 by (apply nth_error_Some; congruence). rewrite N. reflexivity.
      - apply nth_error_None in N. rewrite nth_error_app2 by lia.
        destruct (Nat.eqb_spec (icur i) (length (idata i))) as [->|]. { rewrite Nat.sub_diag. reflexivity. }
        replace (icur i - length (idata i))%nat with 1%nat by lia. reflexivity. }
    rewrite R.
    destruct (nth_error (idata i ++ [0]) (icur i)) as [x|] eqn:N.
    2:{ apply nth_error_None in N. unfold in_bits_ext. rewrite E, skipn_all2 by lia. reflexivity. }
    cbn [bind ipbyte idata icur iplen].
    assert (X : in_bits_ext i = Z.testbit x 7 :: skipn 1 (bits_of 8 x) ++ bits_of_bytes (skipn (S (icur i)) (idata i ++ [0]))).
    { unfold in_bits_ext. rewrite E, (skipn_cons_nth _ _ _ N). reflexivity. }
    rewrite X.
    assert (Bx : is_byte x).
    { apply nth_error_In in N. apply in_app_or in N. destruct N as [N|[<-|[]]].
      - rewrite Forall_forall in HB; auto.
      - unfold is_byte; lia. }
    unfold is_byte in Bx.
    eexists. split; [f_equal; f_equal|].
    + change 128 with (2 ^ 7). rewrite land_pow2_eqb by lia. reflexivity.
    + split; [|split]; auto.
      * unfold in_bits_ext. cbn [iplen ipbyte icur idata].
        unfold u8. rewrite bits_of_mod_Z by lia.
        rewrite bits_of_shl1 by lia. reflexivity.
      * unfold wf_ext. cbn [iplen ipbyte icur idata].
        assert (icur i < length (idata i ++ [0%Z]))%nat by (apply nth_error_Some; congruence).
        rewrite app_length in H. cbn [length] in H.
        unfold u8. repeat split; try lia; apply Z.mod_pos_bound; lia.
  - cbn [bind].
    destruct (iplen i) as [|l] eqn:L; [lia|].
    assert (X : in_bits_ext i = Z.testbit (ipbyte i) 7 :: firstn l (skipn 1 (bits_of 8 (ipbyte i))) ++ bits_of_bytes (skipn (icur i) (idata i ++ [0]))).
    { unfold in_bits_ext. rewrite L. reflexivity. }
    rewrite X.
    eexists. split; [f_equal; f_equal|].
    + change 128 with (2 ^ 7). rewrite land_pow2_eqb by lia. reflexivity.
    + split; [|split]; auto.
      * unfold in_bits_ext. cbn [iplen ipbyte icur idata].
        unfold u8. rewrite bits_of_mod_Z by lia.
        rewrite bits_of_shl1 by lia. cbn [Nat.sub]. rewrite Nat.sub_0_r.
        f_equal. rewrite firstn_app. cbn [bits_of skipn length].
        replace (l - 7)%nat with 0%nat by lia. cbn [firstn]. rewrite app_nil_r. reflexivity.
      * unfold wf_ext. cbn [iplen ipbyte icur idata]. unfold u8.
        repeat split; try lia; apply Z.mod_pos_bound; lia.
Qed.

Lemma get_bits_loop_ub n : forall acc i, Forall is_byte (idata i) -> wf_ext i ->
  (get_bits_loop n acc i = UB <-> (length (in_bits_ext i) < n)%nat).
Proof.
  induction n as [|n IH]; intros acc i HB W; cbn [get_bits_loop].
  - split; [discriminate|lia].
  - pose proof (pull_bit_ext i HB W) as P.
    destruct (in_bits_ext i) as [|b rest] eqn:E.
    + rewrite P. cbn. split; auto. lia.
    + destruct P as (i' & Ei & Bi & Wi & Di). rewrite Ei. cbn [bind length].
      rewrite IH; [|rewrite Di; auto|auto]. rewrite Bi. lia.
Qed.

Lemma get_bits_loop_not_err n : forall acc i e, Forall is_byte (idata i) -> wf_ext i ->
  get_bits_loop n acc i <> Err e.
Proof.
  induction n as [|n IH]; intros acc i e HB W; cbn [get_bits_loop]; [discriminate|].
  pose proof (pull_bit_ext i HB W) as P.
  destruct (in_bits_ext i) as [|b rest] eqn:E.
  - rewrite P. discriminate.
  - destruct P as (i' & Ei & Bi & Wi & Di). rewrite Ei. cbn [bind]. apply IH; auto. rewrite Di; auto.
Qed.

Lemma in_bits_ext_length i : wf_in i -> length (in_bits_ext i) = (length (in_bits i) + 8)%nat.
Proof.
  intros (Hl & Hp & Hc). unfold in_bits_ext, in_bits. rewrite !app_length.
  rewrite skipn_app. replace (icur i - length (idata i))%nat with 0%nat by lia.
  cbn [skipn]. rewrite bits_of_bytes_app, app_length. cbn. lia.
Qed.

Lemma wf_in_ext i : wf_in i -> wf_ext i.
Proof. unfold wf_in, wf_ext. lia. Qed.

Lemma get_bits_ub_iff n i : Forall is_byte (idata i) -> wf_in i ->
  (get_bits n i = UB <->
   icur i <> length (idata i) /\ (length (in_bits i) + 8 < n)%nat).
Proof.
  intros HB W. unfold get_bits. destruct (Nat.eqb_spec (icur i) (length (idata i))) as [E|E].
  - split; [discriminate|tauto].
  - rewrite get_bits_loop_ub by (auto using wf_in_ext). rewrite in_bits_ext_length by auto. tauto.
Qed.

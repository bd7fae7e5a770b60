From Coq Require Import ZifyBool ZifyNat.
From Verif Require Import Base Bits.Model Bits.Spec Bits.Proofs.
Local Open Scope Z_scope.
Ltac Zify.zify_post_hook ::= Z.div_mod_to_equations.

Lemma append_byte_spec p c o : wf_out o ->
  exists o', append_byte p c o = Ok o' /\ out_bits o' = out_bits o ++ bits_of 8 c /\ wf_out o'.
Proof.
  intros W. unfold append_byte. destruct (add_bits_spec p (u8 c) 8 o) as (o' & E & B & W'); auto; try lia.
  exists o'. split; auto. split; auto. rewrite B. f_equal. apply bits_of_mod_Z. lia.
Qed.

Lemma append_short_spec p c o : wf_out o ->
  exists o', append_short p c o = Ok o' /\ out_bits o' = out_bits o ++ bits_of 16 c /\ wf_out o'.
Proof.
  intros W. unfold append_short. destruct (add_bits_spec p (u16 c) 16 o) as (o' & E & B & W'); auto; try lia.
  exists o'. split; auto. split; auto. rewrite B. f_equal. apply bits_of_mod_Z. lia.
Qed.

Lemma firstn_repeat {A} (x : A) : forall a b, firstn a (repeat x b) = repeat x (Nat.min a b).
Proof. induction a as [|a IH]; intros [|b]; cbn [firstn repeat Nat.min]; auto. f_equal. auto. Qed.

Lemma pad_field_cons k c s : c <> 0 -> pad_field (S k) (c :: s) = c :: pad_field k s.
Proof.
  intros H. unfold pad_field. cbn [cstr]. apply Z.eqb_neq in H. rewrite H.
  cbn [app firstn]. f_equal. rewrite !firstn_app, !firstn_repeat.
  f_equal. f_equal. lia.
Qed.

Lemma pad_field_nil k : pad_field k [] = repeat 32 k.
Proof. unfold pad_field. cbn [cstr app]. rewrite firstn_repeat. f_equal. lia. Qed.

Lemma cstr_idem s : cstr (cstr s) = cstr s.
Proof.
  induction s as [|c s IH]; cbn [cstr]; auto.
  destruct (c =? 0) eqn:E; cbn [cstr]; auto. rewrite E. f_equal. auto.
Qed.

Lemma pad_field_length k s : length (pad_field k s) = k.
Proof. unfold pad_field. rewrite firstn_length, app_length, repeat_length. lia. Qed.

Lemma append_string_loop_spec p : forall fuel n s o, (n <= fuel)%nat -> wf_out o ->
  exists o', append_string_loop p fuel n s o = Ok o' /\
    out_bits o' = out_bits o ++ bits_of_bytes (pad_field (n / 8) s) ++ repeat false (n mod 8)
    /\ wf_out o'.
Proof.
  induction fuel as [|fuel IH]; intros n s o Hn W; cbn [append_string_loop].
  - replace n with 0%nat by lia. cbn. exists o. rewrite app_nil_r. auto.
  - destruct (Nat.eqb_spec n 0) as [->|E0].
    { exists o. cbn. rewrite app_nil_r. auto. }
    destruct (Nat.leb_spec 8 n) as [L|L].
    + assert (Hd : (n / 8 = S ((n - 8) / 8))%nat) by lia.
      assert (Hm : (n mod 8 = (n - 8) mod 8)%nat) by lia.
      assert (Hblank : forall s', exists o',
        (o1 <- append_byte p 32 o ;; append_string_loop p fuel (n - 8) [] o1) = Ok o' /\
        out_bits o' = out_bits o ++ bits_of_bytes (pad_field (n / 8) []) ++ repeat false (n mod 8) /\ wf_out o'
        /\ s' = s' :> list Z).
      { intros s'. destruct (append_byte_spec p 32 o W) as (o1 & E1 & B1 & W1).
        destruct (IH (n - 8)%nat [] o1) as (o' & E & B & W'); auto; try lia.
        exists o'. rewrite E1. cbn [bind]. split; auto. split; [|split; auto].
        rewrite B, B1, <- !app_assoc. f_equal. rewrite Hd, <- Hm, !pad_field_nil.
        cbn [repeat bits_of_bytes flat_map]. rewrite <- app_assoc. reflexivity. }
      destruct s as [|c s'].
      * destruct (Hblank []) as (o' & E & B & W' & _). exists o'. auto.
      * destruct (Z.eqb_spec c 0) as [->|Ec].
        -- destruct (Hblank []) as (o' & E & B & W' & _). exists o'. split; auto.
        -- destruct (append_byte_spec p c o W) as (o1 & E1 & B1 & W1).
           destruct (IH (n - 8)%nat s' o1) as (o' & E & B & W'); auto; try lia.
           exists o'. rewrite E1. cbn [bind]. split; auto. split; auto.
           rewrite B, B1, <- !app_assoc. f_equal. rewrite Hd, <- Hm, pad_field_cons by auto.
           cbn [bits_of_bytes flat_map]. rewrite <- app_assoc. reflexivity.
    + destruct (add_bits_spec p 0 n o) as (o' & E & B & W'); auto; try lia.
      exists o'. split; auto. split; auto. rewrite B. f_equal.
      rewrite Nat.div_small, Nat.mod_small by lia. cbn [pad_field firstn bits_of_bytes flat_map app].
      clear. induction n; cbn [bits_of repeat]; auto. rewrite Z.bits_0. f_equal. auto.
Qed.

Lemma append_string_spec p s n o : wf_out o ->
  exists o', append_string p s n o = Ok o' /\
    out_bits o' = out_bits o ++ bits_of_bytes (pad_field (n / 8) s) ++ repeat false (n mod 8)
    /\ wf_out o'.
Proof. intros. apply append_string_loop_spec; auto. Qed.

(** Number of 8-bit groups needed for [n] bits. *)
Definition ngroups (n : nat) : nat := ((n + 7) / 8)%nat.

Lemma append_binary_loop_spec p : forall fuel n s o, (n <= fuel)%nat -> wf_out o ->
  (ngroups n <= length s)%nat ->
  exists o', append_binary_loop p fuel n s o = Ok o' /\
    out_bits o' = out_bits o ++ groups_bits n (firstn (ngroups n) s) /\ wf_out o'.
Proof.
  unfold ngroups.
  induction fuel as [|fuel IH]; intros n s o Hn W Hs; cbn [append_binary_loop].
  - replace n with 0%nat by lia. cbn. exists o. rewrite app_nil_r. auto.
  - destruct (Nat.eqb_spec n 0) as [->|E0].
    { exists o. cbn. rewrite app_nil_r. auto. }
    destruct s as [|c s']; [cbn [length] in Hs; lia|]. cbn [length] in Hs.
    destruct (Nat.leb_spec 8 n) as [L|L].
    + destruct (append_byte_spec p c o W) as (o1 & E1 & B1 & W1).
      destruct (IH (n - 8)%nat s' o1) as (o' & E & B & W'); auto; try lia.
      exists o'. rewrite E1. cbn [bind]. split; auto. split; auto.
      rewrite B, B1, <- app_assoc. f_equal.
      replace ((n + 7) / 8)%nat with (S ((n - 8 + 7) / 8)) by lia.
      cbn [firstn groups_bits]. replace (Nat.min 8 n) with 8%nat by lia. reflexivity.
    + destruct (add_bits_spec p c n o) as (o' & E & B & W'); auto; try lia.
      exists o'. split; auto. split; auto. rewrite B. f_equal.
      replace ((n + 7) / 8)%nat with 1%nat by lia.
      cbn [firstn groups_bits]. replace (Nat.min 8 n) with n by lia. rewrite app_nil_r. reflexivity.
Qed.

Lemma append_binary_spec p n s o : wf_out o -> (ngroups n <= length s)%nat ->
  exists o', append_binary p s n o = Ok o' /\
    out_bits o' = out_bits o ++ groups_bits n (firstn (ngroups n) s) /\ wf_out o'.
Proof. intros. apply append_binary_loop_spec; auto. Qed.

(** Reduction of each group to the bits that are really stored. *)
Fixpoint mask_groups (n : nat) (cs : list Z) : list Z :=
  match cs with
  | [] => []
  | c :: cs' => (c mod 2 ^ Z.of_nat (Nat.min 8 n)) :: mask_groups (n - 8) cs'
  end.

Lemma groups_bits_length : forall cs n, length cs = ngroups n -> length (groups_bits n cs) = n.
Proof.
  unfold ngroups. induction cs as [|c cs IH]; intros n H; cbn [length groups_bits] in *.
  - lia.
  - rewrite app_length, bits_of_length, IH by lia. lia.
Qed.

Lemma read_chars_spec : forall fuel n cs i rest, (n <= fuel)%nat -> length cs = ngroups n ->
  Forall is_byte (idata i) -> wf_in i ->
  in_bits i = groups_bits n cs ++ rest -> (8 <= length rest)%nat ->
  exists i', read_chars fuel n i = Ok (mask_groups n cs, i') /\
    in_bits i' = rest /\ wf_in i' /\ idata i' = idata i.
Proof.
  unfold ngroups.
  induction fuel as [|fuel IH]; intros n cs i rest Hn Hl HB W Hin Hr; cbn [read_chars].
  - assert (n = 0)%nat as -> by lia. destruct cs; [|cbn in Hl; lia]. cbn. exists i. auto.
  - destruct (Nat.eqb_spec n 0) as [->|E0].
    { destruct cs; [|cbn in Hl; lia]. exists i. auto. }
    destruct cs as [|c cs]; [cbn [length] in Hl; lia|]. cbn [length groups_bits] in *.
    rewrite <- app_assoc in Hin.
    assert (Hc : (if Nat.ltb 8 n then 8%nat else n) = Nat.min 8 n).
    { destruct (Nat.ltb_spec 8 n); lia. }
    rewrite Hc.
    destruct (get_bits_val (Nat.min 8 n) c i (groups_bits (n - 8) cs ++ rest)) as (i1 & E1 & B1 & W1 & D1);
      auto; try lia. { rewrite !app_length. lia. }
    rewrite E1. cbn [bind]. rewrite <- D1 in HB.
    replace (n - Nat.min 8 n)%nat with (n - 8)%nat by lia.
    destruct (IH (n - 8)%nat cs i1 rest) as (i' & E & B & W' & D'); auto; try lia.
    rewrite E. cbn [bind mask_groups]. exists i'. rewrite D'. auto.
Qed.

Lemma groups_bits_bytes : forall cs n, n = (8 * length cs)%nat -> groups_bits n cs = bits_of_bytes cs.
Proof.
  induction cs as [|c cs IH]; intros n H; cbn [groups_bits bits_of_bytes flat_map length] in *; auto.
  replace (Nat.min 8 n) with 8%nat by lia. rewrite IH by lia. reflexivity.
Qed.

Lemma mask_groups_bytes : forall cs n, n = (8 * length cs)%nat -> Forall is_byte cs ->
  mask_groups n cs = cs.
Proof.
  induction cs as [|c cs IH]; intros n H HF; cbn [mask_groups length] in *; auto.
  inversion HF; subst. unfold is_byte in *.
  replace (Nat.min 8 _) with 8%nat by lia. change (2 ^ Z.of_nat 8) with 256.
  rewrite Z.mod_small by lia. f_equal. apply IH; auto. lia.
Qed.

(** ** Trimming *)

Lemma trim_rev_blanks k : forall r, r <> [] -> trim_rev (repeat 32 k ++ r) = trim_rev r.
Proof.
  induction k as [|k IH]; intros r Hr; cbn [repeat app]; auto.
  cbn [trim_rev]. destruct (repeat 32 k ++ r) eqn:E.
  - apply app_eq_nil in E. destruct E; contradiction.
  - rewrite <- E. cbn [Z.eqb orb c_isspace]. apply IH; auto.
Qed.

Lemma trim_rev_id r : match r with c :: _ :: _ => (c =? 0) || c_isspace c = false | _ => True end ->
  trim_rev r = r.
Proof. destruct r as [|c [|d r]]; intros H; cbn [trim_rev]; auto. rewrite H. auto. Qed.

Lemma rev_repeat {A} (x : A) k : rev (repeat x k) = repeat x k.
Proof.
  induction k; cbn [repeat rev]; auto. rewrite IHk.
  clear. induction k; cbn; auto. f_equal; auto.
Qed.

Definition last_is_blank (s : list Z) : bool :=
  match rev s with [] => false | c :: _ => (c =? 0) || c_isspace c end.

Lemma trim_tail_padded s k : s <> [] -> last_is_blank s = false -> trim_tail (s ++ repeat 32 k) = s.
Proof.
  intros Hs Hl. unfold trim_tail. rewrite rev_app_distr, rev_repeat.
  rewrite trim_rev_blanks.
  - unfold last_is_blank in Hl. rewrite trim_rev_id.
    + apply rev_involutive.
    + destruct (rev s) as [|c [|d r]]; auto.
  - intros E. apply (f_equal (@rev Z)) in E. rewrite rev_involutive in E. auto.
Qed.

Lemma trim_tail_blanks k : trim_tail (repeat 32 (S k)) = [32].
Proof.
  unfold trim_tail. rewrite rev_repeat.
  replace (repeat 32 (S k)) with (repeat 32 k ++ [32]).
  - rewrite trim_rev_blanks by congruence. reflexivity.
  - clear. induction k; cbn; auto. f_equal; auto.
Qed.

(** ** Round trips *)

Definition printable_str (s : list Z) : Prop := Forall (fun c => 1 <= c < 256) s.

Lemma cstr_id s : printable_str s -> cstr s = s.
Proof.
  intros H; induction H as [|c s Hc H IH]; cbn [cstr]; auto.
  destruct (Z.eqb_spec c 0); [lia|]. f_equal; auto.
Qed.

Lemma pad_field_fit k s : printable_str s -> (length s <= k)%nat ->
  pad_field k s = s ++ repeat 32 (k - length s).
Proof.
  intros H Hl. unfold pad_field. rewrite cstr_id by auto.
  rewrite firstn_app, firstn_all2 by lia. rewrite firstn_repeat. f_equal. f_equal. lia.
Qed.

Lemma decode_string_raw_spec n cs i rest : n = (8 * length cs)%nat ->
  Forall is_byte cs -> Forall is_byte (idata i) -> wf_in i ->
  in_bits i = bits_of_bytes cs ++ rest -> (8 <= length rest)%nat ->
  exists i', decode_string_raw n i
    = Ok (if forallb (fun c => (c =? 255) || (c =? 0)) cs then None else Some (trim_tail cs), i')
    /\ in_bits i' = rest /\ wf_in i' /\ idata i' = idata i.
Proof.
  intros Hn Hcs HB W Hin Hr. unfold decode_string_raw.
  assert (length cs = ngroups n) by (unfold ngroups; lia).
  destruct (read_chars_spec n n cs i rest) as (i' & E & B & W' & D); auto.
  { rewrite groups_bits_bytes by auto. auto. }
  rewrite E. cbn [bind]. rewrite mask_groups_bytes by auto.
  exists i'. destruct (forallb _ cs); auto.
Qed.

Lemma decode_binary_raw_spec n cs i rest : length cs = ngroups n ->
  Forall is_byte (idata i) -> wf_in i ->
  in_bits i = groups_bits n cs ++ rest -> (8 <= length rest)%nat ->
  exists i', decode_binary_raw n i
    = Ok (if forallb (fun c => c =? 255) (mask_groups n cs) then None else Some (mask_groups n cs), i')
    /\ in_bits i' = rest /\ wf_in i' /\ idata i' = idata i.
Proof.
  intros Hn HB W Hin Hr. unfold decode_binary_raw.
  destruct (read_chars_spec n n cs i rest) as (i' & E & B & W' & D); auto.
  rewrite E. cbn [bind]. exists i'. destruct (forallb _ _); auto.
Qed.

(** The missing pattern, as written on x86 and (up to 32 bits) everywhere. *)
Lemma bits_of_all_ones n : (n <= 32)%nat -> bits_of n (2 ^ 32 - 1) = repeat true n.
Proof.
  intros Hn. change (2 ^ 32 - 1) with (Z.ones 32).
  induction n; cbn [bits_of repeat]; auto.
  rewrite Z.ones_spec_low by lia. f_equal. apply IHn. lia.
Qed.

Lemma append_missing_spec p n o : (1 <= n <= 32)%nat -> wf_out o ->
  exists o', append_missing p n o = Ok o' /\ out_bits o' = out_bits o ++ repeat true n /\ wf_out o'.
Proof.
  intros Hn W. unfold append_missing.
  destruct (add_bits_spec p (2 ^ 32 - 1) n o) as (o' & E & B & W'); auto.
  exists o'. rewrite bits_of_all_ones in B by lia. auto.
Qed.

Lemma bytes_ones_zeros a b :
  repeat true (8 * a) ++ repeat false (8 * b) = bits_of_bytes (repeat 255 a ++ repeat 0 b).
Proof.
  rewrite bits_of_bytes_app. f_equal.
  - induction a; auto. replace (8 * S a)%nat with (8 + 8 * a)%nat by lia.
    rewrite repeat_app, IHa. cbn [repeat]. reflexivity.
  - induction b; auto. replace (8 * S b)%nat with (8 + 8 * b)%nat by lia.
    rewrite repeat_app, IHb. cbn [repeat]. reflexivity.
Qed.

Lemma append_missing_bytes p k o : (1 <= k)%nat -> (k <= 4 \/ p = X86)%nat -> wf_out o ->
  exists o' a b, append_missing p (8 * k) o = Ok o' /\ (a + b = k)%nat /\ (1 <= a)%nat /\
    out_bits o' = out_bits o ++ bits_of_bytes (repeat 255 a ++ repeat 0 b) /\ wf_out o'.
Proof.
  intros Hk Hp W. destruct (Nat.leb_spec k 4) as [L|L].
  - destruct (append_missing_spec p (8 * k) o) as (o' & E & B & W'); auto; try lia.
    exists o', k, 0%nat. split; auto. split; [lia|]. split; [lia|]. split; auto.
    rewrite B. rewrite <- bytes_ones_zeros. cbn [Nat.mul repeat]. rewrite app_nil_r. reflexivity.
  - destruct Hp as [Hp| ->]; [lia|].
    destruct (append_missing_x86 (8 * k) o) as (o' & E & B & W'); auto; try lia.
    exists o', (((8 * k - 1) mod 32 + 1) / 8)%nat, (k - ((8 * k - 1) mod 32 + 1) / 8)%nat.
    assert (((8 * k - 1) mod 32 + 1) = 8 * (((8 * k - 1) mod 32 + 1) / 8))%nat as H8 by lia.
    split; auto. split; [lia|]. split; [lia|]. split; auto.
    rewrite B. f_equal. rewrite <- bytes_ones_zeros. rewrite <- H8. f_equal. f_equal. lia.
Qed.

(** What decoding a field gives can be written in the field. *)
From Coq Require Import ZArith Lia ZifyBool ZifyNat.
From Flocq Require Import BinarySingleNaN.
From Verif Require Import Base Bits.Model Bits.Spec Bits.Proofs Bits.StringProofs Num.Float Num.FloatProofs
  Varcode.Model Varinfo.Model Varinfo.Proofs Varinfo.RangeProofs Tables.Model Tables.AlterProofs Tables.LoadProofs Var.Model Var.Spec
  Var.Proofs Var.AttrProofs Var.CodecProofs Interp.Model Interp.Sim Codec.Model Codec.Spec Codec.ValueProofs Codec.Proofs Codec.Again.
Local Open Scope Z_scope.

(** ** Reads *)
Lemma bits_loop_range : forall n r i v i' m, (0 <= m) -> 0 <= r < 2 ^ m -> r < 2 ^ 32 -> get_bits_loop n r i = Ok (v, i') ->
  0 <= v < 2 ^ (m + Z.of_nat n) /\ v < 2 ^ 32.
Proof.
  induction n as [|n IH]; intros r i v i' m M R U E; cbn [get_bits_loop] in E.
  - injection E as <- _. rewrite Z.add_0_r. lia.
  - inv_bind E. destruct a as [b i1].
    assert (Q : 0 <= Z.lor (u32 (2 * r)) (if b then 1 else 0) < 2 ^ (m + 1) /\ Z.lor (u32 (2 * r)) (if b then 1 else 0) < 2 ^ 32).
    { assert (E2 : 2 ^ (m + 1) = 2 * 2 ^ m) by (rewrite Z.pow_add_r by lia; lia).
      assert (U2 : 0 <= u32 (2 * r) < 2 ^ 32 /\ u32 (2 * r) <= 2 * r /\ u32 (2 * r) mod 2 = 0).
      { unfold u32. pose proof (Z.mod_pos_bound (2 * r) (2 ^ 32)). split; [lia|]. split; [apply Z.mod_le; lia|].
        change (2 ^ 32) with (2 * 2 ^ 31). rewrite Z.mul_mod_distr_l by lia. rewrite Z.mul_comm. apply Z.mod_mul. lia. }
      assert (L1 : Z.lor (u32 (2 * r)) 1 = u32 (2 * r) + 1).
      { destruct U2 as (_ & _ & U3). rewrite <- Z.lxor_lor; [rewrite <- Z.add_nocarry_lxor; [reflexivity|]|];
          (rewrite Z.land_comm; change 1 with (Z.ones 1); rewrite Z.land_comm, Z.land_ones by lia; exact U3). }
      destruct b; [rewrite L1|rewrite Z.lor_0_r]; split; lia. }
    destruct (IH _ _ _ _ (m + 1) ltac:(lia) (proj1 Q) (proj2 Q) Hk) as [A B].
    replace (m + Z.of_nat (S n)) with (m + 1 + Z.of_nat n) by lia. auto.
Qed.

Lemma get_bits_range n i v i' : get_bits n i = Ok (v, i') -> 0 <= v < 2 ^ Z.of_nat n /\ v < 2 ^ 32.
Proof.
  unfold get_bits. destruct (Nat.eqb _ _); [discriminate|]. intros E. apply (bits_loop_range n 0 i v i' 0); try lia. exact E.
Qed.

Lemma read_chars_range : forall fuel n i cs i', read_chars fuel n i = Ok (cs, i') ->
  Z.of_nat (length cs) = (Z.of_nat n + 7) / 8 /\ Forall (fun c => 0 <= c < 256) cs /\
  (Z.of_nat n mod 8 <> 0 -> last cs 0 < 2 ^ (Z.of_nat n mod 8)).
Proof.
  induction fuel as [|k IH]; intros n i cs i' E; cbn [read_chars] in E.
  - destruct (Nat.eqb_spec n 0) as [->|]; [|discriminate]. injection E as <- _. split; [reflexivity|split; [constructor|]]. intros H. exfalso. apply H. reflexivity.
  - destruct (Nat.eqb_spec n 0) as [->|N]; [injection E as <- _; split; [reflexivity|split; [constructor|]]; intros H; exfalso; apply H; reflexivity|]. cbv zeta in E.
    inv_bind E. destruct a as [c i1]. inv_bind Hk. destruct a as [r i2]. injection Hk0 as <- _. apply get_bits_range in Hb as [B1 B2].
    destruct (Nat.ltb_spec 8 n) as [L|L].
    + destruct (IH _ _ _ _ Hb0) as (A1 & A2 & A3). replace (Z.of_nat (n - 8)) with (Z.of_nat n - 8) in * by lia.
      cbn [length]. split; [lia|]. split; [constructor; [exact B1|exact A2]|].
      replace ((Z.of_nat n - 8) mod 8) with (Z.of_nat n mod 8) in A3 by lia.
      intros H. specialize (A3 H). destruct r as [|y r]; [cbn [length] in A1; lia|]. exact A3.
    + rewrite Nat.sub_diag in Hb0. assert (r = []) as ->.
      { destruct k; cbn in Hb0; injection Hb0 as <- _; reflexivity. }
      cbn [length last]. split; [lia|]. assert (P : 2 ^ Z.of_nat n <= 2 ^ 8) by (apply Z.pow_le_mono_r; lia). change (2 ^ 8) with 256 in P.
      split; [constructor; [lia|constructor]|]. intros H. replace (Z.of_nat n mod 8) with (Z.of_nat n) by lia. lia.
Qed.

(** ** Texts *)
Lemma trim_rev_suffix : forall r, exists a, r = a ++ trim_rev r.
Proof.
  induction r as [|c r IH]; [exists []; reflexivity|]. cbn [trim_rev]. destruct r as [|d r]; [exists []; reflexivity|].
  destruct ((c =? 0) || c_isspace c); [|exists []; reflexivity]. destruct IH as [a E]. exists (c :: a). cbn [app]. f_equal. exact E.
Qed.
Lemma trim_tail_prefix s : exists t, s = trim_tail s ++ t.
Proof.
  unfold trim_tail. destruct (trim_rev_suffix (rev s)) as [a E]. exists (rev a). rewrite <- rev_app_distr, <- E, rev_involutive. reflexivity.
Qed.
Lemma cstr_prefix : forall s, exists t, s = cstr s ++ t.
Proof.
  induction s as [|c s IH]; [exists []; reflexivity|]. cbn [cstr]. destruct (c =? 0); [exists (c :: s); reflexivity|].
  destruct IH as [t E]. exists t. cbn [app]. f_equal. exact E.
Qed.
Lemma cstr_nonzero : forall s, Forall (fun c => c <> 0) (cstr s).
Proof. induction s as [|c s IH]; cbn [cstr]; [constructor|]. destruct (Z.eqb_spec c 0); constructor; auto. Qed.
Lemma firstn_prefix {A} n (s : list A) : exists t, s = firstn n s ++ t.
Proof. exists (skipn n s). rewrite firstn_skipn. reflexivity. Qed.

Lemma zlist_eqb_refl : forall s, zlist_eqb s s = true.
Proof. induction s as [|c s IH]; cbn; [reflexivity|]. rewrite Z.eqb_refl. exact IH. Qed.

(** ** Fields *)
Section Value.
Context (o : options) (HO : strict_options o) (p : shift_policy).

Lemma number_again i inp c inp' : info_ok i -> is_numeric (vi_type i) = true ->
  1 <= vi_bit_len i <= 32 -> vi_bit_ref i + 2 ^ vi_bit_len i <= 2 ^ 31 -> decode_number o i inp = Ok (c, inp') ->
  c_info c = i /\ match c_val c with None => no_missing (vi_code i) = false | Some (VInt k) => number_fits i k = true | Some _ => False end.
Proof.
  intros K N B Rm E. unfold decode_number in E. inv_bind E. destruct a as [v i1]. apply get_bits_range in Hb as [V1 V2].
  unfold bit_len_nat in V1. rewrite Z2Nat.id in V1 by lia.
  assert (Ao : all_ones (bit_len_nat i) = Ok (2 ^ vi_bit_len i - 1)).
  { unfold all_ones, bit_len_nat. replace (Nat.leb 1 (Z.to_nat (vi_bit_len i)) && Nat.leb (Z.to_nat (vi_bit_len i)) 32)%bool with true by lia.
    rewrite Z2Nat.id by lia. reflexivity. }
  rewrite Ao in Hk. cbn [bind] in Hk. inv_bind Hk. destruct a.
  - injection Hk0 as <- _. cbn [fresh c_info c_val]. split; [reflexivity|]. destruct (no_missing (vi_code i)); [discriminate Hb|reflexivity].
  - destruct (info_ok_numeric _ K N) as (Hs & _). pose proof K as [_ Kr _ _ _ _].
    destruct (decode_binary_ok i v) as (d & D1 & D2 & D3); auto; try lia. rewrite D1 in Hk0. cbn [bind] in Hk0.
    assert (Ik : int_min <= v + vi_bit_ref i <= int_max) by (unfold int_min, int_max in *; lia).
    destruct HO as (Os & Oc & Oh).
    destruct (Z_le_dec (vi_imin i) (v + vi_bit_ref i)) as [L1|L1]; [destruct (Z_le_dec (v + vi_bit_ref i) (vi_imax i)) as [L2|L2]|].
    2,3: rewrite (setd_scaled_refused o (fresh i) (v + vi_bit_ref i) d) in Hk0 by (auto; cbn [fresh c_info]; auto; lia);
         rewrite Os in Hk0; discriminate Hk0.
    rewrite (setd_scaled o (fresh i) (v + vi_bit_ref i) d) in Hk0 by (auto; cbn [fresh c_info]; auto). cbn [of_outcome bind] in Hk0.
    injection Hk0 as <- _. cbn. split; [reflexivity|]. unfold number_fits.
    destruct (no_missing (vi_code i)); [|injection Hb as Hb]; lia.
Qed.

Lemma text_again i s cs : info_ok i -> 8 <= vi_bit_len i -> vi_bit_len i mod 8 = 0 ->
  s = firstn (ilen i) (cstr (trim_tail cs)) -> Z.of_nat (length cs) = (Z.of_nat (bit_len_nat i) + 7) / 8 ->
  Forall (fun c => 0 <= c < 256) cs -> forallb (fun c => (c =? 255) || (c =? 0)) cs = false ->
  s <> [] -> last_is_blank s = false \/ s = [32] -> text_fits i s = true.
Proof.
  intros K B1 B2 Es Lc Fc Nm Ne Nb. unfold bit_len_nat in Lc. rewrite Z2Nat.id in Lc by lia.
  destruct (trim_tail_prefix cs) as [t1 E1]. destruct (cstr_prefix (trim_tail cs)) as [t2 E2]. destruct (firstn_prefix (ilen i) (cstr (trim_tail cs))) as [t3 E3].
  assert (E : exists t, cs = s ++ t). { exists (t3 ++ t2 ++ t1). rewrite E1 at 1. rewrite E2 at 1. rewrite E3 at 1. rewrite <- Es, !app_assoc. reflexivity. }
  destruct E as [t E]. assert (Ls : (length s <= ilen i)%nat) by (rewrite Es, firstn_length; lia).
  unfold ilen in Ls. pose proof K as [_ _ _ Kl _ _].
  assert (Nz : Forall (fun c => c <> 0) s) by (rewrite Es; apply Forall_firstn, cstr_nonzero).
  assert (Fs : Forall (fun c => 0 <= c < 256) s) by (rewrite E in Fc; apply Forall_app in Fc as [Fc _]; exact Fc).
  assert (L0 : (1 <= length s)%nat) by (destruct s; [contradiction|cbn; lia]).
  assert (Lst : (length s + length t)%nat = length cs) by (rewrite E, app_length; reflexivity).
  assert (Q1 : forallb (fun ch => (1 <=? ch) && (ch <? 256)) s = true).
  { apply forallb_forall. rewrite Forall_forall in Nz, Fs. intros c Ic. specialize (Nz c Ic). specialize (Fs c Ic). cbv beta in Nz, Fs. lia. }
  assert (Q2 : (negb (last_is_blank s) || zlist_eqb s [32])%bool = true).
  { destruct Nb as [->| ->]; [reflexivity|]. apply orb_true_r. }
  assert (Q3 : negb ((8 * Z.of_nat (length s) =? vi_bit_len i) && forallb (Z.eqb 255) s) = true).
  { destruct (Z.eqb_spec (8 * Z.of_nat (length s)) (vi_bit_len i)) as [Eb|Eb]; [|reflexivity]. cbn [andb].
    assert (t = []) as -> by (destruct t; [reflexivity|cbn [length] in Lst; lia]). rewrite app_nil_r in E. subst cs.
    destruct (forallb (Z.eqb 255) s) eqn:A; [|reflexivity]. exfalso.
    assert (X : forallb (fun c => (c =? 255) || (c =? 0)) s = true); [|congruence].
    rewrite forallb_forall in *. intros c Ic. specialize (A c Ic). lia. }
  unfold text_fits. rewrite Q1, Q2, Q3. replace (1 <=? Z.of_nat (length s)) with true by lia. replace (Z.of_nat (length s) <=? vi_len i) with true by lia.
  replace (8 * Z.of_nat (length s) <=? vi_bit_len i) with true by lia. reflexivity.
Qed.

Lemma mask_last_same i b : (vi_bit_len i mod 8 <> 0 -> last b 0 < 2 ^ (vi_bit_len i mod 8)) -> Forall (fun c => 0 <= c < 256) b -> mask_last i b = b.
Proof.
  intros H F. unfold mask_last. destruct (Z.eqb_spec (vi_bit_len i mod 8) 0) as [E|E]; [reflexivity|]. specialize (H E).
  destruct (rev b) as [|x r] eqn:Eb; [destruct b; [reflexivity|apply (f_equal (@length Z)) in Eb; rewrite rev_length in Eb; discriminate]|].
  assert (Eb' : b = rev r ++ [x]) by (rewrite <- (rev_involutive b), Eb; reflexivity). rewrite Eb' in H, F. rewrite last_last in H.
  apply Forall_app in F as [_ F]. inversion F as [|? ? Fx _]; subst.
  cbn [rev]. f_equal. f_equal. pose proof (Z.mod_pos_bound (vi_bit_len i) 8).
  replace (2 ^ (vi_bit_len i mod 8) - 1) with (Z.ones (vi_bit_len i mod 8)) by (rewrite Z.ones_equiv; lia).
  rewrite Z.land_ones by lia. apply Z.mod_small. lia.
Qed.

Lemma value_again i inp c inp' : info_ok i -> roomy i -> decode_value o i inp = Ok (c, inp') -> neat p i (c_val c) ->
  c_info c = i /\ field_ok p i (c_val c) = true.
Proof.
  intros K R E N. unfold decode_value in E. unfold roomy in R. unfold neat in N. unfold field_ok. destruct (vi_type i) eqn:T.
  - destruct R as [R1 R2]. destruct (number_again i inp c inp' K ltac:(rewrite T; reflexivity) R1 R2 E) as [A B]. split; [exact A|].
    replace (1 <=? vi_bit_len i) with true by lia. replace (vi_bit_len i <=? 32) with true by lia. cbn [andb].
    destruct (c_val c) as [[k|s|b]|]; try contradiction; [exact B|rewrite B; reflexivity].
  - destruct R as [R1 R2]. destruct (number_again i inp c inp' K ltac:(rewrite T; reflexivity) R1 R2 E) as [A B]. split; [exact A|].
    replace (1 <=? vi_bit_len i) with true by lia. replace (vi_bit_len i <=? 32) with true by lia. cbn [andb].
    destruct (c_val c) as [[k|s|b]|]; try contradiction; [exact B|rewrite B; reflexivity].
  - destruct R as [R1 R2]. replace (8 <=? vi_bit_len i) with true by lia. replace (vi_bit_len i mod 8 =? 0) with true by lia. cbn [andb].
    inv_bind E. destruct a as [r i1]. unfold decode_string_raw in Hb. inv_bind Hb. destruct a as [cs i2].
    apply read_chars_range in Hb0 as (Lc & Fc & _). destruct (forallb (fun c => (c =? 255) || (c =? 0)) cs) eqn:Nm.
    + injection Hk0 as <- <-. injection Hk as <- _. cbn. cbn [fresh c_val] in N. split; [reflexivity|].
      destruct N as [N| ->]; [replace (vi_bit_len i <=? 32) with true by lia; reflexivity|apply orb_true_r].
    + injection Hk0 as <- <-. rewrite setc_string in Hk by exact T. cbn [of_outcome bind] in Hk. injection Hk as <- _. cbn in *.
      split; [reflexivity|]. destruct N as [N1 N2]. eapply text_again; eauto.
  - destruct R as [R1 R2]. inv_bind E. destruct a as [r i1]. unfold decode_binary_raw in Hb. inv_bind Hb. destruct a as [cs i2].
    apply read_chars_range in Hb0 as (Lc & Fc & Lm). unfold bit_len_nat in Lc, Lm. rewrite Z2Nat.id in Lc, Lm by lia.
    replace (1 <=? vi_bit_len i) with true by lia. replace (vi_len i =? (vi_bit_len i + 7) / 8) with true by lia. cbn [andb].
    destruct (forallb (fun c => c =? 255) cs) eqn:Nm.
    + injection Hk0 as <- <-. injection Hk as <- _. cbn. cbn [fresh c_val] in N. split; [reflexivity|]. lia.
    + injection Hk0 as <- <-. unfold setc in Hk. cbn [fresh c_info] in Hk. rewrite T in Hk. unfold assign_b_checked in Hk. cbn [fresh c_info] in Hk.
      rewrite Nat.ltb_irrefl in Hk. unfold ilen in Hk. rewrite R2 in Hk.
      replace (Nat.ltb (length cs) (Z.to_nat ((vi_bit_len i + 7) / 8))) with false in Hk by lia.
      replace (Nat.eqb (Z.to_nat ((vi_bit_len i + 7) / 8)) 0) with false in Hk by lia. rewrite andb_false_r in Hk. cbn [of_outcome bind] in Hk.
      rewrite firstn_all2 in Hk by lia. rewrite mask_last_same in Hk by auto. injection Hk as <- _. cbn. split; [reflexivity|].
      unfold binary_fits. replace (Z.of_nat (length cs) =? vi_len i) with true by lia.
      assert (Q : forallb (fun ch => (0 <=? ch) && (ch <? 256)) cs = true).
      { apply forallb_forall. rewrite Forall_forall in Fc. intros c Ic. specialize (Fc c Ic). cbv beta in Fc. lia. }
      rewrite Q. cbn [andb].
      replace ((vi_bit_len i mod 8 =? 0) || (last cs 0 <? 2 ^ (vi_bit_len i mod 8)))%bool with true.
      2:{ destruct (Z.eqb_spec (vi_bit_len i mod 8) 0) as [Em|Em]; [reflexivity|]. specialize (Lm Em). lia. }
      cbn [andb]. replace (forallb (Z.eqb 255) cs) with false; [reflexivity|]. symmetry.
      destruct (forallb (Z.eqb 255) cs) eqn:A; [|reflexivity]. exfalso. assert (X : forallb (fun c => c =? 255) cs = true); [|congruence].
      rewrite forallb_forall in *. intros c Ic. specialize (A c Ic). lia.
Qed.
End Value.

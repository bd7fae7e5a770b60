(** CREX values. *)
From Coq Require Import ZifyBool ZifyNat.
From Verif Require Import Base Bits.Spec Bits.StringProofs Num.Float Varcode.Model Varinfo.Model Tables.Model Var.Model
  Var.CodecProofs Interp.Model Codec.Model Codec.Spec Codec.ColumnProofs Crex.Model Crex.Spec.
Local Open Scope Z_scope.

Lemma raw_appendf_short s c : (length s <= 254)%nat -> raw_appendf s c = Ok (raw_append s c).
Proof. intros L. unfold raw_appendf. replace (Nat.ltb 255 (length s)) with false by lia. replace (Nat.eqb (length s) 255) with false by lia. reflexivity. Qed.

(** ** Numbers *)
Definition dval (acc : Z) (s : list Z) : Z := fold_left (fun a c => a * 10 + (c - 48)) s acc.
Definition digit (c : Z) : Prop := 48 <= c <= 57.
Definition ends_number (rest : list Z) : Prop := match rest with c :: _ => c_isdigit c = false | [] => True end.

Lemma digit_is c : digit c <-> c_isdigit c = true.
Proof. unfold digit, c_isdigit. lia. Qed.

Lemma scan_digits_app s rest : Forall digit s -> ends_number rest -> forall acc,
  scan_digits acc (s ++ rest) = (dval acc s, rest).
Proof.
  intros F E. induction F as [|c s Hc F IH]; intros acc.
  - cbn [app dval fold_left]. destruct rest as [|c r]; cbn [scan_digits]; [reflexivity|]. cbn in E. rewrite E. reflexivity.
  - cbn [app scan_digits]. apply digit_is in Hc. rewrite Hc. rewrite IH. reflexivity.
Qed.

Lemma decimal_acc_dval fuel : forall n l, 0 <= n < 10 ^ Z.of_nat fuel -> dval 0 (decimal_acc fuel n l) = dval n l.
Proof.
  induction fuel as [|k IH]; intros n l H; cbn [decimal_acc].
  - change (10 ^ Z.of_nat 0) with 1 in H. replace n with 0 by lia. reflexivity.
  - destruct (Z.ltb_spec n 10).
    + unfold dval; cbn [fold_left]; f_equal; lia.
    + rewrite Nat2Z.inj_succ, Z.pow_succ_r in H by lia. rewrite IH.
      * unfold dval; cbn [fold_left]; f_equal; pose proof (Z.div_mod n 10). lia.
      * split; [apply Z.div_pos; lia|]. apply Z.div_lt_upper_bound; lia.
Qed.

Lemma decimal_acc_digits fuel : forall n l, 0 <= n -> Forall digit l -> Forall digit (decimal_acc fuel n l).
Proof.
  induction fuel as [|k IH]; intros n l H F; cbn [decimal_acc]; [exact F|].
  destruct (Z.ltb_spec n 10).
  - constructor; [unfold digit; lia|exact F].
  - apply IH; [apply Z.div_pos; lia|]. constructor; [|exact F]. pose proof (Z.mod_pos_bound n 10). unfold digit. lia.
Qed.

Lemma decimal_acc_length fuel : forall n l w, 0 <= n < 10 ^ Z.of_nat w -> (1 <= w)%nat ->
  (length (decimal_acc fuel n l) <= w + length l)%nat.
Proof.
  induction fuel as [|k IH]; intros n l w H W; cbn [decimal_acc]; [lia|].
  destruct (Z.ltb_spec n 10); [cbn [length]; lia|].
  destruct w as [|[|w]]; [lia|change (10 ^ Z.of_nat 1) with 10 in H; lia|].
  rewrite Nat2Z.inj_succ, Z.pow_succ_r in H by lia.
  specialize (IH (n / 10) (48 + n mod 10 :: l) (S w)). cbn [length] in IH.
  assert (0 <= n / 10 < 10 ^ Z.of_nat (S w)) by (split; [apply Z.div_pos; lia|apply Z.div_lt_upper_bound; lia]).
  lia.
Qed.

Lemma decimal_acc_nonempty fuel n l : l <> [] \/ (1 <= fuel)%nat -> decimal_acc fuel n l <> [].
Proof.
  revert n l. induction fuel as [|k IH]; intros n l H; cbn [decimal_acc]; [destruct H; [auto|lia]|].
  destruct (n <? 10); [discriminate|]. apply IH. left. discriminate.
Qed.

Lemma dval_zeros k s : dval 0 (repeat 48 k ++ s) = dval 0 s.
Proof. induction k as [|k IH]; [reflexivity|]. cbn [repeat app dval fold_left]. exact IH. Qed.

Lemma zeros_digits w s : Forall digit s -> Forall digit (zeros w s).
Proof. intros F. unfold zeros. apply Forall_app. split; [|exact F]. apply Forall_forall. intros x Hx. apply repeat_spec in Hx. subst. unfold digit. lia. Qed.

(** Numbers written with leading zeros. *)
Lemma number_text w n : 0 <= n < 10 ^ Z.of_nat w -> n < 10 ^ 20 -> (1 <= w)%nat ->
  let t := zeros w (decimal n) in
  Forall digit t /\ dval 0 t = n /\ length t = w /\ t <> [].
Proof.
  intros H H20 W. cbv zeta. unfold decimal.
  assert (D : Forall digit (decimal_acc 20 n [])) by (apply decimal_acc_digits; [lia|constructor]).
  assert (L := decimal_acc_length 20 n [] w H W). cbn [length] in L.
  assert (Lz : length (zeros w (decimal_acc 20 n [])) = w) by (unfold zeros; rewrite app_length, repeat_length; lia).
  split; [apply zeros_digits; exact D|]. split.
  - unfold zeros. rewrite dval_zeros. rewrite decimal_acc_dval by (change (Z.of_nat 20) with 20; lia). reflexivity.
  - split; [exact Lz|]. intros E. rewrite E in Lz. cbn in Lz. lia.
Qed.

Lemma digit_not_space c : digit c -> c_isspace c = false.
Proof. unfold digit, c_isspace. lia. Qed.

Lemma strtol_number s rest : Forall digit s -> s <> [] -> ends_number rest -> dval 0 s < 2 ^ 63 ->
  c_strtol (s ++ rest) = dval 0 s.
Proof.
  intros F N E H. destruct s as [|c s]; [contradiction|]. unfold c_strtol. cbn [app skip_space].
  assert (Hc : digit c) by (inversion F; auto). rewrite digit_not_space by exact Hc.
  unfold digit in Hc. replace (c =? 45) with false by lia. replace (c =? 43) with false by lia.
  change (c :: s ++ rest) with ((c :: s) ++ rest). rewrite scan_digits_app by auto. cbn [fst]. lia.
Qed.

Lemma strtol_negative s rest : Forall digit s -> ends_number rest -> dval 0 s < 2 ^ 63 ->
  c_strtol (45 :: s ++ rest) = - dval 0 s.
Proof.
  intros F E H. unfold c_strtol. cbn [skip_space]. change (c_isspace 45) with false. cbv iota.
  change (45 =? 45) with true. cbv iota. rewrite scan_digits_app by auto. cbn [fst]. lia.
Qed.

(** ** Spaces *)
Lemma skip_space_idem s : skip_space (skip_space s) = skip_space s.
Proof. induction s as [|c s IH]; cbn [skip_space]; [reflexivity|]. destruct (c_isspace c) eqn:E; [exact IH|]. cbn [skip_space]. rewrite E. reflexivity. Qed.

Lemma skip_space_blank k s : skip_space (repeat 32 k ++ s) = skip_space s.
Proof. induction k as [|k IH]; [reflexivity|]. cbn [repeat app skip_space]. exact IH. Qed.

Lemma trim_blank k : trim (repeat 32 k) = [].
Proof. induction k as [|k IH]; [reflexivity|]. cbn [repeat trim]. rewrite IH. reflexivity. Qed.

Lemma trim_padded s k : no_space_at_end s = true -> trim (s ++ repeat 32 k) = s.
Proof.
  induction s as [|c s IH]; intros N; [apply trim_blank|]. cbn [app trim].
  destruct s as [|d s].
  - cbn [app]. rewrite trim_blank. unfold no_space_at_end in N. cbn [last] in N. destruct (c_isspace c); [discriminate|reflexivity].
  - rewrite IH; [reflexivity|]. exact N.
Qed.

(** ** One value *)

(** The text of a value and the next check digit. *)
Definition body (i : varinfo) (v : value) : list Z :=
  match v with
  | VInt k => fmt_0d (if k <? 0 then S (ilen i) else ilen i) k
  | VStr s => s ++ repeat 32 (ilen i - length s)
  | VBin _ => []
  end.
Definition token (check : bool) (e : Z) (i : varinfo) (v : option value) : list Z :=
  match v with
  | None => repeat 47 (ilen i)
  | Some x => 32 :: (if check then [48 + e] else []) ++ body i x
  end.
Definition next_digit (check : bool) (e : Z) (v : option value) : Z :=
  if check && match v with Some _ => true | None => false end then (e + 1) mod 10 else e.

(** What may follow a value. *)
Definition follows (rest : list Z) : Prop := (2 <= length rest)%nat /\ ends_number rest.

(** The number returned by read_variable. *)
Definition count_of (v : option value) : Z := match v with Some (VInt k) => u32 k | _ => 4294967295 end.

Lemma fmt_0d_number i k : 1 <= vi_len i -> Z.abs k < 10 ^ vi_len i -> in_int k = true ->
  exists t, fmt_0d (if k <? 0 then S (ilen i) else ilen i) k = (if k <? 0 then [45] else []) ++ t /\
    Forall digit t /\ dval 0 t = Z.abs k /\ length t = ilen i /\ t <> [].
Proof.
  intros L H I. unfold in_int, int_min, int_max in I. assert (2 ^ 31 < 10 ^ 20) by reflexivity.
  assert (W : Z.of_nat (ilen i) = vi_len i) by (unfold ilen; lia).
  destruct (number_text (ilen i) (Z.abs k)) as (D & V & Lt & N); [rewrite W; lia|lia|lia|].
  exists (zeros (ilen i) (decimal (Z.abs k))). unfold fmt_0d. destruct (Z.ltb_spec k 0).
  - replace (- k) with (Z.abs k) by lia. cbn [Nat.sub]. rewrite Nat.sub_0_r. auto.
  - replace (Z.abs k) with k in * by lia. auto.
Qed.

Lemma body_length check i v : crex_fits check i (Some v) = true -> (ilen i <= length (body i v) <= S (ilen i))%nat.
Proof.
  unfold crex_fits. intros F. rewrite !andb_true_iff in F. destruct F as ((L1 & L2) & F).
  destruct v as [k|s|b]; destruct (vi_type i); try discriminate; cbn [body].
  1,2: unfold crex_number in F; rewrite !andb_true_iff in F; destruct F as (((A & B) & I) & P);
       destruct (fmt_0d_number i k ltac:(lia) ltac:(lia) I) as (t & -> & _ & _ & Lt & _);
       rewrite app_length, Lt; destruct (k <? 0); cbn [length]; lia.
  unfold crex_text in F. rewrite !andb_true_iff in F. destruct F as ((((A & B) & C) & D) & E).
  rewrite app_length, repeat_length. unfold ilen. lia.
Qed.

Lemma append_var_token check i v c : crex_fits check i v = true -> co_check c = check ->
  append_var i (mkcell i v) c =
  Ok (mkcout (co_text c ++ token check (co_expected c) i v) check (next_digit check (co_expected c) v)).
Proof.
  intros F Hc. destruct c as [text ck e]. cbn [co_check co_text co_expected] in *. subst ck.
  unfold append_var, isset. cbn [c_val]. destruct v as [x|].
  - cbn [negb token next_digit].
    assert (B := body_length check i x F). unfold crex_fits in F. rewrite !andb_true_iff in F. destruct F as ((L1 & L2) & F).
    assert (C1 : encode_check_digit (raw_append [32] (mkcout text check e)) =
                 mkcout (text ++ 32 :: (if check then [48 + e] else [])) check (next_digit check e (Some x))).
    { unfold encode_check_digit, raw_append, next_digit. cbn [co_check co_text co_expected].
      destruct check; cbn [andb]; [rewrite <- app_assoc|]; reflexivity. }
    rewrite C1.
    assert (A : raw_appendf (body i x) (mkcout (text ++ 32 :: (if check then [48 + e] else [])) check (next_digit check e (Some x))) =
      Ok (mkcout (text ++ 32 :: (if check then [48 + e] else []) ++ body i x) check (next_digit check e (Some x)))).
    { rewrite raw_appendf_short by (unfold ilen in B; lia).
      unfold raw_append. cbn [co_check co_text co_expected]. rewrite <- app_assoc. reflexivity. }
    destruct x as [k|s|b]; destruct (vi_type i) eqn:Et; try discriminate.
    + unfold enqi. cbn [c_val c_info]. rewrite Et. cbn [bind]. exact A.
    + unfold enqi. cbn [c_val c_info]. rewrite Et. cbn [bind]. exact A.
    + unfold enqc. cbn [c_val c_info]. rewrite Et. cbn [bind]. unfold fmt_s.
      rewrite existsb_app. cbn [existsb]. rewrite Z.eqb_refl, orb_true_r. cbn [negb andb bind].
      unfold crex_text in F. rewrite !andb_true_iff in F. destruct F as ((((F1 & F2) & _) & _) & _).
      assert (P : printable_str s) by (apply Forall_forall; intros ch Hch; rewrite forallb_forall in F2; specialize (F2 ch Hch); lia).
      assert (E : cstr (s ++ [0]) = s).
      { clear -P. induction P as [|ch s Hch P IH]; [reflexivity|]. cbn [app cstr]. replace (ch =? 0) with false by lia. f_equal. exact IH. }
      rewrite E. rewrite firstn_all2 by (unfold ilen; lia). exact A.
  - cbn [negb token next_digit]. unfold append_missing, raw_append. cbn [co_check co_text co_expected].
    unfold next_digit. rewrite andb_false_r. reflexivity.
Qed.

Lemma skipn_app_exact {A} (a b : list A) n : length a = n -> skipn n (a ++ b) = b.
Proof. intros <-. induction a as [|x a IH]; [reflexivity|]. exact IH. Qed.
Lemma firstn_app_exact {A} (a b : list A) n : length a = n -> firstn n (a ++ b) = a.
Proof. intros <-. induction a as [|x a IH]; [reflexivity|]. cbn [length app firstn]. f_equal. exact IH. Qed.

(** parse_value on a field of the right length. *)
Lemma parse_value_ok (n : nat) (sg check : bool) (e : Z) (field rest : list Z) : (1 <= length field)%nat -> (2 <= length rest)%nat ->
  length field = (if sg && (hd 0 field =? 45) then S n else n) ->
  parse_value n sg (mkcin ((if check then [48 + e] else []) ++ field ++ rest) check e) =
  Ok (field ++ rest, trim field, mkcin (skip_space rest) check (if check then (e + 1) mod 10 else e)).
Proof.
  intros L1 L2 Lf. unfold parse_value, check_available. cbn [ci_rest ci_check ci_expected].
  assert (Hh : forall x, hd x (field ++ rest) = hd 0 field) by (intros x; destruct field; [cbn in L1; lia|reflexivity]).
  rewrite (proj2 (Nat.ltb_ge _ (n + 2)))
    by (rewrite !app_length, Lf; destruct check, (sg && (hd 0 field =? 45)); cbn [length]; lia).
  cbn [bind]. destruct check.
  - unfold ci_cur. cbn [app hd ci_rest skipn]. replace (48 + e - 48 =? e) with true by lia. cbn [negb bind ci_rest].
    rewrite Hh. rewrite <- Lf. rewrite firstn_app_exact by reflexivity. unfold skip_data_and_spaces, skip_spaces, with_rest.
    cbn [ci_rest ci_check ci_expected]. rewrite skipn_app_exact by reflexivity. reflexivity.
  - cbn [app bind]. unfold ci_cur. cbn [ci_rest]. rewrite Hh, <- Lf. rewrite firstn_app_exact by reflexivity.
    unfold skip_data_and_spaces, skip_spaces, with_rest. cbn [ci_rest ci_check ci_expected]. rewrite skipn_app_exact by reflexivity. reflexivity.
Qed.

Lemma skip_token (check : bool) (e : Z) i v rest : crex_fits check i (Some v) = true -> 0 <= e <= 9 ->
  skip_space (token check e i (Some v) ++ rest) = (if check then [48 + e] else []) ++ body i v ++ rest.
Proof.
  intros F He. cbn [token]. cbn [app skip_space]. change (c_isspace 32) with true. cbv iota.
  destruct check.
  - cbn [app skip_space]. replace (c_isspace (48 + e)) with false by (unfold c_isspace; lia). reflexivity.
  - cbn [app]. assert (N : exists c r, body i v = c :: r /\ c_isspace c = false).
    { unfold crex_fits in F. rewrite !andb_true_iff in F. destruct F as ((L1 & L2) & F).
      destruct v as [k|s|b]; destruct (vi_type i); try discriminate; cbn [body].
      1,2: unfold crex_number in F; rewrite !andb_true_iff in F; destruct F as (((A & B) & I) & P);
           destruct (fmt_0d_number i k ltac:(lia) ltac:(lia) I) as (t & -> & D & _ & _ & Nt);
           destruct (k <? 0); [exists 45, t; split; reflexivity|destruct t as [|c t]; [contradiction|];
           exists c, t; split; [reflexivity|]; apply digit_not_space; inversion D; auto].
      unfold crex_text in F. rewrite !andb_true_iff in F. destruct F as (_ & F). cbn [orb] in F.
      destruct s as [|c s]; [discriminate|]. exists c, (s ++ repeat 32 (ilen i - length (c :: s))). split; [reflexivity|].
      destruct (c_isspace c); [discriminate|reflexivity]. }
    destruct N as (c & r & -> & Hc). cbn [app skip_space]. rewrite Hc. reflexivity.
Qed.

Lemma wrap_int_in k : in_int k = true -> wrap_int k = k.
Proof. unfold in_int. intros H. apply wrap_int_id. lia. Qed.

(** Reading back what was written. *)
Lemma read_variable_ok o check e i v rest : crex_fits check i v = true -> 0 <= e <= 9 -> follows rest ->
  read_variable o i (mkcin (skip_space (token check e i v ++ rest)) check e) =
  Ok (count_of v, mkcell i v, mkcin (skip_space rest) check (next_digit check e v)).
Proof.
  intros F He [L2 En]. unfold read_variable. destruct v as [x|].
  - rewrite (skip_token check e i x rest F He).
    assert (B := body_length check i x F). pose proof F as F'.
    unfold crex_fits in F'. rewrite !andb_true_iff in F'. destruct F' as ((L1 & L3) & F').
    assert (Li : (1 <= ilen i)%nat) by (unfold ilen; lia).
    assert (Nd : next_digit check e (Some x) = if check then (e + 1) mod 10 else e)
      by (unfold next_digit; destruct check; reflexivity).
    destruct x as [k|s|b]; destruct (vi_type i) eqn:Et; try discriminate.
    1,2: unfold crex_number in F'; rewrite !andb_true_iff in F'; destruct F' as (((A1 & A2) & I) & P);
         cbn [body] in *;
         destruct (fmt_0d_number i k ltac:(lia) ltac:(lia) I) as (t & Eb & D & V & Lt & Nt); rewrite Eb in *;
         assert (Hd : hd 0 t <> 45 /\ hd 0 t <> 47) by (destruct t as [|c t]; [contradiction|]; cbn [hd]; inversion D as [|? ? Dc]; unfold digit in Dc; lia);
         assert (Hh : hd 0 ((if k <? 0 then [45] else []) ++ t) = if k <? 0 then 45 else hd 0 t) by (destruct (k <? 0); reflexivity);
         assert (Lf : length ((if k <? 0 then [45] else []) ++ t) =
           (if true && (hd 0 ((if k <? 0 then [45] else []) ++ t) =? 45) then Datatypes.S (ilen i) else ilen i)) by
           (rewrite Hh; destruct (k <? 0); cbn [andb app length];
            [rewrite Lt; reflexivity | replace (hd 0 t =? 45) with false by lia; exact Lt]);
         rewrite (parse_value_ok (ilen i) true check e) by (first [exact Lf | exact L2 | rewrite app_length; lia]);
         cbn [bind];
         assert (S : c_strtol (((if k <? 0 then [45] else []) ++ t) ++ rest) = k) by
           (unfold in_int, int_min, int_max in I; destruct (Z.ltb_spec k 0); cbn [app];
            [rewrite strtol_negative by (auto; lia); lia | rewrite strtol_number by (auto; lia); lia]);
         assert (Hs : hd 0 (((if k <? 0 then [45] else []) ++ t) ++ rest) =? 47 = false) by
           (destruct (k <? 0); [reflexivity|]; destruct t as [|c t]; [contradiction|]; cbn [app hd] in *; lia);
         rewrite Hs, S; unfold to_int; rewrite wrap_int_in by exact I;
         unfold seti, fresh; cbn [c_info]; rewrite Et; cbn [is_numeric]; unfold assign_i_checked; cbn [c_info];
         replace ((k <? vi_imin i) || (vi_imax i <? k)) with false by lia;
         cbn [of_outcome bind count_of]; rewrite Nd; reflexivity.
    unfold crex_text in F'. rewrite !andb_true_iff in F'. destruct F' as ((((A1 & A2) & A3) & A4) & A5).
    assert (P : printable_str s) by (apply Forall_forall; intros ch Hch; rewrite forallb_forall in A2; specialize (A2 ch Hch); lia).
    cbn [body] in *. set (padded := s ++ repeat 32 (ilen i - length s)) in *.
    assert (Lp : length padded = ilen i) by (unfold padded; rewrite app_length, repeat_length; unfold ilen; lia).
    rewrite (parse_value_ok (ilen i) false check e) by (first [exact L2 | exact Lp | rewrite Lp; unfold ilen; lia]).
    cbn [bind].
    assert (Hs : hd 0 (padded ++ rest) =? 47 = false).
    { unfold padded. destruct s as [|c s].
      - cbn [app length]. rewrite Nat.sub_0_r. destruct (ilen i) eqn:El; [unfold ilen in El; lia|]. reflexivity.
      - cbn [app hd] in *. lia. }
    rewrite Hs. unfold padded at 1. rewrite trim_padded by exact A4.
    rewrite setc_string by exact Et. cbn [of_outcome bind count_of]. rewrite Nd. unfold with_val, fresh. cbn [c_info].
    rewrite cstr_id by exact P. rewrite firstn_all2 by (unfold ilen; lia). reflexivity.
  - unfold crex_fits in F. rewrite !andb_true_iff in F. destruct F as ((L1 & L3) & F).
    assert (check = false) as -> by (destruct (vi_type i), check; cbn in F; congruence).
    cbn [token]. set (sl := repeat 47 (ilen i)).
    assert (Ls : length sl = ilen i) by (apply repeat_length).
    assert (Es : exists r, sl = 47 :: r) by (unfold sl; destruct (ilen i) eqn:El; [unfold ilen in El; lia|]; eexists; reflexivity).
    assert (Sk : skip_space (sl ++ rest) = sl ++ rest) by (destruct Es as (r & ->); reflexivity).
    rewrite Sk. pose proof (parse_value_ok (ilen i) (match vi_type i with TString => false | _ => true end) false e sl rest) as Pv.
    cbn [app] in Pv. rewrite Pv.
    + cbn [bind]. destruct Es as (r & ->). cbn [app hd]. change (47 =? 47) with true. cbv iota. reflexivity.
    + rewrite Ls. unfold ilen. lia.
    + exact L2.
    + destruct Es as (r & Er). rewrite Er. cbn [hd]. change (47 =? 45) with false. rewrite andb_false_r. rewrite <- Er. exact Ls.
Qed.

(** ** Lines *)
Lemma token_follows check e i v rest : crex_fits check i v = true -> follows rest -> follows (token check e i v ++ rest).
Proof.
  intros F [L E]. split; [rewrite app_length; lia|]. destruct v as [x|]; cbn [token app ends_number]; [reflexivity|].
  unfold crex_fits in F. rewrite !andb_true_iff in F. destruct (ilen i) eqn:El; [unfold ilen in El; lia|]. reflexivity.
Qed.

Lemma next_digit_range check e v : 0 <= e <= 9 -> 0 <= next_digit check e v <= 9.
Proof. intros H. unfold next_digit. destruct (check && _); [|exact H]. pose proof (Z.mod_pos_bound (e + 1) 10). lia. Qed.

Lemma line_ok o check rest : follows rest -> forall cells text e, 0 <= e <= 9 ->
  Forall (fun v => crex_fits check (c_info v) (c_val v) = true) cells ->
  exists line e', append_vars cells (mkcout text check e) = Ok (mkcout (text ++ line) check e') /\ follows (line ++ rest) /\
    read_vars o (map c_info cells) (mkcin (skip_space (line ++ rest)) check e) = Ok (cells, mkcin (skip_space rest) check e').
Proof.
  intros Fr. induction cells as [|[i v] cells IH]; intros text e He F; cbn [append_vars map read_vars].
  - exists [], e. rewrite app_nil_r. auto.
  - apply Forall_cons_iff in F as [Fv F]. cbn [c_info c_val] in *.
    rewrite (append_var_token check) by auto. cbn [bind co_text co_expected].
    destruct (IH (text ++ token check e i v) (next_digit check e v) (next_digit_range _ _ _ He) F) as (line & e' & Ea & Ff & Er).
    exists (token check e i v ++ line), e'. rewrite Ea, <- !app_assoc. split; [reflexivity|]. split; [apply token_follows; auto|].
    rewrite read_variable_ok by auto. cbn [bind]. rewrite Er. reflexivity.
Qed.

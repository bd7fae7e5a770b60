(** Rows of B tables: the text of a row gives the definition that the row stands for. *)
From Coq Require Import Sorting.Sorted ZifyBool ZifyNat String.
From Verif Require Import Base Bits.Spec Num.Float Varcode.Model Varcode.Proofs Varinfo.Model Varinfo.Proofs Varinfo.RangeProofs
  Tables.Model Tables.Spec Tables.Proofs Tables.AlterProofs Tables.DtableProofs.
Local Open Scope Z_scope.

(** *** Numbers *)
Lemma wrap_small k : int_min <= k <= int_max -> wrap_int k = k.
Proof. unfold wrap_int, int_min, int_max. intros H. rewrite Z.mod_small by lia. lia. Qed.

Fixpoint dec_value (acc : Z) (l : list Z) : Z :=
  match l with [] => acc | c :: r => dec_value (acc * 10 + (c - 48)) r end.

Lemma dec_value_app a b : forall acc, dec_value acc (a ++ b) = dec_value (dec_value acc a) b.
Proof. induction a; cbn; auto. Qed.

Lemma dec_nat_spec fuel : forall n, 0 <= n < 10 ^ Z.of_nat fuel ->
  Forall (fun c => c_isdigit c = true) (dec_nat fuel n) /\ dec_value 0 (dec_nat fuel n) = n /\
  (forall k, (1 <= k)%nat -> n < 10 ^ Z.of_nat k -> (length (dec_nat fuel n) <= k)%nat) /\ (fuel <> O -> dec_nat fuel n <> []).
Proof.
  induction fuel as [|fuel IH]; intros n H; cbn [dec_nat].
  - change (10 ^ Z.of_nat 0) with 1 in H. repeat split; auto; cbn; try lia; try congruence.
  - rewrite Nat2Z.inj_succ, Z.pow_succ_r in H by lia. destruct (Z.ltb_spec n 10) as [L|L].
    + split; [constructor; [unfold c_isdigit; lia|constructor]|]. split; [cbn [dec_value]; lia|]. split; [intros k K _; cbn [length]; lia|discriminate].
    + pose proof (Z.div_mod n 10 ltac:(lia)). pose proof (Z.mod_pos_bound n 10 ltac:(lia)).
      destruct (IH (n / 10)) as (F & V & L' & _); [split; [apply Z.div_pos; lia|apply Z.div_lt_upper_bound; lia]|].
      repeat split.
      * apply Forall_app. split; auto. constructor; [unfold c_isdigit; lia|constructor].
      * rewrite dec_value_app, V. cbn [dec_value]. lia.
      * intros k K1 K2. rewrite app_length. cbn [length]. destruct k as [|k]; [lia|]. destruct k as [|k]; [change (10 ^ Z.of_nat 1) with 10 in K2; lia|].
        specialize (L' (Datatypes.S k) ltac:(lia)).
        assert (n / 10 < 10 ^ Z.of_nat (Datatypes.S k)).
        { apply Z.div_lt_upper_bound; [lia|]. rewrite (Nat2Z.inj_succ (Datatypes.S k)), Z.pow_succ_r in K2 by lia. lia. }
        specialize (L' H2). lia.
      * intros _ E. apply (f_equal (@length Z)) in E. rewrite app_length in E. cbn in E. lia.
Qed.

Definition ends (s : list Z) : Prop := match s with [] => True | c :: _ => c_isdigit c = false end.

Lemma scan_digits_app ds rest : Forall (fun c => c_isdigit c = true) ds -> ends rest -> forall acc,
  scan_digits acc (ds ++ rest) = (dec_value acc ds, rest).
Proof.
  induction 1 as [|c ds H F IH]; intros E acc; cbn [app scan_digits dec_value].
  - destruct rest as [|c rest]; cbn [scan_digits]; [reflexivity|]. cbn in E. rewrite E. reflexivity.
  - rewrite H. apply IH; auto.
Qed.

Lemma skip_spaces n s : skip_space (repeat 32 n ++ s) = skip_space s.
Proof. induction n; cbn; auto. Qed.

Lemma skip_digits ds rest : ds <> [] -> Forall (fun c => c_isdigit c = true) ds -> skip_space (ds ++ rest) = ds ++ rest.
Proof.
  intros N F. destruct F as [|c ds H F]; [congruence|]. cbn [app skip_space].
  replace (c_isspace c) with false; auto. unfold c_isdigit in H. unfold c_isspace. lia.
Qed.

Lemma strtol_digits ds rest : ds <> [] -> Forall (fun c => c_isdigit c = true) ds -> ends rest ->
  c_strtol (ds ++ rest) = Z.min (2 ^ 63 - 1) (dec_value 0 ds).
Proof.
  intros N F E. unfold c_strtol. rewrite skip_digits by auto.
  pose proof (scan_digits_app ds rest F E 0) as S. destruct F as [|c ds H F]; [congruence|]. cbn [app] in *.
  unfold c_isdigit in H. replace (c =? 45) with false by lia. replace (c =? 43) with false by lia. rewrite S. reflexivity.
Qed.

Lemma getnumber_dec w z rest : - 10 ^ 12 < z < 10 ^ 12 -> ends rest -> getnumber (rjust w (dec z) ++ rest) = z.
Proof.
  intros Hz E. unfold getnumber, rjust. rewrite <- app_assoc, skip_spaces. unfold dec.
  destruct (Z.ltb_spec z 0) as [L|L].
  - destruct (dec_nat_spec 20 (- z)) as (F & V & _ & N); [change (Z.of_nat 20) with 20; lia|]. specialize (N ltac:(lia)).
    set (ds := dec_nat 20 (- z)) in *. change ((45 :: ds) ++ rest) with (45 :: (ds ++ rest)). cbn [skip_space].
    change (c_isspace 45) with false. cbv iota. change (45 =? 45) with true. cbv iota.
    rewrite skip_digits, strtol_digits, V by auto. lia.
  - destruct (dec_nat_spec 20 z) as (F & V & _ & N); [change (Z.of_nat 20) with 20; lia|]. specialize (N ltac:(lia)).
    set (ds := dec_nat 20 z) in *. rewrite skip_digits by auto. pose proof (strtol_digits ds rest N F E) as S. rewrite V in S.
    destruct F as [|c ds' H F]; [congruence|]. cbn [app] in *. unfold c_isdigit in H. replace (c =? 45) with false by lia. rewrite S. lia.
Qed.

Lemma dec_length z w : - 10 ^ (Z.of_nat w - 1) < z < 10 ^ Z.of_nat w -> (1 <= w <= 18)%nat -> (length (dec z) <= w)%nat.
Proof.
  intros H Hw. assert (P : 10 ^ Z.of_nat w < 10 ^ 20) by (apply Z.pow_lt_mono_r; lia).
  unfold dec. destruct (Z.ltb_spec z 0) as [L|L].
  - assert (P2 : 10 ^ (Z.of_nat w - 1) < 10 ^ 20) by (apply Z.pow_lt_mono_r; lia).
    destruct (dec_nat_spec 20 (- z)) as (_ & _ & K & _); [change (Z.of_nat 20) with 20; lia|].
    destruct w as [|[|w]]; [lia|change (10 ^ (Z.of_nat 1 - 1)) with 1 in H; lia|].
    specialize (K (Datatypes.S w) ltac:(lia)). replace (Z.of_nat (Datatypes.S (Datatypes.S w)) - 1) with (Z.of_nat (Datatypes.S w)) in H by lia.
    cbn [length]. specialize (K ltac:(lia)). lia.
  - destruct (dec_nat_spec 20 z) as (_ & _ & K & _); [change (Z.of_nat 20) with 20; lia|]. apply K; lia.
Qed.

Lemma rjust_length w s : (length s <= w)%nat -> length (rjust w s) = w.
Proof. intros. unfold rjust. rewrite app_length, repeat_length. lia. Qed.
Lemma ljust_length w s : (length s <= w)%nat -> length (ljust w s) = w.
Proof. intros. unfold ljust. rewrite app_length, repeat_length. lia. Qed.

(** *** Characters of a row *)
Definition clean (l : list Z) : Prop := Forall (fun c => c <> 10 /\ c <> 0) l.

Lemma clean_app a b : clean a -> clean b -> clean (a ++ b).
Proof. intros. apply Forall_app. auto. Qed.
Lemma clean_spaces n : clean (repeat 32 n).
Proof. apply Forall_forall. intros c H. apply repeat_spec in H. lia. Qed.
Lemma clean_printable l : Forall printable l -> clean l.
Proof. intros F. eapply Forall_impl; [|exact F]. unfold printable. intros; lia. Qed.
Lemma clean_dec z : - 10 ^ 12 < z < 10 ^ 12 -> clean (dec z).
Proof.
  assert (D : forall l, Forall (fun c => c_isdigit c = true) l -> clean l).
  { intros l F. eapply Forall_impl; [|exact F]. unfold c_isdigit. intros; lia. }
  intros H. unfold dec. destruct (z <? 0) eqn:L.
  - destruct (dec_nat_spec 20 (- z)) as (F & _); [change (Z.of_nat 20) with 20; lia|]. apply (clean_app [45]); [repeat constructor; lia|auto].
  - destruct (dec_nat_spec 20 z) as (F & _); [change (Z.of_nat 20) with 20; lia|]. auto.
Qed.
Lemma clean_format c : 0 <= c < 2 ^ 16 -> clean (varcode_format c).
Proof. intros H. destruct (format_chars c H) as [_ F]. eapply Forall_impl; [|exact F]. cbn. intros; lia. Qed.
Lemma clean_rjust w s : clean s -> clean (rjust w s).
Proof. intros. apply clean_app; auto. apply clean_spaces. Qed.
Lemma clean_ljust w s : clean s -> clean (ljust w s).
Proof. intros. apply clean_app; auto. apply clean_spaces. Qed.
Lemma clean_1 : clean [32].
Proof. repeat constructor; lia. Qed.

Lemma line_code_render c rest : 0 <= c < 2 ^ 14 -> line_code ([32] ++ varcode_format c ++ rest) = Ok c.
Proof.
  intros H. pose proof (pack_unpack c ltac:(lia)) as P. cbn [app varcode_format line_code].
  f_equal. destruct P as (Pf & Px & Py & P). 
  assert (F0 : var_f c = 0) by (unfold var_f; rewrite Z.shiftr_div_pow2, Z.div_small by lia; reflexivity).
  revert P. unfold wr_var, string_to_var. rewrite F0. intros P.
  replace ((48 + var_x c / 10 - 48) * 10 + (48 + var_x c mod 10 - 48)) with (var_x c) by (pose proof (Z.div_mod (var_x c) 10); lia).
  replace ((48 + var_y c / 100 - 48) * 100 + (48 + (var_y c / 10) mod 10 - 48) * 10 + (48 + var_y c mod 10 - 48)) with (var_y c).
  2: { pose proof (Z.div_mod (var_y c) 10). pose proof (Z.div_mod (var_y c / 10) 10).
       assert (var_y c / 100 = var_y c / 10 / 10) by (rewrite Z.div_div by lia; reflexivity). lia. }
  rewrite Z.shiftl_0_l, Z.lor_0_l in P. unfold u32 in P.
  rewrite (Z.mod_small (Z.shiftl (var_x c) 8)) in P by (rewrite Z.shiftl_mul_pow2 by lia; lia). exact P.
Qed.

(** *** Texts *)
Lemma drop_trailing n u : (forall w c, u = w ++ [c] -> c_isspace c = false) ->
  drop_trailing_space (rev (u ++ repeat 32 n)) = rev u.
Proof.
  intros H. rewrite rev_app_distr.
  replace (rev (repeat 32 n)) with (repeat 32 n).
  2: { clear. induction n as [|n IH]; auto. cbn [repeat rev]. rewrite <- IH. clear. induction n; cbn; auto. f_equal. auto. }
  induction n as [|n IH]; cbn [repeat app drop_trailing_space].
  - destruct (rev u) as [|c r] eqn:E; auto. cbn. rewrite (H (rev r) c); auto.
    rewrite <- (rev_involutive u), E. reflexivity.
  - change (c_isspace 32) with true. exact IH.
Qed.

Lemma text_column_render pre u post : unit_ok u ->
  text_column (length pre) 24 (pre ++ ljust 24 u ++ post) = u.
Proof.
  intros (P & L & N). unfold text_column. rewrite skipn_app, skipn_all, Nat.sub_diag. cbn [skipn app].
  rewrite firstn_app, ljust_length, Nat.sub_diag, firstn_O, app_nil_r by lia.
  rewrite firstn_all2 by (rewrite ljust_length; lia). unfold ljust.
  rewrite drop_trailing, rev_involutive; auto.
  intros w c E. specialize (N w c E). assert (printable c) by (rewrite Forall_forall in P; apply P; rewrite E; apply in_or_app; right; left; auto).
  unfold printable in *. unfold c_isspace. lia.
Qed.

Lemma is_prefix_spec p u : is_prefix p u = true <-> starts p u.
Proof.
  unfold starts. revert u. induction p as [|a p IH]; intros u; cbn.
  - split; eauto.
  - destruct u as [|b u]; [split; [discriminate|intros (r & E); discriminate]|].
    rewrite andb_true_iff, Z.eqb_eq, IH. split.
    + intros [-> (r & ->)]. eauto.
    + intros (r & E). injection E as -> ->. eauto.
Qed.

Lemma normalise_clean u : clean u -> clean (normalise_unit u).
Proof.
  intros H. unfold normalise_unit, s_code_table, s_flag_table.
  destruct (_ || _); [repeat constructor; lia|]. destruct (_ || _); [repeat constructor; lia|auto].
Qed.

Lemma cstr_clean u : clean u -> cstr u = u.
Proof. induction 1 as [|c u [_ H] F IH]; cbn; auto. replace (c =? 0) with false by lia. rewrite IH. reflexivity. Qed.

Lemma unit_render u : unit_ok u -> unit_means u (to_string (cstr (normalise_unit u))).
Proof.
  intros (P & _). rewrite cstr_clean by (apply normalise_clean, clean_printable; auto). unfold unit_means, normalise_unit.
  destruct (is_prefix s_code_table u) eqn:E1; [left; split; [left; apply is_prefix_spec; auto|reflexivity]|].
  destruct (is_prefix s_codetable u) eqn:E2; [left; split; [right; apply is_prefix_spec; auto|reflexivity]|]. cbn [orb].
  destruct (is_prefix s_flag_table u) eqn:E3; [right; left; split; [left; apply is_prefix_spec; auto|reflexivity]|].
  destruct (is_prefix s_flagtable u) eqn:E4; [right; left; split; [right; apply is_prefix_spec; auto|reflexivity]|]. cbn [orb].
  right; right. split; [|reflexivity]. rewrite <- !is_prefix_spec, E1, E2, E3, E4. intuition discriminate.
Qed.

(** Whether the unit is the one of texts is not changed by the normalisation. *)
Lemma unit_text u s : Forall printable u -> (forall rest, s <> ("CODE TABLE" ++ rest)%string) ->
  s = "CCITTIA5"%string \/ s = "CHARACTER"%string ->
  String.eqb (to_string (cstr (normalise_unit u))) s = String.eqb (to_string u) s.
Proof.
  intros P _ Hs. rewrite cstr_clean by (apply normalise_clean, clean_printable; auto). unfold normalise_unit.
  destruct (is_prefix s_code_table u || is_prefix s_codetable u) eqn:E1.
  { apply orb_true_iff in E1. rewrite !is_prefix_spec in E1. destruct E1 as [(r & ->)|(r & ->)]; destruct Hs as [-> | ->]; reflexivity. }
  destruct (is_prefix s_flag_table u || is_prefix s_flagtable u) eqn:E2; auto.
  apply orb_true_iff in E2. rewrite !is_prefix_spec in E2. destruct E2 as [(r & ->)|(r & ->)]; destruct Hs as [-> | ->]; reflexivity.
Qed.

(** *** Lengths and ranges *)
Lemma bufr_digits_ok b : 1 <= b <= 32 -> exists l, bufr_digits b = Ok l /\ 10 ^ (l - 1) < 2 ^ b <= 10 ^ l /\ 1 <= l <= 10 /\ (31 <= b -> l = 10).
Proof.
  intros H.
  assert (A : forallb (fun b => match bufr_digits b with
      | Ok l => (10 ^ (l - 1) <? 2 ^ b) && (2 ^ b <=? 10 ^ l) && (1 <=? l) && (l <=? 10) && ((b <? 31) || (l =? 10))
      | _ => false end) (map Z.of_nat (seq 1 32)) = true) by (vm_compute; reflexivity).
  rewrite forallb_forall in A. specialize (A b). destruct (bufr_digits b) as [l| |].
  - exists l. assert (I : In b (map Z.of_nat (seq 1 32))) by (apply in_map_iff; exists (Z.to_nat b); split; [lia|apply in_seq; lia]).
    specialize (A I). split; auto. lia.
  - assert (I : In b (map Z.of_nat (seq 1 32))) by (apply in_map_iff; exists (Z.to_nat b); split; [lia|apply in_seq; lia]). specialize (A I). discriminate.
  - assert (I : In b (map Z.of_nat (seq 1 32))) by (apply in_map_iff; exists (Z.to_nat b); split; [lia|apply in_seq; lia]). specialize (A I). discriminate.
Qed.

Lemma compute_range_defined c t u s l r b : -16 <= s <= 16 -> 1 <= l -> - 2 ^ 30 <= r < 2 ^ 30 ->
  0 <= b <= 30 \/ 10 <= l -> exists i, compute_range c t u s l r b = Ok i.
Proof.
  intros Hs Hl Hr Hb. unfold compute_range.
  assert (D : exists mn mx, compute_irange t c l r b = Ok (mn, mx) /\ Z.abs mn <= 2 ^ 31 /\ Z.abs mx <= 2 ^ 31).
  { unfold compute_irange.
    assert (N : exists mn mx, (if 10 <=? l then Ok (int_min, int_max)
      else if b =? 0 then p <- intexp10 l ;; Ok (- (p - 1), p - 2)
      else if 31 <=? b then UB else
       bit_max0 <- int_checked (2 ^ b + r) ;;
       bit_max <- (if negb (var_x c =? 31) then int_checked (bit_max0 - 2) else Ok bit_max0) ;;
       p <- intexp10 l ;; Ok (Z.max r (- (p - 1)), Z.min bit_max (p - 2))) = Ok (mn, mx) /\ Z.abs mn <= 2 ^ 31 /\ Z.abs mx <= 2 ^ 31).
    { destruct (Z.leb_spec 10 l) as [L|L]; [exists int_min, int_max; unfold int_min, int_max; split; auto; lia|].
      assert (P : intexp10 l = Ok (10 ^ l)).
      { assert (A : forallb (fun l => match intexp10 l with Ok p => p =? 10 ^ l | _ => false end) (map Z.of_nat (seq 1 9)) = true) by (vm_compute; reflexivity).
        rewrite forallb_forall in A. specialize (A l ltac:(apply in_map_iff; exists (Z.to_nat l); split; [lia|apply in_seq; lia])).
        destruct (intexp10 l); try discriminate A. f_equal. lia. }
      rewrite P. cbn [bind]. pose proof (pow10_9 l ltac:(lia)).
      destruct (Z.eqb_spec b 0) as [B|B]; [exists (- (10 ^ l - 1)), (10 ^ l - 2); split; auto; lia|].
      replace (31 <=? b) with false by lia.
      assert (1 <= 2 ^ b <= 2 ^ 30) by (split; [assert (0 < 2 ^ b) by (apply Z.pow_pos_nonneg; lia); lia|apply Z.pow_le_mono_r; lia]).
      unfold int_checked, in_int, int_min, int_max.
      replace ((- 2 ^ 31 <=? 2 ^ b + r) && (2 ^ b + r <=? 2 ^ 31 - 1)) with true by lia. cbn [bind].
      destruct (negb (var_x c =? 31)).
      - replace ((- 2 ^ 31 <=? 2 ^ b + r - 2) && (2 ^ b + r - 2 <=? 2 ^ 31 - 1)) with true by lia. cbn [bind]. eexists _, _. split; [reflexivity|]. lia.
      - cbn [bind]. eexists _, _. split; [reflexivity|]. lia. }
    destruct t; auto; exists 0, 0; split; auto; lia. }
  destruct D as (mn & mx & -> & A & B). cbn [bind].
  destruct (decode_decimal_ok s mn) as (d1 & D1 & _); [unfold scale_ok; lia|lia|].
  destruct (decode_decimal_ok s mx) as (d2 & D2 & _); [unfold scale_ok; lia|lia|].
  destruct t; rewrite ?D1; cbn [bind]; rewrite ?D2; cbn [bind]; eauto.
Qed.

(** *** Rows *)
Lemma brow_line r : brow_ok r -> exists i, bufr_line (render_brow r) = Ok i /\ brow_means r i.
Proof.
  intros (Hc & Hd & Hd2 & Hu & Hs & Hr & Hb).
  assert (Lu : (length (row_unit r) <= 24)%nat) by (destruct Hu as (_ & ? & _); lia).
  assert (Ls : (length (dec (row_scale r)) <= 3)%nat) by (apply dec_length; [change (10 ^ (Z.of_nat 3 - 1)) with 100; change (10 ^ Z.of_nat 3) with 1000; lia|lia]).
  assert (Lr : (length (dec (row_ref r)) <= 12)%nat) by (apply dec_length; [change (10 ^ (Z.of_nat 12 - 1)) with 100000000000; change (10 ^ Z.of_nat 12) with 1000000000000; lia|lia]).
  assert (B0 : 0 <= row_bits r < 1000) by (destruct (row_text r); lia).
  assert (Lb : (length (dec (row_bits r)) <= 3)%nat) by (apply dec_length; [change (10 ^ (Z.of_nat 3 - 1)) with 100; change (10 ^ Z.of_nat 3) with 1000; lia|lia]).
  assert (Lf : length (varcode_format (row_code r)) = 6%nat) by reflexivity.
  unfold bufr_line.
  set (p73 := [32] ++ varcode_format (row_code r) ++ [32] ++ ljust 64 (row_desc r) ++ [32]).
  assert (L73 : length p73 = 73%nat) by (unfold p73; rewrite !app_length, ljust_length, Lf by auto; reflexivity).
  set (p98 := p73 ++ ljust 24 (row_unit r) ++ [32]).
  assert (L98 : length p98 = 98%nat) by (unfold p98; rewrite !app_length, L73, ljust_length by auto; reflexivity).
  set (p102 := p98 ++ rjust 3 (dec (row_scale r)) ++ [32]).
  assert (L102 : length p102 = 102%nat) by (unfold p102; rewrite !app_length, L98, rjust_length by auto; reflexivity).
  set (p115 := p102 ++ rjust 12 (dec (row_ref r)) ++ [32]).
  assert (L115 : length p115 = 115%nat) by (unfold p115; rewrite !app_length, L102, rjust_length by auto; reflexivity).
  assert (E115 : render_brow r = p115 ++ rjust 3 (dec (row_bits r)) ++ [10]) by (unfold render_brow, p115, p102, p98, p73; rewrite <- !app_assoc; reflexivity).
  assert (E102 : render_brow r = p102 ++ rjust 12 (dec (row_ref r)) ++ [32] ++ rjust 3 (dec (row_bits r)) ++ [10]) by (rewrite E115; unfold p115; rewrite <- !app_assoc; reflexivity).
  assert (E98 : render_brow r = p98 ++ rjust 3 (dec (row_scale r)) ++ [32] ++ rjust 12 (dec (row_ref r)) ++ [32] ++ rjust 3 (dec (row_bits r)) ++ [10]) by (rewrite E102; unfold p102; rewrite <- !app_assoc; reflexivity).
  assert (E73 : render_brow r = p73 ++ ljust 24 (row_unit r) ++ [32] ++ rjust 3 (dec (row_scale r)) ++ [32] ++ rjust 12 (dec (row_ref r)) ++ [32] ++ rjust 3 (dec (row_bits r)) ++ [10]) by (rewrite E98; unfold p98; rewrite <- !app_assoc; reflexivity).
  assert (LL : length (render_brow r) = 119%nat) by (rewrite E115, !app_length, L115, rjust_length by auto; reflexivity).
  rewrite LL. change (Nat.ltb 119 119) with false. cbv iota.
  assert (LC : line_code (render_brow r) = Ok (row_code r)) by (unfold render_brow; apply line_code_render; auto).
  rewrite LC. cbn [bind].
  assert (TC : text_column 73 24 (render_brow r) = row_unit r) by (rewrite E73, <- L73; apply text_column_render; auto).
  assert (SC : getnumber (skipn 98 (render_brow r)) = row_scale r).
  { rewrite E98, <- L98, skipn_app, skipn_all, Nat.sub_diag. cbn [skipn app]. apply getnumber_dec; [lia|reflexivity]. }
  assert (RC : getnumber (skipn 102 (render_brow r)) = row_ref r).
  { rewrite E102, <- L102, skipn_app, skipn_all, Nat.sub_diag. cbn [skipn app]. apply getnumber_dec; [lia|reflexivity]. }
  assert (BC : getnumber (skipn 115 (render_brow r)) = row_bits r).
  { rewrite E115, <- L115, skipn_app, skipn_all, Nat.sub_diag. cbn [skipn app]. apply getnumber_dec; [lia|reflexivity]. }
  rewrite TC, SC, RC, BC. unfold to_int, u32. rewrite !wrap_small by (unfold int_min, int_max; lia). rewrite Z.mod_small by lia.
  rewrite (unit_text (row_unit r) "CCITTIA5") by (try apply Hu; auto; intros rest E; discriminate E).
  fold (row_text r). pose proof (unit_render (row_unit r) Hu) as U. set (us := to_string (cstr (normalise_unit (row_unit r)))) in *.
  destruct (row_text r) eqn:RT.
  - assert (C : exists i, compute_range (row_code r) TString us (row_scale r) (row_bits r / 8) (row_ref r) (row_bits r) = Ok i) by (cbn; eauto).
    destruct C as (i & C). exists i. split; auto. pose proof (compute_range_fields _ _ _ _ _ _ _ _ C) as (F1 & F2 & F3 & F4 & F5 & F6 & F7).
    constructor; rewrite ?RT; auto; try congruence. constructor; auto. rewrite F3; auto.
  - destruct (bufr_digits_ok (row_bits r) Hb) as (l & -> & L1 & L2 & L3). cbn [bind].
    destruct (compute_range_defined (row_code r) (if row_scale r =? 0 then TInteger else TDecimal) us (row_scale r) l (row_ref r) (row_bits r)) as (i & C); auto; [lia|lia|].
    exists i. split; auto. pose proof (compute_range_fields _ _ _ _ _ _ _ _ C) as (F1 & F2 & F3 & F4 & F5 & F6 & F7).
    constructor; rewrite ?RT; auto; try congruence; try (rewrite F5; auto). constructor; auto. rewrite F3; auto.
Qed.

Lemma crow_line r : crow_ok r -> exists i, crex_line (render_crow r) = Ok (Some i) /\ crow_means r i.
Proof.
  intros (Hc & Hd & Hd2 & Hu & Hs & Hb).
  assert (Lu : (length (row_unit r) <= 24)%nat) by (destruct Hu as (_ & ? & _); lia).
  assert (Ls : (length (dec (row_scale r)) <= 5)%nat) by (apply dec_length; [change (10 ^ (Z.of_nat 5 - 1)) with 10000; change (10 ^ Z.of_nat 5) with 100000; lia|lia]).
  assert (Lb : (length (dec (row_bits r)) <= 7)%nat) by (apply dec_length; [change (10 ^ (Z.of_nat 7 - 1)) with 1000000; change (10 ^ Z.of_nat 7) with 10000000; lia|lia]).
  assert (Lf : length (varcode_format (row_code r)) = 6%nat) by reflexivity.
  unfold crex_line.
  set (p119 := [32] ++ varcode_format (row_code r) ++ [32] ++ ljust 111 (row_desc r)).
  assert (L119 : length p119 = 119%nat) by (unfold p119; rewrite !app_length, ljust_length, Lf by auto; reflexivity).
  set (p143 := p119 ++ ljust 24 (row_unit r)).
  assert (L143 : length p143 = 143%nat) by (unfold p143; rewrite !app_length, L119, ljust_length by auto; reflexivity).
  set (p149 := p143 ++ rjust 5 (dec (row_scale r)) ++ [32]).
  assert (L149 : length p149 = 149%nat) by (unfold p149; rewrite !app_length, L143, rjust_length by auto; reflexivity).
  assert (E149 : render_crow r = p149 ++ rjust 7 (dec (row_bits r)) ++ [10]) by (unfold render_crow, p149, p143, p119; rewrite <- !app_assoc; reflexivity).
  assert (E143 : render_crow r = p143 ++ rjust 5 (dec (row_scale r)) ++ [32] ++ rjust 7 (dec (row_bits r)) ++ [10]) by (rewrite E149; unfold p149; rewrite <- !app_assoc; reflexivity).
  assert (E119 : render_crow r = p119 ++ ljust 24 (row_unit r) ++ rjust 5 (dec (row_scale r)) ++ [32] ++ rjust 7 (dec (row_bits r)) ++ [10]) by (rewrite E143; unfold p143; rewrite <- !app_assoc; reflexivity).
  assert (LL : length (render_crow r) = 157%nat) by (rewrite E149, !app_length, L149, rjust_length by auto; reflexivity).
  assert (LC : line_code (render_crow r) = Ok (row_code r)) by (unfold render_crow; apply line_code_render; auto).
  rewrite LC, LL. cbn [bind]. change (Nat.ltb 157 157) with false. cbv iota.
  assert (TC : text_column 119 24 (render_crow r) = row_unit r) by (rewrite E119, <- L119; apply text_column_render; auto).
  assert (SC : getnumber (skipn 143 (render_crow r)) = row_scale r).
  { rewrite E143, <- L143, skipn_app, skipn_all, Nat.sub_diag. cbn [skipn app]. apply getnumber_dec; [lia|reflexivity]. }
  assert (BC : getnumber (skipn 149 (render_crow r)) = row_bits r).
  { rewrite E149, <- L149, skipn_app, skipn_all, Nat.sub_diag. cbn [skipn app]. apply getnumber_dec; [lia|reflexivity]. }
  rewrite TC, SC, BC. unfold to_int, u32, crex_type. rewrite !wrap_small by (unfold int_min, int_max; lia). rewrite Z.mod_small by lia.
  rewrite (unit_text (row_unit r) "CHARACTER") by (try apply Hu; auto; intros rest E; discriminate E).
  fold (crow_text r). pose proof (unit_render (row_unit r) Hu) as U. set (us := to_string (cstr (normalise_unit (row_unit r)))) in *.
  destruct (compute_range_defined (row_code r) (if crow_text r then TString else if row_scale r =? 0 then TInteger else TDecimal) us
    (row_scale r) (row_bits r) 0 0) as (i & C); [lia|lia|lia|lia|].
  rewrite C. cbn [bind]. exists i. split; auto.
  pose proof (compute_range_fields _ _ _ _ _ _ _ _ C) as (F1 & F2 & F3 & F4 & F5 & F6 & F7).
  constructor; auto. constructor; auto. rewrite F3; auto.
Qed.

Ltac clean_tac := repeat (apply clean_app || apply clean_1 || apply clean_rjust || apply clean_ljust || apply clean_spaces);
  try (apply clean_format; lia); try (apply clean_printable; assumption); try (apply clean_dec; lia).

Lemma brow_good r : brow_ok r -> good_line (render_brow r).
Proof.
  intros (Hc & Hd & Hd2 & (Hu1 & Hu2 & Hu3) & Hs & Hr & Hb).
  assert (B0 : 0 <= row_bits r < 1000) by (destruct (row_text r); lia).
  exists ([32] ++ varcode_format (row_code r) ++ [32] ++ ljust 64 (row_desc r) ++ [32] ++ ljust 24 (row_unit r) ++ [32] ++
    rjust 3 (dec (row_scale r)) ++ [32] ++ rjust 12 (dec (row_ref r)) ++ [32] ++ rjust 3 (dec (row_bits r))).
  split; [unfold render_brow; rewrite <- !app_assoc; reflexivity|]. split; [clean_tac|].
  assert (Ls : (length (dec (row_scale r)) <= 3)%nat) by (apply dec_length; [change (10 ^ (Z.of_nat 3 - 1)) with 100; change (10 ^ Z.of_nat 3) with 1000; lia|lia]).
  assert (Lr : (length (dec (row_ref r)) <= 12)%nat) by (apply dec_length; [change (10 ^ (Z.of_nat 12 - 1)) with 100000000000; change (10 ^ Z.of_nat 12) with 1000000000000; lia|lia]).
  assert (Lb : (length (dec (row_bits r)) <= 3)%nat) by (apply dec_length; [change (10 ^ (Z.of_nat 3 - 1)) with 100; change (10 ^ Z.of_nat 3) with 1000; lia|lia]).
  rewrite !app_length, !ljust_length, !rjust_length by lia. change (length (varcode_format (row_code r))) with 6%nat. cbn. lia.
Qed.

Lemma crow_good r : crow_ok r -> good_line (render_crow r).
Proof.
  intros (Hc & Hd & Hd2 & (Hu1 & Hu2 & Hu3) & Hs & Hb).
  exists ([32] ++ varcode_format (row_code r) ++ [32] ++ ljust 111 (row_desc r) ++ ljust 24 (row_unit r) ++
    rjust 5 (dec (row_scale r)) ++ [32] ++ rjust 7 (dec (row_bits r))).
  split; [unfold render_crow; rewrite <- !app_assoc; reflexivity|]. split; [clean_tac|].
  assert (Ls : (length (dec (row_scale r)) <= 5)%nat) by (apply dec_length; [change (10 ^ (Z.of_nat 5 - 1)) with 10000; change (10 ^ Z.of_nat 5) with 100000; lia|lia]).
  assert (Lb : (length (dec (row_bits r)) <= 7)%nat) by (apply dec_length; [change (10 ^ (Z.of_nat 7 - 1)) with 1000000; change (10 ^ Z.of_nat 7) with 10000000; lia|lia]).
  rewrite !app_length, !ljust_length, !rjust_length by lia. change (length (varcode_format (row_code r))) with 6%nat. cbn. lia.
Qed.

(** *** Files *)
Lemma obtain_next t i : (forall e, In e t -> be_code e < vi_code i) -> obtain t i = Ok (t ++ [mkbentry i []]).
Proof.
  intros H. unfold obtain. destruct (rev t) as [|e r] eqn:E; auto.
  assert (I : In e t) by (apply in_rev; rewrite E; left; auto). specialize (H e I).
  replace (vi_code i <=? be_code e) with false by lia. reflexivity.
Qed.

Definition entry_of (means : brow -> varinfo -> Prop) (r : brow) (e : bentry) : Prop := means r (be_info e) /\ be_alts e = [].

Lemma load_brows rows : forall t, Forall brow_ok rows -> StronglySorted (fun a b => row_code a < row_code b) rows ->
  (forall e r, In e t -> In r rows -> be_code e < row_code r) ->
  exists t2, load_blines (map render_brow rows) t = Ok (t ++ t2) /\ Forall2 (entry_of brow_means) rows t2.
Proof.
  induction rows as [|r rows IH]; intros t F S L; cbn [map load_blines].
  - exists []. rewrite app_nil_r. auto.
  - inversion F; subst. inversion S as [|? ? S1 S2]; subst. destruct (brow_line r) as (i & E & M); auto. rewrite E. cbn [bind].
    assert (Ci : vi_code i = row_code r) by apply M.
    rewrite obtain_next by (intros e I; rewrite Ci; apply L; [auto|left; auto]). cbn [bind].
    destruct (IH (t ++ [mkbentry i []])) as (t2 & E2 & F2); auto.
    { intros e r' I I'. apply in_app_or in I as [I|[<-|[]]]; [apply L; [auto|right; auto]|].
      unfold be_code. cbn. rewrite Ci. rewrite Forall_forall in S2. auto. }
    exists (mkbentry i [] :: t2). rewrite E2, <- app_assoc. split; auto. constructor; auto. split; auto.
Qed.

Lemma load_crows rows : forall t, Forall crow_ok rows -> StronglySorted (fun a b => row_code a < row_code b) rows ->
  (forall e r, In e t -> In r rows -> be_code e < row_code r) ->
  exists t2, load_clines (map render_crow rows) t = Ok (t ++ t2) /\ Forall2 (entry_of crow_means) rows t2.
Proof.
  induction rows as [|r rows IH]; intros t F S L; cbn [map load_clines].
  - exists []. rewrite app_nil_r. auto.
  - inversion F; subst. inversion S as [|? ? S1 S2]; subst. destruct (crow_line r) as (i & E & M); auto. rewrite E. cbn [bind].
    assert (Ci : vi_code i = row_code r) by apply M.
    rewrite obtain_next by (intros e I; rewrite Ci; apply L; [auto|left; auto]). cbn [bind].
    destruct (IH (t ++ [mkbentry i []])) as (t2 & E2 & F2); auto.
    { intros e r' I I'. apply in_app_or in I as [I|[<-|[]]]; [apply L; [auto|right; auto]|].
      unfold be_code. cbn. rewrite Ci. rewrite Forall_forall in S2. auto. }
    exists (mkbentry i [] :: t2). rewrite E2, <- app_assoc. split; auto. constructor; auto. split; auto.
Qed.

Lemma rows_sorted (means : brow -> varinfo -> Prop) rows t : (forall r i, means r i -> vi_code i = row_code r) ->
  StronglySorted (fun a b => row_code a < row_code b) rows -> Forall2 (entry_of means) rows t ->
  StronglySorted (fun a b => be_code a < be_code b) t.
Proof.
  intros C S F. induction F as [|r e rows t [M _] F IH]; constructor; inversion S as [|? ? S1 S2]; subst; auto.
  clear IH S S1. induction F as [|r2 e2 rows t [M2 _] F IH2]; constructor; inversion S2; subst; auto.
  unfold be_code. rewrite (C _ _ M), (C _ _ M2). auto.
Qed.

(** Looking up a code in the loaded table is looking for its row. *)
Lemma rows_query (means : brow -> varinfo -> Prop) rows t code : (forall r i, means r i -> vi_code i = row_code r) ->
  StronglySorted (fun a b => row_code a < row_code b) rows -> Forall2 (entry_of means) rows t ->
  match List.find (fun r => row_code r =? code) rows with
  | Some r => exists i, query t code = Ok i /\ means r i
  | None => query t code = Err ENotFound
  end.
Proof.
  intros C S F. pose proof (query_spec t code (rows_sorted means rows t C S F)) as Q.
  assert (E : match List.find (fun r => row_code r =? code) rows, List.find (fun e => be_code e =? code) t with
              | Some r, Some e => means r (be_info e) | None, None => True | _, _ => False end).
  { clear Q. induction F as [|r e rows t [M _] F IH]; cbn [List.find]; auto.
    change (be_code e) with (vi_code (be_info e)). rewrite (C _ _ M). destruct (row_code r =? code); [exact M|]. apply IH. inversion S; auto. }
  destruct (List.find (fun r => row_code r =? code) rows), (List.find (fun e => be_code e =? code) t); try contradiction; [|apply Q].
  destruct Q as [Q _]. eauto.
Qed.

Theorem bufr_file rows : Forall brow_ok rows -> StronglySorted (fun a b => row_code a < row_code b) rows ->
  exists t, load_bufr (concat (map render_brow rows)) = Ok t /\ forall code,
    match List.find (fun r => row_code r =? code) rows with
    | Some r => exists i, query t code = Ok i /\ brow_means r i
    | None => query t code = Err ENotFound
    end.
Proof.
  intros F S. destruct (load_brows rows [] F S) as (t & E & F2); [intros ? ? []|].
  exists t. split.
  - unfold load_bufr. rewrite file_lines_spec; [exact E|]. apply Forall_forall. intros l I. apply in_map_iff in I as (r & <- & I).
    apply brow_good. rewrite Forall_forall in F. auto.
  - intros code. apply (rows_query brow_means rows t code); auto. intros r i M. apply M.
Qed.

Theorem crex_file rows : Forall crow_ok rows -> StronglySorted (fun a b => row_code a < row_code b) rows ->
  exists t, load_crex (concat (map render_crow rows)) = Ok t /\ forall code,
    match List.find (fun r => row_code r =? code) rows with
    | Some r => exists i, query t code = Ok i /\ crow_means r i
    | None => query t code = Err ENotFound
    end.
Proof.
  intros F S. destruct (load_crows rows [] F S) as (t & E & F2); [intros ? ? []|].
  exists t. split.
  - unfold load_crex. rewrite file_lines_spec; [exact E|]. apply Forall_forall. intros l I. apply in_map_iff in I as (r & <- & I).
    apply crow_good. rewrite Forall_forall in F. auto.
  - intros code. apply (rows_query crow_means rows t code); auto. intros r i M. apply M.
Qed.

Lemma digits_per_bits_spec b l : digits_per_bits b = Ok l -> 10 ^ (l - 1) < 2 ^ b <= 10 ^ l.
Proof.
  intros H.
  assert (A : forallb (fun b => match digits_per_bits b with
      | Ok l => (10 ^ (l - 1) <? 2 ^ b) && (2 ^ b <=? 10 ^ l)
      | _ => false end) (map Z.of_nat (seq 1 32)) = true) by (vm_compute; reflexivity).
  assert (B : 1 <= b <= 32) by (unfold digits_per_bits in H; destruct ((b <=? 0) || (32 <? b)) eqn:E; [discriminate|lia]).
  rewrite forallb_forall in A.
  assert (I : In b (map Z.of_nat (seq 1 32))) by (apply in_map_iff; exists (Z.to_nat b); split; [lia|apply in_seq; lia]).
  specialize (A b I). rewrite H in A. lia.
Qed.

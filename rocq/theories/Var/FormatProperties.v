(** C50: the formatted value of a variable, given to setf, is the value again. *)
From Coq Require Import ZArith Lia ZifyBool ZifyNat Reals Lra String.
From Flocq Require Import Core BinarySingleNaN.
From Verif Require Import Base Bits.Model Bits.Spec Num.Float Num.FloatProofs Varcode.Model Varinfo.Model Varinfo.Proofs Varinfo.RangeProofs
  Var.Model Var.Spec Var.Proofs Var.TextProofs Var.CodecProofs Var.Format Var.FormatSpec Var.FormatProofs.
From Verif Require Codec.AgainSteps.
Local Open Scope Z_scope.
Local Open Scope string_scope.
Local Open Scope list_scope.
Local Open Scope Z_scope.

(** ** There are functions as asked of the C library *)
(** The text without its sign, as the digits before and after the point. *)
Fixpoint until_point (t : list Z) : list Z * list Z :=
  match t with
  | [] => ([], [])
  | c :: r => if c =? 46 then ([], r) else let (a, b) := until_point r in (c :: a, b)
  end.
Definition parse (t : list Z) : nat * bool * Z :=
  let '(neg, r) := match t with 45 :: r => (true, r) | _ => (false, t) end in
  let (a, b) := until_point r in (length b, neg, dec_value 0 (a ++ b)).

Lemma until_point_digits a b : forallb c_isdigit a = true -> until_point (a ++ 46 :: b) = (a, b).
Proof.
  induction a as [|c a IH]; intros H; [reflexivity|]. cbn [forallb] in H. apply andb_prop in H as [H1 H2]. cbn [app until_point].
  unfold c_isdigit in H1. replace (c =? 46) with false by lia. rewrite IH by exact H2. reflexivity.
Qed.
Lemma until_point_none a : forallb c_isdigit a = true -> until_point a = (a, []).
Proof.
  induction a as [|c a IH]; intros H; [reflexivity|]. cbn [forallb] in H. apply andb_prop in H as [H1 H2]. cbn [until_point].
  unfold c_isdigit in H1. replace (c =? 46) with false by lia. rewrite IH by exact H2. reflexivity.
Qed.
Lemma forallb_firstn {A} (f : A -> bool) n l : forallb f l = true -> forallb f (firstn n l) = true.
Proof. intros H. rewrite <- (firstn_skipn n l), forallb_app in H. apply andb_prop in H as [H _]. exact H. Qed.
Lemma forallb_skipn {A} (f : A -> bool) n l : forallb f l = true -> forallb f (skipn n l) = true.
Proof. intros H. rewrite <- (firstn_skipn n l), forallb_app in H. apply andb_prop in H as [_ H]. exact H. Qed.
Lemma zeros_digits n : forallb c_isdigit (repeat 48 n) = true.
Proof. induction n as [|n IH]; [reflexivity|]. cbn [repeat forallb]. rewrite IH. reflexivity. Qed.
Lemma zeros_value n : dec_value 0 (repeat 48 n) = 0.
Proof. induction n as [|n IH]; [reflexivity|]. exact IH. Qed.

Lemma parse_text s neg m : 0 <= m -> parse (decimal_text s neg m) = (s, neg, m).
Proof.
  intros H. destruct (digits_spec m H) as (D & V & _ & L). unfold decimal_text. cbv zeta. set (d := repeat 48 (S s - length (digits m)) ++ digits m).
  assert (Dd : forallb c_isdigit d = true) by (unfold d; rewrite forallb_app, zeros_digits, D; reflexivity).
  assert (Vd : dec_value 0 d = m) by (unfold d; rewrite dec_value_app, zeros_value; exact V).
  assert (Ld : length d = Nat.max (S s) (length (digits m))) by (unfold d; rewrite app_length, repeat_length; lia).
  clearbody d. pose proof (firstn_skipn (length d - s) d) as Fs.
  assert (X : until_point (firstn (length d - s) d ++ match s with O => [] | _ => 46 :: skipn (length d - s) d end) =
    (firstn (length d - s) d, skipn (length d - s) d)).
  { destruct s as [|s].
    - rewrite app_nil_r, Nat.sub_0_r, firstn_all, skipn_all. apply until_point_none. exact Dd.
    - apply until_point_digits. apply forallb_firstn. exact Dd. }
  unfold parse. assert (Y : forall q : bool, (let (a, b) := until_point (firstn (length d - s) d ++ match s with O => [] | _ => 46 :: skipn (length d - s) d end) in
      (length b, q, dec_value 0 (a ++ b))) = (s, q, m)).
  { intros q. rewrite X, Fs, Vd, skipn_length. f_equal. f_equal. lia. }
  destruct neg; cbn [app]; [apply Y|]. remember (firstn (length d - s) d ++ match s with O => [] | _ => 46 :: skipn (length d - s) d end) as t eqn:Et. destruct t as [|c t]; [apply Y|].
  assert (c <> 45).
  { assert (E : firstn (length d - s) d <> []) by (intros E; apply (f_equal (@length Z)) in E; rewrite firstn_length in E; cbn in E; lia).
    pose proof (forallb_firstn c_isdigit (length d - s) d Dd) as B. destruct (firstn (length d - s) d) as [|x l]; [congruence|]. cbn [app] in Et.
    injection Et as -> _. cbn [forallb] in B. unfold c_isdigit in B. lia. }
  destruct c as [|c|]; try apply Y. do 6 (destruct c as [c|c|]; try apply Y). congruence.
Qed.

(** The double nearest to a real number. *)
Definition nearest_double (x : R) : f64 :=
  binary_normalize 53 1024 _ _ mode_NE (Ztrunc (scaled_mantissa radix2 (FLT_exp (-1074) 53) (rnd x))) (cexp radix2 (FLT_exp (-1074) 53) (rnd x)) false.
Lemma nearest_double_ok x : (Rabs x <= big)%R -> is_finite (nearest_double x) = true /\ B2R (nearest_double x) = rnd x.
Proof.
  intros H. assert (G : generic_format radix2 (FLT_exp (-1074) 53) (rnd x)) by (apply generic_format_round; [apply FLT_exp_valid; reflexivity|apply valid_rnd_N]).
  pose proof G as G'. unfold generic_format in G'. unfold nearest_double.
  pose proof (binary_normalize_correct 53 1024 _ _ mode_NE (Ztrunc (scaled_mantissa radix2 (FLT_exp (-1074) 53) (rnd x))) (cexp radix2 (FLT_exp (-1074) 53) (rnd x)) false) as C.
  cbv zeta in C. rewrite <- G' in C. change (round radix2 (SpecFloat.fexp 53 1024) (round_mode mode_NE)) with rnd in C.
  rewrite (rnd_generic _ G), (rnd_lt_emax x H) in C. destruct C as (A & B & _). auto.
Qed.

Definition ideal_printf (s : nat) (x : f64) : list Z := decimal_text s (Bsign x) (ZnearestE (Rabs (B2R x) * IZR (10 ^ Z.of_nat s))).
Definition ideal_strtod (t : list Z) : f64 :=
  let '(s, neg, m) := parse t in nearest_double (IZR (if neg then - m else m) / IZR (10 ^ Z.of_nat s)).

Theorem C50_printf_exists : printf_correct ideal_printf.
Proof.
  intros s x F. set (y := (Rabs (B2R x) * IZR (10 ^ Z.of_nat s))%R). exists (ZnearestE y). split; [|split; [reflexivity|]].
  - assert (0 <= y)%R by (apply Rmult_le_pos; [apply Rabs_pos|apply IZR_le, Z.pow_nonneg; lia]).
    pose proof (Znearest_ge_floor (fun n => negb (Z.even n)) y) as A.
    assert (B : 0 <= Zfloor y) by (apply Zfloor_lub; exact H). exact (Z.le_trans _ _ _ B A).
  - fold y. rewrite Rabs_minus_sym. apply Znearest_half.
Qed.
Theorem C50_strtod_exists : strtod_correct ideal_strtod.
Proof.
  intros s neg m Hs Hm. unfold ideal_strtod. rewrite parse_text by lia. apply nearest_double_ok. pose proof big_ge.
  assert (T : (1 <= IZR (10 ^ Z.of_nat s))%R) by (apply IZR_le; assert (0 < 10 ^ Z.of_nat s) by (apply Z.pow_pos_nonneg; lia); lia).
  eapply Rle_trans; [apply (rabs_div_bound _ _ 1e40); [|exact T]|lra]. rewrite <- abs_IZR. replace (Z.abs (if neg then - m else m)) with m by (destruct neg; lia).
  destruct Hm as [_ Hm]. apply IZR_le in Hm. change (10 ^ 40) with 10000000000000000000000000000000000000000 in Hm. lra.
Qed.

(** ** Texts *)
Section Printf.
Context (fixed : nat -> f64 -> list Z).

(** The text of a number is its decimal representation, digit by digit. *)
Theorem C50_number_text : printf_correct fixed -> forall c k u, cell_ok c -> is_numeric (vi_type (c_info c)) = true -> c_val c = Some (VInt k) ->
  Z.abs k * 10 ^ Z.max 0 (- vi_scale (c_info c)) < 10 ^ 18 ->
  let text := decimal_text (Z.to_nat (vi_scale (c_info c))) (k <? 0) (Z.abs k * 10 ^ Z.max 0 (- vi_scale (c_info c))) in
  format fixed c u = Ok text /\ format_file fixed c u = Ok text.
Proof.
  intros P c k u [Hi Hv] Ht V Sc. rewrite V in Hv. destruct (info_ok_numeric _ Hi Ht) as (Hs & I1 & I2 & _).
  assert (R : vi_imin (c_info c) <= k <= vi_imax (c_info c)) by (unfold value_ok in Hv; destruct (vi_type (c_info c)); try discriminate; exact Hv).
  destruct (print_read fixed ideal_strtod P C50_strtod_exists c k Hi Ht) as (d & t & s & neg & m & E & T & Et & Es & B & _ & _ & X); [lia|exact V|].
  destruct X as [-> ->]; [exact Sc|]. assert (Ds : s = Z.to_nat (vi_scale (c_info c))) by (rewrite Es; unfold decimals; destruct (Z.ltb_spec 0 (vi_scale (c_info c))); lia).
  rewrite Ds in Et. cbv zeta. rewrite <- Et.
  assert (L : (length t <= 19)%nat).
  { rewrite Et. unfold scale_ok in Hs. assert (A : Z.abs k <= 2 ^ 31) by (unfold int_min, int_max in *; lia).
    destruct (Z_le_gt_dec (vi_scale (c_info c)) 0) as [L0|G0].
    - replace (Z.to_nat (vi_scale (c_info c))) with 0%nat by lia. eapply Nat.le_trans; [apply (decimal_text_length 0 _ _ 18); [|lia]|cbn; lia].
      split; [|exact Sc]. apply Z.mul_nonneg_nonneg; [lia|]. apply Z.pow_nonneg. lia.
    - eapply Nat.le_trans; [apply (decimal_text_length _ _ _ 10); [|lia]|].
      + replace (Z.max 0 (- vi_scale (c_info c))) with 0 by lia. change (10 ^ 0) with 1. change (10 ^ Z.of_nat 10) with 10000000000. lia.
      + destruct (Nat.eqb_spec (Z.to_nat (vi_scale (c_info c))) 0); lia. }
  unfold format, format_file. rewrite V. destruct (vi_type (c_info c)); try discriminate; rewrite E; cbn [bind]; rewrite T, firstn_all2 by exact L; auto.
Qed.

(** The text of a set binary value is its bytes in hexadecimal, and no value looks like another. *)
Definition unhex (c : Z) : Z := if c <? 65 then c - 48 else c - 55.
Fixpoint bytes_of (t : list Z) : list Z := match t with a :: b :: r => 16 * unhex a + unhex b :: bytes_of r | _ => [] end.
Lemma bytes_of_hex b : Forall (fun x => 0 <= x < 256) b -> bytes_of (flat_map hex2 b) = b.
Proof.
  induction 1 as [|x b H F IH]; [reflexivity|]. cbn [flat_map]. unfold hex2 at 1. cbn [app bytes_of]. rewrite IH. f_equal.
  unfold u8. rewrite Z.mod_small by lia. pose proof (Z.div_mod x 16). pose proof (Z.mod_pos_bound x 16). assert (0 <= x / 16 < 16) by (split; [apply Z.div_pos|apply Z.div_lt_upper_bound]; lia).
  unfold hex_digit, unhex. destruct (Z.ltb_spec (x / 16) 10), (Z.ltb_spec (x mod 16) 10); repeat match goal with |- context [if ?a <? ?b then _ else _] => destruct (Z.ltb_spec a b) end; lia.
Qed.
Theorem C50_binary_text : forall c b u, cell_ok c -> vi_type (c_info c) = TBinary -> c_val c = Some (VBin b) -> Forall (fun x => 0 <= x < 256) b ->
  exists t, format fixed c u = Ok t /\ format_file fixed c u = Ok t /\ bytes_of t = b.
Proof.
  intros c b u [Hi Hv] Ht V F. rewrite V in Hv. unfold value_ok in Hv. rewrite Ht in Hv. exists (flat_map hex2 b). unfold format, format_file. rewrite V, Ht.
  replace (Nat.ltb (length b) (ilen (c_info c))) with false by lia. rewrite firstn_all2 by lia. split; [reflexivity|]. split; [reflexivity|apply bytes_of_hex; exact F].
Qed.

(** ** Reading the text back *)
Context (strtod : list Z -> f64).
Theorem C50_file_text_read_back : printf_correct fixed -> strtod_correct strtod -> forall o c c0,
  cell_ok c -> c_info c0 = c_info c -> vi_type (c_info c) <> TBinary -> c_val c <> Some (VStr []) ->
  exists t, format_file fixed c [] = Ok t /\ setf strtod o c0 (Some t) = Done c.
Proof.
  intros P Q o c c0 [Hi Hv] Hc Nb Ne. unfold format_file. destruct c as [i v]. cbn [c_info c_val] in *. destruct v as [v|].
  2:{ exists []. split; [reflexivity|]. cbn. unfold unset. rewrite Hc. reflexivity. }
  unfold value_ok in Hv. destruct (vi_type i) eqn:Ty; destruct v as [k|s|b]; try contradiction.
  - assert (Hn : is_numeric (vi_type i) = true) by (rewrite Ty; reflexivity). destruct (info_ok_numeric _ Hi Hn) as (Hs & I1 & I2 & _).
    destruct (print_read fixed strtod P Q (mkcell i (Some (VInt k))) k Hi Hn) as (d & t & s & neg & m & E & T & Et & _ & _ & F & B & _); [lia|reflexivity|].
    exists t. cbn [c_info] in *. rewrite E. cbn [bind]. rewrite T. split; [reflexivity|]. pose proof (decimal_text_nonempty s neg m) as N0. rewrite <- Et in N0.
    unfold setf. destruct t as [|ch t]; [congruence|]. rewrite Hc, Ty. rewrite (setd_scaled o c0 k); rewrite ?Hc; auto; [unfold with_val; rewrite Hc; reflexivity|lia].
  - assert (Hn : is_numeric (vi_type i) = true) by (rewrite Ty; reflexivity). destruct (info_ok_numeric _ Hi Hn) as (Hs & I1 & I2 & _).
    destruct (print_read fixed strtod P Q (mkcell i (Some (VInt k))) k Hi Hn) as (d & t & s & neg & m & E & T & Et & _ & _ & F & B & _); [lia|reflexivity|].
    exists t. cbn [c_info] in *. rewrite E. cbn [bind]. rewrite T. split; [reflexivity|]. pose proof (decimal_text_nonempty s neg m) as N0. rewrite <- Et in N0.
    unfold setf. destruct t as [|ch t]; [congruence|]. rewrite Hc, Ty. rewrite (setd_scaled o c0 k); rewrite ?Hc; auto; [unfold with_val; rewrite Hc; reflexivity|lia].
  - exists s. split; [reflexivity|]. destruct Hv as [L F]. unfold setf. destruct s as [|ch s']; [congruence|]. rewrite Hc, Ty. unfold assign_c_checked. rewrite Hc.
    rewrite Nat.ltb_irrefl. set (s := ch :: s') in *. unfold strncpy_str.
    assert (C : cstr (firstn (ilen i) (s ++ [0])) = s).
    { destruct (Nat.eq_dec (length s) (ilen i)) as [<-|N].
      - rewrite firstn_app, firstn_all, Nat.sub_diag, app_nil_r. rewrite <- (cstr_app_zero s F) at 2. 
        clear -F. induction F as [|x l H F IH]; [reflexivity|]. cbn [cstr app]. destruct (x =? 0); [reflexivity|]. f_equal. exact IH.
      - rewrite firstn_all2 by (rewrite app_length; change (length [0]) with 1%nat; lia). apply cstr_app_zero. exact F. }
    rewrite C, app_length. change (length [0]) with 1%nat. replace (Nat.eqb (length s) (length s + 1)) with false by lia. rewrite andb_false_r. unfold with_val. rewrite Hc. reflexivity.
Qed.

Theorem C50_text_read_back : printf_correct fixed -> strtod_correct strtod -> forall o c c0,
  cell_ok c -> c_info c0 = c_info c -> vi_type (c_info c) <> TBinary -> c_val c <> Some (VStr []) ->
  (forall k, c_val c = Some (VInt k) -> Z.abs k * 10 ^ Z.max 0 (- vi_scale (c_info c)) < 10 ^ 18) ->
  exists t, format fixed c [] = Ok t /\ setf strtod o c0 (Some t) = Done c.
Proof.
  intros P Q o c c0 K Hc Nb Ne Sc. destruct (C50_file_text_read_back P Q o c c0 K Hc Nb Ne) as (t & F & S). exists t. split; [|exact S].
  destruct (c_val c) as [[k|s|b]|] eqn:V.
  - destruct K as [Hi Hv]. rewrite V in Hv. assert (Hn : is_numeric (vi_type (c_info c)) = true) by (unfold value_ok in Hv; destruct (vi_type (c_info c)); try contradiction; reflexivity).
    destruct (C50_number_text P c k []) as [A B]; auto; [split; [exact Hi|rewrite V; exact Hv]|]. rewrite A. rewrite B in F. exact F.
  - unfold format. unfold format_file in F. rewrite V in *. destruct (vi_type (c_info c)); try discriminate. exact F.
  - unfold format. unfold format_file in F. rewrite V in *. destruct (vi_type (c_info c)); try discriminate. exact F.
  - unfold format. unfold format_file in F. rewrite V in *. exact F.
Qed.
End Printf.

(** ** Examples and what is lost *)
Ltac get_info r view val :=
  let i := fresh "i" in let E := fresh "E" in let V := fresh "V" in
  destruct (res_view r view val ltac:(vm_compute; reflexivity)) as (i & E & V).

Definition text (s : string) : list Z := map (fun a => Z.of_nat (Ascii.nat_of_ascii a)) (list_ascii_of_string s).
Example C50_example : decimal_text 2 false 28315 = text "283.15" /\ decimal_text 2 true 5 = text "-0.05" /\ decimal_text 0 true 120 = text "-120" /\
  forall fixed, printf_correct fixed ->
  exists i, set_bufr (wr_var 0 12 101) "K" 2 5 0 16 = Ok i /\ cell_ok (mkcell i (Some (VInt 28315))) /\
    format fixed (mkcell i (Some (VInt 28315))) [] = Ok (text "283.15").
Proof.
  split; [vm_compute; reflexivity|]. split; [vm_compute; reflexivity|]. split; [vm_compute; reflexivity|]. intros fixed P.
  get_info (set_bufr (wr_var 0 12 101) "K" 2 5 0 16) (fun i => (vi_type i, vi_scale i, vi_imin i, vi_imax i)) (TDecimal, 2, 0, 65534).
  injection V as V1 V2 V3 V4. exists i. split; [exact E|]. assert (K : cell_ok (mkcell i (Some (VInt 28315)))).
  { split; [apply set_bufr_ok in E; auto; unfold int_min, int_max; lia|]. cbn. unfold value_ok. rewrite V1, V3, V4. lia. }
  split; [exact K|]. destruct (C50_number_text fixed P (mkcell i (Some (VInt 28315))) 28315 [] K) as [A _]; cbn [c_info c_val]; rewrite ?V1, ?V2; auto; [reflexivity|].
  cbv zeta in A. cbn [c_info] in A. rewrite V2 in A. rewrite A. vm_compute. reflexivity.
Qed.

Lemma long_number fixed strtod i : printf_correct fixed -> strtod_correct strtod -> info_ok i -> vi_type i = TDecimal -> vi_scale i = -11 ->
  vi_imin i <= 0 -> 200000000 <= vi_imax i ->
  format fixed (mkcell i (Some (VInt 200000000))) [] = Ok (text "2000000000000000000") /\
  format_file fixed (mkcell i (Some (VInt 200000000))) [] = Ok (text "20000000000000000000") /\
  setf strtod default_options (fresh i) (Some (text "2000000000000000000")) = Done (mkcell i (Some (VInt 20000000))).
Proof.
  intros P Q Hi V1 V2 V3 V4. assert (Hn : is_numeric (vi_type i) = true) by (rewrite V1; reflexivity).
  destruct (enqd_number (mkcell i (Some (VInt 200000000))) 200000000) as (d & D & F & B & S); cbn [c_info c_val]; auto; [unfold int_min, int_max; lia|].
  cbn [c_info] in B. rewrite V2 in B.
  assert (X : forall k, scaled (-11) (k * 1000) = rnd (IZR (k * 100000000000000))).
  { intros k. unfold scaled. change (0 <? -11) with false. change (-11 <? 0) with true. cbv iota. rewrite <- mult_IZR. f_equal. f_equal. change (10 ^ (- -11)) with 100000000000. lia. }
  assert (B' : B2R d = IZR 20000000000000000000).
  { rewrite B. change 200000000 with (200000 * 1000). rewrite X. change (200000 * 100000000000000) with 20000000000000000000. apply rnd_generic.
    change 20000000000000000000 with (20000 * 10 ^ 15). replace (20000 * 10 ^ 15) with (2 * 10 ^ 19) by reflexivity.
    apply generic_format_FLT. exists (Float radix2 (2 * 5 ^ 19) 19); cbn [Fnum Fexp]; [|vm_compute; reflexivity|lia].
    unfold F2R. cbn [Fnum Fexp]. rewrite <- (IZR_Zpower radix2) by lia. rewrite <- mult_IZR. f_equal. }
  destruct (P 0%nat d F) as (m & M & T & N). rewrite B', S in *. change (IZR (10 ^ Z.of_nat 0)) with 1%R in N.
  assert (Em : m = 20000000000000000000).
  { apply (near_integers _ _ _ N). rewrite Rmult_1_r, <- abs_IZR. change (Z.abs 20000000000000000000) with 20000000000000000000. rewrite Rminus_diag_eq by reflexivity. rewrite Rabs_R0. lra. }
  subst m. change (decimal_text 0 (200000000 <? 0) 20000000000000000000) with (text "20000000000000000000") in T.
  assert (Dc : decimals i = 0%nat) by (unfold decimals; rewrite V2; reflexivity).
  split; [|split].
  - unfold format. cbn [c_info c_val]. rewrite V1, D. cbn [bind]. rewrite Dc, T. reflexivity.
  - unfold format_file. cbn [c_info c_val]. rewrite V1, D. cbn [bind]. rewrite Dc, T. reflexivity.
  - destruct (Q 0%nat false 2000000000000000000) as [Q1 Q2]; [lia|lia|].
    change (decimal_text 0 false 2000000000000000000) with (text "2000000000000000000") in *. change (IZR (10 ^ Z.of_nat 0)) with 1%R in Q2. unfold Rdiv in Q2. rewrite Rinv_1, Rmult_1_r in Q2.
    unfold setf. change (text "2000000000000000000") with (50 :: repeat 48 18) in *. cbn [c_info fresh]. rewrite V1.
    rewrite (setd_scaled default_options (fresh i) 20000000); cbn [fresh c_info]; auto; [|lia].
    change (50 :: repeat 48 18) with (50 :: repeat 48 18) in Q2. rewrite Q2, V2. change 20000000 with (20000 * 1000). rewrite X. reflexivity.
Qed.

(** Numbers of more than 19 characters are cut, and come back as other numbers: B24001, the activity released in becquerel, has
    scale -11 and 28 bits in the tables of the library; 2*10^19 Bq is printed without its last zero, and read as 2*10^18 Bq. *)
Theorem C50_long_number_refuted : forall fixed strtod, printf_correct fixed -> strtod_correct strtod ->
  exists i, set_bufr (wr_var 0 24 1) "BQ" (-11) 9 0 28 = Ok i /\ cell_ok (mkcell i (Some (VInt 200000000))) /\
    format fixed (mkcell i (Some (VInt 200000000))) [] = Ok (text "2000000000000000000") /\
    format_file fixed (mkcell i (Some (VInt 200000000))) [] = Ok (text "20000000000000000000") /\
    setf strtod default_options (fresh i) (Some (text "2000000000000000000")) = Done (mkcell i (Some (VInt 20000000))).
Proof.
  intros fixed strtod P Q.
  get_info (set_bufr (wr_var 0 24 1) "BQ" (-11) 9 0 28) (fun i => (vi_type i, vi_scale i, vi_imin i, vi_imax i)) (TDecimal, -11, 0, 268435454).
  injection V as V1 V2 V3 V4. exists i. split; [exact E|]. assert (Hi : info_ok i) by (apply set_bufr_ok in E; auto; unfold int_min, int_max; lia).
  split; [split; [exact Hi|]; cbn; unfold value_ok; rewrite V1, V3, V4; lia|]. apply long_number; auto; lia.
Qed.

(** An empty text is read as "not set", and binary values cannot be read at all. *)
Theorem C50_empty_text_refuted : forall fixed strtod, exists i, set_bufr (wr_var 0 1 11) "CCITTIA5" 0 9 0 72 = Ok i /\
  cell_ok (mkcell i (Some (VStr []))) /\ format fixed (mkcell i (Some (VStr []))) [] = Ok [] /\
  setf strtod default_options (fresh i) (Some []) = Done (mkcell i None).
Proof.
  intros fixed strtod. get_info (set_bufr (wr_var 0 1 11) "CCITTIA5" 0 9 0 72) (fun i => (vi_type i, vi_len i)) (TString, 9). injection V as V1 V2.
  exists i. split; [exact E|]. split; [|split; [unfold format; cbn [c_info c_val]; rewrite V1; reflexivity|reflexivity]].
  split; [apply set_bufr_ok in E; auto; unfold int_min, int_max; lia|]. cbn. unfold value_ok. rewrite V1. split; [cbn; lia|constructor].
Qed.
Theorem C50_binary_refuted : forall fixed strtod, exists i, set_binary (wr_var 0 63 1) 16 = Ok i /\
  cell_ok (mkcell i (Some (VBin [171; 7]))) /\ format fixed (mkcell i (Some (VBin [171; 7]))) [] = Ok (text "AB07") /\
  setf strtod default_options (fresh i) (Some (text "AB07")) = Thrown EUnimpl (fresh i).
Proof.
  intros fixed strtod. get_info (set_binary (wr_var 0 63 1) 16) (fun i => (vi_type i, vi_len i)) (TBinary, 2). injection V as V1 V2.
  exists i. split; [exact E|]. assert (L : ilen i = 2%nat) by (unfold ilen; rewrite V2; reflexivity).
  split; [|split; [unfold format; cbn [c_info c_val]; rewrite V1, L; reflexivity|unfold setf; cbn [text fresh c_info]; rewrite V1; reflexivity]].
  split; [|cbn; unfold value_ok; rewrite V1, L; reflexivity]. apply (Codec.AgainSteps.set_binary_ok (wr_var 0 63 1) 16 i); [lia|exact E].
Qed.

Print Assumptions C50_printf_exists.
Print Assumptions C50_strtod_exists.
Print Assumptions C50_number_text.
Print Assumptions C50_binary_text.
Print Assumptions C50_file_text_read_back.
Print Assumptions C50_text_read_back.
Print Assumptions C50_long_number_refuted.
Print Assumptions C50_empty_text_refuted.
Print Assumptions C50_binary_refuted.

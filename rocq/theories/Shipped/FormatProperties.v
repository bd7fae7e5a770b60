(** C50 with the tables that come with the library. *)
From Coq Require Import ZArith ZifyBool ZifyNat String List.
From Verif Require Import Base Varcode.Model Varinfo.Model Varinfo.Proofs Varinfo.RangeProofs Tables.Model Tables.Spec Tables.Proofs Tables.LoadProofs
  Var.Model Var.Spec Var.Format Var.FormatSpec Shipped.Text Shipped.Catalog Shipped.Check Shipped.Spec Shipped.Proofs Shipped.EndProofs Shipped.AgainProperties.
From Verif Require Var.FormatProperties.
Import ListNotations.
Local Open Scope Z_scope.

Lemma short_ok i k f : info_ok i -> is_numeric (vi_type i) = true -> vi_imin i <= k <= vi_imax i -> says f i -> short_number f = true ->
  ~ In (vi_code i) long_elements -> Z.abs k * 10 ^ Z.max 0 (- vi_scale i) < 10 ^ 18.
Proof.
  intros Hi Hn R (S1 & _ & S3 & _ & _ & S6 & S7) C N. unfold short_number in C. destruct (info_ok_numeric _ Hi Hn) as (_ & I1 & I2 & _).
  destruct (bf_text f); [rewrite S7 in Hn; discriminate|]. cbn [orb] in C. apply orb_prop in C as [C|C].
  2:{ exfalso. apply N. apply existsb_exists in C as (c & Ic & Ec). apply Z.eqb_eq in Ec as <-. rewrite S1. exact Ic. }
  assert (P : 0 < 10 ^ Z.max 0 (- vi_scale i)) by (apply Z.pow_pos_nonneg; lia). rewrite <- S3, <- S6 in C.
  destruct (Z_le_gt_dec (-8) (vi_scale i)) as [L|G].
  - assert (10 ^ Z.max 0 (- vi_scale i) <= 10 ^ 8) by (apply Z.pow_le_mono_r; lia). unfold int_min, int_max in *. change (10 ^ 18) with 1000000000000000000.
    change (10 ^ 8) with 100000000 in *. nia.
  - replace (-8 <=? vi_scale i) with false in C by lia. cbn [orb] in C. apply andb_prop in C as [C1 C2]. apply Z.ltb_lt in C1. apply Z.leb_le in C2.
    destruct (range_crex i k Hi Hn C1 R) as [A _]. assert (0 <= vi_len i) by (destruct (Z_lt_le_dec (vi_len i) 0) as [X|X]; [rewrite (Z.pow_neg_r 10 (vi_len i)) in A by lia; lia|exact X]).
    replace (vi_len i - vi_scale i) with (vi_len i + (- vi_scale i)) in C2 by lia. rewrite Z.pow_add_r in C2 by lia.
    replace (Z.max 0 (- vi_scale i)) with (- vi_scale i) in * by lia. nia.
Qed.

Lemma table_core fixed strtod fs t code i o c : printf_correct fixed -> strtod_correct strtod -> Forall2 entry_says fs t -> forallb short_number fs = true ->
  query t code = Ok i -> ~ In code long_elements -> cell_ok c -> c_info c = i -> c_val c <> Some (VStr []) ->
  exists t, format fixed c [] = Ok t /\ format_file fixed c [] = Ok t /\ setf strtod o (fresh i) (Some t) = Done c.
Proof.
  intros P Q F H Hq N K E V. destruct (query_from _ _ _ _ F Hq) as (f & If & Sy). pose proof (query_code _ _ _ Hq) as Qc.
  rewrite forallb_forall in H. specialize (H f If).
  assert (B : vi_type (c_info c) <> TBinary) by (rewrite E; destruct Sy as (_ & _ & _ & _ & _ & _ & ->); destruct (bf_text f); [discriminate|]; destruct (bf_scale f =? 0); discriminate).
  assert (Sh : forall k, c_val c = Some (VInt k) -> Z.abs k * 10 ^ Z.max 0 (- vi_scale (c_info c)) < 10 ^ 18).
  { intros k Vk. destruct K as [Hi Hv]. rewrite Vk in Hv. unfold value_ok in Hv. rewrite E in *.
    apply (short_ok i k f); auto; [destruct (vi_type i); try contradiction; reflexivity|destruct (vi_type i); try contradiction; exact Hv|rewrite Qc; exact N]. }
  assert (Fi : c_info (fresh i) = c_info c) by (rewrite E; reflexivity).
  destruct (Var.FormatProperties.C50_text_read_back fixed strtod P Q o c (fresh i) K Fi B V Sh) as (x & X1 & X2).
  destruct (Var.FormatProperties.C50_file_text_read_back fixed strtod P Q o c (fresh i) K Fi B V) as (y & Y1 & Y2).
  exists x. split; [exact X1|]. split; [|exact X2]. destruct (c_val c) as [[k|s|b]|] eqn:Vc.
  - destruct (Var.FormatProperties.C50_number_text fixed P c k [] K) as [A1 A2]; auto.
    { destruct K as [Hi Hv]. rewrite Vc in Hv. unfold value_ok in Hv. destruct (vi_type (c_info c)); try contradiction; reflexivity. }
    congruence.
  - unfold format in X1. unfold format_file. rewrite Vc in *. destruct (vi_type (c_info c)); try discriminate X1. exact X1.
  - unfold format in X1. unfold format_file. rewrite Vc in *. destruct (vi_type (c_info c)); try discriminate X1. exact X1.
  - unfold format in X1. unfold format_file. rewrite Vc in *. exact X1.
Qed.

(** The value of any variable of a table, but for the two elements listed, is read back from its text. *)
Theorem C50_shipped_tables : forall fixed strtod, printf_correct fixed -> strtod_correct strtod ->
  forall n ls t code i, In (n, ls) shipped_b ->
  crex_name n = false /\ ~ In n unloadable /\ load_bufr (file ls) = Ok t \/ In n crex_too /\ load_crex (file ls) = Ok t ->
  query t code = Ok i -> ~ In code [wr_var 0 24 1; wr_var 0 24 2] ->
  forall o c, cell_ok c -> c_info c = i -> c_val c <> Some (VStr []) ->
  exists t, format fixed c [] = Ok t /\ format_file fixed c [] = Ok t /\ setf strtod o (fresh i) (Some t) = Done c.
Proof.
  intros fixed strtod P Q n ls t code i I L Hq N o c K E V. change [wr_var 0 24 1; wr_var 0 24 2] with long_elements in N.
  destruct L as [(C & U & L)|[U L]].
  - destruct (b_table n ls I U) as (fs & t' & El & L' & F & _). pose proof (b_short n ls fs I U El) as S. rewrite C in *. unfold load_b in L'.
    assert (t' = t) by congruence. subst t'. eapply table_core; eauto.
  - destruct (c_table n ls I U) as (fs & t' & El & L' & F & _). pose proof (c_short n ls fs I U El) as S.
    assert (t' = t) by congruence. subst t'. eapply table_core; eauto.
Qed.

(** B24001 is in the tables, and its large values are not: for version 33 it has scale -11 and 28 bits. *)
Lemma facts_33 : facts "B0000000000000033000.txt" (wr_var 0 24 1) = Some (false, -11, 0, 28, 9).
Proof. vm_cast_no_check (eq_refl (Some (false, -11, 0, 28, 9))). Qed.

Theorem C50_shipped_tables_refuted : forall fixed strtod, printf_correct fixed -> strtod_correct strtod ->
  forall ls t, In ("B0000000000000033000.txt"%string, ls) shipped_b -> load_bufr (file ls) = Ok t ->
  exists i, query t (wr_var 0 24 1) = Ok i /\ cell_ok (mkcell i (Some (VInt 200000000))) /\
    format fixed (mkcell i (Some (VInt 200000000))) [] = Ok (Var.FormatProperties.text "2000000000000000000") /\
    format_file fixed (mkcell i (Some (VInt 200000000))) [] = Ok (Var.FormatProperties.text "20000000000000000000") /\
    setf strtod default_options (fresh i) (Some (Var.FormatProperties.text "2000000000000000000")) = Done (mkcell i (Some (VInt 20000000))).
Proof.
  intros fixed strtod P Q ls t I L. assert (U : ~ In "B0000000000000033000.txt"%string unloadable) by (intros [X|[]]; discriminate).
  destruct (fact_query _ ls t _ _ _ _ _ _ I eq_refl U L facts_33) as (u & Hq & Yes). destruct (query t (wr_var 0 24 1)) as [i| |] eqn:E; try discriminate Yes.
  exists i. split; [reflexivity|]. pose proof (load_bufr_ok _ _ L _ _ E) as Hi.
  assert (X : vi_type i = TDecimal /\ vi_scale i = -11 /\ vi_imin i = 0 /\ vi_imax i = 268435454).
  { change (-11 =? 0) with false in Hq. cbv iota in Hq. symmetry in Hq.
    pose proof (compute_range_fields _ _ _ _ _ _ _ _ Hq) as (_ & F2 & _ & F4 & _). split; [exact F2|]. split; [exact F4|].
    assert (Y : exists a b, compute_range (wr_var 0 24 1) TDecimal u (-11) 9 0 28 = Ok (mkinfo (wr_var 0 24 1) TDecimal u (-11) 9 0 28 0 268435454 a b)) by (do 2 eexists; reflexivity).
    destruct Y as (a & b & Y). rewrite Y in Hq. assert (Ei : i = mkinfo (vi_code i) (vi_type i) (vi_unit i) (vi_scale i) (vi_len i) (vi_bit_ref i) (vi_bit_len i) (vi_imin i) (vi_imax i) (vi_dmin i) (vi_dmax i)) by (destruct i; reflexivity). injection Hq as Hq. subst i. split; reflexivity. }
  destruct X as (V1 & V2 & V3 & V4). split; [split; [exact Hi|]; cbn; unfold value_ok; rewrite V1, V3, V4; lia|].
  apply Var.FormatProperties.long_number; auto; lia.
Qed.

(** The hypotheses of the first theorem are met by an element of the same table: B12101 has scale 2 and 16 bits. *)
Lemma facts_33_temperature : facts "B0000000000000033000.txt" (wr_var 0 12 101) = Some (false, 2, 0, 16, 5).
Proof. vm_cast_no_check (eq_refl (Some (false, 2, 0, 16, 5))). Qed.
Lemma fact_listed n code x : facts n code = Some x -> exists ls, In (n, ls) shipped_b.
Proof. unfold facts. destruct (listed_in n shipped_b) as [ls|] eqn:E; [|discriminate]. intros _. exists ls. apply listed_in_in. exact E. Qed.
Example C50_shipped_example : exists ls t i, In ("B0000000000000033000.txt"%string, ls) shipped_b /\ load_bufr (file ls) = Ok t /\
  query t (wr_var 0 12 101) = Ok i /\ vi_scale i = 2 /\ cell_ok (mkcell i (Some (VInt 28315))).
Proof.
  pose proof (fact_listed _ _ _ facts_33_temperature) as X.
  destruct X as (ls & I). assert (U : ~ In "B0000000000000033000.txt"%string unloadable) by (intros [X|[]]; discriminate).
  destruct (b_table _ ls I U) as (fs & t & _ & L & _). change (crex_name "B0000000000000033000.txt") with false in L. unfold load_b in L.
  destruct (fact_query _ ls t _ _ _ _ _ _ I eq_refl U L facts_33_temperature) as (u & Hq & Yes). destruct (query t (wr_var 0 12 101)) as [i| |] eqn:E; try discriminate Yes.
  exists ls, t, i. split; [exact I|]. split; [exact L|]. split; [exact E|]. pose proof (load_bufr_ok _ _ L _ _ E) as Hi.
  change (2 =? 0) with false in Hq. cbv iota in Hq. symmetry in Hq.
  assert (Y : exists a b, compute_range (wr_var 0 12 101) TDecimal u 2 5 0 16 = Ok (mkinfo (wr_var 0 12 101) TDecimal u 2 5 0 16 0 65534 a b)) by (do 2 eexists; reflexivity).
  destruct Y as (a & b & Y). rewrite Y in Hq. assert (Ei : i = mkinfo (vi_code i) (vi_type i) (vi_unit i) (vi_scale i) (vi_len i) (vi_bit_ref i) (vi_bit_len i) (vi_imin i) (vi_imax i) (vi_dmin i) (vi_dmax i)) by (destruct i; reflexivity). injection Hq as Hq. subst i. split; [reflexivity|]. split; [exact Hi|]. cbn. lia.
Qed.

Print Assumptions C50_shipped_tables.
Print Assumptions C50_shipped_tables_refuted.

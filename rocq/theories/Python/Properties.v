(** Property C59: variables and tables seen from Python and from Lua. *)
From Coq Require Import String Reals Sorting.Sorted ZifyBool ZifyNat.
From Flocq Require Import Core BinarySingleNaN.
From Verif Require Import Base Bits.Spec Num.Float Varcode.Model Varinfo.Model Varinfo.RangeProofs
  Var.Model Var.Spec Var.Proofs Var.TextProofs Var.AttrProofs Var.CodecProofs Var.Format Var.FormatSpec Var.FormatProofs.
From Verif Require Varcode.Properties Var.Properties Var.FormatProperties Conv.Model Conv.Properties Tables.Model Tables.Properties.
From Verif Require Import Python.Model Python.Utf8Proofs.
Local Open Scope Z_scope.

Ltac get_info r view val :=
  let i := fresh "i" in let E := fresh "E" in let V := fresh "V" in
  destruct (res_view r view val ltac:(vm_compute; reflexivity)) as (i & E & V).

(** wreport.Var(info, value) *)
Definition new (i : varinfo) (x : pyobj) : py var := py_var i (Some (AInfo i, Some x)).

(** ** Values given and values read *)

(** An int in the range of a numeric variable is stored exactly; the raw value is read with enqi, and enq
    gives the int itself, or for a decimal variable that many units of its last digit.  An int that fits
    a C int and is out of range raises OverflowError, and a variable that is not numeric raises
    TypeError. *)
Theorem C59_int : forall i k, info_ok i ->
  (is_numeric (vi_type i) = true -> vi_imin i <= k <= vi_imax i ->
     exists v, new i (PInt k) = Return v /\ v = mkvar (mkcell i (Some (VInt k))) [] /\ py_enqi v = Return (PInt k) /\
       (vi_type i = TInteger -> forall d, py_enq v = Return (PInt k) /\ py_get v d = Return (PInt k)) /\
       (vi_type i = TDecimal -> exists x, decode_decimal (vi_scale i) k = Ok x /\
          forall d, py_enq v = Return (PFloat x) /\ py_get v d = Return (PFloat x) /\ py_enqd v = Return (PFloat x))) /\
  (is_numeric (vi_type i) = true -> int_min <= k <= int_max -> ~ (vi_imin i <= k <= vi_imax i) ->
     new i (PInt k) = Raise OverflowError) /\
  (is_numeric (vi_type i) = false -> new i (PInt k) = Raise TypeError).
Proof.
  intros i k Hi. split; [|split].
  - intros Ht R. destruct (info_ok_numeric _ Hi Ht) as (Hs & I1 & I2 & _).
    exists (mkvar (mkcell i (Some (VInt k))) []). unfold new, py_var, var_init, value_from_python, py_as_long.
    unfold int_min, int_max in *. replace ((- 2 ^ 63 <=? k) && (k <? 2 ^ 63)) with true by lia.
    rewrite wrap_int_id by (unfold int_min, int_max; lia). unfold seti, fresh, with_val. cbn [c_info]. rewrite Ht. unfold assign_i_checked. cbn [c_info].
    replace ((k <? vi_imin i) || (vi_imax i <? k)) with false by lia. unfold with_val. cbn [stored c_info].
    split; [reflexivity|]. split; [reflexivity|]. split.
    { unfold py_enqi, enqi. cbn [v_cell c_val c_info]. destruct (vi_type i); try discriminate; reflexivity. }
    split.
    + intros T d. unfold py_enq, py_get, value_to_python. cbn [v_cell isset c_val c_info]. rewrite T. unfold enqi. cbn [c_val c_info]. rewrite T. split; reflexivity.
    + intros T. destruct (enqd_scaled (mkcell i (Some (VInt k))) k Hi Ht) as (x & E & _); auto; [cbn; lia|].
      exists x. assert (E' := E). unfold enqd in E'. cbn [c_val c_info] in E'. rewrite T in E'. split; [exact E'|]. intros d.
      unfold py_enq, py_get, py_enqd, value_to_python. cbn [v_cell isset c_val c_info]. rewrite T, E. repeat split.
  - intros Ht B R. unfold new, py_var, var_init, value_from_python, py_as_long.
    unfold int_min, int_max in *. replace ((- 2 ^ 63 <=? k) && (k <? 2 ^ 63)) with true by lia.
    rewrite wrap_int_id by (unfold int_min, int_max; lia). unfold seti, fresh. cbn [c_info]. rewrite Ht. unfold assign_i_checked. cbn [c_info default_options o_silent o_clamp o_hook].
    replace ((k <? vi_imin i) || (vi_imax i <? k)) with true by lia. reflexivity.
  - intros Ht. unfold new, py_var, var_init, value_from_python. destruct (py_as_long k). unfold seti, fresh. cbn [c_info]. rewrite Ht. reflexivity.
Qed.

(** A float in the range of a decimal variable is stored as the nearest number with the digits of the
    variable (the tolerance covers the rounding of the multiplication), and read as such; NaN and
    numbers out of range raise OverflowError; texts raise TypeError. *)
Theorem C59_float : forall i (x : f64), info_ok i ->
  (vi_type i = TDecimal -> fisnan x = false -> flt x (vi_dmin i) = false -> flt (vi_dmax i) x = false ->
     exists n y, new i (PFloat x) = Return (mkvar (mkcell i (Some (VInt n))) []) /\
       (Rabs (IZR n - unscaled (vi_scale i) x) <= / 2 + / 100000)%R /\ vi_imin i <= n <= vi_imax i /\
       decode_decimal (vi_scale i) n = Ok y /\ py_enq (mkvar (mkcell i (Some (VInt n))) []) = Return (PFloat y)) /\
  (vi_type i = TDecimal -> fisnan x = true \/ flt x (vi_dmin i) = true \/ flt (vi_dmax i) x = true ->
     new i (PFloat x) = Raise OverflowError) /\
  (is_numeric (vi_type i) = false -> new i (PFloat x) = Raise TypeError).
Proof.
  intros i x Hi. split; [|split].
  - intros T N L U. destruct (setd_decimal_nearest default_options (fresh i) x) as (n & y & E & R & B & E2 & E3); auto; [split; cbn; auto|].
    exists n, y. unfold new, py_var, var_init, value_from_python. rewrite E. cbn [stored]. split; [reflexivity|].
    cbn [fresh c_info] in *. split; [exact B|]. split; [exact R|]. split; [exact E3|].
    unfold py_enq, value_to_python. cbn [v_cell c_info]. rewrite T. unfold with_val in E2. cbn [fresh c_info] in E2. rewrite E2. reflexivity.
  - intros T B. unfold new, py_var, var_init, value_from_python.
    rewrite (setd_decimal_refused default_options (fresh i) x) by (auto). reflexivity.
  - intros T. unfold new, py_var, var_init, value_from_python, setd, fresh. cbn [c_info]. destruct (vi_type i); try discriminate; reflexivity.
Qed.

(** A str without NULs is read back from a text variable when it fits there in UTF-8.  A longer one is cut to
    the length of the variable in bytes: when the cut falls between two characters, what precedes it is
    read; otherwise the constructor succeeds and reading raises UnicodeDecodeError. *)
Theorem C59_text : forall i s, vi_type i = TString -> forallb scalar s = true -> Forall (fun c => c <> 0) s ->
  exists v, new i (PStr s) = Return v /\ py_isset v = true /\
  ((length (utf8 s) <= ilen i)%nat -> forall d, py_enq v = Return (PStr s) /\ py_enqc v = Return (PStr s) /\ py_get v d = Return (PStr s)) /\
  ((ilen i <= length (utf8 s))%nat ->
     (forall p t d, s = p ++ t -> length (utf8 p) = ilen i -> py_enq v = Return (PStr p) /\ py_enqc v = Return (PStr p) /\ py_get v d = Return (PStr p)) /\
     ((forall p t, s = p ++ t -> length (utf8 p) <> ilen i) -> forall d,
        py_enq v = Raise UnicodeDecodeError /\ py_enqc v = Raise UnicodeDecodeError /\ py_get v d = Raise UnicodeDecodeError)).
Proof.
  intros i s T S Z0. pose proof (utf8_no_zero s S Z0) as F. set (b := firstn (ilen i) (utf8 s)).
  assert (Cs : cstr (utf8 s) = utf8 s) by (clear - F; induction F as [|c l H _ IH]; cbn; auto; replace (c =? 0) with false by lia; rewrite IH; reflexivity).
  exists (mkvar (mkcell i (Some (VStr b))) []). split.
  { unfold new, py_var, var_init, value_from_python, utf8_encode. rewrite S, (sets_string default_options (fresh i) (utf8 s) T). cbn [stored]. rewrite Cs. reflexivity. }
  split; [reflexivity|].
  assert (Q : forall d, py_enq (mkvar (mkcell i (Some (VStr b))) []) = str_of_bytes b /\ py_enqc (mkvar (mkcell i (Some (VStr b))) []) = str_of_bytes b /\
    py_get (mkvar (mkcell i (Some (VStr b))) []) d = str_of_bytes b).
  { intros d. unfold py_get, py_enqc, py_enq, value_to_python, enqc, isset. cbn [v_cell c_val c_info]. rewrite T. cbn [catch].
    unfold str_of_cstring. rewrite existsb_zero_app, cstr_app_zero by (apply Forall_firstn; exact F). repeat split. }
  split.
  - intros L d. destruct (Q d) as (-> & -> & ->). unfold str_of_bytes, b. rewrite firstn_all2, decode_utf8 by auto. repeat split.
  - intros L. destruct (decode_cut s (ilen i) S L) as [D1 D2]. split.
    + intros p t d E Lp. destruct (Q d) as (-> & -> & ->). unfold str_of_bytes, b. rewrite (D1 p t E Lp). repeat split.
    + intros N d. destruct (Q d) as (-> & -> & ->). unfold str_of_bytes, b. rewrite (D2 N). repeat split.
Qed.

(** The value read from a variable, given to a new variable with the same definition, makes the same
    variable: numbers always, texts when they are UTF-8 (otherwise reading raises). *)
Theorem C59_rebuild : forall v d, cell_ok (v_cell v) -> py_isset v = true -> vi_type (c_info (v_cell v)) <> TBinary ->
  (forall s, c_val (v_cell v) = Some (VStr s) -> Forall (fun x => 0 <= x) s) ->
  match py_get v d with
  | Return x => new (c_info (v_cell v)) x = Return (mkvar (v_cell v) [])
  | Raise e => e = UnicodeDecodeError /\ vi_type (c_info (v_cell v)) = TString /\
               exists b, c_val (v_cell v) = Some (VStr b) /\ forall s, forallb scalar s = true -> utf8 s <> b
  | Crash => False
  end.
Proof.
  intros [c l] d [Hi Hv]. cbn [v_cell] in *. unfold py_isset, py_get, isset. cbn [v_cell]. intros S NB P.
  destruct (c_val c) as [w|] eqn:V; [|discriminate]. unfold value_ok in Hv. unfold value_to_python. destruct c as [i o]. cbn [c_info c_val] in *. subst o.
  destruct (vi_type i) eqn:T; destruct w as [k|s|b]; try contradiction; try congruence.
  - unfold enqi. cbn [c_val c_info]. rewrite T. cbn [catch].
    destruct (C59_int i k Hi) as [A _]. destruct A as (v & E & Ev & _); [rewrite T; reflexivity|exact Hv|]. rewrite E, Ev. reflexivity.
  - destruct (Var.Properties.C09_enqd_setd default_options (mkcell i (Some (VInt k))) k Hi) as (x & E & R); cbn [c_info c_val]; auto; [rewrite T; reflexivity|].
    rewrite E. cbn [catch]. unfold new, py_var, var_init, value_from_python. rewrite (R (fresh i) eq_refl). reflexivity.
  - unfold enqc. cbn [c_val c_info]. rewrite T. cbn [catch]. unfold str_of_cstring. destruct Hv as [L F]. rewrite existsb_zero_app, cstr_app_zero by exact F.
    unfold str_of_bytes. specialize (P s eq_refl). destruct (utf8_decode s) as [t|] eqn:D.
    + destruct (decode_sound (length s) s t (Nat.le_refl _) P D) as [A B]. unfold new, py_var, var_init, value_from_python, utf8_encode.
      rewrite A, B, (sets_string default_options (fresh i) s T). cbn [stored fresh c_info]. unfold with_val. cbn [c_info].
      replace (cstr s) with s by (symmetry; clear - F; induction F as [|c l H _ IH]; cbn; auto; replace (c =? 0) with false by lia; rewrite IH; reflexivity).
      rewrite firstn_all2 by exact L. reflexivity.
    + split; auto. split; auto. exists s. split; auto. intros t A B. rewrite <- B, decode_utf8 in D by exact A. discriminate.
Qed.

(** An unset variable: enq and the others raise KeyError, get gives the default. *)
Theorem C59_unset : forall i d, let v := mkvar (fresh i) [] in
  py_var i (Some (AInfo i, None)) = Return v /\ py_isset v = false /\
  py_enqi v = Raise KeyError /\ py_enqd v = Raise KeyError /\ py_enqc v = Raise KeyError /\ py_enq v = Raise KeyError /\
  py_get v d = Return d /\ new i POther = Raise TypeError.
Proof. intros i d. cbv zeta. unfold py_enq, value_to_python. cbn [v_cell fresh c_info]. destruct (vi_type i); repeat split. Qed.

(** Variables copied with Var(var) are equal to the original; == and != are opposite. *)
Theorem C59_copy : forall dummy v x, py_var dummy (Some (AVar v, x)) = Return v /\
  (all_ok v -> all_comparable (chain v) (chain v) -> py_eq v v = Return true).
Proof. intros dummy v x. split; [reflexivity|]. intros A C. unfold py_eq. rewrite Var.Properties.C11_equality_refl by auto. reflexivity. Qed.
Theorem C59_equal : forall a b, all_ok a -> all_ok b -> all_comparable (chain a) (chain b) ->
  exists r, py_eq a b = Return r /\ py_ne a b = Return (negb r) /\ (r = true <-> a = b).
Proof.
  intros a b A B C. destruct (Var.Properties.C11_equality a b A B C) as (r & E & Q). exists r. unfold py_eq, py_ne. rewrite E. repeat split; apply Q.
Qed.

(** ** Texts *)

Lemma ascii_decode t : Forall (fun c => 0 <= c < 128) t -> utf8_decode t = Some t.
Proof. induction 1 as [|c t H _ IH]; cbn [utf8_decode]; auto. replace (c <? 128) with true by lia. rewrite IH. reflexivity. Qed.
Lemma ascii_encode t : Forall (fun c => 0 <= c < 128) t -> utf8_encode t = Some t.
Proof.
  intros H. unfold utf8_encode. replace (forallb scalar t) with true.
  - f_equal. unfold utf8. induction H as [|c t H _ IH]; cbn [flat_map]; auto. rewrite IH. unfold utf8_char. replace (c <? 128) with true by lia. reflexivity.
  - symmetry. apply forallb_forall. rewrite Forall_forall in H. intros x I. specialize (H x I). unfold scalar. lia.
Qed.
Lemma digits_ascii t : forallb c_isdigit t = true -> Forall (fun c => 0 <= c < 128) t.
Proof. intros H. rewrite forallb_forall in H. apply Forall_forall. intros x I. specialize (H x I). unfold c_isdigit in H. lia. Qed.
Lemma decimal_text_ascii s neg m : 0 <= m -> Forall (fun c => 0 <= c < 128) (decimal_text s neg m).
Proof.
  intros H. destruct (digits_spec m H) as (D & _). apply digits_ascii in D. unfold decimal_text. cbv zeta.
  assert (F : Forall (fun c => 0 <= c < 128) (repeat 48 (S s - length (digits m)) ++ digits m)).
  { apply Forall_app. split; auto. apply Forall_forall. intros x I. apply repeat_spec in I. lia. }
  apply Forall_app. split; [destruct neg; repeat constructor; lia|]. apply Forall_app. split; [apply Forall_firstn; exact F|].
  destruct s; [constructor|]. constructor; [lia|]. rewrite Forall_forall in *. intros x I. apply F. clear - I.
  rewrite <- (firstn_skipn (length (repeat 48 (S (S s) - length (digits m)) ++ digits m) - S s)). apply in_or_app. right. exact I.
Qed.

(** str() of a number is its decimal text, whose digits come from the raw value; str() of an unset variable
    is "None"; repr() shows code and text. *)
Theorem C59_str : forall fixed v k, printf_correct fixed -> cell_ok (v_cell v) -> is_numeric (vi_type (c_info (v_cell v))) = true ->
  c_val (v_cell v) = Some (VInt k) -> Z.abs k * 10 ^ Z.max 0 (- vi_scale (c_info (v_cell v))) < 10 ^ 18 ->
  let text := decimal_text (Z.to_nat (vi_scale (c_info (v_cell v)))) (k <? 0) (Z.abs k * 10 ^ Z.max 0 (- vi_scale (c_info (v_cell v)))) in
  0 <= c_code (v_cell v) < 2 ^ 16 ->
  py_str fixed v = Return (PStr text) /\
  py_repr fixed v = Return (PStr (Var.FormatProperties.text "Var('" ++ py_code v ++ Var.FormatProperties.text "', " ++ text ++ [41])).
Proof.
  intros fixed v k P Ok_ Ht V Sc text R.
  destruct (Var.FormatProperties.C50_number_text fixed P (v_cell v) k none_text Ok_ Ht V Sc) as [E1 _].
  destruct (Var.FormatProperties.C50_number_text fixed P (v_cell v) k [] Ok_ Ht V Sc) as [E2 _]. fold text in E1, E2.
  assert (A : Forall (fun c => 0 <= c < 128) text).
  { apply decimal_text_ascii. apply Z.mul_nonneg_nonneg; [lia|]. apply Z.pow_nonneg. lia. }
  destruct (Varcode.Properties.C01_pack_unpack _ R) as (Rf & Rx & Ry & _).
  assert (C : py_code v = varcode_format (c_code (v_cell v)) /\ Forall (fun c => 0 <= c < 128) (py_code v)).
  { unfold py_code, py_varcode, varcode_format. set (f := var_f (c_code (v_cell v))) in *. set (x := var_x (c_code (v_cell v))) in *. set (y := var_y (c_code (v_cell v))) in *.
    assert (f = 0 \/ f = 1 \/ f = 2 \/ f = 3) as [F|[F|[F|F]]] by lia; rewrite F; cbn [Z.eqb Pos.eqb Z.to_nat Pos.to_nat nth]; (split; [reflexivity|]);
      repeat (apply Forall_cons; [Z.to_euclidean_division_equations; lia|]); apply Forall_nil. }
  destruct C as [C1 C2]. split.
  - unfold py_str. rewrite E1. cbn [catch]. unfold str_of_bytes. rewrite ascii_decode by exact A. reflexivity.
  - unfold py_repr, isset. rewrite V, E2, <- C1. cbn [catch]. unfold str_of_bytes.
    rewrite ascii_decode.
    + rewrite <- !app_assoc. destruct (vi_type (c_info (v_cell v))); try discriminate; reflexivity.
    + repeat (apply Forall_app; split); auto; try (repeat constructor; lia). destruct (vi_type (c_info (v_cell v))); try discriminate; exact A.
Qed.

(** The code of a variable, given back as a key, is the code. *)
Theorem C59_code : forall v, 0 <= c_code (v_cell v) < 2 ^ 16 ->
  arg_s (py_code v) = Return (py_code v) /\ varcode_parse (Some (py_code v)) = Ok (c_code (v_cell v)) /\ lua_code v = py_code v.
Proof.
  intros v R. destruct (Varcode.Properties.C01_pack_unpack _ R) as (Rf & Rx & Ry & _). pose proof (Varcode.Properties.C02_parse_format _ R) as P.
  assert (E : py_code v = varcode_format (c_code (v_cell v)) /\ lua_code v = py_code v /\ Forall (fun c => 1 <= c < 128) (py_code v)).
  { unfold lua_code, py_code, py_varcode, varcode_format. set (f := var_f (c_code (v_cell v))) in *. set (x := var_x (c_code (v_cell v))) in *. set (y := var_y (c_code (v_cell v))) in *.
    assert (f = 0 \/ f = 1 \/ f = 2 \/ f = 3) as [F|[F|[F|F]]] by lia; rewrite F; cbn [Z.eqb Pos.eqb Z.to_nat Pos.to_nat nth]; (split; [reflexivity|split; [reflexivity|]]);
      repeat (apply Forall_cons; [Z.to_euclidean_division_equations; lia|]); apply Forall_nil. }
  destruct E as (E & L & F). split; [|split]; [|rewrite E; exact P|exact L].
  unfold arg_s. rewrite ascii_encode by (eapply Forall_impl; [|exact F]; cbn; intros; lia).
  replace (existsb (Z.eqb 0) (py_code v)) with false; [reflexivity|]. symmetry. apply not_true_iff_false. intros X. apply existsb_exists in X as (x & I & Q).
  rewrite Forall_forall in F. specialize (F x I). lia.
Qed.

(** ** Attributes *)

(** get_attrs gives the attributes in the order of their codes, each with its value and without attributes of
    its own.  Binary values must be clean: no bits set above the declared number. *)
Definition clean (c : cell) : Prop := forall b, c_val c = Some (VBin b) -> mask_last (c_info c) b = b /\ (0 < ilen (c_info c))%nat.
Theorem C59_get_attrs : forall repo v, all_ok v -> Forall clean (v_attrs v) ->
  py_get_attrs (Conv.Model.convert_units repo) (v_attrs v) = Return (map (fun c => mkvar c []) (v_attrs v)).
Proof.
  intros repo [c l] [_ H] K. cbn [v_attrs] in *. induction H as [|a l [Hi Hv] _ IH]; [reflexivity|]. inversion K as [|? ? K1 K2]; subst. specialize (IH K2).
  cbn [py_get_attrs map]. enough (E : setval (Conv.Model.convert_units repo) default_options (fresh (c_info a)) a = Done a) by (rewrite E, IH; reflexivity).
  destruct a as [i w]. unfold setval, isset. cbn [fresh c_info c_val] in *. destruct w as [w|]; [|reflexivity]. cbn [negb]. unfold value_ok in Hv.
  destruct (vi_type i) eqn:T; destruct w as [k|s|b]; try contradiction.
  - destruct (Var.Properties.C09_enqd_setd default_options (mkcell i (Some (VInt k))) k Hi) as (x & E & R); cbn [c_info c_val]; auto; [rewrite T; reflexivity|].
    rewrite E. cbn [bind]. rewrite Conv.Properties.C31_same_unit. apply R. reflexivity.
  - destruct (Var.Properties.C09_enqd_setd default_options (mkcell i (Some (VInt k))) k Hi) as (x & E & R); cbn [c_info c_val]; auto; [rewrite T; reflexivity|].
    rewrite E. cbn [bind]. rewrite Conv.Properties.C31_same_unit. apply R. reflexivity.
  - unfold enqc. cbn [c_val c_info]. rewrite T. destruct Hv as [L F]. unfold assign_c_checked. cbn [c_info]. rewrite Nat.ltb_irrefl, strncpy_cstring.
    unfold with_val. cbn [c_info]. replace (cstr s) with s by (symmetry; clear - F; induction F as [|c0 l0 H _ IH]; cbn; auto; replace (c0 =? 0) with false by lia; rewrite IH; reflexivity).
    rewrite firstn_all2 by exact L. reflexivity.
  - unfold enqc. cbn [c_val c_info]. rewrite T. destruct (K1 b eq_refl) as [M P]. cbn [c_info] in M, P. unfold assign_b_checked. cbn [c_info fresh]. cbv zeta. unfold with_val. cbn [c_info].
    rewrite Nat.ltb_irrefl, Hv, Nat.ltb_irrefl. replace (Nat.eqb (ilen i) 0) with false by lia. rewrite andb_false_r, firstn_all2, M by lia. reflexivity.
Qed.

(** seta, unseta and enqa with the code of a variable as key: the value of what enqa finds is the value
    given last, and there is none after unseta. *)
Theorem C59_attributes : forall v a v1, StronglySorted (fun a b => c_code a < c_code b) (v_attrs v) -> 0 <= c_code (v_cell a) < 2 ^ 16 ->
  py_seta v a = Return v1 ->
  (exists r, py_enqa v1 (py_code a) = Return (Some r) /\ v_cell r = v_cell a) /\ v_cell v1 = v_cell v /\
  (exists v2, py_unseta v1 (py_code a) = Return v2 /\ py_enqa v2 (py_code a) = Return None /\ v_cell v2 = v_cell v) /\
  (forall b, 0 <= c_code (v_cell b) < 2 ^ 16 -> c_code (v_cell b) <> c_code (v_cell a) ->
     match py_enqa v1 (py_code b), py_enqa v (py_code b) with
     | Return (Some x), Return (Some y) => v_cell x = v_cell y
     | Return None, Return None => True
     | _, _ => False
     end).
Proof.
  intros v a v1 S R E. injection E as <-. set (code := c_code (v_cell a)) in *.
  assert (K : forall w b, 0 <= c_code (v_cell b) < 2 ^ 16 -> py_enqa w (py_code b) = Return (enqa_chain (c_code (v_cell b)) (v_attrs w))).
  { intros w b Rb. destruct (C59_code b Rb) as (A1 & A2 & _). unfold py_enqa. rewrite A1. cbn [pbind]. rewrite A2. reflexivity. }
  assert (C : forall cd l, match enqa_chain cd l, enqa cd l with Some x, Some y => v_cell x = y | None, None => True | _, _ => False end).
  { intros cd l. induction l as [|c l IH]; cbn; auto. destruct (c_code c <=? cd); auto. destruct (c_code c =? cd); auto. }
  destruct (C59_code a R) as (A1 & A2 & _).
  pose proof (fun cd => Var.Properties.C12_attributes_map_from [ASet a] v cd S) as M1.
  pose proof (fun cd => Var.Properties.C12_attributes_map_from [ASet a; AUnset code] v cd S) as M2.
  cbn [fold_left run_aop map_aop] in M1, M2. unfold var_enqa in *. fold code in M1, M2.
  split; [|split; [|split]].
  - rewrite K by exact R. fold code. destruct (M1 code) as (_ & _ & Q). rewrite Z.eqb_refl in Q. specialize (C code (v_attrs (var_seta v a))). rewrite Q in C.
    destruct (enqa_chain code (v_attrs (var_seta v a))) as [r|]; [|contradiction]. exists r. auto.
  - reflexivity.
  - exists (var_unseta (var_seta v a) code). split; [|split; [|reflexivity]].
    + unfold py_unseta. rewrite A1. cbn [pbind]. rewrite A2. reflexivity.
    + rewrite K by exact R. fold code. destruct (M2 code) as (_ & _ & Q). rewrite !Z.eqb_refl in Q. specialize (C code (v_attrs (var_unseta (var_seta v a) code))). rewrite Q in C.
      destruct (enqa_chain code (v_attrs (var_unseta (var_seta v a) code))); [contradiction|reflexivity].
  - intros b Rb N. rewrite !K by exact Rb. set (cb := c_code (v_cell b)) in *. destruct (M1 cb) as (_ & _ & Q).
    replace (code =? cb) with false in Q by lia. pose proof (C cb (v_attrs (var_seta v a))) as C1. pose proof (C cb (v_attrs v)) as C2. rewrite Q in C1.
    destruct (enqa_chain cb (v_attrs (var_seta v a))), (enqa_chain cb (v_attrs v)), (enqa cb (v_attrs v)); auto; try contradiction. congruence.
Qed.

(** ** Tables *)

(** A code is in a table, and gives its definition, exactly when the file of the table has a line for it. *)
Theorem C59_table : forall text t v, Tables.Model.load_bufr text = Ok t -> 0 <= c_code (v_cell v) < 2 ^ 16 ->
  match List.find (fun e => Tables.Model.be_code e =? c_code (v_cell v)) t with
  | Some e => py_getitem t (PStr (py_code v)) = Return (Tables.Model.be_info e) /\ py_contains t (PStr (py_code v)) = Return true
  | None => py_getitem t (PStr (py_code v)) = Raise KeyError /\ py_contains t (PStr (py_code v)) = Return false
  end.
Proof.
  intros text t v L R. destruct (C59_code v R) as (A1 & A2 & _). destruct (Tables.Properties.C14_query_bufr text t (c_code (v_cell v)) L) as [_ Q].
  assert (K : table_key (PStr (py_code v)) = Return (py_code v)).
  { unfold arg_s in A1. unfold table_key. destruct (utf8_encode (py_code v)); [|discriminate]. destruct (existsb (Z.eqb 0) l); [discriminate|]. injection A1 as ->. reflexivity. }
  unfold py_getitem, py_contains. rewrite K. cbn [pbind]. rewrite A2. cbn [catch].
  destruct (List.find _ t); destruct Q as [-> ->]; split; reflexivity.
Qed.

(** A key with something else than digits after its first character raises RuntimeError, wherever it is given;
    a key that is not a str raises TypeError. *)
Theorem C59_bad_key : forall t v s j c, Forall (fun c => 1 <= c < 128) s -> (1 <= j <= 5)%nat -> nth_error s j = Some c -> c_isdigit c = false ->
  py_getitem t (PStr s) = Raise RuntimeError /\ py_contains t (PStr s) = Raise RuntimeError /\
  py_enqa v s = Raise RuntimeError /\ py_unseta v s = Raise RuntimeError /\
  py_getitem t (PInt c) = Raise TypeError /\ py_contains t (PInt c) = Raise TypeError.
Proof.
  intros t v s j c F Hj Hc Hd. assert (N : c <> 0) by (apply nth_error_In in Hc; rewrite Forall_forall in F; specialize (F c Hc); lia).
  pose proof (Varcode.Properties.C02_parse_rejects s j c Hj Hc N Hd) as P.
  assert (A : utf8_encode s = Some s) by (apply ascii_encode; eapply Forall_impl; [|exact F]; cbn; intros; lia).
  assert (Z0 : existsb (Z.eqb 0) s = false).
  { apply not_true_iff_false. intros X. apply existsb_exists in X as (x & I & Q). rewrite Forall_forall in F. specialize (F x I). lia. }
  unfold py_getitem, py_contains, py_enqa, py_unseta, table_key, arg_s. rewrite A, Z0. cbn [pbind]. rewrite P. repeat split.
Qed.
(** "B1x101" *)
Example C59_bad_key_example : Forall (fun c => 1 <= c < 128) [66; 49; 120; 49; 48; 49] /\ nth_error [66; 49; 120; 49; 48; 49] 2 = Some 120 /\ c_isdigit 120 = false.
Proof. split; [repeat (apply Forall_cons; [lia|]); apply Forall_nil|split; reflexivity]. Qed.

(** ** Lua *)

(** From Lua, an unset variable is nil, numbers are the ones of C++, and texts are the C string. *)
Theorem C59_lua : forall v,
  (py_isset v = false -> lua_enqi v = LReturn LNil /\ lua_enqd v = LReturn LNil /\ lua_enqc v = LReturn LNil) /\
  (forall k, cell_ok (v_cell v) -> is_numeric (vi_type (c_info (v_cell v))) = true -> c_val (v_cell v) = Some (VInt k) ->
     lua_enqi v = LReturn (LInt k) /\ exists x, enqd (v_cell v) = Ok x /\ lua_enqd v = LReturn (LNum x)) /\
  (forall s, cell_ok (v_cell v) -> vi_type (c_info (v_cell v)) = TString -> c_val (v_cell v) = Some (VStr s) ->
     lua_enqc v = LReturn (LText s) /\ lua_enqi v = LError /\ lua_enqd v = LError).
Proof.
  intros v. unfold py_isset, lua_enqi, lua_enqd, lua_enqc, lua_get. split; [|split].
  - intros ->. repeat split.
  - intros k [Hi Hv] Ht V. rewrite V in Hv. assert (isset (v_cell v) = true) as -> by (unfold isset; rewrite V; reflexivity).
    assert (R : vi_imin (c_info (v_cell v)) <= k <= vi_imax (c_info (v_cell v))) by (unfold value_ok in Hv; destruct (vi_type (c_info (v_cell v))); try discriminate; exact Hv).
    destruct (Var.Properties.C09_enqd_setd default_options (v_cell v) k Hi Ht R V) as (x & E & _). split.
    + unfold enqi. rewrite V. destruct (vi_type (c_info (v_cell v))); try discriminate; reflexivity.
    + exists x. rewrite E. split; reflexivity.
  - intros s [Hi Hv] T V. rewrite V in Hv. unfold value_ok in Hv. rewrite T in Hv. destruct Hv as [_ F].
    assert (isset (v_cell v) = true) as -> by (unfold isset; rewrite V; reflexivity).
    rewrite (enqs_string (v_cell v) s T V F). unfold enqi, enqd. rewrite V, T. repeat split.
Qed.

(** ** Examples *)

(** B12101, the temperature, 16 bits, two decimals. *)
Definition temperature : res varinfo := set_bufr (wr_var 0 12 101) "K" 2 5 0 16.
Definition block : res varinfo := set_bufr (wr_var 0 1 1) "NUMERIC" 0 3 0 7.
Definition station : res varinfo := set_bufr (wr_var 0 1 11) "CCITTIA5" 0 9 0 72.

Example C59_numbers_example : exists i, block = Ok i /\ info_ok i /\ vi_imin i = 0 /\ vi_imax i = 126 /\
  (exists v, new i (PInt 16) = Return v /\ py_enq v = Return (PInt 16)) /\ new i (PInt 127) = Raise OverflowError.
Proof.
  get_info block (fun i => (vi_imin i, vi_imax i, vi_type i)) (0, 126, TInteger). injection V as V1 V2 V3.
  assert (Hi : info_ok i) by (apply (set_bufr_ok (wr_var 0 1 1) "NUMERIC" 0 3 0 7); auto; unfold int_min, int_max; lia).
  exists i. split; auto. split; auto. split; auto. split; auto. destruct (C59_int i 16 Hi) as (A & _ & _). destruct (C59_int i 127 Hi) as (_ & B & _). split.
  - destruct A as (v & Ev & _ & _ & Q & _); [rewrite V3; reflexivity|lia|]. exists v. split; auto. apply (Q V3 POther).
  - apply B; [rewrite V3; reflexivity|unfold int_min, int_max; lia|lia].
Qed.

(** "Città" takes six bytes; nine letters with accents take eighteen. *)
Definition citta : list Z := [67; 105; 116; 116; 224].
Example C59_text_example : utf8 citta = [67; 105; 116; 116; 195; 160] /\ exists i, station = Ok i /\ vi_type i = TString /\ ilen i = 9%nat /\
  exists v, new i (PStr citta) = Return v /\ py_enq v = Return (PStr citta).
Proof.
  split; [reflexivity|]. get_info station (fun i => (vi_type i, vi_len i)) (TString, 9). injection V as V1 V2. exists i. split; auto. split; auto.
  assert (L : ilen i = 9%nat) by (unfold ilen; rewrite V2; reflexivity). split; auto.
  destruct (C59_text i citta V1) as (v & Ev & _ & Q & _); [reflexivity|repeat constructor; discriminate|]. exists v. split; auto. apply (Q ltac:(rewrite L; cbn; lia) POther).
Qed.

(** A temperature with two attributes. *)
Example C59_attributes_example : exists i j k, temperature = Ok i /\ block = Ok j /\ station = Ok k /\
  let a := mkvar (mkcell j (Some (VInt 16))) [] in let b := mkvar (mkcell k (Some (VStr citta))) [] in
  all_ok (mkvar (mkcell i (Some (VInt 28315))) [v_cell a; v_cell b]) /\ Forall clean [v_cell a; v_cell b] /\
  StronglySorted (fun a b => c_code a < c_code b) [v_cell a; v_cell b].
Proof.
  get_info temperature (fun i => (vi_imin i, vi_imax i, vi_type i)) (0, 65534, TDecimal). injection V as V1 V2 V3.
  get_info block (fun i => (vi_imin i, vi_imax i, vi_type i, vi_code i)) (0, 126, TInteger, wr_var 0 1 1). injection V as W1 W2 W3 W4.
  get_info station (fun i => (vi_type i, vi_len i, vi_code i)) (TString, 9, wr_var 0 1 11). injection V as X1 X2 X3.
  exists i, i0, i1. split; auto. split; auto. split; auto. cbv zeta. cbn [v_cell].
  assert (A1 : info_ok i) by (apply (set_bufr_ok (wr_var 0 12 101) "K" 2 5 0 16); auto; unfold int_min, int_max; lia).
  assert (A2 : info_ok i0) by (apply (set_bufr_ok (wr_var 0 1 1) "NUMERIC" 0 3 0 7); auto; unfold int_min, int_max; lia).
  assert (A3 : info_ok i1) by (apply (set_bufr_ok (wr_var 0 1 11) "CCITTIA5" 0 9 0 72); auto; unfold int_min, int_max; lia).
  split; [|split].
  - split; [split; auto; cbn; unfold value_ok; rewrite V3; lia|]. cbn [v_attrs]. apply Forall_cons; [split; [exact A2|]|apply Forall_cons; [split; [exact A3|]|apply Forall_nil]]; cbn [c_info c_val]; unfold value_ok.
    + rewrite W3. lia.
    + rewrite X1. split; [unfold ilen; rewrite X2; cbn; lia|repeat constructor; discriminate].
  - apply Forall_cons; [intros b; discriminate|apply Forall_cons; [intros b; discriminate|apply Forall_nil]].
  - repeat constructor; unfold c_code; cbn [c_info]; rewrite W4, X3; vm_compute; reflexivity.
Qed.

(** ** What does not hold *)

(** An int that does not fit a C int is stored modulo 2^32 without an error: wreport.Var(info, 2**32 + 16)
    holds 16.  One that does not fit a C long raises SystemError although -1 is what would be stored,
    when -1 is in range, and OverflowError otherwise. *)
Theorem C59_big_int_refuted : exists i, block = Ok i /\
  (forall n, - 2 ^ 31 <= n < 2 ^ 31 -> exists v, new i (PInt (2 ^ 32 * n + 16)) = Return v /\ py_enq v = Return (PInt 16)) /\
  new i (PInt (2 ^ 64)) = Raise OverflowError.
Proof.
  get_info block (fun i => (vi_imin i, vi_imax i, vi_type i)) (0, 126, TInteger). injection V as V1 V2 V3. exists i. split; auto. split.
  - intros n Hn. exists (mkvar (mkcell i (Some (VInt 16))) []). unfold new, py_var, var_init, value_from_python, py_as_long.
    replace ((- 2 ^ 63 <=? 2 ^ 32 * n + 16) && (2 ^ 32 * n + 16 <? 2 ^ 63)) with true by lia.
    assert (W : wrap_int (2 ^ 32 * n + 16) = 16).
    { unfold wrap_int. replace (2 ^ 32 * n + 16 + 2 ^ 31) with (2 ^ 31 + 16 + n * 2 ^ 32) by lia. rewrite Z_mod_plus_full. reflexivity. }
    rewrite W. unfold seti, fresh. cbn [c_info]. rewrite V3. cbn [is_numeric]. unfold assign_i_checked. cbn [c_info]. rewrite V1, V2. cbn [Z.ltb Z.compare Pos.compare Pos.compare_cont orb stored].
    split; [reflexivity|]. unfold py_enq, value_to_python, enqi. cbn [v_cell c_info c_val]. rewrite V3. reflexivity.
  - unfold new, py_var, var_init, value_from_python, py_as_long. cbn [Z.leb Z.ltb Z.pow Z.pow_pos Pos.iter Z.mul Pos.mul Z.opp Z.compare Pos.compare Pos.compare_cont andb].
    change (wrap_int (-1)) with (-1). unfold seti, fresh. cbn [c_info]. rewrite V3. cbn [is_numeric]. unfold assign_i_checked. cbn [c_info]. rewrite V1. reflexivity.
Qed.
Theorem C59_big_int_system_error_refuted : exists i, set_bufr (wr_var 0 5 1) "DEGREE" 5 8 (-9000000) 25 = Ok i /\ new i (PInt (2 ^ 64)) = Raise SystemError.
Proof.
  get_info (set_bufr (wr_var 0 5 1) "DEGREE" 5 8 (-9000000) 25) (fun i => (vi_imin i, vi_imax i, vi_type i)) (-9000000, 24554430, TDecimal). injection V as V1 V2 V3.
  exists i. split; auto. unfold new, py_var, var_init, value_from_python, py_as_long. cbn [Z.leb Z.ltb Z.pow Z.pow_pos Pos.iter Z.mul Pos.mul Z.opp Z.compare Pos.compare Pos.compare_cont andb].
  change (wrap_int (-1)) with (-1). unfold seti, fresh. cbn [c_info]. rewrite V3. cbn [is_numeric]. unfold assign_i_checked. cbn [c_info]. rewrite V1, V2. reflexivity.
Qed.

(** A text with an accent across the length of the variable is accepted and cannot be read any more. *)
Theorem C59_accent_refuted : exists i, station = Ok i /\ exists v, new i (PStr [97; 97; 97; 97; 97; 97; 97; 97; 224]) = Return v /\
  py_isset v = true /\ py_enq v = Raise UnicodeDecodeError /\ py_get v POther = Raise UnicodeDecodeError.
Proof.
  get_info station (fun i => (vi_type i, vi_len i)) (TString, 9). injection V as V1 V2. exists i. split; auto.
  assert (L : ilen i = 9%nat) by (unfold ilen; rewrite V2; reflexivity).
  exists (mkvar (mkcell i (Some (VStr [97; 97; 97; 97; 97; 97; 97; 97; 195]))) []).
  unfold new, py_var, var_init, value_from_python. change (utf8_encode [97; 97; 97; 97; 97; 97; 97; 97; 224]) with (Some [97; 97; 97; 97; 97; 97; 97; 97; 195; 160]). cbv beta iota.
  rewrite (sets_string default_options (fresh i) _ V1). cbn [fresh c_info]. rewrite L. split; [reflexivity|]. split; [reflexivity|].
  unfold py_enq, py_get, value_to_python, enqc, isset. cbn [v_cell c_val c_info]. rewrite V1. split; reflexivity.
Qed.

(** No binary value is ever read whole: reading stops at the first NUL, and when there is none memory after
    the value is read. *)
Theorem C59_binary_refuted : forall v b, cell_ok (v_cell v) -> vi_type (c_info (v_cell v)) = TBinary -> c_val (v_cell v) = Some (VBin b) ->
  py_enq v <> Return (PBytes b) /\ (Forall (fun x => x <> 0) b -> py_enq v = Crash).
Proof.
  intros v b _ T V. unfold py_enq, value_to_python, enqc. rewrite T, V. cbn [catch]. unfold bytes_of_cstring. destruct (existsb (Z.eqb 0) b) eqn:E.
  - split.
    + intros X. injection X as X. clear - E X. induction b as [|x b IH]; [discriminate|]. cbn [existsb cstr] in *. destruct (Z.eqb_spec x 0) as [->|N]; [discriminate|].
      injection X as X. apply IH; auto. replace (0 =? x) with false in E by lia. exact E.
    + intros F. apply existsb_exists in E as (x & I & Q). rewrite Forall_forall in F. specialize (F x I). lia.
  - split; [discriminate|reflexivity].
Qed.
Example C59_binary_refuted_example : exists i, set_binary (wr_var 0 63 1) 16 = Ok i /\ info_ok i /\ ilen i = 2%nat /\ vi_type i = TBinary /\
  (exists v, new i (PBytes [1; 2]) = Return v /\ c_val (v_cell v) = Some (VBin [1; 2]) /\ py_enq v = Crash) /\
  new i (PBytes []) = Crash.
Proof.
  get_info (set_binary (wr_var 0 63 1) 16) (fun i => (vi_type i, vi_len i, vi_bit_len i)) (TBinary, 2, 16). injection V as V1 V2 V3. exists i. split; auto.
  assert (L : ilen i = 2%nat) by (unfold ilen; rewrite V2; reflexivity).
  assert (Hi : info_ok i).
  { unfold set_binary in E. pose proof (compute_range_fields _ _ _ _ _ _ _ _ E) as (A & B & C & D & F & G & H).
    constructor; rewrite ?D, ?F, ?G, ?H; try (unfold int_min, int_max; lia); eapply compute_range_built; exact E. }
  split; auto. split; auto. split; auto. split.
  - exists (mkvar (mkcell i (Some (VBin [1; 2]))) []). unfold new, py_var, var_init, value_from_python, setc, fresh. cbn [c_info]. rewrite V1. unfold assign_b_checked. cbn [c_info].
    rewrite L. unfold mask_last. rewrite V3. split; [reflexivity|]. split; [reflexivity|]. unfold py_enq, value_to_python, enqc. cbn [v_cell c_info c_val]. rewrite V1. reflexivity.
  - unfold new, py_var, var_init, value_from_python, setc, fresh. cbn [c_info]. rewrite V1. unfold assign_b_checked. cbn [c_info]. rewrite L. reflexivity.
Qed.

(** wreport.Var() destroys an object that was never built; wreport.Var(var, value) ignores the value. *)
Theorem C59_no_arguments_refuted : forall dummy, py_var dummy None = Crash.
Proof. reflexivity. Qed.
Theorem C59_value_ignored_refuted : forall dummy v x, py_var dummy (Some (AVar v, Some x)) = py_var dummy (Some (AVar v, None)).
Proof. reflexivity. Qed.

(** enqa gives more than the attribute: the attributes with higher codes come along, and the result is not
    equal to the attribute that was set. *)
Theorem C59_enqa_refuted : exists i j k v, temperature = Ok i /\ block = Ok j /\ station = Ok k /\
  let a := mkvar (mkcell j (Some (VInt 16))) [] in let b := mkvar (mkcell k (Some (VStr citta))) [] in
  pbind (py_seta (mkvar (mkcell i (Some (VInt 28315))) []) a) (fun w => py_seta w b) = Return v /\
  exists r, py_enqa v (py_code a) = Return (Some r) /\ v_attrs r = [v_cell b] /\ py_eq r a = Return false.
Proof.
  get_info temperature (fun i => vi_code i) (wr_var 0 12 101).
  get_info block (fun i => (vi_code i, vi_type i)) (wr_var 0 1 1, TInteger). injection V0 as W1 W2.
  get_info station (fun i => vi_code i) (wr_var 0 1 11).
  set (a := mkvar (mkcell i0 (Some (VInt 16))) []). set (b := mkvar (mkcell i1 (Some (VStr citta))) []).
  exists i, i0, i1, (mkvar (mkcell i (Some (VInt 28315))) [v_cell a; v_cell b]). split; auto. split; auto. split; auto. cbv zeta.
  assert (Ca : c_code (v_cell a) = 257) by (unfold c_code; cbn [a v_cell c_info]; rewrite W1; reflexivity).
  assert (Cb : c_code (v_cell b) = 267) by (unfold c_code; cbn [b v_cell c_info]; rewrite V0; reflexivity).
  split.
  - fold a b. unfold py_seta, pbind, var_seta. cbn [v_attrs seta v_cell]. rewrite Ca, Cb. reflexivity.
  - exists (mkvar (v_cell a) [v_cell b]). fold a b. split; [|split; [reflexivity|]].
    + destruct (C59_code a) as (A1 & A2 & _); [rewrite Ca; lia|]. unfold py_enqa. rewrite A1. cbn [pbind]. rewrite A2. cbn [catch v_attrs enqa_chain]. rewrite Z.leb_refl, Z.eqb_refl. reflexivity.
    + unfold py_eq, var_equals. cbn [v_cell v_attrs a]. cbn [chain_equals]. rewrite Z.eqb_refl. cbn [negb]. unfold value_equals. cbn [c_val c_info]. rewrite W2. reflexivity.
Qed.

(** len() of a table is always 0, so every table is false; and a for loop over a table never ends. *)
Theorem C59_table_len_refuted : forall t, py_len t = 0.
Proof. reflexivity. Qed.
Theorem C59_table_loop_refuted : forall t n, snd (py_iterate t n 0) = false /\ length (fst (py_iterate t n 0)) = n.
Proof.
  intros t n. generalize 0%nat. induction n as [|n IH]; intros i; cbn [py_iterate py_item]; [split; reflexivity|].
  destruct (IH (S i)) as [A B]. destruct (py_iterate t n (S i)) as [l e]. cbn [fst snd length] in *. split; [exact A|]. rewrite B. reflexivity.
Qed.

Print Assumptions C59_int.
Print Assumptions C59_text.
Print Assumptions C59_rebuild.
Print Assumptions C59_get_attrs.
Print Assumptions C59_table.

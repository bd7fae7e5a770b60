From Coq Require Import String Lia ZifyBool ZifyNat.
From Verif Require Import Base Bits.Model Num.Float Varcode.Model Varinfo.Model Varinfo.Proofs Tables.Model Var.Model Var.Spec Var.FormatSpec Var.Format Var.FormatProofs Var.FormatProperties
  Interp.Model Message.Model Message.Spec Crex.Model Listing.Model Listing.FaithfulProofs Varinfo.RangeProofs Interp.ExpandProofs Structured.Model Print.Model Print.Spec.
Local Open Scope Z_scope.

(** ** Numbers in a text *)

Definition stops (r : list Z) : Prop := match r with [] => True | c :: _ => c_isdigit c = false end.

Lemma split_digits p q r s : forallb c_isdigit p = true -> forallb c_isdigit q = true -> stops r -> stops s ->
  p ++ r = q ++ s -> p = q /\ r = s.
Proof.
  revert q. induction p as [|x p IH]; intros [|y q] P Q R S E; cbn [app forallb] in *.
  - auto.
  - subst r. cbn in R. apply andb_true_iff in Q as [Q _]. congruence.
  - subst s. cbn in S. apply andb_true_iff in P as [P _]. congruence.
  - apply andb_true_iff in P as [_ P]. apply andb_true_iff in Q as [_ Q].
    assert (E1 : x = y) by (apply (f_equal (hd 0)) in E; exact E). assert (E2 : p ++ r = q ++ s) by (apply (f_equal (@tl Z)) in E; exact E).
    destruct (IH q P Q R S E2) as [-> ->]. subst. auto.
Qed.

Lemma zeros_value k : forall s, dec_value 0 (repeat 48 k ++ s) = dec_value 0 s.
Proof. induction k as [|k IH]; intros s; [reflexivity|]. cbn [repeat app dec_value]. exact (IH s). Qed.

Lemma padded_digits w n : 0 <= n -> forallb c_isdigit (padded w n) = true /\ dec_value 0 (padded w n) = n.
Proof.
  intros H. destruct (digits_spec n H) as (D & V & _). unfold padded. split.
  - rewrite forallb_app, D, andb_true_r. induction (w - length (digits n))%nat as [|k IH]; [reflexivity|exact IH].
  - rewrite zeros_value. exact V.
Qed.

Lemma padded_then w a r b s : 0 <= a -> 0 <= b -> stops r -> stops s -> padded w a ++ r = padded w b ++ s -> a = b /\ r = s.
Proof.
  intros A B R S E. destruct (padded_digits w a A) as [D1 V1]. destruct (padded_digits w b B) as [D2 V2].
  destruct (split_digits _ _ _ _ D1 D2 R S E) as [E1 E2]. split; [|exact E2]. rewrite <- V1, <- V2, E1. reflexivity.
Qed.

Lemma padded_line w n : 0 <= n -> on_one_line (padded w n).
Proof.
  intros H. destruct (padded_digits w n H) as [D _]. unfold on_one_line. rewrite Forall_forall. rewrite forallb_forall in D.
  intros x I X. specialize (D x I). subst x. discriminate D.
Qed.

(** ** The text of a value *)
Definition number_char (c : Z) : Prop := c = 45 \/ c = 46 \/ 48 <= c <= 57.
Lemma decimal_chars s neg m : 0 <= m -> Forall number_char (decimal_text s neg m).
Proof.
  intros H. destruct (digits_spec m H) as (D & _). unfold decimal_text.
  assert (F : Forall number_char (repeat 48 (S s - length (digits m)) ++ digits m)).
  { apply Forall_app. split.
    - apply Forall_forall. intros x I. apply repeat_spec in I. subst x. unfold number_char. lia.
    - rewrite forallb_forall in D. apply Forall_forall. intros x I. specialize (D x I). unfold c_isdigit in D. unfold number_char. lia. }
  set (d := repeat 48 (S s - length (digits m)) ++ digits m) in *. rewrite <- (firstn_skipn (length d - s) d), Forall_app in F. destruct F as [F1 F2].
  apply Forall_app. split; [destruct neg; [apply Forall_cons; [unfold number_char; lia|apply Forall_nil]|apply Forall_nil]|].
  apply Forall_app. split; [exact F1|]. destruct s; [apply Forall_nil|]. apply Forall_cons; [unfold number_char; lia|exact F2].
Qed.

Lemma hex2_chars b : 0 <= b < 256 -> Forall (fun c => 48 <= c <= 70) (hex2 b).
Proof.
  intros H. unfold hex2, hex_digit, u8. rewrite Z.mod_small by lia.
  assert (0 <= b / 16 < 16) by (split; [apply Z.div_pos|apply Z.div_lt_upper_bound]; lia). pose proof (Z.mod_pos_bound b 16 ltac:(lia)).
  apply Forall_cons; [destruct (Z.ltb_spec (b / 16) 10); lia|]. apply Forall_cons; [destruct (Z.ltb_spec (b mod 16) 10); lia|apply Forall_nil].
Qed.

Lemma fxy_line c : on_one_line (fxy c).
Proof.
  unfold fxy, varcode_format, on_one_line. cbn [tl]. pose proof (var_f_range c).
  assert (0 <= var_x c < 64) by (unfold var_x; change 63 with (Z.ones 6); rewrite Z.land_ones by lia; apply Z.mod_pos_bound; lia).
  assert (0 <= var_y c < 256) by (unfold var_y; change 255 with (Z.ones 8); rewrite Z.land_ones by lia; apply Z.mod_pos_bound; lia).
  apply Forall_cons; [lia|]. repeat (apply Forall_cons; [Z.to_euclidean_division_equations; lia|]). apply Forall_nil.
Qed.

Section Text.
Context (fixed : nat -> f64 -> list Z) (full : varinfo -> list Z) (label : Z -> list Z).
Hypothesis P : printf_correct fixed.

Definition value_text (c : cell) : list Z := get_ok [] (format_file fixed c (chars "(undef)")).

(** What the text of a value may be. *)
Lemma value_is c : readable c -> format_file fixed c (chars "(undef)") = Ok (value_text c) /\
  match c_val c with
  | None => value_text c = chars "(undef)"
  | Some (VInt _) => Forall number_char (value_text c)
  | Some (VStr s) => value_text c = s
  | Some (VBin b) => value_text c = flat_map hex2 b /\ Forall (fun x => 48 <= x <= 70) (value_text c)
  end.
Proof.
  intros ((Hi & Hv) & _ & R). unfold value_text, format_file. destruct (c_val c) as [[k|s|b]|] eqn:V.
  - assert (N : is_numeric (vi_type (c_info c)) = true) by (unfold value_ok in Hv; destruct (vi_type (c_info c)); try contradiction; reflexivity).
    destruct (info_ok_numeric _ Hi N) as (_ & I1 & I2 & _).
    assert (K : int_min <= k <= int_max) by (unfold value_ok in Hv; destruct (vi_type (c_info c)); try contradiction; lia).
    destruct (print_read fixed ideal_strtod P C50_strtod_exists c k Hi N K V) as (d & t & s & neg & m & E & T & Et & _ & B & _).
    destruct (vi_type (c_info c)); try discriminate N; rewrite E; cbn [bind get_ok]; (split; [reflexivity|]); rewrite T, Et; apply decimal_chars; lia.
  - unfold value_ok in Hv. destruct (vi_type (c_info c)); try contradiction. split; reflexivity.
  - unfold value_ok in Hv. destruct (vi_type (c_info c)); try contradiction. replace (Nat.ltb (length b) (ilen (c_info c))) with false by lia.
    rewrite firstn_all2 by lia. cbn [get_ok]. split; [reflexivity|]. split; [reflexivity|]. clear -R. induction R as [|x b H R IH]; [apply Forall_nil|].
    cbn [flat_map]. apply Forall_app. split; [apply hex2_chars; exact H|exact IH].
  - split; reflexivity.
Qed.

Lemma value_line c : readable c -> on_one_line (value_text c).
Proof.
  intros R. destruct (value_is c R) as [_ V]. destruct R as (_ & _ & R). unfold on_one_line. destruct (c_val c) as [[k|s|b]|].
  - eapply Forall_impl; [|exact V]. unfold number_char. intros x. lia.
  - rewrite V. apply R.
  - destruct V as [_ V]. eapply Forall_impl; [|exact V]. cbn. intros x. lia.
  - rewrite V. repeat (apply Forall_cons; [discriminate|]). apply Forall_nil.
Qed.

(** Values of the same definition with the same text are the same. *)
Lemma value_inj c d : readable c -> readable d -> c_info c = c_info d -> value_text c = value_text d -> c = d.
Proof.
  intros Rc Rd I E. pose proof (value_is c Rc) as [Fc Vc]. pose proof (value_is d Rd) as [Fd Vd].
  destruct Rc as (Kc & _ & Rc), Rd as (Kd & _ & Rd).
  assert (U : forall t (Q : Z -> Prop), Forall Q t -> t = chars "(undef)" -> Q 40).
  { intros t Q F ->. apply Forall_inv in F. exact F. }
  assert (X : c_val c = c_val d).
  { destruct (c_val c) as [[k|s|b]|] eqn:C, (c_val d) as [[k'|s'|b']|] eqn:D;
      destruct Kc as [Hi Hc], Kd as [_ Hd]; rewrite C in Hc; rewrite D in Hd; unfold value_ok in Hc, Hd; try rewrite <- I in Hd.
    all: try (exfalso; destruct (vi_type (c_info c)); contradiction).
    - assert (N : vi_type (c_info c) <> TBinary) by (intros N; rewrite N in Hc; contradiction).
      destruct (C50_file_text_read_back fixed ideal_strtod P C50_strtod_exists default_options c (fresh (c_info c))) as (t & Ft & St);
        [split; [exact Hi|rewrite C; exact Hc]|reflexivity|exact N|rewrite C; discriminate|].
      destruct (C50_file_text_read_back fixed ideal_strtod P C50_strtod_exists default_options d (fresh (c_info c))) as (t' & Ft' & St');
        [split; [rewrite <- I; exact Hi|rewrite D; unfold value_ok; rewrite <- I; exact Hd]|exact I|rewrite <- I; exact N|rewrite D; discriminate|].
      assert (T : t = t').
      { revert Ft Ft' Fc Fd. unfold format_file. rewrite C, D, E. intros A1 A2 A3 A4. congruence. }
      rewrite T in St. rewrite St in St'. injection St' as St'. rewrite St' in C. congruence.
    - exfalso. unfold number_char in Vc. rewrite E in Vc. pose proof (U _ _ Vc Vd). cbn in *. lia.
    - congruence.
    - exfalso. destruct Rc as [_ Rc]. congruence.
    - destruct Vc as [Vc _], Vd as [Vd _]. rewrite <- (bytes_of_hex b Rc), <- (bytes_of_hex b' Rd). congruence.
    - exfalso. destruct Vc as [_ Vc]. rewrite E in Vc. pose proof (U _ _ Vc Vd). cbn in *. lia.
    - exfalso. unfold number_char in Vd. rewrite <- E in Vd. pose proof (U _ _ Vd Vc). cbn in *. lia.
    - exfalso. destruct Rd as [_ Rd]. congruence.
    - exfalso. destruct Vd as [_ Vd]. rewrite <- E in Vd. pose proof (U _ _ Vd Vc). cbn in *. lia.
    - reflexivity. }
  destruct c, d. cbn in *. congruence.
Qed.

(** ** Lines of variables *)
Definition good (c : cell) : Prop := readable c /\ labelled full label c.

Definition body (c : cell) : list Z := fxy (c_code c) ++ [32] ++ label (c_code c) ++ value_text c.

Lemma cell_text_is c : good c -> cell_text fixed (shown full) c = Ok (body c ++ [10]).
Proof.
  intros [R [_ L]]. unfold cell_text. destruct (value_is c R) as [-> _]. cbn [bind]. unfold body, shown. rewrite <- L.
  repeat (rewrite <- ?app_assoc; cbn [app]). reflexivity.
Qed.

Lemma body_line c : good c -> on_one_line (body c).
Proof.
  intros [R [L _]]. unfold body, on_one_line. apply Forall_app. split; [apply fxy_line|]. apply Forall_cons; [discriminate|].
  apply Forall_app. split; [exact L|apply value_line; exact R].
Qed.

Lemma body_inj c d : good c -> good d -> body c = body d -> same_cell c d.
Proof.
  intros [Rc Lc] [Rd Ld] E. unfold body in E.
  assert (X : fxy (c_code c) = fxy (c_code d) /\ label (c_code c) ++ value_text c = label (c_code d) ++ value_text d).
  { destruct (fxy_six (fun _ => []) (c_code c)) as (a1 & a2 & a3 & a4 & a5 & a6 & E1 & _). destruct (fxy_six (fun _ => []) (c_code d)) as (b1 & b2 & b3 & b4 & b5 & b6 & E2 & _).
    rewrite E1, E2 in *. cbn [app] in E. split.
    - apply (f_equal (firstn 6)) in E. exact E.
    - apply (f_equal (skipn 7)) in E. exact E. }
  destruct X as [Ef El]. apply (fxy_inj (fun _ => [])) in Ef; [|apply Rc|apply Rd]. split; [exact Ef|]. intros I.
  rewrite Ef in El. apply app_inv_head in El. apply value_inj; auto.
Qed.

(** What the lines are about: the place of a variable, or nothing for an attribute. *)
Definition entries (i j : nat) (v : var) : list (option (nat * nat) * cell) :=
  (Some (i, j), v_cell v) :: map (fun a => (None, a)) (v_attrs v).
Fixpoint entries_from (i j : nat) (vars : list var) : list (option (nat * nat) * cell) :=
  match vars with [] => [] | v :: r => entries i j v ++ entries_from i (S j) r end.
Fixpoint all_entries (i : nat) (ss : list (list var)) : list (option (nat * nat) * cell) :=
  match ss with [] => [] | vars :: r => entries_from i 0 vars ++ all_entries (S i) r end.

Definition place (p : option (nat * nat)) : list Z :=
  match p with
  | Some (i, j) => [32; 32; 91] ++ padded 0 (Z.of_nat i) ++ [93; 91] ++ padded 0 (Z.of_nat j) ++ [93; 32]
  | None => repeat 32 11
  end.
Definition line (e : option (nat * nat) * cell) : list Z := place (fst e) ++ body (snd e).
Definition lines (l : list (option (nat * nat) * cell)) : list Z := flat_map (fun e => line e ++ [10]) l.

Lemma attrs_text_is l : Forall good l -> attrs_text fixed (shown full) l = Ok (lines (map (fun a => (None, a)) l)).
Proof.
  induction 1 as [|a l G F IH]; [reflexivity|]. cbn [attrs_text]. rewrite cell_text_is by exact G. cbn [bind]. rewrite IH. cbn [bind map lines flat_map].
  unfold line at 1. cbn [fst snd place]. rewrite <- !app_assoc. reflexivity.
Qed.

Lemma variables_text_is i : forall vars j, Forall (fun v => Forall good (cells v)) vars ->
  variables_text fixed full i j vars = Ok (lines (entries_from i j vars)).
Proof.
  induction vars as [|v r IH]; intros j F; [reflexivity|]. inversion F as [|x y G F']; subst. unfold cells in G. inversion G as [|x y Gv Ga]; subst.
  cbn [variables_text]. unfold var_text. rewrite cell_text_is by exact Gv. cbn [bind]. rewrite attrs_text_is by exact Ga. cbn [bind]. rewrite IH by exact F'. cbn [bind].
  f_equal. cbn [entries_from]. unfold lines, entries. rewrite flat_map_app. cbn [flat_map]. unfold line at 3. cbn [fst snd place].
  repeat (rewrite <- ?app_assoc; cbn [app]). reflexivity.
Qed.

Lemma subsets_text_is : forall ss i, every_cell good ss -> subsets_text fixed full i ss = Ok (lines (all_entries i ss)).
Proof.
  induction ss as [|vars r IH]; intros i F; [reflexivity|]. inversion F as [|x y G F']; subst. cbn [subsets_text]. rewrite variables_text_is by exact G.
  cbn [bind]. rewrite IH by exact F'. cbn [bind all_entries]. unfold lines. rewrite flat_map_app. reflexivity.
Qed.

Lemma line_one e : good (snd e) -> on_one_line (line e).
Proof.
  intros G. unfold line, on_one_line. apply Forall_app. split; [|apply body_line; exact G]. destruct (fst e) as [[i j]|]; cbn [place].
  - repeat (apply Forall_cons; [discriminate|]). apply Forall_app. split; [apply padded_line; lia|]. repeat (apply Forall_cons; [discriminate|]).
    apply Forall_app. split; [apply padded_line; lia|]. repeat (apply Forall_cons; [discriminate|]). apply Forall_nil.
  - repeat (apply Forall_cons; [discriminate|]). apply Forall_nil.
Qed.

Lemma line_inj e f : good (snd e) -> good (snd f) -> line e = line f -> fst e = fst f /\ same_cell (snd e) (snd f).
Proof.
  intros Ge Gf E. unfold line in E. destruct (fst e) as [[i j]|] eqn:Pe, (fst f) as [[i' j']|] eqn:Pf; cbn [place] in E.
  - rewrite <- !app_assoc in E. apply app_inv_head in E. apply padded_then in E as [Ei E]; [|lia|lia|reflexivity|reflexivity].
    apply app_inv_head in E. apply padded_then in E as [Ej E]; [|lia|lia|reflexivity|reflexivity]. apply app_inv_head in E.
    split; [|apply body_inj; auto]. f_equal. f_equal; lia.
  - apply (f_equal (fun l => nth 2 l 0)) in E. discriminate E.
  - apply (f_equal (fun l => nth 2 l 0)) in E. discriminate E.
  - apply app_inv_head in E. split; [reflexivity|apply body_inj; auto].
Qed.

Definition same_entry (e f : option (nat * nat) * cell) : Prop := fst e = fst f /\ same_cell (snd e) (snd f).

Lemma lines_inj : forall l m, Forall (fun e => good (snd e)) l -> Forall (fun e => good (snd e)) m -> lines l = lines m -> Forall2 same_entry l m.
Proof.
  induction l as [|e l IH]; intros [|f m] Fl Fm E.
  - constructor.
  - exfalso. cbn [lines flat_map] in E. apply (f_equal (@length Z)) in E. rewrite !app_length in E. cbn [length] in E. lia.
  - exfalso. cbn [lines flat_map] in E. apply (f_equal (@length Z)) in E. rewrite !app_length in E. cbn [length] in E. lia.
  - inversion Fl; inversion Fm; subst. cbn [lines flat_map] in E. rewrite <- !app_assoc in E. cbn [app] in E.
    apply split_line in E as [E1 E2]; [|apply line_one; auto|apply line_one; auto]. constructor; [apply line_inj; auto|apply IH; auto].
Qed.

Lemma entries_good i : forall vars j, Forall (fun v => Forall good (cells v)) vars -> Forall (fun e => good (snd e)) (entries_from i j vars).
Proof.
  induction vars as [|v r IH]; intros j F; [constructor|]. inversion F as [|x y G F']; subst. unfold cells in G. inversion G as [|x y Gv Ga]; subst.
  cbn [entries_from]. apply Forall_app. split; [|apply IH; exact F']. unfold entries. apply Forall_cons; [exact Gv|]. apply Forall_map. exact Ga.
Qed.
Lemma all_entries_good : forall ss i, every_cell good ss -> Forall (fun e => good (snd e)) (all_entries i ss).
Proof.
  induction ss as [|vars r IH]; intros i F; [constructor|]. inversion F as [|x y G F']; subst. cbn [all_entries]. apply Forall_app. split; [apply entries_good; exact G|apply IH; exact F'].
Qed.

(** ** Back from the entries to the subsets *)
Lemma split_attrs : forall a b X Y,
  match X with (None, _) :: _ => False | _ => True end -> match Y with (None, _) :: _ => False | _ => True end ->
  Forall2 same_entry (map (fun c => (None, c)) a ++ X) (map (fun c => (None, c)) b ++ Y) -> Forall2 same_cell a b /\ Forall2 same_entry X Y.
Proof.
  induction a as [|x a IH]; intros [|y b] X Y HX HY F; cbn [map app] in F.
  - split; [constructor|exact F].
  - exfalso. inversion F as [|u v p q [E _] F']; subst. cbn [fst] in E. destruct u as [o c]. cbn [fst] in E. subst o. exact HX.
  - exfalso. inversion F as [|u v p q [E _] F']; subst. cbn [fst] in E. destruct v as [o c]. cbn [fst] in E. subst o. exact HY.
  - inversion F as [|u v p q [_ E] F']; subst. cbn [snd] in E. destruct (IH b X Y HX HY F') as [A B]. split; [constructor; assumption|exact B].
Qed.

(** The entries of later subsets. *)
Definition later (k : nat) (X : list (option (nat * nat) * cell)) : Prop :=
  match X with [] => True | (Some (i, _), _) :: _ => (k <= i)%nat | (None, _) :: _ => False end.
Lemma later_entries : forall ss k, later k (all_entries k ss).
Proof.
  induction ss as [|[|v r] ss IH]; intros k; [exact I| |cbn; lia].
  cbn [all_entries entries_from app]. specialize (IH (S k)). unfold later in *. destruct (all_entries (S k) ss) as [|[[[i j]|] c] l]; [exact I|lia|exact IH].
Qed.
Lemma later_from i vars j X : later (S i) X -> later i (entries_from i j vars ++ X).
Proof. destruct vars as [|v r]; cbn [entries_from app entries later]; [|lia]. unfold later. destruct X as [|[[[i' j']|] c] l]; auto. lia. Qed.
Lemma later_none k X : later k X -> match X with (None, _) :: _ => False | _ => True end.
Proof. destruct X as [|[[[i j]|] c] l]; cbn; auto. Qed.

Lemma split_subset i : forall v w j X Y, later (S i) X -> later (S i) Y ->
  Forall2 same_entry (entries_from i j v ++ X) (entries_from i j w ++ Y) -> Forall2 same_var v w /\ Forall2 same_entry X Y.
Proof.
  induction v as [|x v IH]; intros [|y w] j X Y HX HY F.
  - split; [constructor|exact F].
  - exfalso. cbn [entries_from app entries] in F. inversion F as [|u t p q [E _] F']; subst. cbn [fst] in E. destruct u as [o c]. cbn [fst] in E. subst o. cbn in HX. lia.
  - exfalso. cbn [entries_from app entries] in F. inversion F as [|u t p q [E _] F']; subst. cbn [fst] in E. destruct t as [o c]. cbn [fst] in E. subst o. cbn in HY. lia.
  - cbn [entries_from] in F. unfold entries in F. cbn [app] in F. inversion F as [|u t p q [_ E] F']; subst. cbn [snd] in E. rewrite <- !app_assoc in F'.
    apply split_attrs in F' as [A B]; [|apply (later_none i), later_from; exact HX|apply (later_none i), later_from; exact HY].
    destruct (IH w (S j) X Y HX HY B) as [C D]. split; [|exact D]. constructor; [|exact C]. unfold same_var, cells. constructor; assumption.
Qed.

Lemma split_subsets : forall s t i, length s = length t -> Forall2 same_entry (all_entries i s) (all_entries i t) -> same_subsets s t.
Proof.
  induction s as [|v s IH]; intros [|w t] i L F; try discriminate L; [constructor|]. cbn [all_entries] in F.
  apply split_subset in F as [A B]; [|apply later_entries|apply later_entries]. constructor; [exact A|]. apply (IH t (S i)); [|exact B]. cbn [length] in L. lia.
Qed.

End Text.

(** ** Descriptors *)
Lemma descriptors_then : forall a b r s, Forall (fun c => 0 <= c < 2 ^ 16) a -> Forall (fun c => 0 <= c < 2 ^ 16) b ->
  (nth 1 r 0 <> 32) -> (nth 1 s 0 <> 32) ->
  flat_map (fun c => [32; 32] ++ fxy c ++ [10]) a ++ r = flat_map (fun c => [32; 32] ++ fxy c ++ [10]) b ++ s -> a = b /\ r = s.
Proof.
  induction a as [|x a IH]; intros [|y b] r s Fa Fb R S E; cbn [flat_map] in E.
  - auto.
  - exfalso. apply R. cbn [app] in E. rewrite E. reflexivity.
  - exfalso. apply S. cbn [app] in E. rewrite <- E. reflexivity.
  - inversion Fa; inversion Fb; subst. rewrite <- !app_assoc in E. apply app_inv_head in E. cbn [app] in E.
    apply split_line in E as [E1 E2]; [|apply fxy_line|apply fxy_line]. apply (fxy_inj (fun _ => [])) in E1; auto. destruct (IH b r s) as [-> ->]; auto. subst. auto.
Qed.

(** ** Headers *)
Ltac number E := let Q := fresh "Q" in apply padded_then in E as [Q E]; [|first [lia|assumption]|first [lia|assumption]|reflexivity|reflexivity].
Ltac between E := apply app_inv_head in E.

Lemma first_line_then enc a1 a2 a3 a4 a5 a6 a7 a8 a9 a10 a11 a12 n b1 b2 b3 b4 b5 b6 b7 b8 b9 b10 b11 b12 m r s :
  Forall (fun x => 0 <= x) [a1; a2; a3; a4; a5; a6; a7; a8; a9; a10; a11; a12] -> Forall (fun x => 0 <= x) [b1; b2; b3; b4; b5; b6; b7; b8; b9; b10; b11; b12] ->
  first_line enc a1 a2 a3 a4 a5 a6 a7 a8 a9 a10 a11 a12 n ++ r = first_line enc b1 b2 b3 b4 b5 b6 b7 b8 b9 b10 b11 b12 m ++ s ->
  [a1; a2; a3; a4; a5; a6; a7; a8; a9; a10; a11; a12] = [b1; b2; b3; b4; b5; b6; b7; b8; b9; b10; b11; b12] /\ n = m /\ r = s.
Proof.
  intros Fa Fb E. repeat match goal with X : Forall _ (_ :: _) |- _ => apply Forall_cons_iff in X as [? X] end. unfold first_line in E.
  repeat rewrite <- app_assoc in E. between E. between E.
  do 12 (number E; between E). number E. between E. between E. subst. assert (n = m) by lia. subst. auto.
Qed.

Lemma tables_then b d b' d' r s : good_path b -> good_path d -> good_path b' -> good_path d' ->
  tables_line b d ++ r = tables_line b' d' ++ s -> r = s.
Proof.
  intros H1 H2 H3 H4 E. unfold tables_line in E. repeat rewrite <- app_assoc in E. between E.
  assert (K : forall p, good_path p -> on_one_line match p with Some t => t | None => chars "(not loaded)" end).
  { intros [t|] H; [exact H|]. repeat (apply Forall_cons; [discriminate|]). apply Forall_nil. }
  assert (J : forall p q, good_path p -> good_path q -> on_one_line (match p with Some t => t | None => chars "(not loaded)" end ++ [32] ++ match q with Some t => t | None => chars "(not loaded)" end)).
  { intros p q Hp Hq. apply Forall_app. split; [apply K; exact Hp|]. apply Forall_cons; [discriminate|apply K; exact Hq]. }
  pose proof (J b d H1 H2) as J1. pose proof (J b' d' H3 H4) as J2.
  rewrite (app_assoc [32]), (app_assoc _ ([32] ++ _)) in E. rewrite (app_assoc [32] (match d' with Some t => t | None => chars "(not loaded)" end)), (app_assoc (match b' with Some t => t | None => chars "(not loaded)" end)) in E. cbn [app] in E.
  apply (split_line _ _ r s J1 J2) in E as [_ E]. exact E.
Qed.

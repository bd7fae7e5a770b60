(** C69, continued: the CREX decoder reads lines as the format prescribes, whoever wrote them. *)
From Coq Require Import ZifyBool ZifyNat String.
From Verif Require Import Base Bits.Spec Num.Float Varcode.Model Varinfo.Model Tables.Model Tables.Spec Var.Model Interp.Model Interp.Spec Interp.ExpandProofs Codec.Model Codec.Spec
  Crex.Model Crex.Spec Crex.ValueProofs Crex.Proofs Crex.WireProperties.
From Verif Require Interp.Properties Crex.Properties.
Local Open Scope Z_scope.

(** Blanks, tabs and ends of lines. *)
Definition blank (c : Z) : Prop := c = 32 \/ 9 <= c <= 13.

(** The text of a value without the blank before it. *)
Definition spelled (v : var) (t : list Z) : Prop :=
  match c_val (v_cell v) with None => var_text v t | Some _ => var_text v (32 :: t) end.

(** Values one after the other with any blanks between them, at least one before a value that is not missing: lines can be split anywhere between two values. *)
Inductive written : list var -> list Z -> Prop :=
| wr_nil : written [] []
| wr_next gap v t vars rest : Forall blank gap -> gap <> [] \/ c_val (v_cell v) = None -> spelled v t -> written vars rest -> written (v :: vars) (gap ++ t ++ rest).

(** The variables of a line; a count of repetitions has the digits that the table says, unlike when it is written (C43). *)
Definition read_slot (T : tables) (it : item) (v : var) : Prop :=
  v_attrs v = [] /\
  match it with
  | IElem c => query (tb_b T) c = Ok (c_info (v_cell v)) /\ crex_fits false (c_info (v_cell v)) (c_val (v_cell v)) = true
  | IFactor c n => query (tb_b T) c = Ok (c_info (v_cell v)) /\ crex_fits false (c_info (v_cell v)) (c_val (v_cell v)) = true /\ c_val (v_cell v) = Some (VInt (Z.of_nat n))
  | _ => False
  end.

Lemma same_digits a : forall b x y, length a = length b -> Forall digit a -> Forall digit b -> dval x a = dval y b -> x = y /\ a = b.
Proof.
  induction a as [|c a IH]; intros [|d b] x y L Fa Fb E; try discriminate; cbn [dval fold_left] in E; [auto|].
  inversion Fa; inversion Fb; subst. unfold digit in *. destruct (IH b (x * 10 + (c - 48)) (y * 10 + (d - 48))) as [E1 E2]; auto. split; [lia|]. f_equal; [lia|exact E2].
Qed.

Lemma spelled_token e v t : crex_fits false (c_info (v_cell v)) (c_val (v_cell v)) = true -> spelled v t ->
  token false e (c_info (v_cell v)) (c_val (v_cell v)) = (match c_val (v_cell v) with Some _ => [32] | None => [] end) ++ t.
Proof.
  unfold spelled, var_text. destruct (v_cell v) as [i val]. cbn [c_info c_val]. intros F S. unfold crex_fits in F. rewrite !andb_true_iff in F. destruct F as ((L1 & L2) & F).
  destruct val as [[k|s|b]|]; cbn [token field_text body app] in *.
  - destruct S as (ds & E & L & D & V). injection E as ->. assert (C : crex_number i k = true) by (destruct (vi_type i); try discriminate; exact F).
    unfold crex_number in C. rewrite !andb_true_iff in C. destruct C as (((A & B) & I) & P).
    destruct (fmt_0d_number i k ltac:(lia) ltac:(lia) I) as (t & -> & D' & V' & L' & _). f_equal. f_equal.
    apply (same_digits t ds 0 0); [rewrite L', L; reflexivity|exact D'|exact D|]. rewrite V'. symmetry. exact V.
  - injection S as ->. reflexivity.
  - destruct (vi_type i); discriminate.
  - symmetry. exact S.
Qed.

Lemma skip_gap gap s : Forall blank gap -> skip_space (gap ++ s) = skip_space s.
Proof. induction 1 as [|c gap H F IH]; [reflexivity|]. cbn [app skip_space]. unfold blank in H. replace (c_isspace c) with true by (unfold c_isspace; lia). exact IH. Qed.

Theorem C69_crex_field_read : forall o (v : var) gap t rest, crex_fits false (c_info (v_cell v)) (c_val (v_cell v)) = true -> Forall blank gap -> spelled v t ->
  (2 <= length rest)%nat -> c_isdigit (hd 0 rest) = false -> forall e, 0 <= e <= 9 ->
  exists n, read_variable o (c_info (v_cell v)) (mkcin (skip_space (gap ++ t ++ rest)) false e) = Ok (n, v_cell v, mkcin (skip_space rest) false e) /\
    forall k, c_val (v_cell v) = Some (VInt k) -> n = u32 k.
Proof.
  intros o v gap t rest F G S L N e He. exists (count_of (c_val (v_cell v))). split; [|intros k ->; reflexivity].
  assert (Fr : follows rest) by (split; [exact L|destruct rest; [cbn in L; lia|exact N]]).
  pose proof (read_variable_ok o false e _ _ rest F He Fr) as R. rewrite (spelled_token e v t F S) in R. rewrite skip_gap by exact G.
  replace (mkcell (c_info (v_cell v)) (c_val (v_cell v))) with (v_cell v) in R by (destruct (v_cell v); reflexivity).
  unfold next_digit in R. cbn [andb] in R. rewrite <- R. do 2 f_equal. destruct (c_val (v_cell v)); reflexivity.
Qed.
Print Assumptions C69_crex_field_read.

Lemma written_follows T items vars text rest : Forall2 (read_slot T) items vars -> written vars text -> (2 <= length rest)%nat -> c_isdigit (hd 0 rest) = false ->
  (2 <= length (text ++ rest))%nat /\ c_isdigit (hd 0 (text ++ rest)) = false.
Proof.
  intros F W L N. split; [rewrite app_length; lia|]. destruct W as [|gap v t vars text G H S W]; [exact N|]. inversion F as [|it ? ? ? (_ & Hs) _]; subst.
  destruct gap as [|c gap]; cbn [app hd].
  - destruct H as [H|H]; [contradiction|]. unfold spelled, var_text in S. rewrite H in S. cbn [field_text] in S. subst t.
    assert (C : crex_fits false (c_info (v_cell v)) (c_val (v_cell v)) = true) by (destruct it; cbn [read_slot] in Hs; tauto). unfold crex_fits in C.
    destruct (Z.to_nat (vi_len (c_info (v_cell v)))) eqn:E; [lia|]. reflexivity.
  - inversion G as [|? ? Gc _]; subst. unfold blank in Gc. unfold c_isdigit. lia.
Qed.

Lemma exec_written o T lt e rest : (2 <= length rest)%nat -> c_isdigit (hd 0 rest) = false -> 0 <= e <= 9 -> forall items vars text got, Forall2 (read_slot T) items vars -> written vars text ->
  exec (c_decoder o) T items (ist_init, mkcdec (mkcin (skip_space (text ++ rest)) false e) got lt) = Ok (ist_init, mkcdec (mkcin (skip_space rest) false e) (got ++ vars) lt).
Proof.
  intros L N He. induction items as [|it items IH]; intros vars text got H W; inversion H as [|? v ? vars' (Na & Hs) H']; subst; inversion W as [|gap ? t ? text' G Gn S W']; subst; cbn [exec].
  - rewrite app_nil_r. reflexivity.
  - destruct (written_follows T items vars' text' rest H' W' L N) as (L' & N'). rewrite <- !app_assoc.
    assert (B : step (c_decoder o) T it (ist_init, mkcdec (mkcin (skip_space (gap ++ t ++ text' ++ rest)) false e) got lt) = Ok (ist_init, mkcdec (mkcin (skip_space (text' ++ rest)) false e) (got ++ [v]) lt)).
    { destruct it as [c| | | | |c n|]; try contradiction.
      - destruct Hs as (Hq & Hc). destruct (C69_crex_field_read o v gap t _ Hc G S L' N' e He) as (m & R & _). cbn [step ist_init is_refbits Z.eqb].
        unfold b_variable. cbn [ist_init is_refbits Z.eqb negb]. unfold get_varinfo. rewrite Hq. cbn [bind ist_init is_scale is_width is_strlen is_srw is_refs is_cur is_afbits Z.eqb andb].
        rewrite andb_false_r. cbn [negb c_decoder on_var]. unfold cd_var, cd_read. cbn [cd_in cd_vars cd_lt]. rewrite R. cbn [bind]. destruct v as [vc va]. cbn [v_attrs v_cell] in *. subst va. reflexivity.
      - destruct Hs as (Hq & Hc & Hv). destruct (C69_crex_field_read o v gap t _ Hc G S L' N' e He) as (m & R & M). specialize (M _ Hv). cbn [step]. rewrite Hq. cbn [bind c_decoder on_factor].
        unfold cd_read. cbn [cd_in cd_vars cd_lt]. rewrite R. cbn [bind]. subst m. rewrite Hv in Hc. unfold crex_fits in Hc. rewrite !andb_true_iff in Hc. destruct Hc as (_ & Hc).
        assert (C : crex_number (c_info (v_cell v)) (Z.of_nat n) = true) by (destruct (vi_type (c_info (v_cell v))); try discriminate; exact Hc).
        unfold crex_number, in_int, int_min, int_max in C. unfold u32. rewrite Z.mod_small by lia. rewrite Nat2Z.id, Nat.eqb_refl. destruct v as [vc va]. cbn [v_attrs v_cell] in *. subst va. reflexivity. }
    rewrite B. cbn [bind]. rewrite (IH vars' text' (got ++ [v]) H' W'), <- app_assoc. reflexivity.
Qed.

(** The data section of a message with one subset: the values, ++, 7777, with any blanks around them.  [C42] says why one subset. *)
Theorem C69_crex_data_read : forall o T ops lt vars line gap1 gap2 after items m',
  expands T (mkmode false false) ops items m' -> Forall2 (read_slot T) items vars -> written vars line -> Forall blank gap1 -> Forall blank gap2 ->
  exists enough, forall fuel, (enough <= fuel)%nat ->
    decode_cdata o T fuel ops lt (mkcin (skip_space (line ++ gap1 ++ [43; 43] ++ gap2 ++ [55; 55; 55; 55] ++ after)) false 0) = Ok [vars].
Proof.
  intros o T ops lt vars line gap1 gap2 after items m' X F W G1 G2. set (tail := gap1 ++ [43; 43] ++ gap2 ++ [55; 55; 55; 55] ++ after).
  assert (L : (2 <= length tail)%nat) by (unfold tail; rewrite !app_length; cbn [length]; lia).
  assert (N : c_isdigit (hd 0 tail) = false) by (unfold tail; destruct G1 as [|c g Hc _]; cbn [app hd]; [reflexivity|unfold blank in Hc; unfold c_isdigit; lia]).
  pose proof (exec_written o T lt 0 tail L N ltac:(lia) items vars line [] F W) as E. cbn [app] in E.
  destruct (Interp.Properties.C18_expansion_is_run _ _ T ops items m' _ _ _ X E) as (k & R). exists k. intros fuel Lf.
  assert (T1 : skip_space tail = [43; 43] ++ gap2 ++ [55; 55; 55; 55] ++ after) by (unfold tail; rewrite skip_gap by exact G1; reflexivity).
  assert (T0 : skip_space (line ++ tail) <> []).
  { assert (P : In 43 (line ++ tail)) by (apply in_or_app; right; unfold tail; apply in_or_app; right; left; reflexivity). revert P. generalize (line ++ tail) as s. induction s as [|c s IH]; intros P; [destruct P|].
    cbn [skip_space]. destruct (c_isspace c) eqn:Ec; [|discriminate]. apply IH. destruct P as [->|P]; [discriminate|exact P]. }
  unfold decode_cdata, check_eof. cbn [ci_rest]. destruct (skip_space (line ++ tail)) as [|c0 s0] eqn:E0; [contradiction|]. cbn [bind decode_csubsets].
  rewrite (run_mono _ _ k fuel _ _ _ Lf R). cbn [bind cd_in cd_vars cd_lt]. rewrite T1.
  change (skip_spaces (mkcin ([43; 43] ++ gap2 ++ [55; 55; 55; 55] ++ after) false 0)) with (mkcin (43 :: 43 :: gap2 ++ [55; 55; 55; 55] ++ after) false 0).
  unfold with_rest, ci_cur. cbn [ci_rest ci_check ci_expected app bind hd Z.eqb Pos.eqb negb skipn].
  unfold check_eof, skip_spaces, with_rest, check_available. cbn [ci_rest ci_check ci_expected app bind hd Z.eqb Pos.eqb negb skipn].
  change (55 :: 55 :: 55 :: 55 :: after) with ([55; 55; 55; 55] ++ after). rewrite skip_gap by exact G2.
  change (skip_space ([55; 55; 55; 55] ++ after)) with (55 :: 55 :: 55 :: 55 :: after). cbn [bind length Nat.ltb Nat.leb firstn list_eqb Z.eqb Pos.eqb andb ci_rest]. reflexivity.
Qed.
Print Assumptions C69_crex_data_read.

(** ** The line " 07 00002 \r\n-0125   ////", which this library never writes *)
Import Crex.Properties.
Definition read_cops : list Z := [wr_var 0 1 1; wr_var 1 1 0; wr_var 0 12 1].
Definition read_items : list item := [IElem (wr_var 0 1 1); IFactor (wr_var 0 31 12) 2; IElem (wr_var 0 12 1); IElem (wr_var 0 12 1)].
Definition read_cvars : list var := [sent block_info (Some (VInt 7)); sent (count_info 12 5) (Some (VInt 2)); sent temp_info (Some (VInt (-125))); sent temp_info None].
Definition read_line : list Z := chars " 07 00002 " ++ [13; 10] ++ chars "-0125   ////".

Lemma digits_known ds n k : length ds = n -> forallb (fun c => (48 <=? c) && (c <=? 57)) ds = true -> fold_left (fun a c => a * 10 + (c - 48)) ds 0 = k ->
  length ds = n /\ digits_of ds k.
Proof. intros L F V. split; [exact L|]. split; [|exact V]. apply Forall_forall. intros c H. rewrite forallb_forall in F. specialize (F c H). lia. Qed.

Example C69_crex_read_example : expands crex_tables (mkmode false false) read_cops read_items (mkmode false false) /\
  Forall2 (read_slot crex_tables) read_items read_cvars /\ written read_cvars read_line.
Proof.
  split; [|split].
  - apply ex_elem; [reflexivity|]. apply (ex_delayed_implicit crex_tables false (wr_var 1 1 0) 2 [wr_var 0 12 1] [] [IElem (wr_var 0 12 1); IElem (wr_var 0 12 1)] (mkmode false false) [] (mkmode false false)); try reflexivity.
    + intros c l E (_ & C). injection E as <- <-. discriminate.
    + apply (rp_one_more crex_tables (mkmode false false) 1 [wr_var 0 12 1] [IElem (wr_var 0 12 1)] (mkmode false false) [IElem (wr_var 0 12 1)]); [apply ex_elem; [reflexivity|]; constructor|].
      apply (rp_one_more crex_tables (mkmode false false) 0 [wr_var 0 12 1] [IElem (wr_var 0 12 1)] (mkmode false false) []); [apply ex_elem; [reflexivity|]; constructor|constructor].
    + constructor.
  - repeat (constructor; [repeat split; reflexivity|]). constructor.
  - assert (B : forall l, forallb (fun c => (c =? 32) || (9 <=? c) && (c <=? 13)) l = true -> Forall blank l)
      by (intros l H; apply Forall_forall; intros c Hc; rewrite forallb_forall in H; specialize (H c Hc); unfold blank; lia).
    change read_line with ([32] ++ [48; 55] ++ [32] ++ [48; 48; 48; 48; 50] ++ [32; 13; 10] ++ [45; 48; 49; 50; 53] ++ [32; 32; 32] ++ [47; 47; 47; 47] ++ []).
    constructor; [apply B; reflexivity|left; discriminate|exists [48; 55]; split; [reflexivity|apply digits_known; reflexivity]|].
    constructor; [apply B; reflexivity|left; discriminate|exists [48; 48; 48; 48; 50]; split; [reflexivity|apply digits_known; reflexivity]|].
    constructor; [apply B; reflexivity|left; discriminate|exists [48; 49; 50; 53]; split; [reflexivity|apply digits_known; reflexivity]|].
    constructor; [apply B; reflexivity|left; discriminate|reflexivity|constructor].
Qed.

(** C69: the text of a CREX message, stated with no decoder. *)
From Coq Require Import ZifyBool ZifyNat String.
From Verif Require Import Base Bits.Spec Num.Float Varcode.Model Varinfo.Model Tables.Model Var.Model Interp.Model Codec.Model Codec.Spec
  Crex.Model Crex.Spec Crex.ValueProofs Crex.MessageProofs.
From Verif Require Crex.Properties.
Local Open Scope Z_scope.

Definition chars (s : string) : list Z := map (fun c => Z.of_nat (Ascii.nat_of_ascii c)) (list_ascii_of_string s).

(** The number that decimal digits stand for. *)
Definition digits_of (ds : list Z) (n : Z) : Prop := Forall (fun c => 48 <= c <= 57) ds /\ fold_left (fun a c => a * 10 + (c - 48)) ds 0 = n.

(** The text of a value: a blank, the sign if negative, as many digits as the table says; or the characters and blanks up to the length of the field.
    A missing value is a slash for each character of the field, with no blank before. *)
Definition field_text (i : varinfo) (v : option value) (text : list Z) : Prop :=
  let n := Z.to_nat (vi_len i) in
  match v with
  | None => text = repeat 47 n
  | Some (VInt k) => exists ds, text = 32 :: (if k <? 0 then [45] else []) ++ ds /\ length ds = n /\ digits_of ds (Z.abs k)
  | Some (VStr s) => text = 32 :: s ++ repeat 32 (n - length s)
  | Some (VBin _) => False
  end.

Theorem C69_crex_field : forall i v text digit, crex_fits false i v = true ->
  exists t, field_text i v t /\ append_var i (mkcell i v) (mkcout text false digit) = Ok (mkcout (text ++ t) false digit).
Proof.
  intros i v text digit F. exists (token false digit i v). split; [|apply (append_var_token false); auto].
  unfold crex_fits in F. rewrite !andb_true_iff in F. destruct F as ((L1 & L2) & F). destruct v as [[k|s|b]|]; cbn [token body field_text app].
  - assert (C : crex_number i k = true) by (destruct (vi_type i); try discriminate; exact F). unfold crex_number in C. rewrite !andb_true_iff in C. destruct C as (((A & B) & I) & P).
    destruct (fmt_0d_number i k ltac:(lia) ltac:(lia) I) as (t & -> & D & V & Lt & _). exists t. split; [reflexivity|]. split; [exact Lt|]. split; [exact D|exact V].
  - reflexivity.
  - destruct (vi_type i); discriminate.
  - reflexivity.
Qed.
Print Assumptions C69_crex_field.

Definition crex_element (T : tables) (code : Z) (v : var) : Prop :=
  var_f code = 0 /\ query (tb_b T) code = Ok (c_info (v_cell v)) /\ crex_fits false (c_info (v_cell v)) (c_val (v_cell v)) = true.
Definition var_text (v : var) (t : list Z) : Prop := field_text (c_info (v_cell v)) (c_val (v_cell v)) t.

Lemma run_line o T vars lt digit : forall ops before rest fuel text, Forall2 (crex_element T) ops rest -> vars = before ++ rest -> (length ops < fuel)%nat ->
  exists ts, Forall2 var_text rest ts /\
    run (c_encoder o vars) T fuel ops (ist_init, mkcenc (length before) (mkcout text false digit) lt) =
    Ok (ist_init, mkcenc (length vars) (mkcout (text ++ concat ts) false digit) lt).
Proof.
  induction ops as [|op ops IH]; intros before rest fuel text H E L; inversion H as [|? v ? rest' (Hf & Hq & Hc) H']; subst; (destruct fuel as [|fuel]; [cbn in L; lia|]).
  - exists []. split; [constructor|]. cbn [run concat]. rewrite !app_nil_r. reflexivity.
  - cbn [run]. rewrite Hf. cbn [Z.eqb]. destruct (C69_crex_field _ _ text digit Hc) as (t & Ft & At).
    replace (mkcell (c_info (v_cell v)) (c_val (v_cell v))) with (v_cell v) in At by (destruct (v_cell v); reflexivity).
    assert (B : b_variable (c_encoder o (before ++ v :: rest')) T op (ist_init, mkcenc (length before) (mkcout text false digit) lt) =
      Ok (ist_init, mkcenc (S (length before)) (mkcout (text ++ t) false digit) lt)).
    { unfold b_variable. cbn [ist_init is_refbits Z.eqb negb]. unfold get_varinfo. rewrite Hq. cbn [bind ist_init is_scale is_width is_strlen is_srw is_refs is_cur is_afbits Z.eqb andb].
      rewrite andb_false_r. cbn [negb c_encoder on_var]. unfold ce_var, ce_next, get_var. cbn [ce_pos ce_out ce_lt].
      rewrite nth_error_app2, Nat.sub_diag by lia. cbn [nth_error bind]. unfold ce_put. cbn [ce_pos ce_out ce_lt]. rewrite At. reflexivity. }
    rewrite B. cbn [bind]. destruct (IH (before ++ [v]) rest' fuel (text ++ t) H' ltac:(rewrite <- app_assoc; reflexivity) ltac:(cbn [length] in L; lia)) as (ts & C1 & C2).
    rewrite app_length in C2. cbn [length] in C2. rewrite Nat.add_1_r in C2. exists (t :: ts). split; [constructor; [exact Ft|exact C1]|].
    cbn [concat]. rewrite C2, <- app_assoc. reflexivity.
Qed.

(** The lines of the subsets, with + and a new line between them. *)
Fixpoint joined (lines : list (list Z)) : list Z :=
  match lines with
  | [] => []
  | [l] => l
  | l :: rest => l ++ [43; 13; 13; 10] ++ joined rest
  end.

Lemma run_lines o T ops fuel lt digit : (length ops < fuel)%nat -> forall subsets first text, Forall (Forall2 (crex_element T) ops) subsets -> 
  exists tss, Forall2 (Forall2 var_text) subsets tss /\
    encode_csubsets o T fuel ops first subsets lt (mkcout text false digit) =
    Ok (mkcout (text ++ (if first then [] else match subsets with [] => [] | _ => [43; 13; 13; 10] end) ++ joined (map (@concat Z) tss)) false digit).
Proof.
  intros L. induction subsets as [|vars subsets IH]; intros first text F; cbn [encode_csubsets].
  - exists []. split; [constructor|]. destruct first; cbn [map joined app]; rewrite app_nil_r; reflexivity.
  - inversion F as [|? ? F1 F2]; subst.
    set (text1 := text ++ (if first then [] else [43; 13; 13; 10])).
    assert (C : (if first then mkcout text false digit else raw_append [43; 13; 13; 10] (mkcout text false digit)) = mkcout text1 false digit)
      by (unfold text1; destruct first; [rewrite app_nil_r|]; reflexivity).
    destruct (run_line o T vars lt digit ops [] vars fuel text1 F1 eq_refl L) as (ts & A1 & A2). cbn [length] in A2.
    destruct (IH false (text1 ++ concat ts) F2) as (tss & B1 & B2). exists (ts :: tss). split; [constructor; assumption|].
    rewrite C, A2. cbn [bind ce_lt ce_out]. rewrite B2. f_equal. f_equal. unfold text1.
    inversion B1 as [|? ? ? ? _ B3]; subst; cbn [map joined app]; rewrite ?app_nil_r, <- ?app_assoc; [reflexivity|].
    cbn [app]. reflexivity.
Qed.

Definition digits2 (n : Z) : list Z := [48 + n / 10; 48 + n mod 10].
Definition digits3 (n : Z) : list Z := [48 + n / 100; 48 + n / 10 mod 10; 48 + n mod 10].

(** The whole message: CREX, the versions, the category, the template, a line for each subset and the end. *)
Theorem C69_crex_message : forall o T fuel lt h ops subsets,
  crex_header_ok h = true -> crex_ops_ok ops = true -> (length ops < fuel)%nat -> Forall (Forall2 (crex_element T) ops) subsets ->
  exists tss, Forall2 (Forall2 var_text) subsets tss /\
    encode_crex o T fuel lt (mkcb h ops subsets) = Ok (
      chars "CREX++" ++ [13; 13; 10] ++
      chars "T" ++ digits2 (ch_mtn h) ++ digits2 (ch_edition h) ++ digits2 (ch_mtv h) ++
      chars " A" ++ digits3 (ch_category h) ++ (if ch_subcategory h =? 255 then [] else digits3 (ch_subcategory h)) ++
      flat_map (fun op => chars " " ++ varcode_format op) ops ++ chars "++" ++ [13; 13; 10] ++
      joined (map (@concat Z) tss) ++
      chars "++" ++ [13; 13; 10] ++ chars "7777" ++ [13; 13; 10]).
Proof.
  intros o T fuel lt h ops subsets Hh Ho L F. unfold encode_crex, encode_sec1. cbn [cb_header cb_datadesc cb_subsets bind].
  match goal with |- context [raw_append ?t (raw_append ?s cout_empty)] => set (lead := t); change (raw_append lead (raw_append s cout_empty)) with (mkcout (s ++ lead) false 0) end.
  destruct (run_lines o T ops fuel lt 0 L subsets true ((crex_start ++ [13; 13; 10]) ++ lead) F) as (tss & A1 & A2). exists tss. split; [exact A1|].
  rewrite A2. cbn [bind co_text]. f_equal. unfold lead. clear A2 lead.
  unfold crex_header_ok in Hh. rewrite !andb_true_iff in Hh. destruct Hh as ((((((((M1 & M2) & E1) & E2) & V1) & V2) & C1) & C2) & S).
  assert (D : flat_map desc_text ops = flat_map (fun op => chars " " ++ varcode_format op) ops).
  { unfold crex_ops_ok in Ho. apply andb_true_iff in Ho as [_ Ho]. rewrite forallb_forall in Ho. clear -Ho. induction ops as [|c ops IH]; [reflexivity|]. cbn [flat_map].
    rewrite IH by (intros; apply Ho; right; assumption). f_equal. specialize (Ho c (or_introl eq_refl)). rewrite !andb_true_iff in Ho. destruct Ho as ((H1 & H2) & H3).
    apply desc_text_format; [lia|]. unfold is_count. apply negb_true_iff in H3. exact H3. }
  rewrite D. assert (S3 : (if ch_subcategory h =? 255 then [] else fmt_0d 3 (schar (ch_subcategory h))) = (if ch_subcategory h =? 255 then [] else digits3 (ch_subcategory h))).
  { destruct (ch_subcategory h =? 255) eqn:X; [reflexivity|]. rewrite schar_small, MessageProofs.three_digits by lia. reflexivity. }
  rewrite S3, !schar_small, !two_digits, MessageProofs.three_digits by lia. cbn [co_check raw_append cout_empty app]. unfold crex_start, crex_end.
  repeat (rewrite <- app_assoc; cbn [app]). reflexivity.
Qed.
Print Assumptions C69_crex_message.

(** That the values of a line are separated by blanks is false: a missing value comes straight after what is before it. *)
Import Crex.Properties.
Theorem C69_crex_separated_refuted :
  append_vars [mkcell block_info (Some (VInt 7)); mkcell temp_info None; mkcell temp_info None] (mkcout [] false 0) = Ok (mkcout (chars " 07////////") false 0).
Proof. reflexivity. Qed.

Example C69_crex_example : crex_header_ok ex_cheader = true /\
  Forall (Forall2 (crex_element crex_tables) [wr_var 0 1 1; wr_var 0 12 1; wr_var 0 1 15])
    [[sent block_info (Some (VInt 7)); sent temp_info (Some (VInt (-125))); sent name_info (Some (VStr [65; 66]))]; [sent block_info (Some (VInt 8)); sent temp_info None; sent name_info None]].
Proof.
  split; [reflexivity|]. repeat (constructor; [repeat (constructor; [split; [reflexivity|split; reflexivity]|]); constructor|]). constructor.
Qed.

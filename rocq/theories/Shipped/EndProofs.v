(** Elements and sequences of the tables that are loaded. *)
From Coq Require Import ZifyBool ZifyNat String List ZArith Permutation.
From Verif Require Import Base Bits.Model Bits.Spec Varcode.Model Varinfo.Model Varinfo.RangeProofs Tables.Model Tables.Spec Tables.DtableProofs Tables.LoadProofs
  Var.Model Interp.Model Interp.FuelProofs Codec.Model Codec.Spec Codec.ValueProofs Shipped.Text Shipped.Catalog Shipped.Check Shipped.Spec Shipped.Proofs.
Import ListNotations.
Local Open Scope Z_scope.

(** ** Elements *)
Lemma bfast_more ls : forall last fs, bfast ls last = Some fs -> length fs = length ls /\
  Forall (fun f => bf_text f = false -> bf_len f = digits (bf_bits f) /\ small_scale (bf_scale f) = true /\ Z.abs (bf_ref f) <= 2 ^ 30) fs.
Proof.
  induction ls as [|l ls IH]; intros last fs H; cbn [bfast] in H; [injection H as <-; split; [reflexivity|constructor]|].
  destruct (bline_of (line_of l)) as [f|] eqn:B; [|discriminate]. destruct (Z.ltb last (bf_code f)); [|discriminate].
  destruct (bfast ls (bf_code f)) as [fs'|] eqn:R; [|discriminate]. injection H as <-. destruct (IH _ _ R) as [L F].
  split; [cbn [length]; congruence|]. constructor; [|exact F]. clear - B. unfold bline_of in B.
  destruct (Nat.ltb (length (line_of l)) 119); [discriminate|]. destruct (fline_code (line_of l)); [|discriminate].
  destruct (fnum (skipn 98 (line_of l))); [|discriminate]. destruct (fnum (skipn 102 (line_of l))); [|discriminate].
  destruct (fnum (skipn 115 (line_of l))); [|discriminate]. cbv zeta in B. destruct (_ <? 0); [discriminate|].
  destruct (String.eqb _ _).
  - injection B as <-. discriminate.
  - destruct (_ && _) eqn:Q in B; [|discriminate]. injection B as <-. cbn [bf_len bf_bits bf_scale bf_ref]. intros _. split; [reflexivity|].
    rewrite !andb_true_iff in Q. split; [tauto|lia].
Qed.

Lemma elements_more ls fs : elements false ls = Some fs -> length fs = length ls /\
  Forall (fun f => bf_text f = false -> bf_len f = digits (bf_bits f) /\ small_scale (bf_scale f) = true /\ Z.abs (bf_ref f) <= 2 ^ 30) fs.
Proof. unfold elements. destruct (forallb plain ls); [apply bfast_more|discriminate]. Qed.

Lemma query_from fs t code i : Forall2 entry_says fs t -> query t code = Ok i -> exists f, In f fs /\ says f i.
Proof.
  intros F Q. unfold query in Q. inv_bind Q. destruct a as [k|]; [|discriminate]. unfold entry_at in Hk.
  destruct (nth_error t k) as [e|] eqn:N; [|discriminate]. cbn [bind] in Hk. injection Hk as <-. clear - F N.
  revert k N. induction F as [|f e' fs t S F IH]; intros [|k] N; cbn [nth_error] in N; try discriminate.
  - injection N as ->. exists f. split; [left; reflexivity|exact S].
  - destruct (IH _ N) as (g & I & Sg). exists g. split; [right; exact I|exact Sg].
Qed.

Lemma digits_9 b : 1 <= b <= 29 -> 1 <= digits b <= 9.
Proof.
  intros R. unfold digits. destruct (Z.eqb_spec b 1); [lia|]. split.
  - apply Z.div_le_lower_bound; lia.
  - assert ((b * 30103 + 99999) / 100000 < 10) by (apply Z.div_lt_upper_bound; lia). lia.
Qed.

Lemma in_range_fits i k : info_ok i -> is_numeric (vi_type i) = true -> 1 <= vi_bit_len i <= 29 -> vi_len i = digits (vi_bit_len i) ->
  var_x (vi_code i) <> 31 -> vi_imin i <= k <= vi_imax i -> number_fits i k = true.
Proof.
  intros K N B L X R. pose proof (io_built _ K) as Bt. unfold built, compute_range in Bt. inv_bind Bt. destruct a as [mn mx].
  assert (E : vi_imin i = mn /\ vi_imax i = mx).
  { destruct (vi_type i); try discriminate; inv_bind Hk; inv_bind Hk0; injection Hk as Hk; rewrite <- Hk; auto. }
  destruct E as [E1 E2]. unfold compute_irange in Hb. pose proof (digits_9 _ B) as D. rewrite <- L in D.
  assert (Hb' : (if 10 <=? vi_len i then Ok (int_min, int_max) else if vi_bit_len i =? 0 then p <- intexp10 (vi_len i) ;; Ok (- (p - 1), p - 2)
    else if 31 <=? vi_bit_len i then UB else
      bit_max0 <- int_checked (2 ^ vi_bit_len i + vi_bit_ref i) ;;
      bit_max <- (if negb (var_x (vi_code i) =? 31) then int_checked (bit_max0 - 2) else Ok bit_max0) ;;
      p <- intexp10 (vi_len i) ;;
      Ok (Z.max (vi_bit_ref i) (- (p - 1)), Z.min bit_max (p - 2))) = Ok (mn, mx)).
  { destruct (vi_type i); try discriminate; exact Hb. }
  clear Hb. replace (10 <=? vi_len i) with false in Hb' by lia. replace (vi_bit_len i =? 0) with false in Hb' by lia.
  replace (31 <=? vi_bit_len i) with false in Hb' by lia. replace (negb (var_x (vi_code i) =? 31)) with true in Hb' by lia.
  inv_bind Hb'. inv_bind Hk0. inv_bind Hk1. injection Hk0 as <- <-.
  unfold int_checked in Hb, Hb0. destruct (in_int _) in Hb; [|discriminate]. injection Hb as <-.
  destruct (in_int _) in Hb0; [|discriminate]. injection Hb0 as <-.
  unfold number_fits. replace (no_missing (vi_code i)) with false.
  2: { unfold no_missing. replace (var_x (vi_code i) =? 31) with false by lia. rewrite andb_false_r. reflexivity. }
  rewrite !andb_true_iff. lia.
Qed.

(** ** Sequences *)

(** A sequence that contains itself cannot be walked to its end. *)
Lemma no_good_end {S : Type} (V : visitor S) (T : tables) c a b : var_f a = 3 -> var_f b = 3 -> var_f c = 3 -> dexpand (tb_d T) c = Ok [a; b; c] ->
  forall k x y, run V T k [c] x <> Ok y.
Proof.
  intros Fa Fb Fc E k. induction k as [k IH] using (well_founded_induction Wf_nat.lt_wf). intros x y R.
  assert (D : forall k r x y d, var_f d = 3 -> run V T k (d :: r) x = Ok y -> exists k' x', k = Datatypes.S k' /\ run V T k' r x' = Ok y).
  { clear. intros k r x y d Fd H. destruct k as [|k]; [discriminate|]. cbn [run] in H. rewrite Fd in H. cbn [Z.eqb Pos.eqb] in H.
    inv_bind H. inv_bind Hk. eauto. }
  destruct k as [|k]; [discriminate|]. cbn [run] in R. rewrite Fc, E in R. cbn [Z.eqb Pos.eqb bind] in R. inv_bind R. clear Hk.
  apply (D _ _ _ _ _ Fa) in Hb as (k1 & x1 & -> & R1). apply (D _ _ _ _ _ Fb) in R1 as (k2 & x2 & -> & R2).
  apply (IH k2 ltac:(lia) _ _ R2).
Qed.

(** A table is loaded and a sequence looked up. *)
Definition body_of (ls : list text) (code : Z) : option (list Z) :=
  match sequences ls with
  | Some bs => if increasing (-1) (map fst bs) then option_map snd (List.find (fun b => fst b =? code) bs) else None
  | None => None
  end.

Lemma body_of_ok ls code body d : body_of ls code = Some body -> load_dtable (file ls) = Ok d -> dexpand d code = Ok body.
Proof.
  unfold body_of. destruct (sequences ls) as [bs|] eqn:S; [|discriminate]. destruct (increasing (-1) (map fst bs)) eqn:I; [|discriminate].
  intros F L. rewrite (sequences_load _ _ S) in L. injection L as <-. pose proof (dquery_sorted bs code I) as Q. unfold dblock in *.
  destruct (List.find (fun b : Z * list Z => fst b =? code) bs) as [b|]; [|discriminate]. injection F as <-.
  destruct Q as (o & Q & _ & Sl). unfold dexpand. rewrite Q. cbn [bind]. congruence.
Qed.

(** A sequence that is listed and not found. *)
Definition misses (ls : list text) (code : Z) : bool :=
  match sequences ls with
  | Some bs => existsb (Z.eqb code) (map fst bs) && match find_code (map fst bs) code with Ok None => true | _ => false end
  | None => false
  end.

Lemma misses_ok ls code : misses ls code = true ->
  exists bs, sequences ls = Some bs /\ load_dtable (file ls) = Ok (dtable_of bs) /\ In code (map de_code (dt_entries (dtable_of bs))) /\
    dquery (dtable_of bs) code = Err ENotFound.
Proof.
  unfold misses. destruct (sequences ls) as [bs|] eqn:S; [|discriminate]. intros H. apply andb_prop in H as [H1 H2]. exists bs.
  split; [reflexivity|]. split; [apply sequences_load; exact S|].
  unfold dquery, dtable_of. cbn [dt_entries dt_codes]. rewrite entries_codes. unfold dblock in *. split.
  - apply existsb_exists in H1 as (c & I & E). apply Z.eqb_eq in E as ->. exact I.
  - destruct (find_code (map fst bs) code) as [[?|]| |]; try discriminate. reflexivity.
Qed.

(** ** CREX *)
Lemma cfast_lines ls : forall last fs, cfast ls last = Some fs -> forall l code, In l ls -> line_code (line_of l) = Ok code ->
  var_x code <> 31 -> In code (map bf_code fs).
Proof.
  induction ls as [|a ls IH]; intros last fs H l code Il Lc X; [destruct Il|]. cbn [cfast] in H.
  destruct (cline_of (line_of a)) as [[f|]|] eqn:Ca; [| |discriminate].
  - destruct (last <? bf_code f); [|discriminate]. destruct (cfast ls (bf_code f)) as [fs'|] eqn:R; [|discriminate]. injection H as <-.
    cbn [map]. destruct Il as [->|Il]; [|right; eapply IH; eauto]. left. unfold cline_of in Ca.
    destruct (fline_code (line_of l)) as [c|] eqn:Fc; [|discriminate]. apply fline_code_ok in Fc as [Fc _].
    assert (c = code) by congruence. subst c. destruct (Nat.ltb (length (line_of l)) 157); [destruct (negb (var_x code =? 31)); discriminate|].
    destruct (fnum (skipn 143 (line_of l))); [|discriminate]. destruct (fnum (skipn 149 (line_of l))); [|discriminate]. cbv zeta in Ca.
    destruct (_ <? 0); [discriminate|]. destruct (String.eqb _ _); [|destruct (small_scale _); [|discriminate]]; injection Ca as <-; reflexivity.
  - destruct Il as [->|Il]; [|eapply IH; eauto]. exfalso. unfold cline_of in Ca.
    destruct (fline_code (line_of l)) as [c|] eqn:Fc; [|discriminate]. apply fline_code_ok in Fc as [Fc _].
    assert (c = code) by congruence. subst c. replace (var_x code =? 31) with false in Ca by lia. cbn [negb] in Ca.
    destruct (Nat.ltb (length (line_of l)) 157); [discriminate|].
    destruct (fnum (skipn 143 (line_of l))); [|discriminate]. destruct (fnum (skipn 149 (line_of l))); [|discriminate]. cbv zeta in Ca.
    destruct (_ <? 0); [discriminate|]. destruct (String.eqb _ _); [|destruct (small_scale _)]; discriminate.
Qed.

Lemma dfast_nonempty ls : forall done code cur left bs, dfast ls done code cur left = Some bs -> bs <> [].
Proof.
  induction ls as [|l ls IH]; intros done code cur left bs H; cbn [dfast] in H.
  - destruct (left =? 0); [|discriminate]. destruct cur; [discriminate|]. injection H as <-. intros X.
    rewrite !rev_append_rev in X. unfold dblock in *. destruct (rev done); discriminate.
  - destruct (dline_of (line_of l)) as [[n c f|c]|]; [| |discriminate].
    + destruct (left =? 0); [eapply IH; exact H|discriminate].
    + destruct (left =? 0); [discriminate|]. destruct cur; [discriminate|]. eapply IH. exact H.
Qed.

Lemma sequences_nonempty ls bs : sequences ls = Some bs -> bs <> [].
Proof. unfold sequences. destruct (forallb plain ls); [apply dfast_nonempty|discriminate]. Qed.

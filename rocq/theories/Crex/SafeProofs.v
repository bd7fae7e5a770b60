(** CREX decoding of any input: what is read in bounds, and what ends. *)
From Coq Require Import ZifyBool ZifyNat.
From Verif Require Import Base Bits.Spec Num.Float Varcode.Model Varcode.Proofs Varinfo.Model Tables.Model Var.Model
  Interp.Model Interp.Sim Interp.FuelProofs Codec.Model Codec.ColumnProofs Codec.EndProofs Crex.Model Crex.Spec Crex.ValueProofs.
Local Open Scope Z_scope.

(** ** The data descriptors *)
Definition accepted (ch : Z) : bool := (ch =? 66) || (ch =? 82) || (ch =? 67) || (ch =? 68) || (ch =? 69) || (ch =? 43).

Lemma stuck fuel : forall c acc, accepted (ci_cur c) = false -> decode_descs fuel c acc = Err EFuel.
Proof.
  induction fuel as [|k IH]; intros c acc A; [reflexivity|]. cbn [decode_descs]. unfold accepted in A.
  replace ((ci_cur c =? 66) || (ci_cur c =? 82) || (ci_cur c =? 67) || (ci_cur c =? 68)) with false by lia.
  replace (ci_cur c =? 69) with false by lia. replace (ci_cur c =? 43) with false by lia. apply IH. exact A.
Qed.

Lemma skip_shorter n c : (length (ci_rest (skip_data_and_spaces n c)) <= length (ci_rest c) - n)%nat.
Proof.
  unfold skip_data_and_spaces, skip_spaces, with_rest. cbn [ci_rest].
  assert (G : forall s, (length (skip_space s) <= length s)%nat).
  { induction s as [|a s IH]; cbn [skip_space length]; [auto|]. destruct (c_isspace a); cbn [length]; lia. }
  etransitivity; [apply G|]. rewrite skipn_length. lia.
Qed.

Lemma parse_safe s : (6 <= length s)%nat -> varcode_parse (Some s) <> UB /\ varcode_parse (Some s) <> Err EFuel.
Proof.
  intros L. do 6 (destruct s as [|? s]; [cbn in L; lia|]). unfold varcode_parse, check_digits, cchar. cbn [nth_error bind].
  repeat match goal with |- context [if ?b then _ else _] => destruct b; cbn [bind]; try (split; congruence) end.
Qed.

(** Either the loop ends, and quickly, or it never does. *)
Lemma descs_end : forall n fuel c acc, (length (ci_rest c) <= n)%nat -> (n < fuel)%nat ->
  decode_descs fuel c acc <> UB /\
  (decode_descs fuel c acc = Err EFuel -> forall fuel', decode_descs fuel' c acc = Err EFuel) /\
  (decode_descs fuel c acc <> Err EFuel -> forall fuel', (n < fuel')%nat -> decode_descs fuel' c acc = decode_descs fuel c acc).
Proof.
  induction n as [n IH] using lt_wf_ind. intros fuel c acc L Lf.
  destruct (accepted (ci_cur c)) eqn:A.
  2:{ pose proof (stuck fuel c acc A) as E. rewrite E. split; [discriminate|]. split; [intros _ f; apply stuck; exact A|congruence]. }
  assert (Ne : (1 <= length (ci_rest c))%nat).
  { unfold accepted, ci_cur in A. destruct (ci_rest c); [cbn [hd] in A; lia|cbn [length]; lia]. }
  destruct fuel as [|k]; [lia|].
  assert (Step : forall c' acc', (length (ci_rest c') <= length (ci_rest c) - 1)%nat ->
    (forall f, decode_descs (S f) c acc = decode_descs f c' acc') ->
    decode_descs (S k) c acc <> UB /\
    (decode_descs (S k) c acc = Err EFuel -> forall fuel', decode_descs fuel' c acc = Err EFuel) /\
    (decode_descs (S k) c acc <> Err EFuel -> forall fuel', (n < fuel')%nat -> decode_descs fuel' c acc = decode_descs (S k) c acc)).
  { intros c' acc' Lc Eq. rewrite Eq. destruct (IH (n - 1)%nat ltac:(lia) k c' acc' ltac:(lia) ltac:(lia)) as (H1 & H2 & H3).
    split; [exact H1|]. split.
    - intros E [|f]; [reflexivity|]. rewrite Eq. auto.
    - intros E [|f] Lf'; [lia|]. rewrite Eq. apply H3; auto. lia. }
  assert (Ended : forall r, r <> UB -> r <> Err EFuel -> (forall f, decode_descs (S f) c acc = r) ->
    decode_descs (S k) c acc <> UB /\
    (decode_descs (S k) c acc = Err EFuel -> forall fuel', decode_descs fuel' c acc = Err EFuel) /\
    (decode_descs (S k) c acc <> Err EFuel -> forall fuel', (n < fuel')%nat -> decode_descs fuel' c acc = decode_descs (S k) c acc)).
  { intros r R1 R2 Eq. rewrite Eq. split; [exact R1|]. split; [congruence|]. intros _ [|f] Lf'; [lia|]. apply Eq. }
  destruct ((ci_cur c =? 66) || (ci_cur c =? 82) || (ci_cur c =? 67) || (ci_cur c =? 68)) eqn:B1.
  { unfold check_available in *. destruct (Nat.ltb (length (ci_rest c)) 6) eqn:L6.
    - apply (Ended (Err EParse)); try discriminate. intros f. cbn [decode_descs]. rewrite B1. unfold check_available. rewrite L6. reflexivity.
    - apply Nat.ltb_ge in L6. destruct (parse_safe (ci_rest c) L6) as [P1 P2].
      destruct (varcode_parse (Some (ci_rest c))) as [code|e|] eqn:P; [| |congruence].
      + apply (Step (skip_data_and_spaces 6 c) (acc ++ [code])).
        * pose proof (skip_shorter 6 c). lia.
        * intros f. cbn [decode_descs]. rewrite B1. unfold check_available. rewrite (proj2 (Nat.ltb_ge _ _) L6). cbn [bind]. rewrite P. reflexivity.
      + apply (Ended (Err e)); [discriminate|congruence|]. intros f. cbn [decode_descs]. rewrite B1. unfold check_available.
        rewrite (proj2 (Nat.ltb_ge _ _) L6). cbn [bind]. rewrite P. reflexivity. }
  destruct (ci_cur c =? 69) eqn:B2.
  { apply (Step (skip_data_and_spaces 1 (mkcin (ci_rest c) true 1)) acc).
    - pose proof (skip_shorter 1 (mkcin (ci_rest c) true 1)) as Sh. cbn [ci_rest] in Sh. lia.
    - intros f. cbn [decode_descs]. rewrite B1, B2. reflexivity. }
  assert (B3 : ci_cur c =? 43 = true) by (unfold accepted in A; lia).
  destruct (hd 0 (skipn 1 (ci_rest c)) =? 43) eqn:B4.
  - apply (Ended (Ok (acc, skip_data_and_spaces 2 c))); try discriminate. intros f. cbn [decode_descs]. rewrite B1, B2, B3.
    unfold check_available. rewrite (proj2 (Nat.ltb_ge _ 1) Ne). cbn [bind]. rewrite B4. reflexivity.
  - apply (Ended (Err EParse)); try discriminate. intros f. cbn [decode_descs]. rewrite B1, B2, B3.
    unfold check_available. rewrite (proj2 (Nat.ltb_ge _ 1) Ne). cbn [bind]. rewrite B4. reflexivity.
Qed.

(** ** The header *)
Lemma parse_edition_safe w : parse_edition w <> UB /\ parse_edition w <> Err EFuel.
Proof.
  unfold parse_edition. destruct (cstr w) as [|c s]; [split; discriminate|].
  destruct (Z.eq_dec c 84) as [->|N].
  - destruct (scan_hhu2 s) as [[a s1]|]; [|split; discriminate]. destruct (scan_hhu2 s1) as [[b s2]|]; [|split; discriminate].
    destruct (scan_hhu2 s2) as [[d s3]|]; split; discriminate.
  - assert (E : (match c with 84 => match scan_hhu2 s with Some (a, s1) => match scan_hhu2 s1 with Some (b, s2) => match scan_hhu2 s2 with
      Some (c, _) => Ok (a, b, c) | None => Err EConsistency end | None => Err EConsistency end | None => Err EConsistency end
      | _ => Err EConsistency end) = @Err (Z * Z * Z) EConsistency).
    { destruct c as [|p|p]; try reflexivity. do 7 (try (destruct p as [p|p|]; try reflexivity)). contradiction. }
    rewrite E. split; discriminate.
Qed.

Lemma header_end data : exists n, forall fuel, (n < fuel)%nat ->
  decode_cheader fuel data <> UB /\
  (decode_cheader fuel data = Err EFuel -> forall fuel', decode_cheader fuel' data = Err EFuel) /\
  (decode_cheader fuel data <> Err EFuel -> forall fuel', (n < fuel')%nat -> decode_cheader fuel' data = decode_cheader fuel data).
Proof.
  assert (Const : forall r : res (cheader * list Z * cin), r <> UB -> r <> Err EFuel -> (forall fuel, decode_cheader fuel data = r) ->
    exists n, forall fuel, (n < fuel)%nat -> decode_cheader fuel data <> UB /\
    (decode_cheader fuel data = Err EFuel -> forall fuel', decode_cheader fuel' data = Err EFuel) /\
    (decode_cheader fuel data <> Err EFuel -> forall fuel', (n < fuel')%nat -> decode_cheader fuel' data = decode_cheader fuel data)).
  { intros r R1 R2 E. exists 0%nat. intros fuel _. rewrite E. split; [exact R1|]. split; [congruence|]. intros _ f _. apply E. }
  unfold decode_cheader in *.
  destruct (check_available 6 (mkcin data false 0)) as [u|e|] eqn:E1; cbn [bind] in *;
    [|apply (Const (Err e)); [discriminate|unfold check_available in E1; destruct (Nat.ltb _ _); congruence|auto]
     |unfold check_available in E1; destruct (Nat.ltb _ _); discriminate].
  destruct (negb (list_eqb _ _)); [apply (Const (Err EParse)); try discriminate; auto|].
  set (c1 := skip_data_and_spaces 6 (mkcin data false 0)) in *.
  unfold check_eof in *. destruct (ci_rest c1); cbn [bind] in *; [apply (Const (Err EParse)); try discriminate; auto|].
  destruct (negb (ci_cur c1 =? 84)); [apply (Const (Err EParse)); try discriminate; auto|].
  destruct (read_word 11 c1) as [w c2]. destruct (parse_edition_safe w) as [P1 P2].
  destruct (parse_edition w) as [[[mtn ed] mtv]|e|] eqn:Pe; cbn [bind] in *; [|apply (Const (Err e)); [discriminate|congruence|auto]|congruence].
  destruct (ci_rest c2); cbn [bind] in *; [apply (Const (Err EParse)); try discriminate; auto|].
  destruct (negb (ci_cur c2 =? 65)); [apply (Const (Err EParse)); try discriminate; auto|].
  destruct (read_word 20 c2) as [w2 c3].
  destruct (parse_atable w2) as [[[cat sub] subl]|e|] eqn:Pa; cbn [bind] in *;
    [|unfold parse_atable in Pa; cbv zeta in Pa; destruct (Nat.eqb _ 4); [discriminate|]; destruct (Nat.eqb _ 7); [discriminate|];
      injection Pa as <-; apply (Const (Err EConsistency)); try discriminate; auto
     |unfold parse_atable in Pa; cbv zeta in Pa; destruct (Nat.eqb _ 4); [discriminate|]; destruct (Nat.eqb _ 7); discriminate].
  destruct (ci_rest c3) as [|x r] eqn:E3; cbn [bind] in *; [apply (Const (Err EParse)); try discriminate; auto|].
  exists (length (ci_rest c3)). intros fuel Lf. destruct (descs_end _ fuel c3 [] (le_n _) Lf) as (H1 & H2 & H3).
  destruct (decode_descs fuel c3 []) as [[ds c4]|e|] eqn:D; cbn [bind] in *; [| |congruence].
  - split; [discriminate|]. split; [discriminate|]. intros _ f' L'. rewrite (H3 ltac:(discriminate) f' L'). reflexivity.
  - split; [discriminate|]. split.
    + intros [= ->] f'. rewrite (H2 eq_refl f'). reflexivity.
    + intros Ne f' L'. rewrite (H3 ltac:(congruence) f' L'). reflexivity.
Qed.

(** ** The data *)
Lemma parse_value_ended n s c : ended (parse_value n s c).
Proof. unfold parse_value, check_available. en. Qed.
#[local] Hint Resolve parse_value_ended setc_ended seti_ended get_unknown_ended : ended.

Lemma read_variable_ended o i c : options_end o -> ended (read_variable o i c).
Proof. intros O. unfold read_variable. en. Qed.

Lemma c_decoder_ends o : options_end o -> visitor_ends (c_decoder o).
Proof.
  intros O. assert (R : forall i s, ended (cd_read o i s)).
  { intros i s. unfold cd_read. apply ended_bind; [apply read_variable_ended; exact O|]. intros [[a b] c] _. discriminate. }
  constructor; intros; cbn [c_decoder on_var on_var_af on_factor on_bitmap_factor on_significance on_subst on_attr on_raw on_refval
    on_bitmap on_unknown]; try discriminate; auto.
  - unfold cd_var. apply ended_bind; [apply R|]. intros [x y] _. discriminate.
  - unfold cd_unknown. apply ended_bind; [apply get_unknown_ended|]. intros [x y] _. discriminate.
Qed.

(** The cursor never goes back. *)
Lemma read_variable_shorter o i c n v c' : read_variable o i c = Ok (n, v, c') -> (length (ci_rest c') <= length (ci_rest c))%nat.
Proof.
  unfold read_variable. intros H. inv_bind H. destruct a as [[here field] c1].
  assert (L : (length (ci_rest c1) <= length (ci_rest c))%nat).
  { unfold parse_value in Hb. destruct (check_available _ c) as [u|e|]; cbn [bind] in Hb; try discriminate.
    match type of Hb with bind ?m _ = _ => destruct m as [c0|e|] eqn:E0; cbn [bind] in Hb; try discriminate end.
    assert (L0 : (length (ci_rest c0) <= length (ci_rest c))%nat).
    { destruct (ci_check c); [destruct (negb _); [discriminate|]|]; apply ok_inj in E0; subst c0; [cbn [ci_rest]; rewrite skipn_length; lia|lia]. }
    cbv zeta in Hb. apply ok_inj in Hb. injection Hb as _ _ <-.
    match goal with |- (length (ci_rest (skip_data_and_spaces ?m ?x)) <= _)%nat => pose proof (skip_shorter m x) as Sh end. lia. }
  clear Hb. destruct (hd 0 here =? 47); [congruence|]. destruct (vi_type i); inv_bind Hk; congruence.
Qed.

Lemma run_shorter o T fuel ops st s st' s' : ist_ok st -> run (c_decoder o) T fuel ops (st, s) = Ok (st', s') ->
  (length (ci_rest (cd_in s')) <= length (ci_rest (cd_in s)))%nat.
Proof.
  intros I R. set (P := fun x : cdec => (length (ci_rest (cd_in x)) <= length (ci_rest (cd_in s)))%nat).
  assert (Rd : forall i x n x', P x -> cd_read o i x = Ok (n, x') -> P x').
  { intros i x n x' Px H. unfold cd_read in H. inv_bind H. destruct a as [[a b] c]. apply ok_inj in Hk. injection Hk as _ <-.
    apply read_variable_shorter in Hb. unfold P in *. cbn [cd_in]. lia. }
  eapply (run_inv (c_decoder o) T P); [|exact I|unfold P; auto|exact R].
  constructor; cbn [on_var on_var_af on_factor on_bitmap_factor on_significance on_subst on_attr on_raw on_refval on_bitmap
    on_unknown c_decoder]; intros; try discriminate; eauto.
  - unfold cd_var in H0. inv_bind H0. destruct a as [n x]. apply ok_inj in Hk. subst. eauto.
  - unfold cd_unknown in H0. inv_bind H0. destruct a as [j lt]. apply ok_inj in Hk. injection Hk as _ <-. exact H.
Qed.

Lemma skip_supp_ended s : ended (skip_supp s).
Proof. induction s as [|c s IH]; cbn [skip_supp]; en. Qed.

Theorem data_ends o T ops : options_end o -> well_founded (within T) ->
  exists N, forall fuel lt c, (N <= fuel)%nat ->
    decode_cdata o T fuel ops lt c = decode_cdata o T N ops lt c /\ decode_cdata o T fuel ops lt c <> Err EFuel.
Proof.
  intros O W. destruct (template_done T ops W) as (N1 & D). destruct (template_settles T ops W) as (N2 & P).
  exists (N1 + N2)%nat. intros fuel lt c L.
  assert (R1 : forall x, run (c_decoder o) T fuel ops x = run (c_decoder o) T (N1 + N2) ops x)
    by (intros x; rewrite (P _ (c_decoder o) fuel), (P _ (c_decoder o) (N1 + N2)%nat) by lia; reflexivity).
  assert (R2 : forall x, ended (run (c_decoder o) T fuel ops x)) by (intros x; apply D; [apply c_decoder_ends; exact O|lia]).
  assert (G : forall k lt c, (length (ci_rest c) < k)%nat ->
    decode_csubsets o T fuel ops k lt c = decode_csubsets o T (N1 + N2) ops k lt c /\ ended (decode_csubsets o T fuel ops k lt c)).
  { clear lt c. induction k as [|k IH]; intros lt c Lk; [lia|]. cbn [decode_csubsets]. rewrite <- R1.
    pose proof (R2 (ist_init, mkcdec c [] lt)) as E.
    destruct (run (c_decoder o) T fuel ops (ist_init, mkcdec c [] lt)) as [[st s]|e|] eqn:Rn; cbn [bind];
      [|split; [auto|unfold ended in *; congruence]|split; [auto|discriminate]].
    apply run_shorter in Rn; [|apply ist_ok_init]. cbn [cd_in] in Rn.
    assert (Sk : (length (ci_rest (skip_spaces (cd_in s))) <= length (ci_rest c))%nat).
    { pose proof (skip_shorter 0 (cd_in s)) as Sh. unfold skip_data_and_spaces, with_rest in Sh. cbn [skipn] in Sh.
      destruct (cd_in s) as [r b e]. cbn [ci_rest ci_check ci_expected] in *. lia. }
    set (c1 := skip_spaces (cd_in s)) in *. clearbody c1. destruct c1 as [r1 k1 e1]. cbn [ci_rest] in Sk.
    unfold check_eof, ci_cur, with_rest. cbn [ci_rest ci_check ci_expected].
    destruct r1 as [|x r]; cbn [bind hd skipn]; [split; [auto|discriminate]|].
    destruct (negb (x =? 43)); [split; [auto|discriminate]|].
    destruct r as [|y r]; cbn [bind hd skipn]; [split; [auto|discriminate]|].
    destruct (y =? 43); [split; [auto|discriminate]|]. cbn [length] in Sk.
    destruct (IH (cd_lt s) (mkcin (y :: r) k1 e1)) as [<- E2].
    { cbn [ci_rest length]. lia. }
    split; [reflexivity|]. apply ended_bind; [exact E2|]. intros [a b] _. discriminate. }
  destruct (G (S (length (ci_rest c))) lt c ltac:(lia)) as [G1 G2].
  unfold decode_cdata. rewrite <- G1. split; [reflexivity|]. change (ended (decode_cdata o T fuel ops lt c)). unfold decode_cdata.
  apply ended_bind; [unfold check_eof; destruct (ci_rest c); discriminate|]. intros _ _.
  apply ended_bind; [exact G2|]. intros [gots c1] _. cbv zeta.
  assert (Ce : forall c, ended (check_eof c)) by (intros x; unfold check_eof; destruct (ci_rest x); discriminate).
  assert (Ca : forall n c, ended (check_available n c)) by (intros n x; unfold check_available; destruct (Nat.ltb _ _); discriminate).
  apply ended_bind; [apply Ce|]. intros _ _. apply ended_bind; [apply Ca|]. intros _ _.
  apply ended_bind.
  - destruct (list_eqb _ _); [|discriminate]. apply ended_bind; [apply skip_supp_ended|]. intros a _. discriminate.
  - intros c3 _. apply ended_bind; [apply Ce|]. intros _ _. apply ended_bind; [apply Ca|]. intros _ _.
    destruct (list_eqb _ _); discriminate.
Qed.

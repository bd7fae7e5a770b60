(** Decoding the data of CREX messages: only one operator leads to undefined behaviour. *)
From Coq Require Import ZifyBool ZifyNat.
From Verif Require Import Base Bits.Spec Num.Float Varcode.Model Varinfo.Model Tables.Model Tables.Spec Tables.Proofs Var.Model
  Interp.Model Interp.Appears Interp.SureProofs Codec.Model Crex.Model Crex.Spec Crex.ValueProofs Crex.SafeProofs.
Local Open Scope Z_scope.

(** ** Values *)
Lemma seti_sure o i v : hook_defined o -> sure (of_outcome (seti o (fresh i) v)) (fun _ => True).
Proof.
  intros H. unfold seti, assign_i_checked. destruct (is_numeric (vi_type (c_info (fresh i)))); [|exact I]. cbv zeta.
  match goal with |- context [if ?b then _ else _] => destruct b end; [|exact I].
  destruct (o_silent o); [exact I|]. destruct (o_clamp o); [exact I|]. unfold hook_defined in H.
  destruct (o_hook o) as [h|]; [|exact I]. specialize (H (fresh i) (inl v)). destruct (h (fresh i) (inl v)); cbn; auto.
Qed.

Lemma cstr_short (s : list Z) : (length (cstr s) <= length s)%nat.
Proof. induction s as [|a s IH]; cbn [cstr length]; [auto|]. destruct (a =? 0); cbn [length]; lia. Qed.
Lemma cstr_ended (s : list Z) : (length (cstr (s ++ [0%Z])) < length (s ++ [0%Z]))%nat.
Proof. induction s as [|a s IH]; cbn [cstr app length]; [auto|]. destruct (a =? 0); cbn [length]; lia. Qed.

Lemma text_sure o i s : vi_type i = TString -> sure (of_outcome (setc o (fresh i) (s ++ [0]))) (fun _ => True).
Proof.
  intros T. unfold setc. cbn [fresh c_info]. rewrite T. unfold assign_c_checked, strncpy_str.
  set (n := if Nat.ltb _ _ then _ else _). destruct (Nat.ltb (length (s ++ [0])) n) eqn:L; [|exact I].
  apply Nat.ltb_lt in L. rewrite firstn_all2 by lia. pose proof (cstr_ended s).
  destruct (Nat.eqb_spec (length (cstr (s ++ [0]))) (length (s ++ [0]))); [lia|exact I].
Qed.

Lemma parse_value_sure n b c : sure (parse_value n b c) (fun _ => True).
Proof.
  unfold parse_value, check_available. destruct (Nat.ltb (length (ci_rest c)) (n + 2)); [exact I|]. cbn [bind].
  destruct (ci_check c); [|exact I]. destruct (negb (ci_cur c - 48 =? ci_expected c)); exact I.
Qed.

Lemma read_variable_sure o i c : hook_defined o -> sure (read_variable o i c) (fun _ => True).
Proof.
  intros H. unfold read_variable. eapply sure_bind; [apply parse_value_sure|]. intros [[here field] c1] _.
  destruct (hd 0 here =? 47); [exact I|].
  destruct (vi_type i) eqn:E;
    (eapply sure_bind; [first [apply text_sure; exact E | apply seti_sure; exact H]|]; intros ? _; exact I).
Qed.

Lemma cd_read_sure o i s : hook_defined o -> sure (cd_read o i s) (fun _ => True).
Proof. intros H. unfold cd_read. eapply sure_bind; [apply read_variable_sure; exact H|]. intros [[n v] c] _. exact I. Qed.

Lemma cd_var_sure o i s : hook_defined o -> sure (cd_var o i s) (fun _ => True).
Proof. intros H. unfold cd_var. eapply sure_bind; [apply cd_read_sure; exact H|]. intros [n s'] _. exact I. Qed.

Lemma cd_unknown_sure code bits s : sure (cd_unknown code bits s) (fun _ => True).
Proof.
  unfold cd_unknown, get_unknown. destruct (assoc Z.eqb bits (lt_unknown (cd_lt s))) as [i|].
  - destruct (negb (vi_code i =? code)); exact I.
  - exact I.
Qed.

(** ** Definitions *)
Definition crex_state (st : istate) : Prop :=
  0 <= is_srw st <= 9 /\ is_refs st = [] /\ is_cur st = None /\ is_last st = None.

Lemma get_varinfo_sure t st code : crex_elements t -> crex_state st -> sure (get_varinfo t st code) (fun _ => True).
Proof.
  intros Ht (W & R & _). unfold get_varinfo. eapply sure_bind; [apply query_sure|]. intros i (e & In_e & <-).
  unfold crex_elements in Ht. rewrite Forall_forall in Ht. specialize (Ht e In_e). rewrite R.
  match goal with |- context [if ?b then Ok _ else _] => destruct b end; [exact I|]. cbv zeta. rewrite Ht.
  replace (int_checked (0 * 10 ^ is_srw st)) with (Ok 0) by reflexivity. replace (9 <? is_srw st) with false by lia.
  cbn [bind assoc].
  destruct (is_srw st =? 0); cbn [bind]; apply expected_sure; cbn [r_bits r_ref]; try lia; unfold u32; apply Z.mod_pos_bound; lia.
Qed.

(** ** Subsets *)
Section Subset.
Context (o : options) (HO : hook_defined o) (T : tables) (HT : crex_elements (tb_b T)).
Let Inv (x : istate * cdec) : Prop := crex_state (fst x).
Let V := c_decoder o.

Ltac from_sure L := eapply sure_bind; [eapply L; solve [eauto]|].

Lemma crex_b code x : Inv x -> sure (b_variable V T code x) Inv.
Proof.
  destruct x as [st s]. intros Ix. unfold Inv in Ix. cbn [fst] in Ix. pose proof Ix as (W & R & C & _). unfold b_variable.
  destruct (negb (is_refbits st =? 0)); [exact I|]. eapply sure_bind; [apply get_varinfo_sure; eauto|]. intros i _.
  rewrite C, andb_false_r. destruct (negb (is_afbits st =? 0)); [exact I|]. cbn [on_var V c_decoder].
  eapply sure_bind; [apply cd_var_sure; exact HO|]. intros s' _. exact Ix.
Qed.

Lemma crex_c code next x : calm code = true -> var_f code = 2 -> Inv x ->
  sure (c_modifier V T code next x) (fun y => Inv (snd (fst y), snd y) /\ (fst (fst y) = next \/ exists c, next = c :: fst (fst y))).
Proof.
  destruct x as [st s]. intros Cm F Ix. unfold Inv in *. cbn [fst snd] in *. pose proof Ix as (W & R & C & La). unfold c_modifier.
  assert (Y : 0 <= var_y code) by (unfold var_y; apply Z.land_nonneg; lia).
  destruct (Z.eqb_spec (var_x code) 1); [cbn; auto|]. destruct (Z.eqb_spec (var_x code) 2); [cbn; auto|].
  destruct (Z.eqb_spec (var_x code) 3); [cbn; auto|]. destruct (Z.eqb_spec (var_x code) 4).
  { destruct (negb (var_y code =? 0) && negb (is_afbits st =? 0)); [exact I|]. destruct (32 <? var_y code); [exact I|].
    destruct (var_y code =? 0); [cbn; auto|]. destruct next as [|c next]; [exact I|]. cbn [pop_left bind].
    destruct (negb (c =? var_B31021)); [exact I|]. eapply sure_bind; [apply query_sure|]. intros i _. exact I. }
  destruct (Z.eqb_spec (var_x code) 5); [exact I|]. destruct (Z.eqb_spec (var_x code) 6).
  { destruct next as [|c next]; [exact I|]. cbn [pop_left bind]. destruct (var_y code =? 0); [cbn; eauto|].
    eapply sure_bind; [apply contains_sure|]. intros known _.
    apply sure_bind with (P := fun _ => True).
    { destruct known; [|exact I]. eapply sure_bind; [apply get_varinfo_sure; eauto|]. intros i _. exact I. }
    intros oi _. apply sure_bind with (P := fun _ => True).
    { destruct oi; [exact I|]. apply cd_unknown_sure. }
    intros [i s1] _. eapply sure_bind; [apply cd_var_sure; exact HO|]. intros s2 _. cbn. eauto. }
  destruct (Z.eqb_spec (var_x code) 7).
  { unfold calm in Cm. unfold crex_state. cbn. split; [|auto]. repeat split; auto; lia. }
  destruct (Z.eqb_spec (var_x code) 8); [cbn; auto|].
  destruct (Z.eqb_spec (var_x code) 22); [destruct (negb (var_y code =? 0)); cbn; auto|].
  destruct (Z.eqb_spec (var_x code) 23).
  { destruct (var_y code =? 0); [cbn; auto|]. destruct (var_y code =? 255); [|exact I]. unfold bitmaps_next. rewrite C. exact I. }
  destruct (Z.eqb_spec (var_x code) 37); [|cbn; auto].
  destruct (var_y code =? 0); [|destruct (var_y code =? 255); [|exact I]]; cbn; (split; [|auto]); unfold crex_state; cbn; rewrite ?La; auto.
Qed.

Lemma crex_r code delayed body x : Inv x -> (forall y, Inv y -> sure (body y) Inv) ->
  sure (r_replication V T body code delayed x) Inv.
Proof.
  destruct x as [st s]. intros Ix Hb. unfold r_replication. apply sure_bind with (P := fun _ => True).
  { destruct (var_y code =? 0); [|exact I]. eapply sure_bind; [apply query_sure|]. intros i _. apply cd_read_sure. exact HO. }
  intros [n s1] _. apply sure_repeat; [exact Hb|exact Ix].
Qed.

Lemma crex_m code delayed ops x : sure (r_bitmap V T code delayed ops x) Inv.
Proof.
  destruct x as [st s]. unfold r_bitmap. destruct (negb (var_x code =? 1)); [exact I|]. destruct (negb (hd 0 ops =? var_B31031)); [exact I|].
  apply sure_bind with (P := fun _ => True); [|intros [n s1] _; exact I].
  destruct (var_y code =? 0); [|exact I]. eapply sure_bind; [apply query_sure|]. intros i _. exact I.
Qed.

Lemma subset_sure fuel ops s : calm_template T ops -> sure (run V T fuel ops (ist_init, s)) (fun _ => True).
Proof.
  intros A. apply sure_weaken with (P := Inv); [|auto].
  apply run_sure with (allowed := appears T ops).
  - intros code x _ _. apply crex_b.
  - intros code next x F C _ Ix. apply crex_c; auto.
  - intros code delayed body x _ _. apply crex_r.
  - intros code delayed ops' x _ _ _. apply crex_m.
  - apply appears_inside.
  - apply appears_here.
  - unfold Inv, crex_state, ist_init. cbn. repeat split; lia.
Qed.

(** ** The data *)
Lemma csubsets_sure fuel ops : calm_template T ops -> forall fuel' lt c, sure (decode_csubsets o T fuel ops fuel' lt c) (fun _ => True).
Proof.
  intros A. induction fuel' as [|k IH]; intros lt c; [exact I|]. cbn [decode_csubsets].
  eapply sure_bind; [apply subset_sure; exact A|]. intros [st s] _. cbv zeta. unfold check_eof.
  destruct (ci_rest (skip_spaces (cd_in s))); [exact I|]. cbn [bind].
  destruct (negb (ci_cur (skip_spaces (cd_in s)) =? 43)); [exact I|].
  match goal with |- context [match ?x with [] => _ | _ => _ end] => destruct x end; [exact I|]. cbn [bind].
  match goal with |- context [if ?b then _ else _] => destruct b end; [exact I|].
  eapply sure_bind; [apply IH|]. intros [gots c3] _. exact I.
Qed.

Lemma skip_supp_sure s : sure (skip_supp s) (fun _ => True).
Proof.
  induction s as [|a s IH]; [exact I|]. cbn [skip_supp]. destruct (list_eqb (firstn 2 (a :: s)) [43; 43]); [exact I|].
  destruct (Nat.ltb (length (a :: s)) 2); [exact I|exact IH].
Qed.

Lemma cdata_sure fuel ops lt c : calm_template T ops -> sure (decode_cdata o T fuel ops lt c) (fun _ => True).
Proof.
  intros A. unfold decode_cdata.
  assert (Eof : forall c, sure (check_eof c) (fun _ => True)) by (intros x; unfold check_eof; destruct (ci_rest x); exact I).
  assert (Av : forall n c, sure (check_available n c) (fun _ => True)) by (intros n x; unfold check_available; destruct (Nat.ltb _ _); exact I).
  eapply sure_bind; [apply Eof|]. intros _ _. eapply sure_bind; [apply csubsets_sure; exact A|]. intros [gots c1] _. cbv zeta.
  eapply sure_bind; [apply Eof|]. intros _ _. eapply sure_bind; [apply Av|]. intros _ _.
  apply sure_bind with (P := fun _ => True).
  { match goal with |- context [if ?b then _ else _] => destruct b end; [|exact I]. eapply sure_bind; [apply skip_supp_sure|]. intros r _. exact I. }
  intros c3 _. eapply sure_bind; [apply Eof|]. intros _ _. eapply sure_bind; [apply Av|]. intros _ _.
  match goal with |- context [if ?b then _ else _] => destruct b end; exact I.
Qed.
End Subset.

(** ** Tables loaded from files *)
Lemma load_crex_elements text t : load_crex text = Ok t -> crex_elements t.
Proof.
  unfold load_crex. assert (G : forall ls t0 t1, crex_elements t0 -> load_clines ls t0 = Ok t1 -> crex_elements t1).
  { induction ls as [|l ls IH]; intros t0 t1 H0 E; cbn [load_clines] in E; [injection E as <-; exact H0|].
    destruct (crex_line l) as [[i|]|e|] eqn:El; try discriminate; cbn [bind] in E; [|eapply IH; eauto].
    assert (Hi : vi_bit_ref i = 0).
    { unfold crex_line in El. destruct (line_code l) as [code|e|]; try discriminate. cbn [bind] in El.
      destruct (Nat.ltb (length l) 157); [destruct (negb (var_x code =? 31)); discriminate|]. cbv zeta in El.
      match type of El with bind (compute_range ?a ?t ?u ?s ?n ?r ?b) _ = _ => destruct (compute_range a t u s n r b) as [j|e|] eqn:Ej end; try discriminate.
      cbn [bind] in El. injection El as <-. unfold compute_range in Ej.
      match type of Ej with bind ?m _ = _ => destruct m as [[x y]|e|] end; try discriminate. cbn [bind] in Ej.
      match type of Ej with match ?t with _ => _ end = _ => destruct t end;
        repeat match type of Ej with bind ?m _ = _ => destruct m; try discriminate; cbn [bind] in Ej end; injection Ej as <-; reflexivity. }
    unfold obtain in E. assert (Ha : crex_elements (t0 ++ [mkbentry i []])).
    { apply Forall_app. split; [exact H0|]. constructor; [exact Hi|constructor]. }
    destruct (rev t0) as [|e r]; [|destruct (vi_code i <=? be_code e); [discriminate|]]; cbn [bind] in E; eapply IH; eauto. }
  intros E. eapply G; [|exact E]. constructor.
Qed.

(** ** Whole messages *)
Lemma descs_sure : forall fuel c acc, sure (decode_descs fuel c acc) (fun _ => True).
Proof.
  induction fuel as [|k IH]; intros c acc; [exact I|]. cbn [decode_descs]. unfold check_available.
  match goal with |- context [if ?b then _ else _] => destruct b end.
  { destruct (Nat.ltb (length (ci_rest c)) 6) eqn:L; [exact I|]. apply Nat.ltb_ge in L. cbn [bind].
    destruct (parse_safe (ci_rest c) L) as [P _]. destruct (varcode_parse (Some (ci_rest c))); [apply IH|exact I|congruence]. }
  destruct (ci_cur c =? 69); [apply IH|]. destruct (ci_cur c =? 43); [|apply IH].
  destruct (Nat.ltb (length (ci_rest c)) 1); [exact I|]. cbn [bind].
  match goal with |- context [if ?b then _ else _] => destruct b end; exact I.
Qed.

Lemma edition_sure w : sure (parse_edition w) (fun _ => True).
Proof.
  unfold parse_edition.
  repeat match goal with
  | |- sure (Ok _) _ => exact I
  | |- sure (Err _) _ => exact I
  | |- sure (match ?x with _ => _ end) _ => destruct x
  end.
Qed.

Lemma header_never_ub data fuel : decode_cheader fuel data <> UB.
Proof.
  apply sure_not_ub with (P := fun _ => True). unfold decode_cheader.
  assert (Eof : forall c, sure (check_eof c) (fun _ => True)) by (intros x; unfold check_eof; destruct (ci_rest x); exact I).
  assert (Av : forall n c, sure (check_available n c) (fun _ => True)) by (intros n x; unfold check_available; destruct (Nat.ltb _ _); exact I).
  cbv zeta. eapply sure_bind; [apply Av|]. intros _ _. match goal with |- context [if ?b then _ else _] => destruct b end; [exact I|].
  eapply sure_bind; [apply Eof|]. intros _ _. match goal with |- context [if ?b then _ else _] => destruct b end; [exact I|].
  destruct (read_word 11 _) as [w c2]. eapply sure_bind; [apply edition_sure|]. intros [[mtn ed] mtv] _.
  eapply sure_bind; [apply Eof|]. intros _ _. match goal with |- context [if ?b then _ else _] => destruct b end; [exact I|].
  destruct (read_word 20 _) as [w2 c3]. apply sure_bind with (P := fun _ => True).
  { unfold parse_atable. cbv zeta. destruct (Nat.eqb _ 4); [exact I|]. destruct (Nat.eqb _ 7); exact I. }
  intros [[cat sub] subl] _. eapply sure_bind; [apply Eof|]. intros _ _. eapply sure_bind; [apply descs_sure|]. intros [ds c4] _. exact I.
Qed.

Lemma crex_sure o load data : hook_defined o ->
  (forall h, load h <> UB) -> (forall h T, load h = Ok T -> crex_elements (tb_b T)) ->
  (forall fuel h ops c T, decode_cheader fuel data = Ok (h, ops, c) -> load h = Ok T -> calm_template T ops) ->
  forall fuel, decode_crex o load fuel data <> UB.
Proof.
  intros HO HL HE HC fuel. unfold decode_crex. destruct (decode_cheader fuel data) as [[[h ops] c]|e|] eqn:Eh; cbn [bind].
  - pose proof (HL h) as L. destruct (load h) as [T|e|] eqn:El; cbn [bind]; [|discriminate|congruence].
    pose proof (cdata_sure o HO T (HE h T El) fuel ops empty_local c (HC fuel h ops c T Eh El)) as D.
    destruct (decode_cdata o T fuel ops empty_local c); [discriminate|discriminate|destruct D].
  - discriminate.
  - exfalso. exact (header_never_ub data fuel Eh).
Qed.

(** C53 and C54 with the tables that come with the library. *)
From Coq Require Import ZArith ZifyBool ZifyNat String List.
From Verif Require Import Base Varcode.Model Varinfo.Model Tables.Model Tables.Spec Tables.Proofs Var.Model Interp.Model Interp.Appears Codec.Model Codec.CheckedEnc
  Message.Model Crex.Model Crex.Spec Crex.CheckedEnc Crex.CheckedEncProofs Crex.EncodeProperties Crex.Again Crex.AgainProperties Shipped.Text Shipped.Catalog Shipped.Check Shipped.Spec Shipped.Proofs.
From Verif Require Crex.Properties Crex.OperatorProperties.
Import ListNotations.
Local Open Scope Z_scope.

Lemma says_definitions fs t : Forall2 entry_says fs t -> (forall f, In f fs -> width_ok true f = true) -> (forall e, In e t -> vi_bit_ref (be_info e) = 0 /\ vi_bit_len (be_info e) = 0) ->
  crex_definitions t.
Proof.
  intros F W B. apply Forall_forall. intros e Ie. destruct (B e Ie) as [B1 B2]. split; [exact B1|]. split; [exact B2|].
  clear B B1 B2. induction F as [|f e' fs t Sy F IH]; [contradiction|]. destruct Ie as [<-|Ie].
  - specialize (W f (or_introl eq_refl)). unfold width_ok in W. destruct Sy as (_ & _ & _ & _ & _ & S6 & _). rewrite S6. lia.
  - apply IH; auto. intros g Ig. apply W. right. exact Ig.
Qed.
Lemma shipped_definitions n ls t : In (n, ls) shipped_b -> In n crex_too -> load_crex (file ls) = Ok t -> crex_definitions t.
Proof.
  intros I C L. destruct (c_table n ls I C) as (fs & t' & _ & L' & F & W). assert (t' = t) by congruence. subst t'.
  destruct (Crex.OperatorProperties.crex_loaded _ _ L) as [_ B]. apply (says_definitions fs); auto. intros e Ie. destruct (B e Ie) as (B1 & B2 & _). auto.
Qed.

(** With any table of the library that loads for CREX: whatever the variables, with a template without the operators of
    [modest] and values that can be written as texts, encoding is defined. *)
Theorem C53_shipped_tables : forall n ls o T fuel lt b, In (n, ls) shipped_b -> In n crex_too -> load_crex (file ls) = Ok (tb_b T) ->
  modest_template T (cb_datadesc b) -> cbulletin_made b -> Forall (Forall (fun v => written_value (v_cell v))) (cb_subsets b) -> made_for_206 lt ->
  encode_crex o T fuel lt b <> UB.
Proof. intros n ls o T fuel lt b I C L M B W G. apply C53_always_defined; auto. eapply shipped_definitions; eauto. Qed.

(** C55 with these tables: a template without operators needs only that the counts B31001, B31002, B31011 and B31012
    were written in a way that the library can write again. *)
Theorem C55_shipped_tables : forall n ls o load fuel data h ops vars T lt, In (n, ls) shipped_b -> In n crex_too -> load_crex (file ls) = Ok (tb_b T) ->
  plain_options o -> Forall (fun x => 1 <= x < 256) data -> decode_crex o load fuel data = Ok (mkcb h ops [vars]) -> load h = Ok T ->
  again_header h = true -> crex_ops_ok ops = true -> (forall code, appears T ops code -> var_f code <> 2) -> again_factors vars = true ->
  exists text, encode_crex o T fuel lt (mkcb h ops [vars]) = Ok text /\ decode_crex o load fuel text = Ok (mkcb h ops [vars]).
Proof.
  intros n ls o load fuel data h ops vars T lt I C L Po F D LT Hh Ho A K. eapply C55_plain_template; eauto. intros code i Q.
  destruct (c_table n ls I C) as (fs & t' & _ & L' & S & W). assert (t' = tb_b T) by congruence. subst t'.
  destruct (Crex.OperatorProperties.crex_query _ _ _ _ L Q) as (e & Fe & <- & _). apply find_some in Fe as [Ie _]. clear - S W Ie.
  induction S as [|f e' fs t Sy S IH]; [contradiction|]. destruct Ie as [<-|Ie]; [|apply IH; auto; intros g Ig; apply W; right; exact Ig].
  specialize (W f (or_introl eq_refl)). unfold width_ok in W. destruct Sy as (S1 & _ & _ & _ & _ & S6 & S7). rewrite S1, S6, S7. rewrite !andb_true_iff in W. destruct W as [W1 W2].
  split; [lia|]. intros E. destruct (bf_text f); [|destruct (_ =? 0) in E; discriminate]. lia.
Qed.

Print Assumptions C53_shipped_tables.
Print Assumptions C55_shipped_tables.

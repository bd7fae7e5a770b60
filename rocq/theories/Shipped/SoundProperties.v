(** C56 with the tables that come with the library. *)
From Coq Require Import ZifyBool ZifyNat String List ZArith Permutation.
From Verif Require Import Base Bits.Model Bits.Spec Varcode.Model Varinfo.Model Tables.Model Tables.Spec Tables.LoadProofs Select.Model Select.Spec
  Var.Model Var.Spec Interp.Model Codec.Model Codec.ColumnProofs Codec.AgainSteps Codec.Sound
  Message.Model Message.Spec Message.SafeProofs Crex.SoundProperties
  Shipped.Text Shipped.Catalog Shipped.Check Shipped.Spec Shipped.Model Shipped.Proofs Shipped.ChoiceProofs Shipped.LoadProofs Shipped.EndProofs
  Shipped.Properties Shipped.AgainProperties.
Import ListNotations.
Local Open Scope Z_scope.

Theorem C56_shipped_tables : forall names opt skip fuel d b T found, Permutation names shipped_names -> Forall is_byte d -> hook_ok opt ->
  decode opt (shipped_load names) skip fuel d = Ok (b, T, found) ->
  Forall (Forall (sound_var opt)) (b_subsets b).
Proof.
  intros names opt skip fuel d b T found P F HO E.
  assert (X : exists l, decode_lead d = Ok l /\ b_header b = l_header l /\ shipped_load names (tableid_of (l_header l)) = Ok T).
  { pose proof E as E'. unfold decode in E'. inv_bind E'. inv_bind Hk. inv_bind Hk0. destruct a1. apply ok_inj in Hk. injection Hk as <- <- _. exists a. auto. }
  destruct X as (l & El & Hh & Lo).
  pose proof (lead_ids d F) as Ids. unfold defined in Ids. rewrite El in Ids.
  assert (X : exists n ls, In (n, ls) shipped_b /\ crex_name n = false /\ ~ In n unloadable /\ load_bufr (file ls) = Ok (tb_b T)).
  { pose proof Lo as Lo'. unfold shipped_load in Lo'. destruct (search_bufr (wanted (tableid_of (l_header l))) (in_dir names)) as [t|] eqn:S; [|discriminate].
    destruct (load_spec names _ t P Ids S) as (n & m & lb & ld & Ib & Im & Cn & En & Em & X). rewrite Lo in X. clear Lo'.
    destruct (load_bufr (file lb)) as [bt|e|] eqn:Lb; [|discriminate|discriminate]. cbn [bind] in X.
    destruct (load_dtable (file ld)) as [dt|e|]; [|discriminate|discriminate]. cbn [bind] in X. injection X as ->.
    exists n, lb. split; [exact Ib|]. split; [exact Cn|]. split; [|exact Lb]. intros Un. apply eumetsat_name in Un. rewrite En in Un. apply (eumetsat_choice names _ _ P Ids S) in Un.
    destruct Un as [U1 U2]. destruct (C46_found names (tableid_of (l_header l)) P Ids) as [N _].
    destruct (Z.eq_dec (t_master_table (tableid_of (l_header l))) 0) as [M|M]; [|rewrite N in Lo by (left; exact M); discriminate].
    rewrite (C46_found_refuted names _ P Ids M U1 U2) in Lo. discriminate. }
  destruct X as (n & ls & Ib & Cn & Un & Lb). destruct (shipped_defs n ls (tb_b T) Ib Cn Un Lb) as [D R].
  exact (C56_bufr _ _ _ _ _ _ _ _ HO E (load_bufr_ok _ _ Lb) D).
Qed.

Print Assumptions C56_shipped_tables.

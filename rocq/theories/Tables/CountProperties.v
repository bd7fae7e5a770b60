(** C15: counts below zero. *)
From Coq Require Import ZArith Lia ZifyBool ZifyNat.
From Verif Require Import Base Varcode.Model Tables.Model Tables.Spec Tables.LineProofs Tables.DtableProofs Interp.Holds.
Local Open Scope Z_scope.

(** More descriptors are expected than there are lines. *)
Lemma too_many ls : forall d d', dl_count d + Z.of_nat (length ls) < dl_check d -> dtable_lines d ls = Ok d' -> dl_count d' <> dl_check d'.
Proof.
  induction ls as [|l ls IH]; intros d d' H E; cbn [dtable_lines length] in *; [apply same_ok in E; subst; lia|].
  inv_bind E. unfold dtable_line in Hb. destruct (Nat.ltb _ 18); [discriminate|]. cbv zeta in Hb. destruct (_ || _).
  - destruct (negb _) eqn:N; [discriminate|]. lia.
  - destruct (is_prefix _ l); [|discriminate]. destruct (dl_codes d) as [|c0 cs] eqn:Ec; [discriminate|]. destruct (dl_count d =? dl_check d); [discriminate|].
    inv_bind Hb. apply same_ok in Hk0. subst a. refine (IH _ _ _ Hk). unfold dl_count in *. cbn [dl_codes dl_begin dl_check]. rewrite Ec in H. rewrite app_length. cbn [length] in *. lia.
Qed.

(** A file where the count of a sequence is written with a minus sign is not loaded, however many lines follow (less than 2^31). *)
Theorem C15_negative_count : forall before start digits rest after,
  Forall good_line (before ++ (start ++ 45 :: digits ++ 32 :: rest) :: after) ->
  length start = 7%nat -> nth 1 start 0 = 68 \/ nth 1 start 0 = 51 ->
  digits <> [] -> Forall (fun c => 48 <= c <= 57) digits -> 1 <= dec_value 0 digits < 2 ^ 31 -> Z.of_nat (length after) < 2 ^ 31 - 1 ->
  forall t, load_dtable (concat (before ++ (start ++ 45 :: digits ++ 32 :: rest) :: after)) <> Ok t.
Proof.
  intros before start digits rest after G L7 C1 N D V La t E. unfold load_dtable in E. rewrite file_lines_spec in E by exact G. rewrite dtable_lines_app in E.
  set (line := start ++ 45 :: digits ++ 32 :: rest) in *.
  assert (S7 : skipn 7 line = 45 :: digits ++ 32 :: rest). { unfold line. rewrite skipn_app, L7, Nat.sub_diag. rewrite skipn_all2 by lia. reflexivity. }
  assert (N1 : nth 1 line 0 = nth 1 start 0). { unfold line. apply app_nth1. lia. }
  assert (U : c_strtoul (skipn 7 line) = ((- dec_value 0 digits) mod 2 ^ 64, 32 :: rest)).
  { rewrite S7. unfold c_strtoul. cbn [skip_space]. change (c_isspace 45) with false. cbv iota. cbn [Z.eqb Pos.eqb]. destruct digits as [|c ds]; [congruence|].
    assert (Dg : Forall (fun c => c_isdigit c = true) (c :: ds)). { revert D. apply Forall_impl. intros x Hx. unfold c_isdigit. lia. }
    cbn [app]. rewrite (Forall_inv Dg). change (c :: ds ++ 32 :: rest) with ((c :: ds) ++ 32 :: rest). rewrite scan_digits_app by (auto; reflexivity).
    rewrite (proj2 (Z.leb_gt _ _)) by lia. reflexivity. }
  inv_bind E. inv_bind Hb. rename a0 into d0. cbn [dtable_lines] in Hk0. inv_bind Hk0. rename a0 into d1. rename Hb into Hb1, Hk1 into HA. unfold dtable_line in Hb1.
  destruct (Nat.ltb (length line) 18); [discriminate|]. cbv zeta in Hb1. rewrite N1 in Hb1. replace ((nth 1 start 0 =? 68) || (nth 1 start 0 =? 51)) with true in Hb1 by lia.
  destruct (negb (dl_count d0 =? dl_check d0)); [discriminate|]. rewrite U in Hb1.
  assert (W : u32 ((- dec_value 0 digits) mod 2 ^ 64) = 2 ^ 32 - dec_value 0 digits).
  { set (v := dec_value 0 digits) in *. unfold u32. rewrite <- (Z.mod_unique (- v) (2 ^ 64) (-1) (2 ^ 64 - v)) by lia. symmetry. apply (Z.mod_unique _ _ (2 ^ 32 - 1)); lia. }
  rewrite W in Hb1. destruct (_ <? 1); [discriminate|]. inv_bind Hb1. inv_bind Hk0. apply same_ok in Hk1.
  assert (X : dl_count a <> dl_check a).
  { apply (too_many after d1); [|exact HA]. subst d1. unfold dl_count. cbn [dl_codes dl_begin dl_check]. rewrite app_length. cbn [length]. lia. }
  destruct (dl_codes a); [discriminate|]. rewrite (proj2 (Z.eqb_neq _ _) X) in Hk. discriminate.
Qed.
Print Assumptions C15_negative_count.

(** " D01001 -2 B01001 ", then as many lines as the number without its sign says. *)
Example C15_negative_count_example :
  let start := [32; 68; 48; 49; 48; 48; 49] in let rest := [66; 48; 49; 48; 48; 49; 32; 32; 32; 10] in
  let next := repeat 32 11 ++ [66; 48; 49; 48; 48; 50; 32; 10] in
  Forall good_line ([] ++ (start ++ 45 :: [50] ++ 32 :: rest) :: [next]) /\ length start = 7%nat /\ nth 1 start 0 = 68 /\
  1 <= dec_value 0 [50] < 2 ^ 31 /\ is_ok (load_dtable ((start ++ [32; 50; 32] ++ rest) ++ next)) = true.
Proof.
  cbv zeta. split; [|split; [reflexivity|split; [reflexivity|split; [cbn; lia|vm_compute; reflexivity]]]].
  constructor; [|constructor; [|constructor]].
  - exists [32; 68; 48; 49; 48; 48; 49; 45; 50; 32; 66; 48; 49; 48; 48; 49; 32; 32; 32]. split; [reflexivity|]. split; [repeat (constructor; [lia|]); constructor|cbn; lia].
  - exists (repeat 32 11 ++ [66; 48; 49; 48; 48; 50; 32]). split; [reflexivity|]. split; [cbn; repeat (constructor; [lia|]); constructor|cbn; lia].
Qed.

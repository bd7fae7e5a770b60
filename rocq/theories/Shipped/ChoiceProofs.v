(** The choice among the tables of the library. *)
From Coq Require Import ZifyBool ZifyNat String List ZArith Permutation.
From Verif Require Import Base Bits.Model Bits.Spec Bits.Proofs Tables.Model Select.Model Select.Spec Select.Proofs Message.Model Message.Spec
  Message.Proofs Message.SafeProofs Shipped.Text Shipped.Catalog Shipped.Spec Shipped.Model.
From Verif Require Select.Properties Codec.ValueProofs Subset.Proofs.
Import ListNotations.
Local Open Scope Z_scope.

(** ** What a header asks for *)

Definition ids_ok (h : header) : Prop := bufr_id_ok (wanted (tableid_of h)).

Section Header.
Context (d : list Z) (HB : Forall is_byte d).
Ltac safe_byte := eapply defined_bind; [apply read_at_safe; [exact HB|lia]|]; intros ? ?.
Ltac safe_short := eapply defined_bind; [apply read_number_safe; [exact HB|lia|lia]|]; intros ? ?.

Lemma sec1_ed3_ids ed sec2 : (8 + 18 <= length d)%nat -> (sec2 <= length d)%nat ->
  defined (decode_sec1_ed3 d ed sec2) (fun x => ids_ok (fst (fst x)) /\ scanned d (snd (fst x))).
Proof.
  intros L L2. unfold decode_sec1_ed3. cbv zeta. unfold read_byte. safe_byte. safe_byte.
  eapply defined_bind; [apply scan_safe; auto|]. intros se Hs. do 12 safe_byte. cbn [defined fst snd]. split; [|exact Hs].
  unfold ids_ok, bufr_id_ok, wanted, tableid_of, is_byte in *. cbn. lia.
Qed.

Lemma sec1_ed4_ids ed sec2 : (8 + 22 <= length d)%nat -> (sec2 <= length d)%nat ->
  defined (decode_sec1_ed4 d ed sec2) (fun x => ids_ok (fst (fst x)) /\ scanned d (snd (fst x))).
Proof.
  intros L L2. unfold decode_sec1_ed4. cbv zeta. unfold read_byte. safe_byte. do 2 safe_short. do 2 safe_byte.
  eapply defined_bind; [apply scan_safe; auto|]. intros se Hs. destruct (_ && _); [discriminate|].
  do 5 safe_byte. safe_short. do 5 safe_byte. cbn [defined fst snd]. split; [|exact Hs].
  unfold ids_ok, bufr_id_ok, wanted, tableid_of, is_byte in *. cbn. lia.
Qed.

Lemma lead_ids : defined (decode_lead d) (fun l => ids_ok (l_header l)).
Proof.
  unfold decode_lead. destruct (Nat.ltb (length d) 8) eqn:E8; [discriminate|].
  eapply defined_bind; [apply zlist_is_safe; [exact HB|cbn [length]; lia]|]. intros [] _; cbn [negb]; [|discriminate].
  unfold read_byte at 1. safe_byte. rename a into ed. destruct (negb _) eqn:ED; [discriminate|].
  eapply defined_bind; [apply section_end_safe; exact HB|]. cbv beta. intros sec2 H2.
  destruct (Nat.ltb (length d) (8 + (if ed =? 4 then 22 else 18))) eqn:E1; [discriminate|].
  apply defined_bind with (P := fun x => ids_ok (fst (fst x)) /\ scanned d (snd (fst x))).
  { destruct (ed =? 4); [apply sec1_ed4_ids|apply sec1_ed3_ids]; lia. }
  intros [[h se] has2] [Hi Hs]. cbn [fst snd] in Hs, Hi. destruct Hs as (S1 & S2 & S3 & S4).
  apply defined_bind with (P := fun _ => True).
  { destruct has2; [|cbn; auto]. destruct (Nat.ltb (s3 se) (s2 se + 3)) eqn:L3; [discriminate|].
    safe_short. destruct (Nat.ltb (s3 se) (s2 se + Z.to_nat a)); [discriminate|]. destruct (a <? 4); [discriminate|]. cbn. auto. }
  intros opt _. destruct (Nat.ltb (s4 se - s3 se) 7) eqn:L7; [discriminate|].
  destruct (Nat.ltb (s4 se) (s3 se + 8)) eqn:L88; [discriminate|]. safe_short. unfold read_byte at 1. safe_byte. cbv zeta.
  destruct (Nat.ltb (s4 se) (s3 se + 7 + (s4 se - s3 se - 7) / 2 * 2)) eqn:LD; [discriminate|].
  eapply defined_bind; [apply descriptors_safe; [exact HB|lia]|]. cbv beta. intros ds [_ F]. cbn [defined l_header]. exact Hi.
Qed.
End Header.

(** ** The directory *)

(** Their identifiers: centre, version, local version. *)
Definition ids : list (Z * Z * Z * string) := [
  (0, 12, 0, "B0000000000000012000.txt"); (0, 13, 0, "B0000000000000013000.txt"); (0, 14, 0, "B0000000000000014000.txt");
  (0, 15, 0, "B0000000000000015000.txt"); (0, 16, 0, "B0000000000000016000.txt"); (0, 17, 0, "B0000000000000017000.txt");
  (0, 18, 0, "B0000000000000018000.txt"); (0, 19, 0, "B0000000000000019000.txt"); (0, 20, 0, "B0000000000000020000.txt");
  (0, 21, 0, "B0000000000000021000.txt"); (0, 22, 0, "B0000000000000022000.txt"); (0, 23, 0, "B0000000000000023000.txt");
  (0, 24, 0, "B0000000000000024000.txt"); (0, 25, 0, "B0000000000000025000.txt"); (0, 26, 0, "B0000000000000026000.txt");
  (0, 27, 0, "B0000000000000027000.txt"); (0, 28, 0, "B0000000000000028000.txt"); (0, 29, 0, "B0000000000000029000.txt");
  (0, 30, 0, "B0000000000000030000.txt"); (0, 31, 0, "B0000000000000031000.txt"); (0, 33, 0, "B0000000000000033000.txt");
  (0, 11, 0, "B000000000001100.txt"); (85, 14, 1, "B0000000000085014001.txt"); (98, 13, 1, "B0000000000098013001.txt");
  (98, 13, 102, "B0000000000098013102.txt"); (98, 16, 1, "B0000000000098016001.txt"); (98, 33, 1, "B0000000000098033001.txt");
  (98, 33, 2, "B0000000000098033002.txt"); (254, 19, 1, "B0000000000254019001.txt"); (98, 0, 0, "B000000000980000.txt");
  (98, 2, 1, "B000000000980201.txt"); (98, 6, 0, "B000000000980600.txt"); (98, 6, 1, "B000000000980601.txt");
  (98, 11, 1, "B000000000981101.txt"); (98, 12, 0, "B000000000981200.txt"); (98, 12, 1, "B000000000981201.txt");
  (98, 13, 1, "B000000000981301.txt"); (255, 11, 4, "B000000002551104.txt")]%string.

Definition table_of (x : Z * Z * Z * string) : table :=
  let '(c, v, l, n) := x in mktable [] (chars n) (KBufr (mkbid c 0 0 v l)).
Definition crex_table_of (n : string) : table :=
  mktable [] (chars n) (match n with
    | "B000101.txt" => KCrex (mkcid 1 0 0 0 1 0 0) | "B000103.txt" => KCrex (mkcid 1 0 0 0 3 0 0) | _ => KCrex (mkcid 2 0 0 0 3 0 0) end)%string.

Definition b_names : list string := Eval lazy in map fst shipped_b.
Definition d_names : list string := Eval lazy in map fst shipped_d.
Lemma b_names_eq : map fst shipped_b = b_names.
Proof. reflexivity. Qed.
Lemma d_names_eq : map fst shipped_d = d_names.
Proof. reflexivity. Qed.
Lemma shipped_names_eq : shipped_names = map chars (b_names ++ d_names).
Proof. reflexivity. Qed.

Lemma in_dir_all : in_dir shipped_names = map table_of ids ++ map crex_table_of ["B000101.txt"; "B000103.txt"; "B000203.txt"]%string.
Proof. rewrite shipped_names_eq. vm_compute. reflexivity. Qed.

Lemma in_dir_in names t : Permutation names shipped_names -> In t (in_dir names) <-> In t (in_dir shipped_names).
Proof.
  intros P. unfold in_dir, listed, index_dir. cbn [flat_map]. rewrite !app_nil_r. split; apply Permutation_in; apply Permutation_flat_map; [exact P|].
  symmetry. exact P.
Qed.

Lemma in_dir_bufr names t id : Permutation names shipped_names -> In t (in_dir names) -> tb_kind t = KBufr id ->
  exists c v l n, In (c, v, l, n) ids /\ t = table_of (c, v, l, n) /\ id = mkbid c 0 0 v l.
Proof.
  intros P I K. apply (in_dir_in _ _ P) in I. rewrite in_dir_all in I. apply in_app_or in I as [I|I].
  - apply in_map_iff in I as ([[[c v] l] n] & <- & I). exists c, v, l, n. cbn in K. injection K as <-. auto.
  - cbn [map In] in I. destruct I as [<-|[<-|[<-|[]]]]; discriminate.
Qed.

Lemma ids_in_dir names c v l n : Permutation names shipped_names -> In (c, v, l, n) ids -> In (table_of (c, v, l, n)) (in_dir names).
Proof. intros P I. apply (in_dir_in _ _ P). rewrite in_dir_all. apply in_or_app. left. apply in_map. exact I. Qed.

(** The first of the two rules of the choice: the least version that will do, and among those the closest centre. *)
Lemma choice names w t : Permutation names shipped_names -> bufr_id_ok w -> search_bufr w (in_dir names) = Some t ->
  exists c v l n, In (c, v, l, n) ids /\ t = table_of (c, v, l, n) /\ bi_mt w = 0 /\ bi_mtv w <= v /\
    forall c' v' l' n', In (c', v', l', n') ids -> bi_mtv w <= v' ->
      v <= v' /\ (v' = v -> centre_rank (bi_centre w) c <= centre_rank (bi_centre w) c').
Proof.
  intros P W S. destruct (Select.Properties.C30_bufr_closest w (in_dir names) t W (listed_kinds _ _) S) as (id & K & I & [U1 U2] & M).
  destruct (in_dir_bufr _ _ _ P I K) as (c & v & l & n & Ii & -> & ->). cbn [bi_mt bi_mtv] in U1, U2.
  exists c, v, l, n. split; [exact Ii|]. split; [reflexivity|]. split; [lia|]. split; [exact U2|].
  intros c' v' l' n' I' V. specialize (M (mkbid c' 0 0 v' l') _ (ids_in_dir _ _ _ _ _ P I') eq_refl ltac:(split; cbn; lia)).
  unfold bufr_rank, origin_rank in M. cbn [lex_lt bi_mtv bi_centre bi_subcentre bi_local] in M. split; [lia|]. intros ->.
  apply Z.nlt_ge. intros X. apply M. right. split; [reflexivity|].
  clear M. unfold centre_rank in *. revert X. repeat match goal with |- context [?a =? ?b] => destruct (Z.eqb_spec a b) end; cbn [lex_lt]; lia.
Qed.

(** What is known of each identifier. *)
Definition wmo_file (v : Z) : list Z := chars "B0000000000000" ++ digits 3 v ++ chars "000.txt".
Definition wmo_11 : list Z := chars "B000000000001100.txt".
Definition ecmwf_2 : list Z := chars "B000000000980201.txt".

Definition known_id (x : Z * Z * Z * string) : bool :=
  let '(c, v, l, n) := x in
  let f := chars n in
  (v <=? 33) && negb (v =? 32) &&
  ((c =? 0) || (c =? 85) || (c =? 98) || (c =? 254) || (c =? 255) && (v =? 11)) &&
  (negb (c =? 0) || (v =? 11) && zlist_eqb f wmo_11 || (12 <=? v) && zlist_eqb f (wmo_file v)) &&
  (negb (zlist_eqb f wmo_11 || zlist_eqb f ecmwf_2) || (c =? 0) && (v =? 11) || (c =? 98) && (v =? 2)) &&
  ((v <? 1) || (2 <? v) || zlist_eqb f ecmwf_2) &&
  ((v <? 7) || (11 <? v) || (v =? 11)) &&
  (negb (v =? 11) || (c =? 0) || (c =? 98) || (c =? 255)).

(** The tables of centre 254. *)
Definition eumetsat_19 : list Z := chars "B0000000000254019001.txt".
Definition known_id' (x : Z * Z * Z * string) : bool :=
  let '(c, v, l, n) := x in
  Bool.eqb (zlist_eqb (chars n) eumetsat_19) ((c =? 254) && (v =? 19)) && (hd 0 (chars n) =? 66) &&
  negb (crex_name n) && existsb (String.eqb n) b_names && existsb (fun m => zlist_eqb (chars m) (68 :: tl (chars n))) d_names.

Lemma ids_known : forallb known_id ids = true.
Proof. vm_compute. reflexivity. Qed.

Lemma id_facts c v l n : In (c, v, l, n) ids ->
  (v <= 33 /\ v <> 32) /\ (c = 0 \/ (c = 85 \/ c = 98 \/ c = 254) \/ c = 255 /\ v = 11) /\
  (c = 0 -> v = 11 /\ chars n = wmo_11 \/ 12 <= v /\ chars n = wmo_file v) /\
  (chars n = wmo_11 \/ chars n = ecmwf_2 -> c = 0 /\ v = 11 \/ c = 98 /\ v = 2) /\
  (1 <= v <= 2 -> chars n = ecmwf_2) /\ (7 <= v <= 11 -> v = 11) /\ (v = 11 -> c = 0 \/ c = 98 \/ c = 255).
Proof.
  intros I. pose proof (proj1 (forallb_forall known_id ids) ids_known _ I) as H. unfold known_id in H.
  generalize dependent wmo_11. generalize dependent ecmwf_2. intros e2 w11 H. revert H. generalize (wmo_file v). intros wf H.
  assert (Z1 : forall x, zlist_eqb (chars n) x = true <-> chars n = x) by (intros x; split; [apply Codec.ValueProofs.zlist_eqb_eq|intros <-; apply Subset.Proofs.zlist_eqb_refl]).
  generalize dependent (chars n). intros f H Z1. cbv zeta in H.
  destruct (zlist_eqb f w11) eqn:E1; destruct (zlist_eqb f e2) eqn:E2; destruct (zlist_eqb f wf) eqn:E3;
    repeat match goal with E : zlist_eqb f _ = true |- _ => apply Z1 in E end;
    repeat match goal with E : zlist_eqb f ?x = false |- _ => assert (f <> x) by (intros X; apply Z1 in X; congruence); clear E end;
    clear Z1; rewrite ?orb_true_r, ?orb_false_r, ?andb_true_r, ?andb_false_r in H; cbn [negb orb andb] in H;
    rewrite ?orb_true_r, ?orb_false_r, ?andb_true_r, ?andb_false_r in H;
    (split; [lia|]; split; [lia|]; split;
     [intros; first [exfalso; lia|left; split; [lia|assumption]|right; split; [lia|assumption]]
     |split; [intros; first [lia|exfalso; tauto]|split; [intros; first [assumption|exfalso; lia]|lia]]]).
Qed.

Lemma ids_known' : forallb known_id' ids = true.
Proof. vm_compute. reflexivity. Qed.

Lemma list_eq a b : zlist_eqb a b = true <-> a = b.
Proof. split; [apply Codec.ValueProofs.zlist_eqb_eq|intros <-; apply Subset.Proofs.zlist_eqb_refl]. Qed.

Lemma id_facts' c v l n : In (c, v, l, n) ids ->
  (chars n = eumetsat_19 <-> c = 254 /\ v = 19) /\ (exists r, chars n = 66 :: r) /\ crex_name n = false /\ In n b_names /\
  exists m, In m d_names /\ chars m = 68 :: tl (chars n).
Proof.
  intros I. pose proof (proj1 (forallb_forall known_id' ids) ids_known' _ I) as H. unfold known_id' in H. clear I.
  rewrite !andb_true_iff in H. destruct H as [[[[H1 H2] H0] H3] H4]. apply eqb_prop in H1.
  split; [rewrite <- list_eq, H1; lia|]. split.
  - destruct (chars n) as [|a r]; cbn [hd] in H2; [discriminate|]. exists r. f_equal. lia.
  - split; [destruct (crex_name n); auto|]. split.
    + apply existsb_exists in H3 as (m & I & E). apply String.eqb_eq in E as ->. exact I.
    + apply existsb_exists in H4 as (m & I & E). apply list_eq in E. eauto.
Qed.

Lemma in_ids x : existsb (fun y => let '(c, v, l, n) := x in let '(c', v', l', n') := y in (c =? c') && (v =? v') && (l =? l') && String.eqb n n') ids = true ->
  In x ids.
Proof.
  intros H. apply existsb_exists in H as (y & I & E). destruct x as [[[c v] l] n], y as [[[c' v'] l'] n'].
  rewrite !andb_true_iff, !Z.eqb_eq, String.eqb_eq in E. destruct E as [[[-> ->] ->] ->]. exact I.
Qed.

Lemma wmo_ids v : 12 <= v <= 31 \/ v = 33 -> exists n, In (0, v, 0, n) ids.
Proof.
  intros V.
  assert (H : forallb (fun v => existsb (fun y => let '(c', v', l', n') := y in (0 =? c') && (v =? v') && (0 =? l')) ids)
    [12; 13; 14; 15; 16; 17; 18; 19; 20; 21; 22; 23; 24; 25; 26; 27; 28; 29; 30; 31; 33] = true) by (vm_compute; reflexivity).
  rewrite forallb_forall in H. specialize (H v ltac:(cbn [In]; lia)). apply existsb_exists in H as ([[[c' v'] l'] n'] & I & E).
  rewrite !andb_true_iff, !Z.eqb_eq in E. destruct E as [[<- <-] <-]. eauto.
Qed.

Lemma no_choice names w : Permutation names shipped_names -> bufr_id_ok w ->
  (search_bufr w (in_dir names) = None <-> bi_mt w <> 0 \/ 33 < bi_mtv w).
Proof.
  intros P W. rewrite (Select.Properties.C30_bufr_found w (in_dir names) W (listed_kinds _ _)). split.
  - intros H. destruct (Z.eq_dec (bi_mt w) 0) as [E|]; [|auto]. right. apply Z.nle_gt. intros V.
    destruct (wmo_ids 33 ltac:(lia)) as (n & I).
    apply (H _ _ (ids_in_dir _ _ _ _ _ P I) eq_refl). split; cbn; lia.
  - intros H id t I K [U1 U2]. destruct (in_dir_bufr _ _ _ P I K) as (c & v & l & n & Ii & _ & ->). cbn [bi_mt bi_mtv] in U1, U2.
    apply id_facts in Ii as [F _]. lia.
Qed.

Lemma wmo_choice names w t : Permutation names shipped_names -> bufr_id_ok w -> ~ In (bi_centre w) [85; 98; 254] ->
  12 <= bi_mtv w -> search_bufr w (in_dir names) = Some t ->
  tb_file t = wmo_file (if bi_mtv w =? 32 then 33 else bi_mtv w).
Proof.
  intros P W C V S. destruct (choice _ _ _ P W S) as (c & v & l & n & Ii & -> & Mt & U & M).
  destruct (id_facts _ _ _ _ Ii) as ([F1 F2] & F3 & F4 & _).
  set (v0 := if bi_mtv w =? 32 then 33 else bi_mtv w).
  assert (V0 : (12 <= v0 <= 31 \/ v0 = 33) /\ bi_mtv w <= v0 <= v) by (unfold v0; destruct (Z.eqb_spec (bi_mtv w) 32); lia).
  destruct (wmo_ids v0 (proj1 V0)) as (n0 & I0). destruct (M 0 v0 0 n0 I0 ltac:(lia)) as [M1 M2]. cbn [tb_file table_of].
  assert (Ev : v = v0) by lia. specialize (M2 (eq_sym Ev)).
  assert (Ec : c = 0).
  { cbn [In] in C. unfold centre_rank in M2. destruct F3 as [|[F3|F3]]; [auto| |lia].
revert M2. repeat match goal with |- context [?a =? ?b] => destruct (Z.eqb_spec a b) end; lia. }
  rewrite <- Ev. destruct (F4 Ec) as [F|[_ F]]; [lia|exact F].
Qed.

(** The tables with a sequence that contains itself. *)
Lemma cyclic_choice names w t : Permutation names shipped_names -> bufr_id_ok w -> search_bufr w (in_dir names) = Some t ->
  tb_file t = wmo_11 \/ tb_file t = ecmwf_2 ->
  1 <= bi_mtv w <= 2 \/ 7 <= bi_mtv w <= 11 /\ bi_centre w <> 98 /\ bi_centre w <> 255.
Proof.
  intros P W S B. destruct (choice _ _ _ P W S) as (c & v & l & n & Ii & -> & Mt & U & M). cbn [tb_file table_of] in B.
  destruct (id_facts _ _ _ _ Ii) as (_ & _ & _ & F & _). specialize (F B).
  assert (I0 : In (98, 0, 0, "B000000000980000.txt"%string) ids) by (apply in_ids; vm_compute; reflexivity).
  assert (I6 : In (98, 6, 0, "B000000000980600.txt"%string) ids) by (apply in_ids; vm_compute; reflexivity).
  assert (I98 : In (98, 11, 1, "B000000000981101.txt"%string) ids) by (apply in_ids; vm_compute; reflexivity).
  assert (I255 : In (255, 11, 4, "B000000002551104.txt"%string) ids) by (apply in_ids; vm_compute; reflexivity).
  destruct W as (_ & _ & _ & W & _). destruct F as [[-> ->]|[-> ->]].
  - right. split.
    + split; [|exact U]. apply Z.nlt_ge. intros X. destruct (M _ _ _ _ I6 ltac:(lia)). lia.
    + destruct (M _ _ _ _ I98 U) as [_ A]. specialize (A eq_refl). destruct (M _ _ _ _ I255 U) as [_ B']. specialize (B' eq_refl).
      split; intros E; rewrite E in *; vm_compute in A, B'; contradiction.
  - left. split; [|exact U]. apply Z.nlt_ge. intros X. destruct (M _ _ _ _ I0 ltac:(lia)). lia.
Qed.

(** Versions 1, 2 and 7 to 11 lead to these tables. *)
Lemma cyclic_chosen names w t : Permutation names shipped_names -> bufr_id_ok w -> search_bufr w (in_dir names) = Some t ->
  (1 <= bi_mtv w <= 2 -> tb_file t = ecmwf_2) /\
  (7 <= bi_mtv w <= 11 -> bi_centre w <> 98 -> bi_centre w <> 255 -> tb_file t = wmo_11).
Proof.
  intros P W S. destruct (choice _ _ _ P W S) as (c & v & l & n & Ii & -> & Mt & U & M). cbn [tb_file table_of].
  destruct (id_facts _ _ _ _ Ii) as (_ & _ & F0 & _ & F2 & F11 & Fc).
  assert (I2 : In (98, 2, 1, "B000000000980201.txt"%string) ids) by (apply in_ids; vm_compute; reflexivity).
  assert (I11 : In (0, 11, 0, "B000000000001100.txt"%string) ids) by (apply in_ids; vm_compute; reflexivity).
  split.
  - intros V. destruct (M _ _ _ _ I2 ltac:(lia)) as [A _]. apply F2. lia.
  - intros V C1 C2. destruct (M _ _ _ _ I11 ltac:(lia)) as [A B]. assert (E : v = 11) by (apply F11; lia). subst v. specialize (B eq_refl).
    assert (Ec : c = 0).
    { unfold centre_rank in B. destruct (Fc eq_refl) as [|Cc]; [auto|]. revert B. repeat match goal with |- context [?a =? ?b] => destruct (Z.eqb_spec a b) end; lia. }
    destruct (F0 Ec) as [[_ F]|[F _]]; [exact F|lia].
Qed.

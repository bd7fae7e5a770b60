(** C60: from bulletins to what the program prints. *)
From Coq Require Import String ZifyBool ZifyNat.
From Verif Require Import Base Bits.Model Bits.Spec Num.Float Varcode.Model Varinfo.Model Tables.Model Tables.LoadProofs Var.Model Var.Format Interp.Model Interp.Example
  Codec.Spec Codec.Proofs Message.Model Message.Spec Message.Proofs Message.LayoutProofs Message.ReadProofs Message.StreamProofs Message.RoundProofs Crex.Model Crex.Spec Listing.Model
  Wrep.Model Wrep.Spec Wrep.Proofs.
From Verif Require Codec.Properties Message.Properties Crex.Properties Wrep.Properties.
Import Codec.Properties Message.Properties Crex.Properties Wrep.Properties.
Local Open Scope Z_scope.

(** A bulletin that the library can send, and the message: what arrives are the subsets [gots]
    (C40; when its values are in their fields they are the subsets sent, C21). *)
Record transmitted (opt : options) (load : tableid -> res tables) (skip : bool) (fuel : nat) (gots : list (list var)) (m : list Z) : Prop :=
  mktransmitted {
    tr_message : exists p T lt b lt',
      table_ok (tb_b T) /\ header_ok (b_header b) /\
      (h_edition (b_header b) = 2 \/ h_edition (b_header b) = 3 \/ h_edition (b_header b) = 4) /\
      Forall is_byte (b_optional b) /\ Forall in_u16 (b_datadesc b) /\ b_datadesc b <> [] /\
      b_subsets b <> [] /\ Z.of_nat (length (b_subsets b)) < 65536 /\ Forall (Forall var_infos_ok) (b_subsets b) /\
      lt_unknown lt = [] /\ load (tableid_of (read_header (b_header b))) = Ok T /\
      transfer_all p T skip fuel (b_datadesc b) (b_subsets b) empty_local = Ok (gots, lt') /\
      encode p opt T fuel lt b = Ok m;
    tr_length : Z.of_nat (length m) < 2 ^ 24 }.

(** What may be between two messages. *)
Definition separator (s : list Z) : Prop :=
  ~ occurs [66; 85; 70; 82] s /\ ~ ends_with s [66] /\ ~ ends_with s [66; 85] /\ ~ ends_with s [66; 85; 70].

(** A file: separators and messages, and what is after the last one. *)
Fixpoint file_of (items : list (list Z * list Z)) (tail : list Z) : list Z :=
  match items with
  | [] => tail
  | (sep, m) :: rest => sep ++ m ++ file_of rest tail
  end.

Lemma file_delivers items tail : Forall (fun i => separator (fst i) /\ exists p opt T f lt b,
    encode p opt T f lt b = Ok (snd i) /\ Forall is_byte (b_optional b) /\ Z.of_nat (length (snd i)) < 2 ^ 24) items ->
  ~ occurs [66; 85; 70; 82] tail -> forall pos, exists ms, delivers (read_of false) pos (file_of items tail) ms None /\ map snd ms = map snd items.
Proof.
  intros F N. induction F as [|[sep m] items (S & p & opt & T & f & lt & b & E & FO & L) F IH]; intros pos.
  - exists []. split; [|reflexivity]. apply dl_end. apply C27_end_of_file. exact N.
  - cbn [fst snd file_of] in *. destruct (IH (pos + Z.of_nat (length sep) + Z.of_nat (length m))) as (ms & D & Em).
    exists ((pos + Z.of_nat (length sep), m) :: ms). split; [|cbn [map snd]; rewrite Em; reflexivity].
    apply (dl_message _ pos _ sep m (file_of items tail)); [|reflexivity|exact D].
    destruct S as (S1 & S2 & S3 & S4). exact (C27_next_message sep m _ p opt T f lt b S1 S2 S3 S4 E FO L).
Qed.

(** A file of encoded bulletins: --print writes the values sent, message by message and subset by
    subset, and -U writes nothing. *)
Theorem C60_encoded_file : forall opt load skip fuel fixed W n codes items tail arrived,
  (forall m, full_bufr W m = (' (b, _, _) <- decode opt load skip fuel m ;; Ok b)) ->
  operand n -> files W n = Some (file_of items tail) -> ~ occurs [66; 85; 70; 82] tail ->
  Forall (fun c => 0 <= c < 2 ^ 16) codes ->
  Forall2 (fun i colss => separator (fst i) /\ exists gots, transmitted opt load skip fuel gots (snd i) /\
    Forall2 (fun vars cols => columns fixed vars codes cols) gots colss) items arrived ->
  wrep fixed W [chars "--print="%string ++ code_list codes; n] = Ok (Exit 0 (concat (map (print_lines n 1) arrived)) []) /\
  exists log, wrep fixed W [chars "-U"%string; n] = Ok (Exit 0 [] log).
Proof.
  intros opt load skip fuel fixed W n codes items tail arrived HW O Hf N C F.
  assert (F1 : Forall (fun i => separator (fst i) /\ exists p opt T f lt b,
    encode p opt T f lt b = Ok (snd i) /\ Forall is_byte (b_optional b) /\ Z.of_nat (length (snd i)) < 2 ^ 24) items).
  { clear -F. induction F as [|i colss items arrived (S & gots & [(p & T & lt & b & lt' & M) L] & _) F IH]; constructor; [|exact IH].
    split; [exact S|]. exists p, opt, T, fuel, lt, b. tauto. }
  destruct (file_delivers items tail F1 N 0) as (ms & D & Em).
  assert (F2 : Forall2 (fun m colss => exists gots, subsets_of W false m = Ok gots /\ Forall2 (fun vars cols => columns fixed vars codes cols) gots colss)
    (map snd ms) arrived).
  { rewrite Em. clear -F HW. induction F as [|i colss items arrived (S & gots & [(p & T & lt & b & lt' & M) L] & Cl) F IH]; cbn [map]; constructor; [|exact IH].
    exists gots. split; [|exact Cl]. destruct M as (M1 & M2 & M3 & M4 & M5 & M6 & M7 & M8 & M9 & M10 & M11 & M12 & M13).
    destruct (C40_messages_round_trip p opt T load skip fuel lt b gots lt' M1 M2 M3 M4 M5 M6 M7 M8 M9 M10 M11 M12) as (bytes & E & R).
    rewrite M13 in E. apply (f_equal (fun r => match r with Ok x => x | _ => [] end)) in E. subst bytes.
    destruct (R L) as (found & Dec). unfold subsets_of. rewrite HW, Dec. reflexivity. }
  assert (J : Forall (job_of W false) [((n, ms), @nil complaint)]) by (apply Forall_cons; [exact (in_whole W false n _ ms Hf D)|apply Forall_nil]).
  assert (O1 : Forall (fun j => operand (j_name j)) [((n, ms), @nil complaint)]) by (apply Forall_cons; [exact O|apply Forall_nil]).
  split.
  - apply (C60_print fixed W false codes [((n, ms), [])]); [discriminate|exact C|exact J|exact O1|].
    rewrite <- (app_nil_r (concat _)). apply (obo_cons _ _ _ []); [|apply obo_nil].
    exists []. split; [|reflexivity]. cbn [j_name j_messages fst snd].
    clear -F2. revert arrived F2. induction ms as [|[off m] ms IH]; intros arrived F2; cbn [map snd] in F2; inversion F2 as [|x colss l arrived' (gots & S & Cl) F2']; subst.
    + apply obo_nil.
    + cbn [map concat]. apply (obo_cons _ _ _ []); [|apply IH; exact F2']. eapply pr_ok; eassumption.
  - assert (G : Forall (fun m => refused W false m = false /\ decides W false m) (map snd ms)).
    { clear -F2. induction F2 as [|m colss l arrived (gots & S & _) F2 IH]; constructor; [|exact IH].
      unfold refused, decides, subsets_of, returns in *. destruct (full_bufr W m); try discriminate. split; [reflexivity|]. split; discriminate. }
    assert (D1 : Forall (fun om => decides W false (snd om)) ms).
    { apply Forall_map in G. eapply Forall_impl; [|exact G]. intros om [_ H]. exact H. }
    destruct (C60_unparsable fixed W false [((n, ms), [])]) as (log & X & _); [discriminate|exact J|exact O1|apply Forall_cons; [exact D1|apply Forall_nil]|].
    exists log. cbn [crex_flag app map j_name j_messages fst snd concat] in X. rewrite app_nil_r in X. rewrite X.
    assert (E : concat (filter (refused W false) (map snd ms)) = []).
    { clear -G. induction G as [|m l [R _] G IH]; [reflexivity|]. cbn [filter]. rewrite R. exact IH. }
    rewrite E. reflexivity.
Qed.

(** Two messages of the examples of C27, with bytes before, between and after them. *)
Lemma ex_transferred : exists gots lt', transfer_all X86 ex_tables true 100 ex_ops [ex_subset 300; ex_subset 400] empty_local = Ok (gots, lt').
Proof.
  assert (B : match transfer_all X86 ex_tables true 100 ex_ops [ex_subset 300; ex_subset 400] empty_local with Ok _ => true | _ => false end = true)
    by (vm_compute; reflexivity).
  destruct (transfer_all X86 ex_tables true 100 ex_ops [ex_subset 300; ex_subset 400] empty_local) as [[gots lt']| |]; [eauto|discriminate B..].
Qed.

Lemma ex_transmitted ed centre year m : in_u16 centre -> in_u16 year -> ed = 3 \/ ed = 4 ->
  ex_load (tableid_of (read_header (ex_header ed centre 3 year))) = Ok ex_tables ->
  encode X86 (mkopts false false None) ex_tables 100 empty_local (ex_bulletin ed centre year) = Ok m ->
  Z.of_nat (length m) < 2 ^ 24 -> exists gots, transmitted (mkopts false false None) ex_load true 100 gots m.
Proof.
  intros C Y Ed L E Len. destruct ex_transferred as (gots & lt' & Tr). exists gots. split; [|exact Len].
  exists X86, ex_tables, empty_local, (ex_bulletin ed centre year), lt'.
  unfold ex_bulletin at 1 2 3 4 5 6 7 8 9 10 11 12. cbn [b_header b_optional b_datadesc b_subsets].
  split; [exact ex_btable_ok|]. split; [apply ex_header_ok; auto; unfold in_u16; lia|]. split; [cbn [ex_header h_edition]; tauto|].
  split; [exact ex_optional_ok|]. split; [exact ex_ops_ok|]. split; [discriminate|]. split; [discriminate|]. split; [reflexivity|].
  split; [repeat (apply Forall_cons; [exact (ex_subset_ok _)|]); apply Forall_nil|]. split; [reflexivity|]. split; [exact L|].
  split; [exact Tr|exact E].
Qed.

Ltac no_occurrence := intros (x & y & X); pose proof (f_equal (@length Z) X) as LX; rewrite !app_length in LX; cbn [length] in LX;
  do 3 (destruct x as [|? x]; [discriminate X|]); cbn [length] in LX; lia.
Ltac no_ending := intros (x & X); do 6 (destruct x as [|? x]; [discriminate X|]); discriminate X.

Example C60_encoded_file_example :
  (exists gots, transmitted (mkopts false false None) ex_load true 100 gots good) /\
  (exists gots, transmitted (mkopts false false None) ex_load true 100 gots good2) /\
  separator [13; 10; 66; 85; 32] /\ separator [1; 2] /\ ~ occurs [66; 85; 70; 82] [66; 85; 70] /\
  (forall m, full_bufr (ex_world 100) m = (' (b, _, _) <- decode (mkopts false false None) ex_load true 100 m ;; Ok b)).
Proof.
  split; [|split; [|split; [|split; [|split]]]].
  - apply (ex_transmitted 4 40000 2026); [unfold in_u16; lia|unfold in_u16; lia|tauto|reflexivity|vm_compute; reflexivity|vm_compute; reflexivity].
  - apply (ex_transmitted 3 200 2000); [unfold in_u16; lia|unfold in_u16; lia|tauto|reflexivity|vm_compute; reflexivity|vm_compute; reflexivity].
  - split; [no_occurrence|split; [no_ending|split; no_ending]].
  - split; [no_occurrence|split; [no_ending|split; no_ending]].
  - no_occurrence.
  - reflexivity.
Qed.

(** ** The same for CREX

    A bulletin with one subset, its text and what arrives. *)
Inductive transmitted_crex (o : options) (load : cheader -> res tables) (fuel : nat) (arrived : list var) (text : list Z) : Prop :=
| tr_crex : forall T lt h ops vars got,
    crex_header_ok h = true -> crex_ops_ok ops = true -> (length ops < fuel)%nat ->
    load (crex_received h) = Ok T -> crex_transfer vars T fuel ops = Ok got ->
    vars <> [] -> Forall (fun v => match c_val (v_cell v) with Some (VStr s) => ~ In 43 s | _ => True end) vars ->
    arrived = map (fun v => mkvar (v_cell v) []) vars ->
    encode_crex o T fuel lt (mkcb h ops [vars]) = Ok text -> transmitted_crex o load fuel arrived text.

Definition crex_separator (s : list Z) : Prop :=
  ~ occurs crex_start s /\ forall k, (1 <= k <= 5)%nat -> ~ ends_with s (firstn k crex_start).

Lemma separator_after c s : c <> 67 -> crex_separator s -> crex_separator (c :: s).
Proof.
  intros C [O E]. split.
  - intros (a & b & X). destruct a as [|x a].
    + cbn [app crex_start] in X. apply (f_equal (hd 0)) in X. cbn in X. congruence.
    + apply O. exists a, b. apply (f_equal (@tl Z)) in X. exact X.
  - intros k K (a & X). destruct a as [|x a].
    + destruct k as [|k]; [lia|]. cbn [app crex_start firstn] in X. apply (f_equal (hd 0)) in X. cbn in X. congruence.
    + apply (E k K). exists a. apply (f_equal (@tl Z)) in X. exact X.
Qed.

Lemma occurs_after c s : c <> 67 -> ~ occurs crex_start s -> ~ occurs crex_start (c :: s).
Proof.
  intros C O (a & b & X). destruct a as [|x a].
  - cbn [app crex_start] in X. apply (f_equal (hd 0)) in X. cbn in X. congruence.
  - apply O. exists a, b. apply (f_equal (@tl Z)) in X. exact X.
Qed.

Lemma crex_file_delivers o load fuel items tail arrived :
  Forall2 (fun i vars => crex_separator (fst i) /\ transmitted_crex o load fuel vars (snd i)) items arrived ->
  ~ occurs crex_start tail -> forall pos lead, lead = [] \/ lead = [13; 13; 10] ->
  exists ms, delivers (read_of true) pos (lead ++ file_of items tail) ms None /\
    Forall2 (fun m vars => exists h ops, decode_crex o load fuel m = Ok (mkcb h ops [vars])) (map snd ms) arrived.
Proof.
  intros F N. induction F as [|[sep text] vars items arrived [S Tr] F IH]; intros pos lead Le.
  - exists []. split; [|constructor]. apply dl_end. apply C29_end_of_file.
    destruct Le as [-> | ->]; [exact N|]. cbn [app file_of]. repeat (apply occurs_after; [discriminate|]). exact N.
  - cbn [fst snd file_of] in *.
    assert (S' : crex_separator (lead ++ sep)) by (destruct Le as [-> | ->]; [exact S|cbn [app]; repeat (apply separator_after; [discriminate|]); exact S]).
    destruct Tr as [T lt h ops sent got H1 H2 H3 H4 H5 H6 H7 -> E]. destruct S' as [S1 S2].
    destruct (C29_encoded_messages o load T fuel lt h ops sent got (lead ++ sep) (file_of items tail) H1 H2 H3 H4 H5 H6 H7 S1 S2) as (m & E' & R & D).
    rewrite E in E'. apply (f_equal (fun r => match r with Ok x => x | _ => [] end)) in E'. subst text.
    destruct (IH (pos + Z.of_nat (length (lead ++ sep)) + Z.of_nat (length m)) [13; 13; 10] (or_intror eq_refl)) as (ms & Dl & F2).
    exists ((pos + Z.of_nat (length (lead ++ sep)), m) :: ms). split.
    + replace (lead ++ sep ++ (m ++ [13; 13; 10]) ++ file_of items tail) with ((lead ++ sep) ++ m ++ [13; 13; 10] ++ file_of items tail)
        by (rewrite <- !app_assoc; reflexivity).
      apply (dl_message _ pos _ (lead ++ sep) m ([13; 13; 10] ++ file_of items tail)); [exact R|reflexivity|exact Dl].
    + cbn [map snd]. constructor; [|exact F2]. eauto.
Qed.

Theorem C60_encoded_crex_file : forall o load fuel fixed W n codes items tail arrived colss,
  (forall m, full_crex W m = decode_crex o load fuel m) ->
  operand n -> files W n = Some (file_of items tail) -> ~ occurs crex_start tail ->
  Forall (fun c => 0 <= c < 2 ^ 16) codes ->
  Forall2 (fun i vars => crex_separator (fst i) /\ transmitted_crex o load fuel vars (snd i)) items arrived ->
  Forall2 (fun vars cols => columns fixed vars codes cols) arrived colss ->
  wrep fixed W [chars "-c"%string; chars "--print="%string ++ code_list codes; n] = Ok (Exit 0 (concat (map (print_line n 1) colss)) []) /\
  exists log, wrep fixed W [chars "-c"%string; chars "-U"%string; n] = Ok (Exit 0 [] log).
Proof.
  intros o load fuel fixed W n codes items tail arrived colss HW O Hf N C F Fc.
  destruct (crex_file_delivers o load fuel items tail arrived F N 0 [] (or_introl eq_refl)) as (ms & D & F2). cbn [app] in D.
  assert (J : Forall (job_of W true) [((n, ms), @nil complaint)]) by (apply Forall_cons; [exact (in_whole W true n _ ms Hf D)|apply Forall_nil]).
  assert (O1 : Forall (fun j => operand (j_name j)) [((n, ms), @nil complaint)]) by (apply Forall_cons; [exact O|apply Forall_nil]).
  split.
  - apply (C60_print fixed W true codes [((n, ms), [])]); [discriminate|exact C|exact J|exact O1|].
    rewrite <- (app_nil_r (concat _)). apply (obo_cons _ _ _ []); [|apply obo_nil].
    exists []. split; [|reflexivity]. cbn [j_name j_messages fst snd].
    clear -F2 Fc HW. revert arrived F2 colss Fc. induction ms as [|[off m] ms IH]; intros arrived F2 colss Fc; cbn [map snd] in F2;
      inversion F2 as [|x vars l arrived' (h & ops & Dm) F2']; subst; inversion Fc as [|y cols l' colss' Cl Fc']; subst.
    + apply obo_nil.
    + cbn [map concat]. apply (obo_cons _ _ _ []); [|eapply IH; eassumption].
      replace (print_line n 1 cols) with (print_lines n 1 [cols]) by (cbn [print_lines]; apply app_nil_r).
      apply (pr_ok _ _ _ _ _ off m [vars]); [unfold subsets_of; rewrite HW, Dm; reflexivity|]. constructor; [exact Cl|constructor].
  - assert (G : Forall (fun m => refused W true m = false /\ decides W true m) (map snd ms)).
    { clear -F2 HW. induction F2 as [|m vars l arrived (h & ops & Dm) F2 IH]; constructor; [|exact IH].
      unfold refused, decides, returns. rewrite HW, Dm. split; [reflexivity|]. split; discriminate. }
    assert (D1 : Forall (fun om => decides W true (snd om)) ms).
    { apply Forall_map in G. eapply Forall_impl; [|exact G]. intros om [_ H]. exact H. }
    destruct (C60_unparsable fixed W true [((n, ms), [])]) as (log & X & _); [discriminate|exact J|exact O1|apply Forall_cons; [exact D1|apply Forall_nil]|].
    exists log. cbn [crex_flag app map j_name j_messages fst snd concat] in X. rewrite app_nil_r in X. rewrite X.
    assert (E : concat (filter (refused W true) (map snd ms)) = []).
    { clear -G. induction G as [|m l [R _] G IH]; [reflexivity|]. cbn [filter]. rewrite R. exact IH. }
    rewrite E. reflexivity.
Qed.

Example C60_encoded_crex_file_example :
  transmitted_crex opts (fun _ => Ok crex_tables) 100 (map (fun v => mkvar (v_cell v) []) ex_cvars) ex_ctext /\
  crex_separator [13; 10] /\ ~ occurs crex_start [10] /\
  (forall m, full_crex (ex_world 100) m = decode_crex opts (fun _ => Ok crex_tables) 100 m).
Proof.
  split; [|split; [|split]].
  - apply (tr_crex _ _ _ _ _ crex_tables empty_local ex_cheader ex_cops ex_cvars ex_cvars);
      [reflexivity|reflexivity|cbn; lia|reflexivity|vm_compute; reflexivity|discriminate| |reflexivity|vm_compute; reflexivity].
    unfold ex_cvars. repeat (apply Forall_cons; [cbn; lia|]). apply Forall_nil.
  - do 2 (apply separator_after; [discriminate|]). split.
    + intros (x & y & X). apply (f_equal (@length Z)) in X. rewrite !app_length in X. cbn [length crex_start] in X. lia.
    + intros k K (x & X). apply (f_equal (@length Z)) in X. rewrite app_length, firstn_length in X. cbn [length crex_start] in X. lia.
  - apply occurs_after; [discriminate|]. intros (x & y & X). apply (f_equal (@length Z)) in X. rewrite !app_length in X. cbn [length crex_start] in X. lia.
  - reflexivity.
Qed.

Print Assumptions C60_encoded_file.
Print Assumptions C60_encoded_crex_file.

(** C23: compressed BUFR data. *)
From Coq Require Import ZifyBool ZifyNat.
From Verif Require Import Base Bits.Model Bits.Spec Bits.Proofs Bits.StringProofs Num.Float
  Varcode.Model Varinfo.Model Varinfo.RangeProofs Tables.Model Tables.LoadProofs Var.Model Var.Spec
  Var.Proofs Var.AttrProofs Var.CodecProofs Interp.Model Interp.Sim Interp.Example Codec.Model Codec.Spec Codec.ValueProofs
  Codec.Proofs Codec.TransferProofs Codec.Properties Codec.Compressed Codec.CompressedSpec Codec.ColumnProofs
  Codec.CompressedProofs.
Local Open Scope Z_scope.

(** ** One element

    The number that the bits of the base and of a difference stand for: nothing if the
    difference is all ones, or if the sum is the missing value of the element. *)
Definition column_value (i : varinfo) (base : Z) (width : nat) (diff : Z) : option value :=
  if (diff =? 2 ^ Z.of_nat width - 1) || (base + diff =? 2 ^ vi_bit_len i - 1) then None
  else Some (VInt (base + diff + vi_bit_ref i)).

(** Each subset gets base + difference. *)
Theorem C23_base_plus_difference : forall o i base width diffs inp rest,
  info_ok i -> is_numeric (vi_type i) = true -> 1 <= vi_bit_len i <= 32 -> (1 <= width <= 32)%nat ->
  0 <= base < 2 ^ vi_bit_len i - 1 ->
  Forall (fun d => 0 <= d < 2 ^ Z.of_nat width /\ base + d < 2 ^ 32 /\
                   (column_value i base width d = None \/ vi_imin i <= base + d + vi_bit_ref i <= vi_imax i)) diffs ->
  Forall is_byte (idata inp) -> wf_in inp -> (8 <= length rest)%nat ->
  in_bits inp = bits_of (Z.to_nat (vi_bit_len i)) base ++ bits_of 6 (Z.of_nat width) ++
                flat_map (bits_of width) diffs ++ rest ->
  exists inp', comp_values o i (length diffs) inp = Ok (map (fun d => mkcell i (column_value i base width d)) diffs, inp') /\
    in_bits inp' = rest.
Proof.
  intros o i base width diffs inp rest K N Hb Hw Hbase Hd HB W Hr E.
  assert (Hz : Z.of_nat (bit_len_nat i) = vi_bit_len i) by (unfold bit_len_nat; lia).
  assert (Hn : (1 <= bit_len_nat i <= 32)%nat) by lia.
  assert (Ho : ones_of (bit_len_nat i) = 2 ^ vi_bit_len i - 1) by (unfold ones_of; rewrite Hz; reflexivity).
  assert (P32 : 2 ^ vi_bit_len i <= 2 ^ 32) by (apply Z.pow_le_mono_r; lia).
  assert (One : forall d, 0 <= d < 2 ^ Z.of_nat width /\ base + d < 2 ^ 32 /\
      (column_value i base width d = None \/ vi_imin i <= base + d + vi_bit_ref i <= vi_imax i) ->
      reads (bits_of width d) (comp_diff o i base (Z.of_nat width)) (mkcell i (column_value i base width d))).
  { intros d (D1 & D2 & D3). unfold comp_diff. rewrite Nat2Z.id, <- (app_nil_r (bits_of width d)).
    rd_step (num_reads width d ltac:(lia) D1). cbn [fst snd].
    rewrite !all_ones_ok by assumption. cbn [bind]. rewrite Ho.
    replace (base =? 2 ^ vi_bit_len i - 1) with false by lia. cbn [orb].
    unfold column_value, ones_of in *. destruct (d =? 2 ^ Z.of_nat width - 1); cbn [orb] in *; [apply reads_ret|].
    unfold u32. rewrite Z.mod_small by lia. destruct (base + d =? 2 ^ vi_bit_len i - 1); [apply reads_ret|].
    destruct D3 as [D3|D3]; [discriminate|].
    destruct (raw_var_roundtrip o i (base + d) K N) as (x & c & F1 & F2 & F3 & _); [lia|lia|lia|].
    unfold raw_number. rewrite F1. cbn [bind]. rewrite F2. cbn [of_outcome bind]. rewrite F3. apply reads_ret. }
  assert (All : reads (flat_map (bits_of width) diffs) (comp_diffs o i base (Z.of_nat width) (length diffs))
     (map (fun d => mkcell i (column_value i base width d)) diffs)).
  { clear E. induction Hd as [|d diffs Hd F IH]; cbn [map flat_map length comp_diffs]; [apply reads_ret|].
    rd_step (One d Hd). cbn [fst snd]. rewrite <- (app_nil_r (flat_map _ _)). rd_step IH. apply reads_ret. }
  assert (R : reads ((bits_of (bit_len_nat i) base ++ bits_of 6 (Z.of_nat width)) ++ flat_map (bits_of width) diffs)
    (comp_values o i (length diffs)) (map (fun d => mkcell i (column_value i base width d)) diffs)).
  { assert (R0 : reads ((bits_of (bit_len_nat i) base ++ bits_of 6 (Z.of_nat width)) ++ flat_map (bits_of width) diffs)
      (fun inp => ' (cs, _, inp1) <- comp_numbers o i (length diffs) inp ;; Ok (cs, inp1))
      (map (fun d => mkcell i (column_value i base width d)) diffs)).
    { rewrite <- (app_nil_r (_ ++ flat_map _ _)). eapply (reads_bind3 _ _ _ _ true); [|apply reads_ret].
      unfold comp_numbers.
      eapply (reads_bind4 _ _ _ _ _ _ _ _ (base_reads i base width Hn ltac:(lia) ltac:(lia) ltac:(lia))). cbn [fst snd].
      rewrite Ho. replace (base =? 2 ^ vi_bit_len i - 1) with false by lia.
      replace (Z.of_nat width =? 0) with false by lia. rewrite <- (app_nil_r (flat_map _ _)). rd_step All. apply reads_ret. }
    unfold comp_values. destruct (vi_type i); try discriminate N; exact R0. }
  rewrite <- !app_assoc in R. destruct (R inp rest HB W Hr) as (inp' & F & G & _); [|eauto].
  rewrite E. unfold bit_len_nat. rewrite <- !app_assoc. reflexivity.
Qed.

(** When the width is zero, all the subsets get the base. *)
Theorem C23_no_differences : forall o i base n inp rest,
  info_ok i -> is_numeric (vi_type i) = true -> 1 <= vi_bit_len i <= 32 ->
  0 <= base < 2 ^ vi_bit_len i ->
  base = 2 ^ vi_bit_len i - 1 \/ vi_imin i <= base + vi_bit_ref i <= vi_imax i ->
  Forall is_byte (idata inp) -> wf_in inp -> (8 <= length rest)%nat ->
  in_bits inp = bits_of (Z.to_nat (vi_bit_len i)) base ++ bits_of 6 0 ++ rest ->
  exists inp', comp_values o i n inp =
    Ok (repeat (mkcell i (if base =? 2 ^ vi_bit_len i - 1 then None else Some (VInt (base + vi_bit_ref i)))) n, inp') /\
    in_bits inp' = rest.
Proof.
  intros o i base n inp rest K N Hb Hbase Hv HB W Hr E.
  assert (Hz : Z.of_nat (bit_len_nat i) = vi_bit_len i) by (unfold bit_len_nat; lia).
  assert (Hn : (1 <= bit_len_nat i <= 32)%nat) by lia.
  assert (Ho : ones_of (bit_len_nat i) = 2 ^ vi_bit_len i - 1) by (unfold ones_of; rewrite Hz; reflexivity).
  assert (P32 : 2 ^ vi_bit_len i <= 2 ^ 32) by (apply Z.pow_le_mono_r; lia).
  set (v := if base =? 2 ^ vi_bit_len i - 1 then None else Some (VInt (base + vi_bit_ref i))).
  assert (R0 : reads (bits_of (bit_len_nat i) base ++ bits_of 6 0)
      (fun inp => ' (cs, _, inp1) <- comp_numbers o i n inp ;; Ok (cs, inp1)) (repeat (mkcell i v) n)).
  { rewrite <- (app_nil_r (_ ++ bits_of 6 0)). eapply (reads_bind3 _ _ _ _ false); [|apply reads_ret].
    unfold comp_numbers. rewrite <- (app_nil_r (_ ++ bits_of 6 0)).
    eapply (reads_bind4 _ _ _ _ _ _ _ _ (base_reads i base 0 Hn ltac:(lia) ltac:(lia) (fun _ => eq_refl))). cbn [fst snd].
    rewrite Ho. unfold v. destruct (Z.eqb_spec base (2 ^ vi_bit_len i - 1)) as [|X]; [apply reads_ret|].
    change (Z.of_nat 0 =? 0) with true. cbv iota. destruct Hv as [|Hv]; [contradiction|].
    destruct (raw_var_roundtrip o i base K N) as (x & c & F1 & F2 & F3 & _); [lia|lia|lia|].
    unfold raw_number. rewrite F1. cbn [bind]. rewrite F2. cbn [of_outcome bind]. rewrite F3. apply reads_ret. }
  assert (R : reads (bits_of (bit_len_nat i) base ++ bits_of 6 0) (comp_values o i n) (repeat (mkcell i v) n)).
  { unfold comp_values. destruct (vi_type i); try discriminate N; exact R0. }
  destruct (R inp rest HB W Hr) as (inp' & F & G & _); [|eauto].
  rewrite E. unfold bit_len_nat. rewrite <- app_assoc. reflexivity.
Qed.

(** Texts: see [text_column] in Codec/CompressedSpec.v. *)
Theorem C23_texts : forall o p i ch vals bs inp rest,
  vals <> [] -> vi_type i = TString -> Forall (fun v => field_ok p i v = true) vals ->
  text_column i ch vals = Ok bs ->
  Forall is_byte (idata inp) -> wf_in inp -> (8 <= length rest)%nat -> in_bits inp = bs ++ rest ->
  exists inp', comp_values o i (length vals) inp = Ok (map (mkcell i) vals, inp') /\ in_bits inp' = rest.
Proof.
  intros o p i ch vals bs inp rest Hne N F H HB W Hr E.
  destruct (strings_reads o p i ch vals bs Hne N F H inp rest HB W Hr E) as (inp' & G1 & G2 & _).
  exists inp'. unfold comp_values. rewrite N. auto.
Qed.

(** ** Whole data sections

    Whatever bases and widths the sender chooses ([plan]), decoding the compressed
    section gives to each subset exactly what it would get if it was sent alone, not
    compressed ([transfer] is the same specification as in C21). *)
Theorem C23_compressed_like_uncompressed : forall p o T skip subs plan fuel ops lt xs bits pre data rest,
  subs <> [] -> table_ok (tb_b T) -> Forall (Forall var_infos_ok) subs ->
  compress p T skip subs plan fuel ops lt = Ok (xs, bits) ->
  Forall is_byte (pre ++ data) -> bits_of_bytes data = bits ++ rest -> (8 <= length rest)%nat ->
  exists gots lt' inp',
    decode_compressed o T skip fuel ops (length subs) lt (mkin (pre ++ data) (length pre) 0 0) = Ok (gots, lt', inp') /\
    Forall2 (fun vars got => transfer p T skip vars fuel ops lt = Ok (got, lt')) subs gots.
Proof.
  intros p o T skip subs plan fuel ops lt xs bits pre data rest NE TOK VOK H HB E Hr.
  destruct (compressed_run p o T skip subs plan NE VOK TOK fuel ops lt xs bits (mkin (pre ++ data) (length pre) 0 0) rest H)
    as (lt' & inp' & D & _ & F); auto.
  - unfold wf_in. cbn [iplen ipbyte icur idata]. rewrite app_length. lia.
  - unfold in_bits. cbn [iplen ipbyte icur idata firstn app]. rewrite skipn_length_app. exact E.
  - exists (map x_got xs), lt', inp'. split; auto. clear -F. induction F; cbn; constructor; auto.
Qed.

(** The decoder's two ways agree: the uncompressed encoding of any of the subsets decodes
    to the same variables. *)
Theorem C23_same_variables : forall p o T skip subs plan fuel ops lt xs bits pre data rest lte,
  subs <> [] -> table_ok (tb_b T) -> Forall (Forall var_infos_ok) subs ->
  compress p T skip subs plan fuel ops lt = Ok (xs, bits) ->
  Forall is_byte (pre ++ data) -> bits_of_bytes data = bits ++ rest -> (8 <= length rest)%nat ->
  lt_unknown lte = lt_unknown lt ->
  exists gots lt' inp',
    decode_compressed o T skip fuel ops (length subs) lt (mkin (pre ++ data) (length pre) 0 0) = Ok (gots, lt', inp') /\
    Forall2 (fun vars got => exists lte' out inp1,
      encode_subsets p o T fuel ops [vars] lte (mkout pre 0 0) = Ok (lte', out) /\
      decode_subsets o T skip fuel ops 1 lt (mkin (obytes (flush out) ++ [55]) (length pre) 0 0) = Ok ([got], lt', inp1)) subs gots.
Proof.
  intros p o T skip subs plan fuel ops lt xs bits pre data rest lte NE TOK VOK H HB E Hr L.
  destruct (C23_compressed_like_uncompressed p o T skip subs plan fuel ops lt xs bits pre data rest NE TOK VOK H HB E Hr)
    as (gots & lt' & inp' & D & F). exists gots, lt', inp'. split; auto.
  assert (Hpre : Forall is_byte pre) by (apply Forall_app in HB; apply HB).
  clear -F TOK VOK L Hpre. induction F as [|vars got subs gots H F IH]; constructor.
  - inversion VOK; subst.
    assert (TA : transfer_all p T skip fuel ops [vars] lt = Ok ([got], lt')) by (cbn [transfer_all]; rewrite H; reflexivity).
    destruct (bytes_roundtrip p o T skip fuel ops [vars] lt lte _ _ pre TOK ltac:(auto) L Hpre TA) as (lte' & out & bytes & E1 & E2 & _ & D).
    destruct (D [55]) as (inp1 & D1); [repeat constructor; lia|cbn; lia|].
    exists lte', out, inp1. split; auto. rewrite E2, <- app_assoc. exact D1.
  - apply IH. inversion VOK; auto.
Qed.

(** Any column can be sent: base 0 and the width of the element are always good. *)
Theorem C23_columns_exist : forall p i vals ch, is_numeric (vi_type i) = true -> vals <> [] ->
  Forall (fun v => field_ok p i v = true /\ (forall k, v = Some (VInt k) -> k - vi_bit_ref i <> 2 ^ vi_bit_len i - 1)) vals ->
  ch_base ch = 0 -> ch_width ch = bit_len_nat i -> exists bs, column i ch vals = Ok bs.
Proof.
  intros p i vals ch N Hne F E1 E2.
  assert (Hn : (1 <= bit_len_nat i <= 32)%nat /\ Z.of_nat (bit_len_nat i) = vi_bit_len i).
  { destruct vals as [|v vals]; [congruence|]. inversion F as [|? ? [Fv _] _]; subst.
    destruct (field_ok_number p i v N Fv) as (? & ? & _). auto. }
  assert (C : exists bs, number_column i ch vals = Ok bs).
  { unfold number_column. rewrite E1, E2. replace (Nat.eqb (bit_len_nat i) 0) with false by lia.
    pose proof (ones_pos (bit_len_nat i) ltac:(lia)).
    assert (G : Nat.leb (bit_len_nat i) 32 && (0 <=? 0) && (0 <? ones_of (bit_len_nat i)) &&
      forallb (fun r => match r with None => true | Some x => (0 <=? x) && (x - 0 <? ones_of (bit_len_nat i)) && (x <? ones_of (bit_len_nat i)) end)
        (map (raw_of i) vals) = true).
    { assert (X : forallb (fun r => match r with None => true | Some x => (0 <=? x) && (x - 0 <? ones_of (bit_len_nat i)) && (x <? ones_of (bit_len_nat i)) end)
        (map (raw_of i) vals) = true).
      { apply forallb_forall. intros r I. apply in_map_iff in I as (v & <- & I). rewrite Forall_forall in F. destruct (F v I) as [Fv Fm].
        destruct (field_ok_number p i v N Fv) as (_ & _ & Fk). destruct v as [[k|s|b]|]; try contradiction; cbn [raw_of]; auto.
        specialize (Fm k eq_refl). unfold ones_of. destruct Hn as [_ ->].
        assert (k - vi_bit_ref i < 2 ^ vi_bit_len i).
        { unfold field_ok, number_fits in Fv. destruct (vi_type i); try discriminate N; destruct (no_missing (vi_code i)); lia. }
        lia. }
      rewrite X. lia. }
    rewrite G. cbn [guard bind]. eauto. }
  destruct C as (bs & C). exists bs. unfold column. destruct (vi_type i); try discriminate N; exact C.
Qed.

(** ** An example

    The template of C21: a delayed replication, a missing value, a text, a width
    operator, a bitmap and attributes, with three subsets.  The choices are base 0 for
    all numbers, one character less for texts, and a common base for the wide element. *)
Definition ex_subset2 (temp : Z) (text : list Z) (wide : Z) (conf : Z) : list var :=
  [num 1 1 5; with_attr (num 12 101 temp) 33 7 conf;
   num 31 1 2; num 1 1 6; num 12 101 0; num 1 1 7; with_attr (gone 12 101) 33 7 99;
   mkvar (mkcell (ex_info 1 11) (Some (VStr text))) [];
   mkvar (mkcell wide_info (Some (VInt wide))) [];
   mkvar (mkcell (bitmap_info 9) (Some (VStr [45; 43; 45; 45; 45; 45; 43; 45; 45]))) []].
Definition ex_subs : list (list var) :=
  [ex_subset2 28315 [65; 66; 67] 300 70; ex_subset2 28000 [88] 301 0; ex_subset2 0 [90; 90] 303 100].
(** The bases and widths, by position. *)
Definition ex_plan (pos : nat) : choice :=
  match Z.of_nat pos with
  | 0 => mkchoice 5 [] 0 0 0
  | 13 => mkchoice 0 [] 16 0 0
  | 97 => mkchoice 6 [] 0 0 0
  | 132 => mkchoice 7 [] 0 0 0
  | 145 => mkchoice 65535 [] 0 0 0
  | 167 => mkchoice 0 (repeat 32 9) 3 0 0
  | 317 => mkchoice 300 [] 3 0 0
  | 418 => mkchoice 0 [] 7 0 0
  | 452 => mkchoice 99 [] 0 0 0
  | _ => mkchoice 0 [] 0 0 0
  end.

Fixpoint pack_bits (fuel : nat) (l : list bool) : list Z :=
  match fuel, l with
  | S k, _ :: _ => val_of (firstn 8 (l ++ repeat false 7)) :: pack_bits k (skipn 8 l)
  | _, _ => []
  end.
Definition as_bytes (l : list bool) : list Z := pack_bits (length l) l.

Definition decoded (ops : list Z) (n : nat) (l : list bool) :=
  ' (g, _, _) <- decode_compressed (mkopts false false None) ex_tables true 100 ops n empty_local
                   (mkin (as_bytes l ++ [55; 55]) 0 0 0) ;; Ok (map view g).

Lemma ex_subset2_ok temp text wide conf : Forall var_infos_ok (ex_subset2 temp text wide conf).
Proof.
  assert (A : forall x y v, is_ok (query ex_btable (wr_var 0 x y)) = true -> var_infos_ok (num x y v)).
  { intros x y v E. split; [exact (ex_info_ok x y E)|constructor]. }
  assert (B : forall v x y k, var_infos_ok v -> v_attrs v = [] -> is_ok (query ex_btable (wr_var 0 x y)) = true ->
    var_infos_ok (with_attr v x y k)).
  { intros v x y k [V1 V2] Ev E. split; [exact V1|]. unfold with_attr. rewrite Ev. cbn [v_attrs seta].
    constructor; [exact (ex_info_ok x y E)|constructor]. }
  assert (C : forall x y v, is_ok (query ex_btable (wr_var 0 x y)) = true -> var_infos_ok (mkvar (mkcell (ex_info x y) v) [])).
  { intros x y v E. split; [exact (ex_info_ok x y E)|constructor]. }
  pose proof (ex_subset_ok wide) as K. unfold ex_subset in K.
  do 8 apply Forall_cons_iff in K as [_ K]. unfold ex_subset2.
  apply Forall_cons; [apply (A 1 1 5); vm_compute; reflexivity|].
  apply Forall_cons; [apply (B (num 12 101 temp) 33 7 conf); [apply (A 12 101 temp)|reflexivity|]; vm_compute; reflexivity|].
  apply Forall_cons; [apply (A 31 1 2); vm_compute; reflexivity|].
  apply Forall_cons; [apply (A 1 1 6); vm_compute; reflexivity|].
  apply Forall_cons; [apply (A 12 101 0); vm_compute; reflexivity|].
  apply Forall_cons; [apply (A 1 1 7); vm_compute; reflexivity|].
  apply Forall_cons; [apply (B (gone 12 101) 33 7 99); [|reflexivity|vm_compute; reflexivity]|].
  { split; [exact (ex_info_ok 12 101 ltac:(vm_compute; reflexivity))|constructor]. }
  apply Forall_cons; [apply (C 1 11 (Some (VStr text))); vm_compute; reflexivity|exact K].
Qed.

Example C23_example :
  table_ok (tb_b ex_tables) /\ Forall (Forall var_infos_ok) ex_subs /\
  (' (xs, bits) <- compress X86 ex_tables true ex_subs ex_plan 100 ex_ops empty_local ;;
   d <- decoded ex_ops 3 bits ;; Ok (length bits, d)) = Ok (465%nat, map view ex_subs).
Proof.
  split; [exact ex_btable_ok|]. split; [|vm_compute; reflexivity].
  unfold ex_subs. repeat (constructor; [exact (ex_subset2_ok _ _ _ _)|]). constructor.
Qed.

Example C23_column_example :
  map (column_value (ex_info 12 101) 28000 9) [0; 315; 511] = [Some (VInt 28000); Some (VInt 28315); None] /\
  decoded [wr_var 0 12 101] 3 (bits_of 16 28000 ++ bits_of 6 9 ++ flat_map (bits_of 9) [0; 315; 511]) =
  Ok [view [num 12 101 28000]; view [num 12 101 28315]; view [gone 12 101]].
Proof. split; vm_compute; reflexivity. Qed.

(** ** Where the two ways do not agree

    The associated field of a subset is also given to the following subsets when theirs
    is missing: sent alone, the second subset has no attribute. *)
Definition leak_ops : list Z := [wr_var 2 4 7; wr_var 0 31 21; wr_var 0 1 1; wr_var 2 4 0].
Definition leak_bits : list bool :=
  bits_of 6 8 ++ bits_of 6 0 ++
  (bits_of 7 0 ++ bits_of 6 7 ++ bits_of 7 2 ++ bits_of 7 127) ++
  (bits_of 7 0 ++ bits_of 6 7 ++ bits_of 7 5 ++ bits_of 7 6).
Definition decoded_alone (ops : list Z) (l : list bool) :=
  ' (g, _, _) <- decode_subsets (mkopts false false None) ex_tables true 1000 ops 1 empty_local
                   (mkin (as_bytes l ++ [55; 55]) 0 0 0) ;; Ok (map view g).

Theorem C23_associated_field_leak_refuted :
  decoded leak_ops 2 leak_bits =
    Ok [view [num 31 21 8; with_attr (num 1 1 5) 33 2 2]; view [num 31 21 8; with_attr (num 1 1 6) 33 2 2]] /\
  decoded_alone leak_ops (bits_of 6 8 ++ bits_of 7 2 ++ bits_of 7 5) = Ok [view [num 31 21 8; with_attr (num 1 1 5) 33 2 2]] /\
  decoded_alone leak_ops (bits_of 6 8 ++ bits_of 7 127 ++ bits_of 7 6) = Ok [view [num 31 21 8; num 1 1 6]].
Proof. split; [|split]; vm_compute; reflexivity. Qed.

(** A replication factor of all ones is a number when not compressed, and an error when
    compressed. *)
Theorem C23_factor_all_ones_refuted :
  decoded [wr_var 1 1 0; wr_var 0 31 1; wr_var 0 1 1] 1 (bits_of 8 255 ++ bits_of 6 0) = Err ENotFound /\
  decoded_alone [wr_var 1 1 0; wr_var 0 31 1; wr_var 0 1 1] (bits_of 8 255 ++ flat_map (bits_of 7) (repeat 5 255)) =
    Ok [view (num 31 1 255 :: repeat (num 1 1 5) 255)].
Proof. split; vm_compute; reflexivity. Qed.

(** The six bits of the width can ask for more than 32 bits: undefined. *)
Theorem C23_wide_differences_refuted :
  decoded [wr_var 0 1 1] 1 (bits_of 7 0 ++ bits_of 6 40 ++ bits_of 40 1) = UB.
Proof. vm_compute. reflexivity. Qed.

(** The associated field of a text is not read: sent with the associated field, as it is
    when not compressed, the text is read out of place. *)
Definition text_af_ops : list Z := [wr_var 2 4 8; wr_var 0 31 21; wr_var 0 1 11; wr_var 2 4 0].
Definition some_text : list Z := [65; 66; 67; 68; 69; 70; 71; 72; 73].
Definition text_var (s : list Z) (a : list cell) : var := mkvar (mkcell (ex_info 1 11) (Some (VStr s))) a.

Theorem C23_text_associated_field_refuted :
  decoded text_af_ops 1 (bits_of 6 1 ++ bits_of 6 0 ++ (bits_of 8 2 ++ bits_of 6 0) ++ bits_of_bytes some_text ++ bits_of 6 0) <>
    Ok [view [num 31 21 1; text_var some_text [mkcell (ex_info 33 2) (Some (VInt 2))]]] /\
  decoded text_af_ops 1 (bits_of 6 1 ++ bits_of 6 0 ++ bits_of_bytes some_text ++ bits_of 6 0) =
    Ok [view [num 31 21 1; text_var some_text []]] /\
  decoded_alone text_af_ops (bits_of 6 1 ++ bits_of 8 2 ++ bits_of_bytes some_text) =
    Ok [view [num 31 21 1; text_var some_text [mkcell (ex_info 33 2) (Some (VInt 2))]]].
Proof. split; [vm_compute; discriminate|split; vm_compute; reflexivity]. Qed.

Print Assumptions C23_base_plus_difference.
Print Assumptions C23_no_differences.
Print Assumptions C23_texts.
Print Assumptions C23_compressed_like_uncompressed.
Print Assumptions C23_same_variables.
Print Assumptions C23_columns_exist.

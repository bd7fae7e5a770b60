(** Columns of compressed data. *)
From Coq Require Import ZifyBool ZifyNat.
From Verif Require Import Base Bits.Model Bits.Spec Bits.Proofs Bits.StringProofs Num.Float Num.FloatProofs
  Varcode.Model Varinfo.Model Varinfo.Proofs Varinfo.RangeProofs Tables.Model Tables.LoadProofs Var.Model Var.Spec
  Var.Proofs Var.AttrProofs Var.CodecProofs Interp.Model Codec.Model Codec.Spec Codec.ValueProofs Codec.Proofs
  Codec.Compressed Codec.CompressedSpec.
Local Open Scope Z_scope.

Lemma ok_inj {A} (a b : A) : Ok a = Ok b -> a = b.
Proof. congruence. Qed.

Lemma reads_ret {A} (a : A) : reads [] (fun inp => Ok (a, inp)) a.
Proof. intros inp rest Hb W Hr E. exists inp. auto. Qed.

Lemma reads_bind {A B} bs1 bs2 (f : input -> res (A * input)) a (g : A -> input -> res (B * input)) b :
  reads bs1 f a -> reads bs2 (g a) b ->
  reads (bs1 ++ bs2) (fun inp => ' (x, inp1) <- f inp ;; g x inp1) b.
Proof.
  intros R1 R2 inp rest Hb W Hr E. rewrite <- app_assoc in E.
  destruct (R1 inp (bs2 ++ rest) Hb W) as (i1 & F1 & E1 & W1 & D1); auto; [rewrite app_length; lia|].
  destruct (R2 i1 rest) as (i2 & F2 & E2 & W2 & D2); auto; [rewrite D1; auto|].
  exists i2. rewrite F1. cbn [bind fst snd]. split; auto. split; auto. split; auto. congruence.
Qed.

Lemma reads_ext {A} bs (f g : input -> res (A * input)) a : (forall inp, f inp = g inp) -> reads bs f a -> reads bs g a.
Proof. intros H R inp rest Hb W Hr E. rewrite <- H. apply R; auto. Qed.

(** Stepping through the elements of a monadic reader. *)
Ltac rd_step R := eapply (reads_bind _ _ _ _ _ _ R).

Lemma reads_bind3 {A B C} bs1 bs2 (f : input -> res (A * B * input)) a a2 (g : A -> B -> input -> res (C * input)) b :
  reads bs1 f (a, a2) -> reads bs2 (g a a2) b ->
  reads (bs1 ++ bs2) (fun inp => ' (x, y, inp1) <- f inp ;; g x y inp1) b.
Proof.
  intros R1 R2. eapply reads_ext; [|exact (reads_bind bs1 bs2 f (a, a2) (fun q => g (fst q) (snd q)) b R1 R2)].
  intros inp. cbv beta. destruct (f inp) as [[[? ?] ?]| |]; reflexivity.
Qed.

Lemma reads_bind4 {A B C D} bs1 bs2 (f : input -> res (A * B * C * input)) a a2 a3 (g : A -> B -> C -> input -> res (D * input)) b :
  reads bs1 f (a, a2, a3) -> reads bs2 (g a a2 a3) b ->
  reads (bs1 ++ bs2) (fun inp => ' (x, y, z, inp1) <- f inp ;; g x y z inp1) b.
Proof.
  intros R1 R2. eapply reads_ext; [|exact (reads_bind bs1 bs2 f (a, a2, a3) (fun q => g (fst (fst q)) (snd (fst q)) (snd q)) b R1 R2)].
  intros inp. cbv beta. destruct (f inp) as [[[[? ?] ?] ?]| |]; reflexivity.
Qed.

Lemma num_reads n v : (n <= 32)%nat -> 0 <= v < 2 ^ Z.of_nat n -> reads (bits_of n v) (get_bits n) v.
Proof. intros Hn Hv. pose proof (get_bits_reads n v Hn) as H. rewrite Z.mod_small in H by exact Hv. exact H. Qed.

Lemma all_ones_ok n : (1 <= n <= 32)%nat -> all_ones n = Ok (ones_of n).
Proof. intros H. unfold all_ones, ones_of. replace ((1 <=? n)%nat && (n <=? 32)%nat) with true by lia. reflexivity. Qed.

Lemma ones_pos n : (1 <= n)%nat -> 1 <= ones_of n.
Proof. intros H. unfold ones_of. change 2 with (2 ^ 1) at 1. 
  assert (2 ^ 1 <= 2 ^ Z.of_nat n) by (apply Z.pow_le_mono_r; lia). change (2 ^ 1) with 2 in *. lia. Qed.

Lemma ones_32 n : (n <= 32)%nat -> ones_of n < 2 ^ 32.
Proof. intros H. unfold ones_of. assert (2 ^ Z.of_nat n <= 2 ^ 32) by (apply Z.pow_le_mono_r; lia). lia. Qed.

Lemma bind_pair {A B C} (m : res (A * B)) (k : A -> B -> res C) :
  (' (a, b) <- m ;; k a b) = bind m (fun q => k (fst q) (snd q)).
Proof. destruct m as [[? ?]| |]; reflexivity. Qed.

Section Column.
Context (o : options) (p : shift_policy).

Lemma field_ok_number i v : is_numeric (vi_type i) = true -> field_ok p i v = true ->
  (1 <= bit_len_nat i <= 32)%nat /\ Z.of_nat (bit_len_nat i) = vi_bit_len i /\
  match v with
  | None => True
  | Some (VInt k) => vi_imin i <= k <= vi_imax i /\ 0 <= k - vi_bit_ref i
  | Some _ => False
  end.
Proof.
  intros N F. unfold field_ok, number_fits in F. unfold bit_len_nat.
  destruct (vi_type i); try discriminate; destruct v as [[k|s|b]|];
    try (rewrite andb_false_r in F; discriminate F); repeat split; lia.
Qed.

Lemma raw_number_ok i k : info_ok i -> is_numeric (vi_type i) = true -> (1 <= bit_len_nat i <= 32)%nat ->
  vi_imin i <= k <= vi_imax i -> 0 <= k - vi_bit_ref i < ones_of (bit_len_nat i) ->
  raw_number o i (k - vi_bit_ref i) = Ok (mkcell i (Some (VInt k))).
Proof.
  intros K N Hn R H. pose proof (ones_32 (bit_len_nat i) ltac:(lia)).
  destruct (raw_var_roundtrip o i (k - vi_bit_ref i) K N) as (d & c & D1 & D2 & D3 & _);
    [unfold bit_len_nat in Hn; lia|lia|lia|].
  unfold raw_number. rewrite D1. cbn [bind]. rewrite D2. cbn [of_outcome]. subst c. do 4 f_equal. lia.
Qed.

(** The base and the width. *)
Lemma base_reads i base w : (1 <= bit_len_nat i <= 32)%nat -> 0 <= base <= ones_of (bit_len_nat i) -> (w <= 63)%nat ->
  (base = ones_of (bit_len_nat i) -> w = 0%nat) ->
  reads (bits_of (bit_len_nat i) base ++ bits_of 6 (Z.of_nat w)) (comp_base i)
    (base =? ones_of (bit_len_nat i), base, Z.of_nat w).
Proof.
  intros Hn Hb Hw H0. unfold comp_base.
  rd_step (num_reads (bit_len_nat i) base ltac:(lia) ltac:(unfold ones_of in Hb; lia)). cbn [fst snd].
  rewrite all_ones_ok by exact Hn. cbn [bind]. rewrite <- (app_nil_r (bits_of 6 _)).
  rd_step (num_reads 6 (Z.of_nat w) ltac:(lia) ltac:(change (2 ^ Z.of_nat 6) with 64; lia)).
  destruct (Z.eqb_spec base (ones_of (bit_len_nat i))) as [E|E]; cbn [andb].
  - rewrite (H0 E). cbn [negb]. apply reads_ret.
  - apply reads_ret.
Qed.

(** One difference. *)
Lemma diff_reads i base w v : info_ok i \/ v = None -> is_numeric (vi_type i) = true -> field_ok p i v = true ->
  (1 <= w <= 32)%nat -> 0 <= base < ones_of (bit_len_nat i) ->
  match raw_of i v with None => True | Some x => base <= x /\ x - base < ones_of w /\ x < ones_of (bit_len_nat i) end ->
  reads (bits_of w (match raw_of i v with None => ones_of w | Some x => x - base end))
    (comp_diff o i base (Z.of_nat w)) (mkcell i v).
Proof.
  intros K N F Hw Hb H. destruct (field_ok_number i v N F) as (Hn & Hz & Fv).
  pose proof (ones_pos w ltac:(lia)). pose proof (ones_32 (bit_len_nat i) ltac:(lia)).
  set (d := match raw_of i v with None => ones_of w | Some x => x - base end).
  assert (Hd : 0 <= d < 2 ^ Z.of_nat w).
  { unfold d. change (2 ^ Z.of_nat w) with (2 ^ Z.of_nat w). unfold ones_of in *. destruct (raw_of i v); lia. }
  unfold comp_diff. rewrite <- (app_nil_r (bits_of w d)). rewrite Nat2Z.id.
  rd_step (num_reads w d ltac:(lia) Hd). cbn [fst snd].
  rewrite !all_ones_ok by (exact Hn || exact Hw). cbn [bind].
  replace (base =? ones_of (bit_len_nat i)) with false by lia. cbn [orb].
  destruct v as [[k|s|b]|]; try contradiction.
  - cbn [raw_of] in H. unfold d. cbn [raw_of]. destruct H as (Hx1 & Hx2 & Hx3). destruct Fv as [Fv1 Fv2].
    replace (k - vi_bit_ref i - base =? ones_of w) with false by lia. cbv zeta.
    replace (base + (k - vi_bit_ref i - base)) with (k - vi_bit_ref i) by lia.
    unfold u32. rewrite Z.mod_small by lia.
    replace (k - vi_bit_ref i =? ones_of (bit_len_nat i)) with false by lia.
    destruct K as [K|K]; [|discriminate]. rewrite raw_number_ok by (auto; lia). cbn [bind]. apply reads_ret.
  - unfold d. cbn [raw_of]. rewrite Z.eqb_refl. apply reads_ret.
Qed.

Lemma diffs_reads i base w vals : Forall (fun v => info_ok i \/ v = None) vals -> is_numeric (vi_type i) = true ->
  Forall (fun v => field_ok p i v = true) vals ->
  (1 <= w <= 32)%nat -> 0 <= base < ones_of (bit_len_nat i) ->
  Forall (fun v => match raw_of i v with
                   | None => True
                   | Some x => base <= x /\ x - base < ones_of w /\ x < ones_of (bit_len_nat i) end) vals ->
  reads (flat_map (fun r => bits_of w (match r with None => ones_of w | Some x => x - base end)) (map (raw_of i) vals))
    (comp_diffs o i base (Z.of_nat w) (length vals)) (map (mkcell i) vals).
Proof.
  intros K N F Hw Hb H. induction vals as [|v vals IH]; cbn [map flat_map length comp_diffs]; [apply reads_ret|].
  inversion K; subst. inversion F; subst. inversion H; subst.
  rd_step (diff_reads i base w v ltac:(assumption) N ltac:(assumption) Hw Hb ltac:(assumption)). cbn [fst snd].
  rewrite <- (app_nil_r (flat_map _ _)). rd_step (IH ltac:(assumption) ltac:(assumption) ltac:(assumption)). apply reads_ret.
Qed.

(** A column of numbers: the values, and whether they came one by one. *)
Lemma numbers_reads i ch vals bs : vals <> [] -> Forall (fun v => info_ok i \/ v = None) vals ->
  is_numeric (vi_type i) = true -> Forall (fun v => field_ok p i v = true) vals ->
  number_column i ch vals = Ok bs ->
  reads bs (comp_numbers o i (length vals)) (map (mkcell i) vals, negb (Nat.eqb (ch_width ch) 0)).
Proof.
  intros Hne K N F H. unfold number_column in H.
  assert (Hn : (1 <= bit_len_nat i <= 32)%nat).
  { destruct vals as [|v vals]; [congruence|]. inversion F; subst. eapply field_ok_number; eauto. }
  pose proof (ones_pos (bit_len_nat i) ltac:(lia)) as Hp1. pose proof (ones_32 (bit_len_nat i) ltac:(lia)) as Hp2.
  unfold comp_numbers. destruct (Nat.eqb_spec (ch_width ch) 0) as [W|W]; cbn [negb]; rewrite ?W in H.
  - inv_bind H. apply ok_inj in Hk; subst bs. apply guard_ok in Hb. rewrite forallb_forall in Hb.
    set (base := ch_base ch) in *. set (ones := ones_of (bit_len_nat i)) in *.
    assert (Hv : base = ones /\ Forall (fun v => v = None) vals \/
            exists k, base = k - vi_bit_ref i /\ 0 <= base < ones /\ vi_imin i <= k <= vi_imax i /\ info_ok i /\
                      Forall (fun v => v = Some (VInt k)) vals).
    { destruct vals as [|v vals]; [congruence|]. inversion F as [|? ? Fv Fr]; subst. inversion K as [|? ? Kv Kr]; subst.
      pose proof (Hb (raw_of i v) (or_introl eq_refl)) as Hv.
      destruct (field_ok_number i v N Fv) as (_ & _ & Fv').
      assert (Hb' : forall v', In v' vals -> match raw_of i v' with None => base = ones | Some x => x = base /\ 0 <= x < ones end).
      { intros v' I. pose proof (Hb (raw_of i v') (or_intror (in_map _ _ _ I))) as X. destruct (raw_of i v'); lia. }
      destruct v as [[k|s|b]|]; try contradiction.
      - right. exists k. cbn [raw_of] in Hv. destruct Kv as [Kv|]; [|discriminate].
        split; [lia|]. split; [lia|]. split; [lia|]. split; [auto|]. constructor; auto.
        rewrite Forall_forall in Fr |- *. intros v' I. specialize (Hb' v' I). specialize (Fr v' I).
        destruct (field_ok_number i v' N Fr) as (_ & _ & F2). destruct v' as [[k'|s|b]|]; try contradiction; cbn [raw_of] in Hb'.
        + do 2 f_equal. lia.
        + lia.
      - left. cbn [raw_of] in Hv. split; [lia|]. constructor; auto.
        rewrite Forall_forall in Fr |- *. intros v' I. specialize (Hb' v' I). specialize (Fr v' I).
        destruct (field_ok_number i v' N Fr) as (_ & _ & F2). destruct v' as [[k'|s|b]|]; try contradiction; cbn [raw_of] in Hb'; auto.
        lia. }
    assert (Hbase : 0 <= base <= ones) by (destruct Hv as [[-> _]|(k & _ & ? & _)]; lia).
    assert (Rep : forall c, Forall (fun v => mkcell i v = c) vals -> repeat c (length vals) = map (mkcell i) vals).
    { intros c. clear. induction 1 as [|v l E Fl IH]; cbn; [reflexivity|]. rewrite IH, E. reflexivity. }
    rewrite <- (app_nil_r (bits_of _ _ ++ _)).
    eapply (reads_bind4 _ _ _ _ _ _ _ _ (base_reads i base 0 Hn Hbase ltac:(lia) (fun _ => eq_refl))).
    fold ones. cbn [fst snd]. destruct Hv as [[E Fv]|(k & E & Hb2 & Hk & Ki & Fv)].
    + replace (base =? ones) with true by lia. rewrite (Rep (fresh i)); [apply reads_ret|].
      eapply Forall_impl; [|exact Fv]. intros v ->. reflexivity.
    + replace (base =? ones) with false by lia. change (Z.of_nat 0 =? 0) with true. cbv iota.
      rewrite E. rewrite raw_number_ok by (auto; fold ones; lia). cbn [bind].
      rewrite (Rep (mkcell i (Some (VInt k)))); [apply reads_ret|].
      eapply Forall_impl; [|exact Fv]. intros v ->. reflexivity.
  - inv_bind H. apply ok_inj in Hk; subst bs. apply guard_ok in Hb. rewrite !andb_true_iff in Hb.
    destruct Hb as (((B1 & B2) & B3) & B4).
    eapply (reads_bind4 _ _ _ _ _ _ _ _ (base_reads i (ch_base ch) (ch_width ch) Hn ltac:(lia) ltac:(lia) ltac:(lia))).
    cbn [fst snd]. replace (ch_base ch =? ones_of (bit_len_nat i)) with false by lia.
    replace (Z.of_nat (ch_width ch) =? 0) with false by lia.
    rewrite <- (app_nil_r (flat_map _ _)).
    eapply reads_bind; [apply (diffs_reads i (ch_base ch) (ch_width ch) vals K N F ltac:(lia) ltac:(lia))|apply reads_ret].
    apply Forall_forall. intros v I. rewrite forallb_forall in B4. specialize (B4 _ (in_map (raw_of i) _ _ I)).
    destruct (raw_of i v); lia.
Qed.

(** Characters. *)
Lemma text_raw_reads i w v : vi_type i = TString -> field_ok p i v = true -> (1 <= w)%nat -> text_fits_in w v = true ->
  exists r, reads (bits_of_bytes (text_field w v)) (decode_string_raw (8 * w)) r /\
    match r with
    | None => v = None
    | Some s => of_outcome (setc o (fresh i) (s ++ [0])) = Ok (mkcell i v)
    end.
Proof.
  intros N F Hw Hf. unfold field_ok in F. rewrite N in F. apply andb_prop in F as [B F].
  destruct v as [[n|s|b]|]; try discriminate F.
  - cbn [text_fits_in text_field] in *. unfold text_fits in F. rewrite !andb_true_iff in F.
    destruct F as (((((F1 & F2) & F3) & F4) & F5) & F6). apply andb_prop in Hf as [Hf1 Hf2].
    assert (P : printable_str s) by (eapply forallb_Forall; [|exact F4]; cbv beta; intros; lia).
    assert (Pad : pad_field w s = s ++ repeat 32 (w - length s)) by (apply pad_field_fit; auto; lia).
    assert (Lk : length (pad_field w s) = w) by (rewrite Pad, app_length, repeat_length; lia).
    assert (Hbytes : Forall is_byte (pad_field w s)).
    { rewrite Pad. apply Forall_app. split; [|apply Forall_repeat; unfold is_byte; lia].
      eapply Forall_impl; [|exact P]. unfold is_byte. cbv beta. intros; lia. }
    assert (T : trim_tail (pad_field w s) = s).
    { rewrite Pad. destruct (last_is_blank s) eqn:Y.
      - cbn [negb orb] in F5. apply zlist_eqb_eq in F5. subst s. cbn [length app].
        change (32 :: repeat 32 (w - 1)) with (repeat 32 (S (w - 1))). apply trim_tail_blanks.
      - apply trim_tail_padded; auto. intros ->. cbn in F1. lia. }
    assert (Hnm : forallb (fun c => (c =? 255) || (c =? 0)) (pad_field w s) = false).
    { destruct (forallb _ (pad_field w s)) eqn:X; auto. rewrite Pad, forallb_app in X. apply andb_prop in X as [X1 X2].
      destruct (w - length s)%nat eqn:Y; [|discriminate].
      assert (forallb (Z.eqb 255) s = true) as H.
      { apply forallb_forall. intros c Hc. apply forallb_forall with (x := c) in X1; auto.
        assert (1 <= c < 256) by (eapply Forall_forall in P; eauto). lia. }
      rewrite H in Hf2. replace (Nat.eqb (length s) w) with true in Hf2 by lia. discriminate. }
    exists (Some s). split.
    + intros inp rest Hb W Hr E.
      destruct (decode_string_raw_spec (8 * w) (pad_field w s) inp rest ltac:(lia) Hbytes Hb W E Hr) as (i' & D & R).
      rewrite Hnm, T in D. eauto.
    + rewrite setc_string by (unfold fresh; exact N). cbn [of_outcome].
      assert (Ec : cstr (s ++ [0]) = s) by (rewrite cstr_app_nul; apply cstr_id; exact P).
      cbn [of_outcome].
      first [rewrite Ec | rewrite cstr_id by exact P]. rewrite firstn_all2 by (unfold ilen, fresh; cbn [c_info]; lia). reflexivity.
  - exists None. split; [|reflexivity]. cbn [text_field]. intros inp rest Hb W Hr E.
    destruct (decode_string_raw_spec (8 * w) (repeat 255 w) inp rest) as (i' & D & R); auto.
    { rewrite repeat_length. lia. }
    { apply Forall_repeat; unfold is_byte; lia. }
    assert (Hm : forallb (fun c => (c =? 255) || (c =? 0)) (repeat 255 w) = true).
    { apply forallb_forall. intros c Hc. apply repeat_spec in Hc; subst; reflexivity. }
    rewrite Hm in D. eauto.
Qed.

Lemma text_reads i w v : vi_type i = TString -> field_ok p i v = true -> (1 <= w)%nat -> text_fits_in w v = true ->
  reads (bits_of_bytes (text_field w v)) (comp_text o i (8 * w)) (mkcell i v).
Proof.
  intros N F Hw Hf. destruct (text_raw_reads i w v N F Hw Hf) as (r & R & Hr).
  unfold comp_text. rewrite <- (app_nil_r (bits_of_bytes _)). rd_step R. cbn [fst snd].
  destruct r as [s|].
  - rewrite Hr. cbn [bind]. apply reads_ret.
  - subst v. apply reads_ret.
Qed.

Lemma texts_reads i w vals : vi_type i = TString -> Forall (fun v => field_ok p i v = true) vals -> (1 <= w)%nat ->
  forallb (text_fits_in w) vals = true ->
  reads (flat_map (fun v => bits_of_bytes (text_field w v)) vals) (comp_texts o i (8 * w) (length vals)) (map (mkcell i) vals).
Proof.
  intros N F Hw Hf. induction vals as [|v vals IH]; cbn [map flat_map length comp_texts]; [apply reads_ret|].
  inversion F; subst. cbn [forallb] in Hf. apply andb_prop in Hf as [Hf1 Hf2].
  rd_step (text_reads i w v N ltac:(assumption) Hw Hf1). cbn [fst snd].
  rewrite <- (app_nil_r (flat_map _ _)). rd_step (IH ltac:(assumption) Hf2). apply reads_ret.
Qed.

Lemma all_same_spec {A} dec (l : list A) a : all_same dec (a :: l) = true -> Forall (fun b => b = a) l.
Proof.
  cbn [all_same]. rewrite forallb_forall, Forall_forall. intros H b I. specialize (H b I). destruct (dec a b); [auto|discriminate].
Qed.

Lemma field_ok_fits i v : vi_type i = TString -> field_ok p i v = true ->
  (1 <= bit_len_nat i / 8)%nat /\ bit_len_nat i = (8 * (bit_len_nat i / 8))%nat /\ text_fits_in (bit_len_nat i / 8) v = true.
Proof.
  intros N F. unfold field_ok in F. rewrite N in F. apply andb_prop in F as [B F].
  assert (Hk : bit_len_nat i = (8 * (bit_len_nat i / 8))%nat /\ (1 <= bit_len_nat i / 8)%nat).
  { unfold bit_len_nat. pose proof (Z.div_mod (vi_bit_len i) 8). lia. }
  destruct Hk as [Hk1 Hk2]. split; auto. split; auto.
  set (k := (bit_len_nat i / 8)%nat) in *. unfold text_fits_in. destruct v as [[n|s|b]|]; auto.
  unfold text_fits in F. rewrite !andb_true_iff in F. destruct F as (((((F1 & F2) & F3) & F4) & F5) & F6).
  unfold bit_len_nat in Hk1.
  replace (Nat.eqb (length s) k) with (8 * Z.of_nat (length s) =? vi_bit_len i) by lia. rewrite F6. lia.
Qed.

Lemma strings_reads i ch vals bs : vals <> [] -> vi_type i = TString -> Forall (fun v => field_ok p i v = true) vals ->
  text_column i ch vals = Ok bs ->
  reads bs (comp_strings o i (length vals)) (map (mkcell i) vals).
Proof.
  intros Hne N F H. destruct vals as [|v vals]; [congruence|].
  inversion F as [|? ? Fv Fr]; subst. destruct (field_ok_fits i v N Fv) as (Hk1 & Hk2 & Hk3).
  unfold text_column in H. set (k := (bit_len_nat i / 8)%nat) in *. unfold comp_strings.
  destruct (Nat.eqb_spec (ch_width ch) 0) as [W|W].
  - inv_bind H. apply ok_inj in Hk; subst bs. apply guard_ok in Hb. apply all_same_spec in Hb. cbn [hd].
    destruct (text_raw_reads i k v N Fv Hk1 Hk3) as (r & R & Hr). rewrite <- Hk2 in R.
    rd_step R. cbn [fst snd]. rewrite <- (app_nil_r (bits_of 6 0)).
    rd_step (num_reads 6 0 ltac:(lia) ltac:(change (2 ^ Z.of_nat 6) with 64; lia)). cbn [fst snd]. change (0 =? 0) with true. cbv iota.
    assert (Rep : repeat (mkcell i v) (length (v :: vals)) = map (mkcell i) (v :: vals)).
    { cbn [length repeat map]. f_equal. clear -Hb. induction Hb as [|u l E Fl IH]; cbn; [reflexivity|]. rewrite IH, E. reflexivity. }
    rewrite <- Rep. destruct r as [s|].
    + rewrite Hr. cbn [bind]. apply reads_ret.
    + subst v. apply reads_ret.
  - inv_bind H. apply ok_inj in Hk; subst bs. apply guard_ok in Hb. rewrite !andb_true_iff in Hb.
    destruct Hb as ((((B1 & B2) & B3) & B4) & B5).
    assert (Hbytes : Forall is_byte (ch_text ch)) by (eapply forallb_Forall; [|exact B4]; unfold is_byte; cbv beta; intros; lia).
    assert (R : reads (bits_of_bytes (ch_text ch)) (decode_string_raw (bit_len_nat i))
        (if forallb (fun c => (c =? 255) || (c =? 0)) (ch_text ch) then None else Some (trim_tail (ch_text ch)))).
    { intros inp rest Hb W' Hr E. destruct (decode_string_raw_spec (bit_len_nat i) (ch_text ch) inp rest ltac:(lia) Hbytes Hb W' E Hr)
        as (i' & D & R). eauto. }
    rd_step R. cbn [fst snd].
    rd_step (num_reads 6 (Z.of_nat (ch_width ch)) ltac:(lia) ltac:(change (2 ^ Z.of_nat 6) with 64; lia)). cbn [fst snd].
    replace (Z.of_nat (ch_width ch) =? 0) with false by lia.
    replace (vi_bit_len i <? Z.of_nat (ch_width ch) * 8) with false by (unfold bit_len_nat in *; lia).
    replace (Z.to_nat (Z.of_nat (ch_width ch) * 8)) with (8 * ch_width ch)%nat by lia.
    apply texts_reads; auto. lia.
Qed.

Lemma column_reads i ch vals bs : vals <> [] -> Forall (fun v => info_ok i \/ v = None) vals ->
  Forall (fun v => field_ok p i v = true) vals -> column i ch vals = Ok bs ->
  reads bs (comp_values o i (length vals)) (map (mkcell i) vals).
Proof.
  intros Hne K F H. unfold column in H. unfold comp_values. destruct (vi_type i) eqn:N; try discriminate.
  - rewrite <- (app_nil_r bs). pose proof (numbers_reads i ch vals bs Hne K ltac:(rewrite N; reflexivity) F H) as R.
    eapply (reads_bind3 _ _ _ _ _ _ _ R). apply reads_ret.
  - rewrite <- (app_nil_r bs). pose proof (numbers_reads i ch vals bs Hne K ltac:(rewrite N; reflexivity) F H) as R.
    eapply (reads_bind3 _ _ _ _ _ _ _ R). apply reads_ret.
  - eapply strings_reads; eauto.
Qed.

(** Numbers that are the same for all the subsets. *)
Lemma uniform_reads i v n bs : info_ok i \/ v = None -> field_ok p i v = true -> uniform_column i v = Ok bs ->
  reads bs (comp_uniform o i n) (mkcell i v).
Proof.
  intros K F H. unfold uniform_column in H. inv_bind H. apply ok_inj in Hk; subst bs. apply guard_ok in Hb. apply andb_prop in Hb as [N B].
  destruct (field_ok_number i v N F) as (Hn & Hz & Fv).
  pose proof (ones_pos (bit_len_nat i) ltac:(lia)). pose proof (ones_32 (bit_len_nat i) ltac:(lia)).
  set (raw := match raw_of i v with None => _ | Some x => x end) in *.
  assert (Hraw : 0 <= raw <= ones_of (bit_len_nat i)).
  { destruct v as [[k|s|b]|]; try contradiction; [lia|]. unfold raw. cbn. lia. }
  assert (R : reads (bits_of (bit_len_nat i) raw ++ bits_of 6 0) (comp_semantic o i) (mkcell i v)).
  { unfold comp_semantic.
    rd_step (num_reads (bit_len_nat i) raw ltac:(lia) ltac:(unfold ones_of in Hraw; lia)). cbn [fst snd].
    rewrite all_ones_ok by exact Hn. cbn [bind]. rewrite <- (app_nil_r (bits_of 6 0)).
    rd_step (num_reads 6 0 ltac:(lia) ltac:(change (2 ^ Z.of_nat 6) with 64; lia)). cbn [fst snd negb Z.eqb].
    destruct v as [[k|s|b]|]; try contradiction; unfold raw in *; cbn [raw_of] in *.
    - replace (k - vi_bit_ref i =? ones_of (bit_len_nat i)) with false by lia. destruct K as [K|]; [|discriminate].
      rewrite raw_number_ok by (auto; lia). cbn [bind]. apply reads_ret.
    - rewrite Z.eqb_refl. apply reads_ret. }
  unfold comp_uniform. destruct (vi_type i); try discriminate; exact R.
Qed.

(** Bitmaps. *)
Lemma bitmap_reads chars : forallb (fun ch => (ch =? 43) || (ch =? 45)) chars = true ->
  reads (flat_map (fun ch => bits_of 1 (if ch =? 43 then 0 else 1) ++ bits_of 6 0) chars) (comp_bitmap (length chars)) chars.
Proof.
  induction chars as [|c chars IH]; intros H; cbn [flat_map length comp_bitmap]; [apply reads_ret|].
  cbn [forallb] in H. apply andb_prop in H as [H1 H2]. rewrite <- app_assoc.
  rd_step (num_reads 1 (if c =? 43 then 0 else 1) ltac:(lia) ltac:(change (2 ^ Z.of_nat 1) with 2; destruct (c =? 43); lia)).
  cbn [fst snd]. rd_step (num_reads 6 0 ltac:(lia) ltac:(change (2 ^ Z.of_nat 6) with 64; lia)). cbn [fst snd Z.eqb negb].
  rewrite <- (app_nil_r (flat_map _ _)). rd_step (IH H2). cbn [fst snd].
  replace (if (if c =? 43 then 0 else 1) =? 0 then 43 else 45) with c by (destruct (Z.eqb_spec c 43); cbn; lia).
  apply reads_ret.
Qed.

End Column.

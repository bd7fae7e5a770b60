(** C28, C29, C42, C43: CREX. *)
From Coq Require Import ZifyBool ZifyNat String.
From Verif Require Import Base Bits.Spec Num.Float Varcode.Model Varinfo.Model Tables.Model Var.Model Interp.Model Interp.Hom Interp.Appears
  Interp.FuelProofs Codec.Model Codec.Spec Codec.EndProofs Codec.ColumnProofs Message.Model Message.Spec Crex.Model Crex.Spec
  Crex.ValueProofs Crex.Proofs Crex.MessageProofs Crex.StreamProofs Crex.SafeProofs Crex.UbProofs.
Local Open Scope Z_scope.

(** ** Tables for the examples *)
Definition crex_info (x y : Z) (t : vartype) (len imin imax : Z) : varinfo :=
  mkinfo (wr_var 0 x y) t ""%string 0 len 0 0 imin imax fzero fzero.
Definition block_info := crex_info 1 1 TInteger 2 (-99) 99.
Definition name_info := crex_info 1 15 TString 5 0 0.
Definition temp_info := crex_info 12 1 TDecimal 4 (-9999) 9999.
Definition count_info (y len : Z) := crex_info 31 y TInteger len 0 (10 ^ len - 1).
Definition entry_of (i : varinfo) : bentry := mkbentry i [].
Definition crex_tables : tables :=
  mktables (map entry_of [block_info; name_info; temp_info; count_info 1 3; count_info 11 3; count_info 12 5]) (mkdtable [] []).
Definition opts : options := mkopts false false None.
Definition sent (i : varinfo) (v : option value) : var := mkvar (mkcell i v) [].
Definition line : list cell :=
  [mkcell block_info (Some (VInt 7)); mkcell name_info (Some (VStr [82; 111; 109; 101]));
   mkcell temp_info (Some (VInt (-125))); mkcell temp_info (Some (VInt 283))].

(** ** C28: values

    A value that fits the field is written in such a way that it reads back as the same value, the
    reader being then at what follows and expecting the next check digit.  [text] is what was
    written before; what follows has at least two characters, as it does in a message (++), and
    does not begin with a digit. *)
Theorem C28_value_round_trip : forall o check digit i v text rest,
  crex_fits check i v = true -> 0 <= digit <= 9 ->
  (2 <= length rest)%nat -> c_isdigit (hd 0 rest) = false ->
  exists field digit',
    append_var i (mkcell i v) (mkcout text check digit) = Ok (mkcout (text ++ field) check digit') /\
    exists n, read_variable o i (skip_spaces (mkcin (field ++ rest) check digit)) =
              Ok (n, mkcell i v, mkcin (skip_space rest) check digit').
Proof.
  intros o check digit i v text rest F D L N. exists (token check digit i v), (next_digit check digit v). split.
  - apply (append_var_token check); auto.
  - eexists. unfold skip_spaces, with_rest. cbn [ci_rest ci_check ci_expected]. apply read_variable_ok; auto.
    split; [exact L|]. destruct rest; [cbn in L; lia|exact N].
Qed.

(** So do all the values of a line. *)
Theorem C28_line_round_trip : forall o check digit cells text rest,
  Forall (fun v => crex_fits check (c_info v) (c_val v) = true) cells -> 0 <= digit <= 9 ->
  (2 <= length rest)%nat -> c_isdigit (hd 0 rest) = false ->
  exists line digit',
    append_vars cells (mkcout text check digit) = Ok (mkcout (text ++ line) check digit') /\
    read_vars o (map c_info cells) (skip_spaces (mkcin (line ++ rest) check digit)) =
    Ok (cells, mkcin (skip_space rest) check digit').
Proof.
  intros o check digit cells text rest F D L N.
  assert (Fr : follows rest) by (split; [exact L|destruct rest; [cbn in L; lia|exact N]]).
  destruct (line_ok o check rest Fr cells text digit D F) as (l & d & E1 & _ & E2). exists l, d. auto.
Qed.

(** " 07 Rome  -0125 0283", and with check digits " 107 2Rome  3-0125 40283". *)
Example C28_example :
  Forall (fun v => crex_fits false (c_info v) (c_val v) = true) line /\
  Forall (fun v => crex_fits true (c_info v) (c_val v) = true) line /\
  append_vars line (mkcout [] false 0) =
    Ok (mkcout [32; 48; 55; 32; 82; 111; 109; 101; 32; 32; 45; 48; 49; 50; 53; 32; 48; 50; 56; 51] false 0) /\
  append_vars line (mkcout [] true 1) =
    Ok (mkcout [32; 49; 48; 55; 32; 50; 82; 111; 109; 101; 32; 32; 51; 45; 48; 49; 50; 53; 32; 52; 48; 50; 56; 51] true 5) /\
  crex_fits false temp_info None = true.
Proof. repeat split; repeat constructor. Qed.

(** Missing values are written without a space and a check digit, and do not read back in a
    message with check digits. *)
Theorem C28_missing_with_check_digits_refuted :
  append_var temp_info (fresh temp_info) (mkcout [] true 1) = Ok (mkcout [47; 47; 47; 47] true 1) /\
  read_variable opts temp_info (skip_spaces (mkcin ([47; 47; 47; 47] ++ [43; 43]) true 1)) = Err EParse.
Proof. split; reflexivity. Qed.

(** Texts that begin with a slash read back as missing. *)
Theorem C28_slash_refuted :
  append_var name_info (mkcell name_info (Some (VStr [47; 65]))) (mkcout [] false 0) =
    Ok (mkcout [32; 47; 65; 32; 32; 32] false 0) /\
  read_variable opts name_info (skip_spaces (mkcin ([32; 47; 65; 32; 32; 32] ++ [43; 43]) false 0)) =
    Ok (4294967295, fresh name_info, mkcin [43; 43] false 0).
Proof. split; reflexivity. Qed.

(** Without check digits, a text that begins with a space takes characters of the next value, and
    so does an empty one. *)
Theorem C28_leading_space_refuted :
  append_vars [mkcell name_info (Some (VStr [32; 65; 66])); mkcell block_info (Some (VInt 7))] (mkcout [] false 0) =
    Ok (mkcout [32; 32; 65; 66; 32; 32; 32; 48; 55] false 0) /\
  read_variable opts name_info (skip_spaces (mkcin ([32; 32; 65; 66; 32; 32; 32; 48; 55] ++ [43; 43]) false 0)) =
    Ok (4294967295, mkcell name_info (Some (VStr [65; 66])), mkcin [48; 55; 43; 43] false 0) /\
  append_vars [mkcell name_info (Some (VStr [])); mkcell block_info (Some (VInt 7))] (mkcout [] false 0) =
    Ok (mkcout [32; 32; 32; 32; 32; 32; 32; 48; 55] false 0) /\
  read_variable opts name_info (skip_spaces (mkcin ([32; 32; 32; 32; 32; 32; 32; 48; 55] ++ [43; 43; 13]) false 0)) =
    Err EParse /\
  read_variable opts name_info (skip_spaces (mkcin ([32; 32; 32; 32; 32; 32; 32; 48; 55] ++ [43; 43; 13; 13; 10]) false 0)) =
    Ok (4294967295, mkcell name_info (Some (VStr [48; 55; 43; 43])), mkcin [] false 0).
Proof. repeat split. Qed.

(** Without check digits the last characters of a text that has spaces at its end are lost. *)
Theorem C28_trailing_space_refuted :
  append_var name_info (mkcell name_info (Some (VStr [65; 32]))) (mkcout [] false 0) =
    Ok (mkcout [32; 65; 32; 32; 32; 32] false 0) /\
  read_variable opts name_info (skip_spaces (mkcin ([32; 65; 32; 32; 32; 32] ++ [43; 43]) false 0)) =
    Ok (4294967295, mkcell name_info (Some (VStr [65])), mkcin [43; 43] false 0).
Proof. split; reflexivity. Qed.

(** ** C42: messages with one subset

    [crex_transfer] says, without the text of the message, that the variables are those of the
    template and that their values fit; [crex_received] is the header without what CREX does not
    carry.  The attributes are not in the message. *)
Theorem C42_message_round_trip : forall o load T fuel lt h ops vars got,
  crex_header_ok h = true -> crex_ops_ok ops = true -> (length ops < fuel)%nat ->
  load (crex_received h) = Ok T -> crex_transfer vars T fuel ops = Ok got ->
  exists text, encode_crex o T fuel lt (mkcb h ops [vars]) = Ok text /\
    decode_crex o load fuel text = Ok (mkcb (crex_received h) ops [map (fun v => mkvar (v_cell v) []) vars]).
Proof.
  intros o load T fuel lt h ops vars got Hh Ho L HT H.
  destruct (message_round_trip o load T fuel lt h ops vars got Hh Ho L HT H) as (ts & _ & E & D). eexists. split; [exact E|].
  rewrite (transfer_values _ _ _ _ _ H) in D. exact (D [13; 13; 10]).
Qed.

(** A delayed replication, with a missing value at the end. *)
Definition ex_cheader : cheader := mkcheader 0 1 3 0 0 1 255 0 false.
Definition ex_cops : list Z := [wr_var 0 1 1; wr_var 0 1 15; wr_var 1 2 0; wr_var 0 31 12; wr_var 0 12 1; wr_var 0 1 1].
Definition ex_cvars : list var :=
  [sent block_info (Some (VInt 7)); sent name_info (Some (VStr [82; 111; 109; 101]));
   sent (count_info 12 5) (Some (VInt 2)); sent temp_info (Some (VInt (-125))); sent block_info (Some (VInt 1));
   sent temp_info (Some (VInt 283)); sent block_info None].
Definition ex_ctext : list Z :=
  get_ok [] (encode_crex opts crex_tables 100 empty_local (mkcb ex_cheader ex_cops [ex_cvars])).
Example C42_example :
  crex_header_ok ex_cheader = true /\ crex_ops_ok ex_cops = true /\
  crex_transfer ex_cvars crex_tables 100 ex_cops = Ok ex_cvars /\
  ex_ctext = [67; 82; 69; 88; 43; 43; 13; 13; 10;                                     (* CREX++ *)
    84; 48; 48; 48; 49; 48; 51; 32; 65; 48; 48; 49;                                   (* T000103 A001 *)
    32; 66; 48; 49; 48; 48; 49; 32; 66; 48; 49; 48; 49; 53; 32; 82; 48; 50; 48; 48; 48;   (* B01001 B01015 R02000 *)
    32; 66; 51; 49; 48; 49; 50; 32; 66; 49; 50; 48; 48; 49; 32; 66; 48; 49; 48; 48; 49; 43; 43; 13; 13; 10; (* B31012 B12001 B01001++ *)
    32; 48; 55; 32; 82; 111; 109; 101; 32; 32; 48; 48; 48; 50; 32; 45; 48; 49; 50; 53; 32; 48; 49;    (* 07 Rome  0002 -0125 01 *)
    32; 48; 50; 56; 51; 47; 47; 43; 43; 13; 13; 10; 55; 55; 55; 55; 13; 13; 10].       (* 0283//++ 7777 *)
Proof. repeat split; vm_compute; reflexivity. Qed.

(** A message with two subsets does not read back: the spaces after the first + are not skipped. *)
Theorem C42_two_subsets_refuted :
  let vars := [sent temp_info (Some (VInt 15))] in
  let ops := [wr_var 0 12 1] in
  exists text, crex_transfer vars crex_tables 100 ops = Ok vars /\
    encode_crex opts crex_tables 100 empty_local (mkcb ex_cheader ops [vars; vars]) = Ok text /\
    rmap (fun b => cb_subsets b) (decode_crex opts (fun _ => Ok crex_tables) 100 text) <>
    Ok [vars; vars].
Proof.
  cbv zeta. eexists. split; [vm_compute; reflexivity|]. split; [vm_compute; reflexivity|]. vm_compute. discriminate.
Qed.

(** The request of check digits is ignored: the text is the same. *)
Theorem C42_check_digits_refuted : forall o T fuel lt h ops subsets b,
  encode_crex o T fuel lt (mkcb h ops subsets) =
  encode_crex o T fuel lt (mkcb (mkcheader (ch_mtn h) (ch_edition h) (ch_mtv h) (ch_mtv_bufr h) (ch_mtv_local h)
    (ch_category h) (ch_subcategory h) (ch_subcategory_local h) b) ops subsets).
Proof. reflexivity. Qed.

(** Delayed replication factors are written with four digits, whatever their field: with a field of
    three digits (B 31 011) what follows is misread; with one of five digits (B 31 012) a factor
    at the end takes a character of the terminator, and one before a missing value takes a character
    of it. *)
Theorem C42_factor_width_refuted :
  let message vars y := encode_crex opts crex_tables 100 empty_local
    (mkcb ex_cheader [wr_var 1 1 0; wr_var 0 31 y; wr_var 0 12 1] [vars]) in
  let received m := rmap (fun b => cb_subsets b) (x <- m ;; decode_crex opts (fun _ => Ok crex_tables) 100 x) in
  received (message [sent (count_info 11 3) (Some (VInt 1)); sent temp_info (Some (VInt 283))] 11) <>
    (Ok [[sent (count_info 11 3) (Some (VInt 1)); sent temp_info (Some (VInt 283))]]) /\
  received (message [sent (count_info 12 5) (Some (VInt 0))] 12) <>
    (Ok [[sent (count_info 12 5) (Some (VInt 0))]]) /\
  received (message [sent (count_info 12 5) (Some (VInt 1)); sent temp_info None] 12) <>
    (Ok [[sent (count_info 12 5) (Some (VInt 1)); sent temp_info None]]).
Proof. repeat split; vm_compute; discriminate. Qed.

(** B 31 001 is left out of the template, and the decoder takes B 31 012 in its place. *)
Theorem C42_factor_dropped_refuted :
  let vars := [sent (count_info 1 3) (Some (VInt 1)); sent temp_info (Some (VInt 283))] in
  rmap (fun b => (cb_datadesc b, map (fun v => vi_code (c_info (v_cell v))) (concat (cb_subsets b))))
    (x <- encode_crex opts crex_tables 100 empty_local (mkcb ex_cheader [wr_var 1 1 0; wr_var 0 31 1; wr_var 0 12 1] [vars]) ;;
     decode_crex opts (fun _ => Ok crex_tables) 100 x) =
  (Ok ([wr_var 1 1 0; wr_var 0 12 1], [wr_var 0 31 12; wr_var 0 12 1])).
Proof. vm_compute. reflexivity. Qed.

(** Table versions from 100 are written with three characters where two are read. *)
Theorem C42_table_version_refuted :
  let h := mkcheader 0 1 120 0 0 1 255 0 false in
  rmap (fun b => ch_mtv (cb_header b))
    (x <- encode_crex opts crex_tables 100 empty_local (mkcb h ex_cops [ex_cvars]) ;;
     decode_crex opts (fun _ => Ok crex_tables) 100 x) = Ok 120 -> False.
Proof. vm_compute. discriminate. Qed.

(** ** C29: streams of messages

    Between the messages there may be anything that does not contain CREX++ and does not end
    with a part of it.  [mark 4 e] is ++, one or more line end characters [e] and 7777: a
    message ends at the first of them, if what precedes it does not end with a part of one. *)
Theorem C29_stream : forall items tail fuel,
  (length items < fuel)%nat ->
  Forall (fun i =>
    ~ occurs crex_start (fst i) /\ (forall k, (1 <= k <= 5)%nat -> ~ ends_with (fst i) (firstn k crex_start)) /\
    exists body e, snd i = crex_start ++ body ++ mark 4 e /\ eols e /\
      (forall e', eols e' -> ~ occurs (mark 4 e') body) /\ ~ ends_with body [43] /\
      (forall e' j, eols e' -> (j <= 3)%nat -> ~ ends_with body (mark j e'))) items ->
  ~ occurs crex_start tail ->
  read_all_crex fuel (fold_right (fun i rest => fst i ++ snd i ++ rest) tail items) = Ok (map snd items).
Proof.
  intros items tail fuel L F N.
  set (cut := map (fun i : list Z * list Z => (fst i, skipn 6 (snd i))) items).
  assert (E : Forall (fun i => snd i = crex_start ++ skipn 6 (snd i)) items).
  { eapply Forall_impl; [|exact F]. intros [s m] (_ & _ & b & e & -> & _). reflexivity. }
  assert (R := read_crex_stream cut tail fuel).
  replace (fold_right (fun i rest => fst i ++ snd i ++ rest) tail items)
    with (fold_right (fun i rest => fst i ++ crex_start ++ snd i ++ rest) tail cut).
  - rewrite R.
    + f_equal. unfold cut. rewrite map_map. apply map_ext_in. intros i Hi. rewrite Forall_forall in E. cbn [snd]. symmetry. auto.
    + unfold cut. rewrite map_length. exact L.
    + unfold cut. apply Forall_map. eapply Forall_impl; [|exact F]. intros [s m] (A & B & b & e & Em & He & U & N1 & Nj).
      cbn [fst snd] in *. subst m. split; [split; auto|]. intros rest. apply read_one_message. exists b, e. auto.
    + exact N.
  - clear -E. unfold cut. induction items as [|i items IH]; [reflexivity|]. apply Forall_cons_iff in E as [Ei E].
    cbn [map fold_right fst snd]. rewrite IH by exact E. rewrite Ei at 2. rewrite <- app_assoc. reflexivity.
Qed.

Theorem C29_end_of_file : forall tail, ~ occurs crex_start tail -> read_crex tail = Ok None.
Proof. intros tail N. unfold read_crex. rewrite seek_end by exact N. reflexivity. Qed.

(** A client that reads to the end of any file stops, with messages or with an error. *)
Theorem C29_reading_ends : forall file fuel, (length file < fuel)%nat ->
  read_all_crex fuel file <> Err EFuel /\ read_all_crex fuel file <> UB.
Proof. intros file fuel L. apply reading_ends. exact L. Qed.

(** What the encoder writes, in a file after a separator and before anything, is read without the
    end of its last line, and decodes to what was sent.  Its texts have no plus sign. *)
Theorem C29_encoded_messages : forall o load T fuel lt h ops vars got sep rest,
  crex_header_ok h = true -> crex_ops_ok ops = true -> (length ops < fuel)%nat ->
  load (crex_received h) = Ok T -> crex_transfer vars T fuel ops = Ok got ->
  vars <> [] -> Forall (fun v => match c_val (v_cell v) with Some (VStr s) => ~ In 43 s | _ => True end) vars ->
  ~ occurs crex_start sep -> (forall k, (1 <= k <= 5)%nat -> ~ ends_with sep (firstn k crex_start)) ->
  exists m, encode_crex o T fuel lt (mkcb h ops [vars]) = Ok (m ++ [13; 13; 10]) /\
    read_crex (sep ++ m ++ [13; 13; 10] ++ rest) = Ok (Some (m, [13; 13; 10] ++ rest)) /\
    decode_crex o load fuel m = Ok (mkcb (crex_received h) ops [map (fun v => mkvar (v_cell v) []) vars]).
Proof.
  intros o load T fuel lt h ops vars got sep rest Hh Ho L HT H Ne NP S1 S2.
  destruct (message_round_trip o load T fuel lt h ops vars got Hh Ho L HT H) as (ts & F & E & D).
  exists (crex_start ++ body_text h ops ts ++ crex_stop). split; [|split].
  - rewrite E. rewrite <- !app_assoc. reflexivity.
  - unfold read_crex. rewrite <- app_assoc. rewrite seek_clean by (split; auto).
    rewrite (encoded_is_one h ops vars ts) by auto. reflexivity.
  - rewrite (transfer_values _ _ _ _ _ H) in D. specialize (D []). rewrite app_nil_r in D. exact D.
Qed.

Example C29_example :
  read_all_crex 10 ([67; 82; 32] ++ ex_ctext ++ ex_ctext ++ [67; 82; 69; 88]) =
  Ok [firstn (length ex_ctext - 3) ex_ctext; firstn (length ex_ctext - 3) ex_ctext].
Proof. vm_compute. reflexivity. Qed.

(** A message after a C is lost; a message that has a plus sign before its end mark is not
    recognised, and neither is one without values. *)
Theorem C29_separator_refuted :
  read_all_crex 10 ([67] ++ ex_ctext) = Ok [].
Proof. vm_compute. reflexivity. Qed.
Theorem C29_plus_refuted :
  let vars := [sent name_info (Some (VStr [65; 66; 67; 68; 43]))] in
  exists text, encode_crex opts crex_tables 100 empty_local (mkcb ex_cheader [wr_var 0 1 15] [vars]) = Ok text /\
    rmap (fun b => cb_subsets b) (decode_crex opts (fun _ => Ok crex_tables) 100 text) = (Ok [vars]) /\
    read_crex text = Err EParse.
Proof. cbv zeta. eexists. split; [vm_compute; reflexivity|]. split; vm_compute; reflexivity. Qed.
Theorem C29_no_values_refuted :
  exists text, encode_crex opts crex_tables 100 empty_local (mkcb ex_cheader [wr_var 2 1 0] [[]]) = Ok text /\
    read_crex text = Err EParse.
Proof. eexists. split; vm_compute; reflexivity. Qed.

(** ** C43: decoding arbitrary text

    Reading the header is always defined.  It may however never end: if it does not with a large
    enough number of steps, it does not with any. *)
Theorem C43_any_header : forall data, exists n, forall fuel, (n < fuel)%nat ->
  decode_cheader fuel data <> UB /\
  (decode_cheader fuel data = Err EFuel -> forall fuel', decode_cheader fuel' data = Err EFuel).
Proof. intros data. destruct (header_end data) as (n & H). exists n. intros fuel L. destruct (H fuel L) as (A & B & _). auto. Qed.

(** A message whose descriptors are followed by anything else than ++ , for instance because
    it is cut there, makes the decoder loop for ever: CREX++ T000103 A001 B12001 *)
Definition ex_cut : list Z :=
  [67; 82; 69; 88; 43; 43; 13; 13; 10; 84; 48; 48; 48; 49; 48; 51; 32; 65; 48; 48; 49; 32; 66; 49; 50; 48; 48; 49].
Theorem C43_header_ends_refuted : forall o load fuel,
  decode_crex o load fuel ex_cut = Err EFuel /\
  is_ok (decode_crex opts (fun _ => Ok crex_tables) 100 (ex_cut ++ [43; 43; 32; 48; 50; 56; 51; 43; 43; 13; 13; 10; 55; 55; 55; 55])) = true.
Proof.
  intros o load fuel. split; [|vm_compute; reflexivity].
  assert (E : decode_cheader fuel ex_cut = Err EFuel).
  { destruct fuel as [|fuel]; [vm_compute; reflexivity|]. cbv - [decode_descs]. cbn [decode_descs].
    cbv - [decode_descs]. rewrite stuck; reflexivity. }
  unfold decode_crex. rewrite E. reflexivity.
Qed.

(** Decoding the data always ends, given tables where no sequence contains itself. *)
Theorem C43_data_end : forall o T ops, options_end o -> well_founded (within T) ->
  exists N, forall fuel lt c, (N <= fuel)%nat ->
    decode_cdata o T fuel ops lt c = decode_cdata o T N ops lt c /\ decode_cdata o T fuel ops lt c <> Err EFuel.
Proof. exact data_ends. Qed.

(** So decoding ends as soon as reading the header does. *)
Theorem C43_decoding_ends : forall o load data, options_end o -> (forall h, load h <> Err EFuel) ->
  (forall h T, load h = Ok T -> well_founded (within T)) ->
  (exists fuel, decode_cheader fuel data <> Err EFuel) ->
  exists N, forall fuel, (N <= fuel)%nat -> decode_crex o load fuel data = decode_crex o load N data /\
    decode_crex o load fuel data <> Err EFuel.
Proof.
  intros o load data O L1 L2 (f0 & H0). destruct (header_end data) as (n & H).
  destruct (H (S n) ltac:(lia)) as (H1 & H2 & H3).
  assert (H4 : decode_cheader (S n) data <> Err EFuel) by (intros E; apply H0; apply H2; exact E). specialize (H3 H4).
  assert (Const : forall r : res cbulletin, r <> Err EFuel -> (forall fuel, (S n <= fuel)%nat -> decode_crex o load fuel data = r) ->
    exists N, forall fuel, (N <= fuel)%nat -> decode_crex o load fuel data = decode_crex o load N data /\ decode_crex o load fuel data <> Err EFuel).
  { intros r R E. exists (S n). intros fuel Lf. rewrite (E fuel Lf), (E (S n) (le_n _)). auto. }
  destruct (decode_cheader (S n) data) as [[[h ds] c]|e|] eqn:Eh; [| |congruence].
  - pose proof (L1 h) as K1. pose proof (L2 h) as K2. destruct (load h) as [T|e|] eqn:El.
    + destruct (data_ends o T ds O (K2 T eq_refl)) as (N & D). exists (S n + N)%nat. intros fuel Lf. unfold decode_crex.
      rewrite (H3 fuel), (H3 (S n + N)%nat) by lia. cbn [bind]. rewrite El. cbn [bind].
      destruct (D fuel empty_local c ltac:(lia)) as [D1 D2]. destruct (D (S n + N)%nat empty_local c ltac:(lia)) as [D3 _].
      rewrite D1 in *. rewrite D3. destruct (decode_cdata o T N ds empty_local c); cbn [bind]; split; congruence.
    + apply (Const (Err e)); [congruence|]. intros fuel Lf. unfold decode_crex. rewrite H3 by lia. cbn [bind]. rewrite El. reflexivity.
    + apply (Const UB); [congruence|]. intros fuel Lf. unfold decode_crex. rewrite H3 by lia. cbn [bind]. rewrite El. reflexivity.
  - apply (Const (Err e)); [congruence|]. intros fuel Lf. unfold decode_crex. rewrite H3 by lia. reflexivity.
Qed.

Lemma ok_not_fuel {A} (m : res A) : is_ok m = true -> m <> Err EFuel.
Proof. intros E ->. discriminate. Qed.
Example C43_example : decode_cheader 100 ex_ctext <> Err EFuel /\ options_end opts /\ well_founded (within crex_tables).
Proof.
  split; [|split; [exact I|]].
  - apply ok_not_fuel. vm_compute. reflexivity.
  - apply (ranked_well_founded (fun _ => O)). constructor.
Qed.

(** Decoding has no undefined behaviour, whatever the text and whether or not it ends: the tables
    are CREX tables, and the operator 207YYY with YYY above 9 appears neither among the descriptors
    of the message nor in a sequence of the tables. *)
Theorem C43_decoding_safe : forall o load data, hook_defined o ->
  (forall h, load h <> UB) -> (forall h T, load h = Ok T -> crex_elements (tb_b T)) ->
  (forall fuel h ops c T, decode_cheader fuel data = Ok (h, ops, c) -> load h = Ok T -> calm_template T ops) ->
  forall fuel, decode_crex o load fuel data <> UB.
Proof. exact crex_sure. Qed.

(** Tables that come from CREX files are such. *)
Theorem C43_loaded_elements : forall text t, load_crex text = Ok t -> crex_elements t.
Proof. exact load_crex_elements. Qed.

Example C43_safe_example : hook_defined opts /\ crex_elements (tb_b crex_tables) /\ calm_template crex_tables ex_cops /\
  exists c, decode_cheader 100 ex_ctext = Ok (ex_cheader, ex_cops, c).
Proof.
  split; [exact I|]. split; [repeat constructor|]. split.
  - intros code A. induction A as [code H|code d body _ _ _ E _].
    + repeat (destruct H as [<-|H]; [reflexivity|]). destruct H.
    + unfold dexpand, dquery in E. cbn in E. discriminate.
  - eexists. vm_compute. reflexivity.
Qed.

(** With 207010 the decoder reads after the end of its table of powers of ten:
    CREX++ T000103 A001 C07010 B12001++ 0283++ 7777 *)
Definition ex_wide : list Z :=
  [67; 82; 69; 88; 43; 43; 13; 13; 10; 84; 48; 48; 48; 49; 48; 51; 32; 65; 48; 48; 49;
   32; 67; 48; 55; 48; 49; 48; 32; 66; 49; 50; 48; 48; 49; 43; 43; 13; 13; 10; 32; 48; 50; 56; 51; 43; 43; 13; 13; 10; 55; 55; 55; 55].
Theorem C43_decoding_safe_refuted :
  decode_crex opts (fun _ => Ok crex_tables) 100 ex_wide = UB /\
  calm (wr_var 2 7 10) = false /\ calm (wr_var 2 7 9) = true.
Proof. repeat split; vm_compute; reflexivity. Qed.

Print Assumptions C28_value_round_trip.
Print Assumptions C28_line_round_trip.
Print Assumptions C42_message_round_trip.
Print Assumptions C29_stream.
Print Assumptions C29_encoded_messages.
Print Assumptions C43_decoding_ends.
Print Assumptions C43_decoding_safe.

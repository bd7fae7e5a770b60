(** C55: what was decoded from CREX can be encoded and decoded again. *)
From Coq Require Import ZArith ZifyBool ZifyNat String Ascii.
From Verif Require Import Base Bits.Spec Num.Float Varcode.Model Varinfo.Model Tables.Model Var.Model Interp.Model Interp.Appears Codec.Model Codec.Spec
  Crex.Model Crex.Spec Crex.Again Crex.AgainProofs Crex.Properties.
Local Open Scope Z_scope.

(** A message without NUL bytes that decodes to one subset, and whose definitions and replication factors are those of
    [again_subset]: encoding what was decoded gives a message, and decoding that message gives the same header, the
    same template and the same variables.  [load] finds the tables for a header. *)
Theorem C55_again : forall o load fuel data h ops vars T lt, plain_options o -> Forall (fun x => 1 <= x < 256) data ->
  decode_crex o load fuel data = Ok (mkcb h ops [vars]) -> load h = Ok T -> again_header h = true -> crex_ops_ok ops = true -> again_subset vars = true ->
  exists text, encode_crex o T fuel lt (mkcb h ops [vars]) = Ok text /\ decode_crex o load fuel text = Ok (mkcb h ops [vars]).
Proof. exact crex_again. Qed.

(** With a table that comes from a file, and a template without operators, only the widths of the table and the
    replication factors matter. *)
Theorem C55_plain_template : forall o load fuel data h ops vars T lt file, plain_options o -> Forall (fun x => 1 <= x < 256) data ->
  decode_crex o load fuel data = Ok (mkcb h ops [vars]) -> load h = Ok T -> again_header h = true -> crex_ops_ok ops = true ->
  (forall code, appears T ops code -> var_f code <> 2) -> load_crex file = Ok (tb_b T) ->
  (forall code i, query (tb_b T) code = Ok i -> 1 <= vi_len i <= 253 /\ (vi_type i = TString -> var_x (vi_code i) <> 31)) -> again_factors vars = true ->
  exists text, encode_crex o T fuel lt (mkcb h ops [vars]) = Ok text /\ decode_crex o load fuel text = Ok (mkcb h ops [vars]).
Proof.
  intros o load fuel data h ops vars T lt file Po F D L Hh Ho A Lf W K. eapply crex_plain_again; eauto. intros code i Q. destruct (W code i Q) as [W1 W2].
  eapply loaded_again; eauto.
Qed.

(** ** Examples *)
Definition str (s : string) : list Z := map (fun c => Z.of_nat (nat_of_ascii c)) (list_ascii_of_string s).
Definition here (_ : cheader) : res tables := Ok crex_tables.

(** Not written as the library would: the spaces, the count and the last value differ. *)
Definition other_text : list Z := str "CREX++ T000103 A001 B01001   B01015 R02000 B31012 B12001 B01001++ 7 Rome 00002 -125 01 0283//++ 7777".
Example C55_example :
  decode_crex opts here 100 other_text = Ok (mkcb ex_cheader ex_cops [ex_cvars]) /\
  again_header ex_cheader = true /\ again_subset ex_cvars = true /\ crex_ops_ok ex_cops = true /\ plain_options opts /\
  forallb (fun x => (1 <=? x) && (x <? 256)) other_text = true /\ list_eqb other_text ex_ctext = false /\
  decode_crex opts here 100 ex_ctext = Ok (mkcb ex_cheader ex_cops [ex_cvars]).
Proof. repeat split; vm_compute; reflexivity. Qed.

(** ** Where it is not so *)
Definition again (o : options) (load : cheader -> res tables) (T : tables) (b : cbulletin) : res cbulletin :=
  bind (encode_crex o T 100 empty_local b) (fun text => decode_crex o load 100 text).

(** Two subsets: the encoder writes a new line and a space after the plus that separates them, and the decoder does not
    accept the space. *)
Definition two_ops : list Z := [wr_var 0 1 15; wr_var 0 1 1].
Definition city (s : string) (n : Z) : list var := [sent name_info (Some (VStr (str s))); sent block_info (Some (VInt n))].
Definition two_subsets : cbulletin := mkcb ex_cheader two_ops [city "Roma" 7; city "Paris" 8].
Theorem C55_two_subsets_refuted :
  decode_crex opts here 100 (str "CREX++ T000103 A001 B01015 B01001++ Roma 07+Paris08++ 7777") = Ok two_subsets /\
  again opts here crex_tables two_subsets = Err EParse.
Proof. split; vm_compute; reflexivity. Qed.

(** Check digits are not written, so a space at the beginning of a text is lost. *)
Definition checked_header : cheader := mkcheader 0 1 3 0 0 1 255 0 true.
Theorem C55_check_digits_refuted :
  decode_crex opts here 100 (str "CREX++ T000103 A001 B01015 B01001 E++ 1 AB   207++ 7777") = Ok (mkcb checked_header two_ops [city " AB" 7]) /\
  again opts here crex_tables (mkcb checked_header two_ops [city " AB" 7]) = Ok (mkcb ex_cheader two_ops [city "AB" 7]).
Proof. split; vm_compute; reflexivity. Qed.

(** A text with a NUL byte ends there, and the space before it is lost the second time. *)
Theorem C55_nul_refuted :
  decode_crex opts here 100 (str "CREX++ T000103 A001 B01015 B01001++ A " ++ [0] ++ str "CD 07++ 7777") = Ok (mkcb ex_cheader two_ops [city "A " 7]) /\
  again opts here crex_tables (mkcb ex_cheader two_ops [city "A " 7]) = Ok (mkcb ex_cheader two_ops [city "A" 7]).
Proof. split; vm_compute; reflexivity. Qed.

(** A category with six digits ending in 255 is read as a local subcategory 255, which is not written. *)
Definition local_header : cheader := mkcheader 0 1 3 0 0 1 255 255 false.
Theorem C55_local_subcategory_refuted :
  decode_crex opts here 100 (str "CREX++ T000103 A001255 B01015 B01001++ Roma  07++ 7777") = Ok (mkcb local_header two_ops [city "Roma" 7]) /\
  again opts here crex_tables (mkcb local_header two_ops [city "Roma" 7]) = Ok (mkcb ex_cheader two_ops [city "Roma" 7]).
Proof. split; vm_compute; reflexivity. Qed.

(** A replication factor whose field has three characters is written with four digits: B31011 as a count, and B31001,
    which moreover is not written in the template: the second time the template is without it, and the count is B31012. *)
Definition counted (y len : Z) : list var := [sent (count_info y len) (Some (VInt 2)); sent block_info (Some (VInt 7)); sent block_info (Some (VInt 8))].
Theorem C55_short_factor_refuted :
  decode_crex opts here 100 (str "CREX++ T000103 A001 R01000 B31011 B01001++ 002 07 08++ 7777") =
    Ok (mkcb ex_cheader [wr_var 1 1 0; wr_var 0 31 11; wr_var 0 1 1] [counted 11 3]) /\
  again opts here crex_tables (mkcb ex_cheader [wr_var 1 1 0; wr_var 0 31 11; wr_var 0 1 1] [counted 11 3]) = Err EParse /\
  decode_crex opts here 100 (str "CREX++ T000103 A001 R01000 B31001 B01001++ 002 07 08++ 7777") =
    Ok (mkcb ex_cheader [wr_var 1 1 0; wr_var 0 31 1; wr_var 0 1 1] [counted 1 3]) /\
  again opts here crex_tables (mkcb ex_cheader [wr_var 1 1 0; wr_var 0 31 1; wr_var 0 1 1] [counted 1 3]) =
    Ok (mkcb ex_cheader [wr_var 1 1 0; wr_var 0 1 1] [counted 12 5]).
Proof. repeat split; vm_compute; reflexivity. Qed.

(** With values out of range replaced by the nearest one: the count read is the one of the message, the one stored is
    not.  Nine times, and the table allows eight. *)
Definition small_count : varinfo := crex_info 31 3 TInteger 1 (-9) 8.
Definition small_tables : tables := mktables (map entry_of [block_info; small_count]) (mkdtable [] []).
Definition clamped : options := mkopts false true None.
Definition sevens (n : nat) : list var := sent small_count (Some (VInt 8)) :: repeat (sent block_info (Some (VInt 7))) n.
Definition small_ops : list Z := [wr_var 1 1 0; wr_var 0 31 3; wr_var 0 1 1].
Theorem C55_clamped_factor_refuted :
  decode_crex clamped (fun _ => Ok small_tables) 100 (str "CREX++ T000103 A001 R01000 B31003 B01001++ 9 07 07 07 07 07 07 07 07 07++ 7777") =
    Ok (mkcb ex_cheader small_ops [sevens 9]) /\
  again clamped (fun _ => Ok small_tables) small_tables (mkcb ex_cheader small_ops [sevens 9]) = Ok (mkcb ex_cheader small_ops [sevens 8]).
Proof. split; vm_compute; reflexivity. Qed.

Print Assumptions C55_again.
Print Assumptions C55_plain_template.
Print Assumptions C55_two_subsets_refuted.
Print Assumptions C55_check_digits_refuted.
Print Assumptions C55_nul_refuted.
Print Assumptions C55_local_subcategory_refuted.
Print Assumptions C55_short_factor_refuted.
Print Assumptions C55_clamped_factor_refuted.

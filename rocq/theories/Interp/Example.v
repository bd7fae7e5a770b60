(** Small tables used in the examples: a B table as a file and a D table. *)
From Coq Require Import String Ascii.
From Verif Require Import Base Num.Float Varcode.Model Varinfo.Model Varinfo.RangeProofs Tables.Model Tables.LoadProofs Interp.Model.
Local Open Scope Z_scope.

Definition chars (s : string) : list Z := map (fun c => Z.of_nat (nat_of_ascii c)) (list_ascii_of_string s).
Definition pad (n : nat) (s : list Z) : list Z := firstn n (s ++ repeat 32 n).
Definition bline (code desc unit scale ref bits : string) : list Z :=
  32 :: pad 7 (chars code) ++ pad 65 (chars desc) ++ pad 25 (chars unit) ++ pad 4 (chars scale) ++
  pad 13 (chars ref) ++ pad 4 (chars bits) ++ [10].

Definition ex_file : list Z :=
  bline "B01001" "WMO BLOCK NUMBER" "NUMERIC" "0" "0" "7" ++
  bline "B01011" "SHIP IDENTIFIER" "CCITTIA5" "0" "0" "72" ++
  bline "B12101" "TEMPERATURE" "K" "2" "0" "16" ++
  bline "B31001" "DELAYED FACTOR" "NUMERIC" "0" "0" "8" ++
  bline "B31012" "DELAYED FACTOR" "NUMERIC" "0" "0" "16" ++
  bline "B31021" "ASSOCIATED FIELD SIGNIFICANCE" "CODE TABLE" "0" "0" "6" ++
  bline "B31031" "DATA PRESENT INDICATOR" "FLAG TABLE" "0" "0" "1" ++
  bline "B33002" "QUALITY INFORMATION" "CODE TABLE" "0" "0" "2" ++
  bline "B33007" "PER CENT CONFIDENCE" "%" "0" "0" "7" ++
  bline "B33041" "ATTRIBUTE OF FOLLOWING VALUE" "CODE TABLE" "0" "0" "4".

Definition ex_btable : btable := get_ok [] (load_bufr ex_file).

(** D 01 001 = B 01 001, B 12 101;  D 01 002 = D 01 001, R 02 000 B 31 001 D 01 001 ... *)
Definition ex_dcodes : list Z :=
  [wr_var 0 1 1; wr_var 0 12 101; wr_var 3 1 1; wr_var 1 1 0; wr_var 0 31 1; wr_var 3 1 1].
Definition ex_dtable : dtable :=
  mkdtable ex_dcodes [mkdentry (wr_var 3 1 1) 0 2; mkdentry (wr_var 3 1 2) 2 6].
Definition ex_tables : tables := mktables ex_btable ex_dtable.

Lemma get_ok_eq {A} (d : A) m : is_ok m = true -> m = Ok (get_ok d m).
Proof. destruct m; [reflexivity|discriminate|discriminate]. Qed.

Lemma ex_btable_loads : load_bufr ex_file = Ok ex_btable.
Proof.
  assert (H : is_ok (load_bufr ex_file) = true) by (vm_compute; reflexivity). exact (get_ok_eq [] _ H).
Qed.

Lemma ex_btable_ok : table_ok ex_btable.
Proof. exact (load_bufr_ok _ _ ex_btable_loads). Qed.

(** The definition of an element. *)
Definition no_info : varinfo := mkinfo 0 TInteger EmptyString 0 0 0 0 0 0 fzero fzero.
Definition ex_info (x y : Z) : varinfo := get_ok no_info (query ex_btable (wr_var 0 x y)).

Lemma ex_info_ok x y : is_ok (query ex_btable (wr_var 0 x y)) = true -> info_ok (ex_info x y).
Proof. intros H. exact (ex_btable_ok _ _ (get_ok_eq no_info _ H)). Qed.

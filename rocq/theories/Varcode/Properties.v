(** Properties C01 and C02. *)
From Verif Require Import Base Varcode.Model Varcode.Proofs.
Local Open Scope Z_scope.

(** C01: packing then unpacking. *)
Theorem C01_unpack_pack : forall f x y, 0 <= f < 4 -> 0 <= x < 64 -> 0 <= y < 256 ->
  let c := wr_var f x y in 0 <= c < 2 ^ 16 /\ var_f c = f /\ var_x c = x /\ var_y c = y.
Proof. exact unpack_pack. Qed.

(** C01: unpacking then packing. *)
Theorem C01_pack_unpack : forall c, 0 <= c < 2 ^ 16 ->
  0 <= var_f c < 4 /\ 0 <= var_x c < 64 /\ 0 <= var_y c < 256 /\
  wr_var (var_f c) (var_x c) (var_y c) = c.
Proof. exact pack_unpack. Qed.

Example C01_example : wr_var 3 21 205 = 54733 /\ var_f 54733 = 3 /\ var_x 54733 = 21 /\ var_y 54733 = 205.
Proof. repeat split. Qed.

(** C02: every code survives formatting and parsing. *)
Theorem C02_parse_format : forall c, 0 <= c < 2 ^ 16 ->
  varcode_parse (Some (varcode_format c)) = Ok c.
Proof. exact parse_format. Qed.

(** C02: a string with a non-digit among characters 2..6 is rejected. *)
Theorem C02_parse_rejects : forall s j c, (1 <= j <= 5)%nat -> nth_error s j = Some c ->
  c <> 0 -> c_isdigit c = false -> varcode_parse (Some s) = Err EConsistency.
Proof. exact parse_rejects. Qed.

(** "B12101" *)
Example C02_example : varcode_format (wr_var 0 12 101) = [66; 49; 50; 49; 48; 49] /\
  varcode_parse (Some [66; 49; 50; 49; 48; 49]) = Ok (wr_var 0 12 101) /\
  varcode_parse (Some [66; 49; 50; 120; 48; 49]) = Err EConsistency.
Proof. repeat split. Qed.

(** Malformed strings that are not rejected: a short string is read past its
    terminator, a five-character string gives a meaningless code, any first letter
    is taken as table B, and a class above 63 spills into the F part. *)
Theorem C02_malformed_rejected_refuted :
  varcode_parse (Some [66; 48; 49]) = UB /\                          (* "B01" *)
  (exists c, varcode_parse (Some [66; 48; 49; 48; 48]) = Ok c) /\    (* "B0100" *)
  varcode_parse (Some [90; 48; 49; 48; 48; 49]) = Ok (wr_var 0 1 1) /\ (* "Z01001" *)
  varcode_parse (Some [66; 54; 52; 48; 48; 49]) = Ok (wr_var 1 0 1).   (* "B64001" *)
Proof. repeat split; try (eexists; reflexivity). Qed.

Print Assumptions C01_unpack_pack.
Print Assumptions C01_pack_unpack.
Print Assumptions C02_parse_format.
Print Assumptions C02_parse_rejects.

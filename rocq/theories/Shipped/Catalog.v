(** Generated by tools/shipped.py from the names of the files of /repo/tables. *)
From Coq Require Import List String.
From Verif Require Import Shipped.Text Shipped.BTables Shipped.DTables.
Import ListNotations.
Local Open Scope string_scope.

(** The tables B: name of the file and lines. *)
Definition shipped_b : list (string * list text) := [
  ("B0000000000000012000.txt", B0000000000000012000);
  ("B0000000000000013000.txt", B0000000000000013000);
  ("B0000000000000014000.txt", B0000000000000014000);
  ("B0000000000000015000.txt", B0000000000000015000);
  ("B0000000000000016000.txt", B0000000000000016000);
  ("B0000000000000017000.txt", B0000000000000017000);
  ("B0000000000000018000.txt", B0000000000000018000);
  ("B0000000000000019000.txt", B0000000000000019000);
  ("B0000000000000020000.txt", B0000000000000020000);
  ("B0000000000000021000.txt", B0000000000000021000);
  ("B0000000000000022000.txt", B0000000000000022000);
  ("B0000000000000023000.txt", B0000000000000023000);
  ("B0000000000000024000.txt", B0000000000000024000);
  ("B0000000000000025000.txt", B0000000000000025000);
  ("B0000000000000026000.txt", B0000000000000026000);
  ("B0000000000000027000.txt", B0000000000000027000);
  ("B0000000000000028000.txt", B0000000000000028000);
  ("B0000000000000029000.txt", B0000000000000029000);
  ("B0000000000000030000.txt", B0000000000000030000);
  ("B0000000000000031000.txt", B0000000000000031000);
  ("B0000000000000033000.txt", B0000000000000033000);
  ("B000000000001100.txt", B000000000001100);
  ("B0000000000085014001.txt", B0000000000085014001);
  ("B0000000000098013001.txt", B0000000000098013001);
  ("B0000000000098013102.txt", B0000000000098013102);
  ("B0000000000098016001.txt", B0000000000098016001);
  ("B0000000000098033001.txt", B0000000000098033001);
  ("B0000000000098033002.txt", B0000000000098033002);
  ("B0000000000254019001.txt", B0000000000254019001);
  ("B000000000980000.txt", B000000000980000);
  ("B000000000980201.txt", B000000000980201);
  ("B000000000980600.txt", B000000000980600);
  ("B000000000980601.txt", B000000000980601);
  ("B000000000981101.txt", B000000000981101);
  ("B000000000981200.txt", B000000000981200);
  ("B000000000981201.txt", B000000000981201);
  ("B000000000981301.txt", B000000000981301);
  ("B000000002551104.txt", B000000002551104);
  ("B000101.txt", B000101);
  ("B000103.txt", B000103);
  ("B000203.txt", B000203)].

(** The tables D: name of the file and lines. *)
Definition shipped_d : list (string * list text) := [
  ("D0000000000000012000.txt", D0000000000000012000);
  ("D0000000000000013000.txt", D0000000000000013000);
  ("D0000000000000014000.txt", D0000000000000014000);
  ("D0000000000000015000.txt", D0000000000000015000);
  ("D0000000000000016000.txt", D0000000000000016000);
  ("D0000000000000017000.txt", D0000000000000017000);
  ("D0000000000000018000.txt", D0000000000000018000);
  ("D0000000000000019000.txt", D0000000000000019000);
  ("D0000000000000020000.txt", D0000000000000020000);
  ("D0000000000000021000.txt", D0000000000000021000);
  ("D0000000000000022000.txt", D0000000000000022000);
  ("D0000000000000023000.txt", D0000000000000023000);
  ("D0000000000000024000.txt", D0000000000000024000);
  ("D0000000000000025000.txt", D0000000000000025000);
  ("D0000000000000026000.txt", D0000000000000026000);
  ("D0000000000000027000.txt", D0000000000000027000);
  ("D0000000000000028000.txt", D0000000000000028000);
  ("D0000000000000029000.txt", D0000000000000029000);
  ("D0000000000000030000.txt", D0000000000000030000);
  ("D0000000000000031000.txt", D0000000000000031000);
  ("D0000000000000033000.txt", D0000000000000033000);
  ("D000000000001100.txt", D000000000001100);
  ("D0000000000085014001.txt", D0000000000085014001);
  ("D0000000000098013001.txt", D0000000000098013001);
  ("D0000000000098013102.txt", D0000000000098013102);
  ("D0000000000098016001.txt", D0000000000098016001);
  ("D0000000000098033001.txt", D0000000000098033001);
  ("D0000000000098033002.txt", D0000000000098033002);
  ("D0000000000254019001.txt", D0000000000254019001);
  ("D000000000980000.txt", D000000000980000);
  ("D000000000980201.txt", D000000000980201);
  ("D000000000980600.txt", D000000000980600);
  ("D000000000980601.txt", D000000000980601);
  ("D000000000981101.txt", D000000000981101);
  ("D000000000981200.txt", D000000000981200);
  ("D000000000981201.txt", D000000000981201);
  ("D000000000981301.txt", D000000000981301);
  ("D000000002551104.txt", D000000002551104);
  ("D000101.txt", D000101);
  ("D000103.txt", D000103);
  ("D000203.txt", D000203)].

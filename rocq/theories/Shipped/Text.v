(** Literals for the files of /repo/tables: one string per line, byte by byte. *)
From Coq Require Import List ZArith Strings.Byte.
Import ListNotations.

Inductive text : Type := Text (bytes : list byte).
Definition text_of_bytes (l : list byte) : text := Text l.
Definition bytes_of_text (t : text) : list byte := let 'Text l := t in l.
Declare Scope text_scope.
Delimit Scope text_scope with text.
String Notation text text_of_bytes bytes_of_text : text_scope.
Bind Scope text_scope with text.

(** The content of a line, with its end. *)
Definition zbytes (l : list byte) : list Z := map (fun b => Z.of_N (Byte.to_N b)) l.
Definition line_of (t : text) : list Z := zbytes (bytes_of_text t) ++ [10%Z].

(** The content of a file. *)
Definition file (ls : list text) : list Z := concat (map line_of ls).

(** A line that ends with a carriage return. *)
Definition cr (t : text) : text := Text (bytes_of_text t ++ [x0d]).

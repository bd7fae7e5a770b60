(** What is said about threads. *)
From Coq Require Import String ZArith List.
From Verif Require Import Base Num.Float Varinfo.Model Tables.Model Tables.Spec Select.Model Select.Spec Conv.Model Threads.Model.
Import ListNotations.
Local Open Scope Z_scope.

(** The directories where tables are looked for: those of the environment, without trailing slashes, each once. *)
Definition add_dir (ds : list (list Z)) (d : list Z) : list (list Z) :=
  if existsb (zlist_eqb (clean_dir d)) ds then ds else ds ++ [clean_dir d].
Definition default_dirs (E : env) : list (list Z) := fold_left add_dir (e_dirs E) [].

(** The states that a program with a single thread can be in. *)
Inductive reached {A} (E : env) : mem -> Prop :=
| reached_start : reached E start
| reached_job m (j : job A) x m' : reached E m -> alone (p_job E j) m = (Ok x, m') -> reached E m'.

(** The files of a table: B as listed, and the one named like it, with a D. *)
Definition file_b (t : table) : list Z := tb_dir t ++ [47] ++ tb_file t.
Definition file_d (t : table) : list Z := tb_dir t ++ [47] ++ [68] ++ tl (tb_file t).

(** What is at the end of a pointer to a definition. *)
Definition points (m : mem) (p : iptr) (i : varinfo) : Prop :=
  match p with
  | Inside a e => exists t x, cell m (LObj a) = Some (OB t) /\ nth_error t e = Some x /\ be_info x = i
  | Own a => cell m (LObj a) = Some (OAlt i)
  end.

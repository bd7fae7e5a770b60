(** What the library loads from a directory that holds its own tables, /repo/tables. *)
From Coq Require Import String List ZArith.
From Verif Require Import Base Tables.Model Select.Model Select.Spec Interp.Model Message.Model Shipped.Text Shipped.Catalog.
Import ListNotations.
Local Open Scope Z_scope.

(** The characters of a name. *)
Fixpoint chars (s : string) : list Z :=
  match s with EmptyString => [] | String c r => Z.of_nat (Ascii.nat_of_ascii c) :: chars r end.

(** The table a message asks for: BufrBulletin::load_tables, bulletin.cc:341-344. *)
Definition wanted (t : tableid) : bufr_id :=
  mkbid (t_centre t) (t_subcentre t) (t_master_table t) (t_version t) (t_version_local t).

(** The names of the files of /repo/tables. *)
Definition shipped_names : list (list Z) := map chars (map fst shipped_b ++ map fst shipped_d).

(** The tables of a directory that holds these files, listed in the order [names]. *)
Definition in_dir (names : list (list Z)) : list table := listed (fun _ => names) [[]].

(** The content of a file. *)
Definition content (l : list (string * list text)) (name : list Z) : option (list Z) :=
  option_map (fun p => file (snd p)) (List.find (fun p => zlist_eqb (chars (fst p)) name) l).

(** Tables::load_bufr: tables.cc:53-64.  The name of the table D is that of the table B with another
    letter: tabledir.cc:19-36.  If a file is not there fopen fails and
    error_system is thrown, which is written here like error_notfound; it does not happen with these tables. *)
Definition shipped_load (names : list (list Z)) (id : tableid) : res tables :=
  match search_bufr (wanted id) (in_dir names) with
  | None => Err ENotFound
  | Some t =>
    match content shipped_b (tb_file t), content shipped_d (68 :: tl (tb_file t)) with
    | Some tb, Some td => b <- load_bufr tb ;; d <- load_dtable td ;; Ok (mktables b d)
    | _, _ => Err ENotFound
    end
  end.

(** What is printed about tables, and tables by file name: BufrTableID::print and CrexTableID::print (tableinfo.cc:226-233,
    340-348), Table (tabledir.cc:19-50), Query::explain_search and explain_result (tabledir.cc:160-205), Index::find,
    Index::print and Tabledirs (tabledir.cc:368-387, 441-463), wrep --list-tables (wrep.cc:141-143). *)
From Coq Require Import String.
From Verif Require Import Base Listing.Model Print.Model Tables.Model Select.Model.
Local Open Scope Z_scope.

(** "BUFR(%03hu:%02hu, %02hhu:%02hhu:%02hhu)": tableinfo.cc:226-233. *)
Definition bufr_id_text (id : bufr_id) : list Z :=
  chars "BUFR(" ++ padded 3 (bi_centre id) ++ [58] ++ padded 2 (bi_subcentre id) ++ chars ", " ++
  padded 2 (bi_mt id) ++ [58] ++ padded 2 (bi_mtv id) ++ [58] ++ padded 2 (bi_local id) ++ [41].

(** "CREX(%02hhu, %02hu:%02hu, %02hhu:%02hhu:%02hhu:%02hhu)": tableinfo.cc:340-348. *)
Definition crex_id_text (id : crex_id) : list Z :=
  chars "CREX(" ++ padded 2 (ci_edition id) ++ chars ", " ++ padded 2 (ci_centre id) ++ [58] ++ padded 2 (ci_subcentre id) ++ chars ", " ++
  padded 2 (ci_mt id) ++ [58] ++ padded 2 (ci_mtv id) ++ [58] ++ padded 2 (ci_local id) ++ [58] ++ padded 2 (ci_mtv_bufr id) ++ [41].

(** The three print_id: tabledir.cc:37-50. *)
Definition id_text (t : table) : list Z :=
  match tb_kind t with KBufr id => bufr_id_text id | KCrex id => crex_id_text id | KRaw => chars "(raw data)" end.

(** Everything up to the last dot, or everything if there is none (rfind and substr): tabledir.cc:22-30. *)
Fixpoint after_dot (rev : list Z) : option (list Z) :=
  match rev with [] => None | c :: r => if c =? 46 then Some r else after_dot r end.
Definition base_name (file : list Z) : list Z :=
  match after_dot (rev file) with Some r => List.rev r | None => file end.

(** std::filesystem's operator/ of a directory that is not empty and a relative name. *)
Definition join_path (dir name : list Z) : list Z :=
  if last dir 0 =? 47 then dir ++ name else dir ++ [47] ++ name.
(** The file of elements and the file of sequences of a table: tabledir.cc:33-34. *)
Definition b_path (t : table) : list Z := join_path (tb_dir t) (tb_file t).
Definition d_path (t : table) : list Z := join_path (tb_dir t) (68 :: tl (tb_file t)).

(** Query::explain_search on the tables in order, from some best ones: tabledir.cc:160-182. *)
Definition best_text {A} (b : best A) : list Z := match b with Some (_, t) => id_text t | None => chars "none" end.
Fixpoint explain_search (consider : bests -> table -> bests) (b : bests) (l : list table) : list Z * bests :=
  match l with
  | [] => ([], b)
  | t :: rest =>
    let b' := consider b t in
    let (text, b'') := explain_search consider b' rest in
    (tb_dir t ++ chars ": considering " ++ id_text t ++ chars ": best bufr: " ++ best_text (fst b') ++
     chars ", best crex: " ++ best_text (snd b') ++ [10] ++ text, b'')
  end.
(** Query::explain_result: tabledir.cc:197-205. *)
Definition explain_result (r : option table) : list Z :=
  chars "Result chosen: " ++ match r with Some t => id_text t | None => chars "none" end ++ [10].

(** Index::explain_find_bufr and explain_find_crex: tabledir.cc:326-333, 359-366.  The caches are not looked at. *)
Definition ix_explain_bufr (w : bufr_id) (ix : index) : list Z :=
  let (text, b) := explain_search (consider_bufr w) (None, None) (ix_tables ix) in
  text ++ explain_result (result_of (fun f _ => snd f) b).
Definition ix_explain_crex (w : crex_id) (ix : index) : list Z :=
  let (text, b) := explain_search (consider_crex w) (None, None) (ix_tables ix) in
  text ++ explain_result (result_of (fun f c => if crex_closest_both w (fst f) (fst c) <=? 0 then snd f else snd c) b).

(** Index::find: tabledir.cc:368-375. *)
Definition ix_find (base : list Z) (ix : index) : option table :=
  List.find (fun t => zlist_eqb (base_name (tb_file t)) base) (ix_tables ix).

(** Index::print: tabledir.cc:377-386. *)
Definition ix_print (ix : index) : list Z :=
  flat_map (fun t => tb_dir t ++ [47] ++ base_name (tb_file t) ++ [58] ++ id_text t ++ [10]) (ix_tables ix).

(** The same calls on the collection of directories, which make the index if there is none: tabledir.cc:441-463. *)
Definition with_index {A} (fs : filesystem) (f : index -> A) (td : tabledirs) : A * tabledirs :=
  let ix := get_index fs td in (f ix, mkdirs (td_dirs td) (Some ix)).
Definition find_name (fs : filesystem) (base : list Z) := with_index fs (ix_find base).
Definition print_tables (fs : filesystem) := with_index fs ix_print.
Definition explain_find_bufr (fs : filesystem) (w : bufr_id) := with_index fs (ix_explain_bufr w).
Definition explain_find_crex (fs : filesystem) (w : crex_id) := with_index fs (ix_explain_crex w).

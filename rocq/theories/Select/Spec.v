(** What it means that a table is the closest to the wanted one. *)
From Verif Require Import Base Tables.Model Select.Model.
Local Open Scope Z_scope.

(** Candidates are ranked by a list of numbers, compared lexicographically: the smaller the
    better. *)
Fixpoint lex_lt (a b : list Z) : Prop :=
  match a, b with
  | x :: xs, y :: ys => x < y \/ (x = y /\ lex_lt xs ys)
  | _, _ => False
  end.

(** The centre is the wanted one, or no centre, or the missing value, or another one. *)
Definition centre_rank (wanted c : Z) : Z :=
  if c =? wanted then 0 else if c =? 0 then 1 else if c =? 65535 then 2 else 3.
(** Local versions do not matter if none is wanted; if one is, the least of those that follow it
    is better, and of those that precede it the greatest. *)
Definition local_rank (wanted l : Z) : Z :=
  if wanted =? 0 then 0 else if wanted <=? l then l - wanted else 256 + (wanted - l).
Definition subcentre_rank (wanted s : Z) : Z := if s =? wanted then 0 else 1.
(** The local version and the subcentre only count among tables of the wanted centre. *)
Definition origin_rank (centre subcentre local : Z) (c s l : Z) : list Z :=
  if c =? centre then [0; local_rank local l; subcentre_rank subcentre s] else [centre_rank centre c; 0; 0].

Definition bufr_rank (w t : bufr_id) : list Z :=
  bi_mtv t :: origin_rank (bi_centre w) (bi_subcentre w) (bi_local w) (bi_centre t) (bi_subcentre t) (bi_local t).
Definition crex_rank_bufr (w : crex_id) (t : bufr_id) : list Z :=
  bi_mtv t :: origin_rank (ci_centre w) (ci_subcentre w) (ci_local w) (bi_centre t) (bi_subcentre t) (bi_local t).
Definition crex_rank (w t : crex_id) : list Z :=
  ci_mtv t :: ci_mtv_bufr t ::
  origin_rank (ci_centre w) (ci_subcentre w) (ci_local w) (ci_centre t) (ci_subcentre t) (ci_local t).
(** Against BUFR tables, CREX tables count by their BUFR version. *)
Definition crex_rank_both (w t : crex_id) : list Z :=
  ci_mtv_bufr t :: origin_rank (ci_centre w) (ci_subcentre w) (ci_local w) (ci_centre t) (ci_subcentre t) (ci_local t).

(** BUFR tables that can be used for the wanted ones: same master table, same version or later. *)
Definition bufr_usable (w t : bufr_id) : Prop := bi_mt t = bi_mt w /\ bi_mtv w <= bi_mtv t.
Definition crex_usable_bufr (w : crex_id) (t : bufr_id) : Prop := bi_mt t = ci_mt w /\ ci_mtv_bufr w <= bi_mtv t.
Definition crex_usable (w t : crex_id) : Prop :=
  ci_edition t = ci_edition w /\ ci_mt t = ci_mt w /\ ci_mtv w <= ci_mtv t /\ ci_mtv_bufr w <= ci_mtv_bufr t.

(** What is kept of a list of tables. *)
Definition bufr_of (t : table) : list (bufr_id * table) := match tb_kind t with KBufr id => [(id, t)] | _ => [] end.
Definition crex_of (t : table) : list (crex_id * table) := match tb_kind t with KCrex id => [(id, t)] | _ => [] end.

(** The fields are unsigned numbers of 16 and 8 bits. *)
Definition bufr_id_ok (w : bufr_id) : Prop :=
  0 <= bi_centre w < 65536 /\ 0 <= bi_subcentre w < 65536 /\ 0 <= bi_mt w < 256 /\ 0 <= bi_mtv w < 256 /\ 0 <= bi_local w < 256.
Definition crex_id_ok (w : crex_id) : Prop :=
  0 <= ci_edition w < 256 /\ 0 <= ci_centre w < 65536 /\ 0 <= ci_subcentre w < 65536 /\ 0 <= ci_mt w < 256 /\ 0 <= ci_mtv w < 256 /\
  0 <= ci_mtv_bufr w < 256 /\ 0 <= ci_local w < 256.
Definition kind_ok (k : table_kind) : Prop :=
  match k with KBufr id => bufr_id_ok id | KCrex id => crex_id_ok id | KRaw => True end.

(** The directories that a list of calls adds, and the calls. *)
Inductive call : Type := AddDir (dir : list Z) | FindBufr (w : bufr_id) | FindCrex (w : crex_id).

(** A number written with [w] digits. *)
Fixpoint digits (w : nat) (k : Z) : list Z :=
  match w with O => [] | S w' => digits w' (k / 10) ++ [48 + k mod 10] end.

(** The directories known after a list of calls, in order. *)
Definition known_dirs (calls : list call) : list (list Z) :=
  fold_left (fun ds c => match c with AddDir d => if existsb (zlist_eqb (clean_dir d)) ds then ds else ds ++ [clean_dir d] | _ => ds end)
    calls [].
Definition run_call (fs : filesystem) (td : tabledirs) (c : call) : tabledirs :=
  match c with
  | AddDir d => add_directory d td
  | FindBufr w => snd (find_bufr fs w td)
  | FindCrex w => snd (find_crex fs w td)
  end.
Definition listed (fs : filesystem) (dirs : list (list Z)) : list table := flat_map (index_dir fs) dirs.

(** Choice of the tables: wreport/tableinfo.{h,cc}, wreport/internals/tabledir.{h,cc}.
    The fields of the identifiers are unsigned numbers; file names are lists of bytes. *)
From Verif Require Import Base Tables.Model.
Local Open Scope Z_scope.

(** BufrTableID: tableinfo.h:13-30. *)
Record bufr_id : Type := mkbid {
  bi_centre : Z; bi_subcentre : Z; bi_mt : Z; bi_mtv : Z; bi_local : Z }.

(** CrexTableID: tableinfo.h:45-73. *)
Record crex_id : Type := mkcid {
  ci_edition : Z; ci_centre : Z; ci_subcentre : Z; ci_mt : Z; ci_mtv : Z; ci_mtv_bufr : Z; ci_local : Z }.

(** The chains of < and > of the two operator<: tableinfo.cc:11-24 and 232-249. *)
Fixpoint chain_lt (l : list (Z * Z)) : bool :=
  match l with
  | [] => false
  | (a, b) :: rest => if a <? b then true else if b <? a then false else chain_lt rest
  end.

Definition bid_lt (a b : bufr_id) : bool :=
  chain_lt [(bi_centre a, bi_centre b); (bi_subcentre a, bi_subcentre b); (bi_mt a, bi_mt b); (bi_mtv a, bi_mtv b);
            (bi_local a, bi_local b)].
Definition cid_lt (a b : crex_id) : bool :=
  chain_lt [(ci_edition a, ci_edition b); (ci_centre a, ci_centre b); (ci_subcentre a, ci_subcentre b); (ci_mt a, ci_mt b);
            (ci_mtv a, ci_mtv b); (ci_local a, ci_local b); (ci_mtv_bufr a, ci_mtv_bufr b)].

(** is_acceptable_replacement: tableinfo.cc:26-38 and 251-284. *)
Definition bufr_accepts_bufr (w id : bufr_id) : bool :=
  if negb (bi_mt id =? bi_mt w) then false
  else if bi_mtv id <? bi_mtv w then false
  else true.
Definition bufr_accepts_crex (w : bufr_id) (id : crex_id) : bool := false.
Definition crex_accepts_bufr (w : crex_id) (id : bufr_id) : bool :=
  if negb (bi_mt id =? ci_mt w) then false
  else if bi_mtv id <? ci_mtv_bufr w then false
  else true.
Definition crex_accepts_crex (w id : crex_id) : bool :=
  if negb (ci_edition id =? ci_edition w) then false
  else if negb (ci_mt id =? ci_mt w) then false
  else if ci_mtv id <? ci_mtv w then false
  else if ci_mtv_bufr id <? ci_mtv_bufr w then false
  else true.

(** struct Compare: tableinfo.cc:42-190.  A step gives the result if it decides (it returned
    true), nothing otherwise.  The steps take the fields that they compare. *)
Definition step : Type := option Z.

(** compare_mtv, compare_mtv_bufr, compare_mtv_bufrcrex: tableinfo.cc:77-118. *)
Definition compare_version (first second : Z) : step :=
  if first <? second then Some (-1)
  else if second <? first then Some 1
  else None.

(** compare_centre: tableinfo.cc:120-144. *)
Definition centre_match (wanted cand : Z) : Z :=
  if wanted =? cand then 3
  else if cand =? 0 then 2
  else if cand =? 65535 then 1
  else 0.
Definition compare_centre (base first second : Z) : step :=
  let f := centre_match base first in
  let s := centre_match base second in
  if f >? s then Some (-1)
  else if s >? f then Some 1
  else if negb (f =? 3) then Some 0
  else None.

(** compare_subcentre: tableinfo.cc:146-160. *)
Definition compare_subcentre (base first second : Z) : step :=
  if first =? base then
    if second =? base then Some 0 else Some (-1)
  else
    if second =? base then Some 1 else Some 0.

(** compare_mt_local: tableinfo.cc:162-190. *)
Definition compare_local (base first second : Z) : step :=
  if negb (base =? 0) then
    if first <? base then
      if second <? base then
        if first <? second then Some 1
        else if first >? second then Some (-1)
        else None
      else Some 1
    else
      if second <? base then Some (-1)
      else
        if first <? second then Some (-1)
        else if first >? second then Some 1
        else None
  else None.

(** if (comp.step()) return comp.res; ... return 0 *)
Fixpoint decide (steps : list step) : Z :=
  match steps with
  | [] => 0
  | Some r :: _ => r
  | None :: rest => decide rest
  end.

(** closest_match: tableinfo.cc:201-216, 286-302. *)
Definition bufr_closest (w first second : bufr_id) : Z :=
  decide [compare_version (bi_mtv first) (bi_mtv second);
          compare_centre (bi_centre w) (bi_centre first) (bi_centre second);
          compare_local (bi_local w) (bi_local first) (bi_local second);
          compare_subcentre (bi_subcentre w) (bi_subcentre first) (bi_subcentre second)].
Definition crex_closest_bufr (w : crex_id) (first second : bufr_id) : Z :=
  decide [compare_version (bi_mtv first) (bi_mtv second);
          compare_centre (ci_centre w) (bi_centre first) (bi_centre second);
          compare_local (ci_local w) (bi_local first) (bi_local second);
          compare_subcentre (ci_subcentre w) (bi_subcentre first) (bi_subcentre second)].
(** tableinfo.cc:304-321. *)
Definition crex_closest_crex (w first second : crex_id) : Z :=
  decide [compare_version (ci_mtv first) (ci_mtv second);
          compare_version (ci_mtv_bufr first) (ci_mtv_bufr second);
          compare_centre (ci_centre w) (ci_centre first) (ci_centre second);
          compare_local (ci_local w) (ci_local first) (ci_local second);
          compare_subcentre (ci_subcentre w) (ci_subcentre first) (ci_subcentre second)].
(** tableinfo.cc:323-339. *)
Definition crex_closest_both (w : crex_id) (first : bufr_id) (second : crex_id) : Z :=
  decide [compare_version (bi_mtv first) (ci_mtv_bufr second);
          compare_centre (ci_centre w) (bi_centre first) (ci_centre second);
          compare_local (ci_local w) (bi_local first) (ci_local second);
          compare_subcentre (ci_subcentre w) (bi_subcentre first) (ci_subcentre second)].

(** ** Tables in directories

    Table, BufrTable, CrexTable: tabledir.h:17-50, tabledir.cc:19-36.  A table is known by its
    directory and its file name; the path names derived from them are not modelled. *)
Inductive table_kind : Type := KBufr (id : bufr_id) | KCrex (id : crex_id) | KRaw.
Record table : Type := mktable { tb_dir : list Z; tb_file : list Z; tb_kind : table_kind }.

(** sscanf's %<width>d: blanks, then at most [width] characters of sign and digits. *)
Fixpoint scan_blanks (s : list Z) : list Z :=
  match s with
  | c :: r => if c_isspace c then scan_blanks r else s
  | [] => []
  end.
Fixpoint scan_num (width : nat) (acc : Z) (s : list Z) : Z * nat * list Z :=
  match width, s with
  | S w, c :: r => if c_isdigit c then let '(v, n, rest) := scan_num w (10 * acc + (c - 48)) r in (v, S n, rest) else (acc, O, s)
  | _, _ => (acc, O, s)
  end.
Definition scan_int (width : nat) (s : list Z) : option (Z * list Z) :=
  let s1 := scan_blanks s in
  let '(sign, w, s2) :=
    match s1 with
    | c :: r => if c =? 45 then (-1, (width - 1)%nat, r) else if c =? 43 then (1, (width - 1)%nat, r) else (1, width, s1)
    | [] => (1, width, s1)
    end in
  let '(v, n, rest) := scan_num w 0 s2 in
  match n with O => None | _ => Some (sign * v, rest) end.
Fixpoint scan_ints (widths : list nat) (s : list Z) : option (list Z) :=
  match widths with
  | [] => Some []
  | w :: ws =>
    match scan_int w s with
    | None => None
    | Some (v, rest) => match scan_ints ws rest with None => None | Some vs => Some (v :: vs) end
    end
  end.
(** Literal characters of a sscanf format. *)
Fixpoint scan_lit (lit s : list Z) : option (list Z) :=
  match lit, s with
  | [], _ => Some s
  | c :: l, d :: r => if c =? d then scan_lit l r else None
  | _ :: _, [] => None
  end.
Definition scan (lit : list Z) (widths : list nat) (s : list Z) : option (list Z) :=
  match scan_lit lit s with None => None | Some r => scan_ints widths r end.

Definition txt : list Z := [46; 116; 120; 116].

(** The body of the loop of Dir::refresh on one entry: tabledir.cc:77-123. *)
Definition index_entry (dir name : list Z) : list table :=
  let len := length name in
  if Nat.ltb len 5 then []
  else if negb (zlist_eqb (skipn (len - 4) name) txt) then []
  else if hd 0 name =? 66 then
    if Nat.eqb len 11 then
      match scan [66] [2; 2; 2]%nat name with
      | Some [mt; ed; mtv] => [mktable dir name (KCrex (mkcid (u8 ed) 0 0 (u8 mt) (u8 mtv) 0 0))]
      | _ => []
      end
    else if Nat.eqb len 20 then
      match scan [66; 48; 48; 48; 48; 48] [3; 3; 2; 2]%nat name with
      | Some [sc; ce; mt; lt] => [mktable dir name (KBufr (mkbid (u16 ce) (u16 sc) 0 (u8 mt) (u8 lt)))]
      | _ => []
      end
    else if Nat.eqb len 24 then
      match scan [66; 48; 48] [3; 4; 4; 3; 3]%nat name with
      | Some [_; sc; ce; mt; lt] => [mktable dir name (KBufr (mkbid (u16 ce) (u16 sc) 0 (u8 mt) (u8 lt)))]
      | _ => []
      end
    else []
  else if hd 0 name =? 68 then []
  else [mktable dir name KRaw].

(** The file system is a function from directories to their entries, in the order readdir
    lists them; a directory that does not exist has none.  Dir::refresh: tabledir.cc:66-125 (it is
    called once, so that the test on mtime always passes). *)
Definition filesystem : Type := list Z -> list (list Z).
Definition index_dir (fs : filesystem) (dir : list Z) : list table := flat_map (index_entry dir) (fs dir).

(** struct Query: tabledir.cc:129-213, with the choices of BufrQuery and CrexQuery.  The tables
    are considered in order; [bests] are bufr_best and crex_best with their identifiers. *)
Definition best (A : Type) : Type := option (A * table).
Definition consider {A} (accept : A -> bool) (closest : A -> A -> Z) (id : A) (t : table) (b : best A) : best A :=
  if negb (accept id) then b
  else match b with
       | None => Some (id, t)
       | Some (id0, t0) => if closest id0 id <=? 0 then b else Some (id, t)
       end.

Definition bests : Type := best bufr_id * best crex_id.

Definition consider_bufr (w : bufr_id) (b : bests) (t : table) : bests :=
  match tb_kind t with
  | KBufr id => (consider (bufr_accepts_bufr w) (bufr_closest w) id t (fst b), snd b)
  | KCrex id => (fst b, consider (bufr_accepts_crex w) (fun _ _ => 0) id t (snd b))
  | KRaw => b
  end.
Definition consider_crex (w : crex_id) (b : bests) (t : table) : bests :=
  match tb_kind t with
  | KBufr id => (consider (crex_accepts_bufr w) (crex_closest_bufr w) id t (fst b), snd b)
  | KCrex id => (fst b, consider (crex_accepts_crex w) (crex_closest_crex w) id t (snd b))
  | KRaw => b
  end.

(** Query::result: tabledir.cc:184-196. *)
Definition result_of (choose : bufr_id * table -> crex_id * table -> table) (b : bests) : option table :=
  match b with
  | (None, None) => None
  | (None, Some c) => Some (snd c)
  | (Some f, None) => Some (snd f)
  | (Some f, Some c) => Some (choose f c)
  end.

Definition search_bufr (w : bufr_id) (l : list table) : option table :=
  result_of (fun f _ => snd f) (fold_left (consider_bufr w) l (None, None)).
Definition search_crex (w : crex_id) (l : list table) : option table :=
  result_of (fun f c => if crex_closest_both w (fst f) (fst c) <=? 0 then snd f else snd c)
    (fold_left (consider_crex w) l (None, None)).

(** ** The index, with its caches: tabledir.cc:284-392 *)
Record index : Type := mkindex {
  ix_tables : list table;
  ix_bufr : list (bufr_id * table);
  ix_crex : list (crex_id * table) }.

(** std::map::find and operator[] of a new key: keys are the same if none is less than the
    other. *)
Fixpoint map_find {K V} (lt : K -> K -> bool) (k : K) (m : list (K * V)) : option V :=
  match m with
  | [] => None
  | (k', v) :: rest => if negb (lt k' k) && negb (lt k k') then Some v else map_find lt k rest
  end.

Definition make_index (fs : filesystem) (dirs : list (list Z)) : index :=
  mkindex (flat_map (index_dir fs) dirs) [] [].

Definition ix_find_bufr (w : bufr_id) (ix : index) : option table * index :=
  match map_find bid_lt w (ix_bufr ix) with
  | Some t => (Some t, ix)
  | None =>
    match search_bufr w (ix_tables ix) with
    | Some t => (Some t, mkindex (ix_tables ix) ((w, t) :: ix_bufr ix) (ix_crex ix))
    | None => (None, ix)
    end
  end.
Definition ix_find_crex (w : crex_id) (ix : index) : option table * index :=
  match map_find cid_lt w (ix_crex ix) with
  | Some t => (Some t, ix)
  | None =>
    match search_crex w (ix_tables ix) with
    | Some t => (Some t, mkindex (ix_tables ix) (ix_bufr ix) ((w, t) :: ix_crex ix))
    | None => (None, ix)
    end
  end.

(** ** Tabledirs: tabledir.h:67-113, tabledir.cc:389-462 *)
Record tabledirs : Type := mkdirs { td_dirs : list (list Z); td_index : option index }.

(** tabledir.cc:412-418. *)
Fixpoint strip (rev : list Z) : list Z :=
  match rev with
  | c :: r => if c =? 47 then strip r else rev
  | [] => []
  end.
Definition clean_dir (dir : list Z) : list Z :=
  match strip (rev dir) with [] => [47] | r => rev r end.

Definition add_directory (dir : list Z) (td : tabledirs) : tabledirs :=
  let d := clean_dir dir in
  if existsb (zlist_eqb d) (td_dirs td) then td
  else mkdirs (td_dirs td ++ [d]) None.

Definition get_index (fs : filesystem) (td : tabledirs) : index :=
  match td_index td with Some ix => ix | None => make_index fs (td_dirs td) end.
Definition find_bufr (fs : filesystem) (w : bufr_id) (td : tabledirs) : option table * tabledirs :=
  let (r, ix) := ix_find_bufr w (get_index fs td) in (r, mkdirs (td_dirs td) (Some ix)).
Definition find_crex (fs : filesystem) (w : crex_id) (td : tabledirs) : option table * tabledirs :=
  let (r, ix) := ix_find_crex w (get_index fs td) in (r, mkdirs (td_dirs td) (Some ix)).

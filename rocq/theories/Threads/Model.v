(** What the library shares between the threads of a program: the list of table directories, the index
    of the tables and its caches, the registries of loaded tables, the altered definitions, the table of unit conversions.
    None of it is protected by locks.  Functions are programs of single accesses, so that the accesses of several
    threads can be interleaved. *)
From Coq Require Import String ZArith List.
From Verif Require Import Base Num.Float Varinfo.Model Tables.Model Select.Model Conv.Model.
Import ListNotations.
Local Open Scope Z_scope.

(** The four registries: vartable.cc:487, 511, dtable.cc:163, 177. *)
Inductive kind : Type := BufrB | CrexB | BufrD | CrexD.

(** Objects on the heap that do not change once they are made: tables as loaded, VartableEntry for an altered
    definition (vartable.cc:94-182). *)
Inductive obj : Type := OB (t : btable) | OD (d : dtable) | OAlt (i : varinfo).

(** Shared locations.
    - LDirsPtr: default_tabledir, internals/tabledir.cc:467 (true: not null);
    - LDirList, LIndex: Tabledirs::dirs and index, tabledir.h:77-78 (index: the tables found);
    - LBufrCache, LCrexCache: Index::bufr_cache and crex_cache, tabledir.cc:288-289;
    - LReg: the static pointer [tables] and the map (None: null pointer);
    - LObj: an object on the heap;
    - LChain a e: the chain of alterations of entry e of table a, from the newest, with their addresses;
    - LRepo: the static pointer repo of convert_units, conv.cc:256. *)
Inductive loc : Type :=
| LDirsPtr | LDirList | LIndex | LBufrCache | LCrexCache | LReg (k : kind) | LObj (a : nat) | LChain (a e : nat) | LRepo.

Definition val (l : loc) : Type :=
  match l with
  | LDirsPtr => bool
  | LDirList => list (list Z)
  | LIndex => option (list table)
  | LBufrCache => list (bufr_id * table)
  | LCrexCache => list (crex_id * table)
  | LReg _ => option (list (list Z * nat))
  | LObj _ => option obj
  | LChain _ _ => list (nat * varinfo)
  | LRepo => bool
  end.

Lemma loc_eq_dec (a b : loc) : {a = b} + {a <> b}.
Proof. repeat decide equality. Defined.

(** A program: it ends, or reads or writes one location, or makes a new object (malloc may be called by several
    threads). *)
Inductive prog (A : Type) : Type :=
| Ret (r : res A)
| Rd (l : loc) (k : val l -> prog A)
| Wr (l : loc) (v : val l) (k : prog A)
| New (o : obj) (k : nat -> prog A).
Arguments Ret {A} r.
Arguments Rd {A} l k.
Arguments Wr {A} l v k.
Arguments New {A} o k.

Fixpoint andthen {A B} (p : prog A) (f : res A -> prog B) : prog B :=
  match p with
  | Ret r => f r
  | Rd l k => Rd l (fun v => andthen (k v) f)
  | Wr l v k => Wr l v (andthen k f)
  | New o k => New o (fun a => andthen (k a) f)
  end.
Definition pbind {A B} (p : prog A) (f : A -> prog B) : prog B :=
  andthen p (fun r => match r with Ok a => f a | Err e => Ret (Err e) | UB => Ret UB end).
Notation "x <== p ;; q" := (pbind p (fun x => q)) (at level 61, p at next level, right associativity).
Notation "p ;;; q" := (pbind p (fun _ => q)) (at level 61, right associativity).
Definition skip : prog unit := Ret (Ok tt).

(** ** The memory, and one thread alone *)
Record mem : Type := mkmem { cell : forall l, val l; next : nat }.

Definition put (c : forall l, val l) (l : loc) (v : val l) : forall l', val l' :=
  fun l' => match loc_eq_dec l l' with
            | left e => match e in _ = x return val x with eq_refl => v end
            | right _ => c l'
            end.
Definition write (m : mem) (l : loc) (v : val l) : mem := mkmem (put (cell m) l v) (next m).
Definition alloc (m : mem) (o : obj) : mem := mkmem (put (cell m) (LObj (next m)) (Some o)) (S (next m)).

Fixpoint alone {A} (p : prog A) (m : mem) : res A * mem :=
  match p with
  | Ret r => (r, m)
  | Rd l k => alone (k (cell m l)) m
  | Wr l v k => alone k (write m l v)
  | New o k => alone (k (next m)) (alloc m o)
  end.

(** A program that starts: null pointers, empty containers. *)
Definition start : mem :=
  mkmem (fun l => match l with
                  | LDirsPtr => false | LDirList => [] | LIndex => None | LBufrCache => [] | LCrexCache => []
                  | LReg _ => None | LObj _ => None | LChain _ _ => [] | LRepo => false
                  end) 0.

(** ** The library *)
Section Library.
(** The directories that add_default_directories adds (environment and TABLE_DIR), what the directories list, what the files
    hold (None: fopen fails).  They do not change. *)
Record env : Type := mkenv { e_dirs : list (list Z); e_fs : filesystem; e_file : list Z -> option (list Z); e_repo : list conv }.
Context (E : env).

(** Tabledirs::add_directory: tabledir.cc:410-430. *)
Definition p_add_directory (dir : list Z) : prog unit :=
  Rd LDirList (fun dirs =>
    if existsb (zlist_eqb (clean_dir dir)) dirs then skip
    else Rd LDirList (fun dirs => Wr LDirList (dirs ++ [clean_dir dir]) (Rd LIndex (fun _ => Wr LIndex None skip)))).
Fixpoint p_add_directories (l : list (list Z)) : prog unit :=
  match l with
  | [] => skip
  | d :: r => p_add_directory d ;;; p_add_directories r
  end.

(** Tabledirs::get: tabledir.cc:465-474. *)
Definition p_dirs : prog unit :=
  Rd LDirsPtr (fun there => if (there : bool) then skip else Wr LDirsPtr true (p_add_directories (e_dirs E))).

(** if (!index) index = new tabledir::Index(dirs): tabledir.cc:434, 440; Index: 284-300. *)
Definition p_index : prog (list table) :=
  Rd LIndex (fun index =>
    match index with
    | Some _ => skip
    | None => Rd LDirList (fun dirs =>
        Wr LBufrCache [] (Wr LCrexCache [] (Wr LIndex (Some (flat_map (index_dir (e_fs E)) dirs)) skip)))
    end) ;;;
  Rd LIndex (fun index => match index with Some t => Ret (Ok t) | None => Ret UB end).

(** Index::find_bufr and find_crex: tabledir.cc:302-324, 335-357, called by Tabledirs::find_bufr and find_crex. *)
Definition p_find_bufr (id : bufr_id) : prog (option table) :=
  tables <== (p_dirs ;;; p_index) ;;
  Rd LBufrCache (fun cache =>
    match map_find bid_lt id cache with
    | Some t => Ret (Ok (Some t))
    | None =>
      match search_bufr id tables with
      | None => Ret (Ok None)
      | Some t => Rd LBufrCache (fun cache => Wr LBufrCache ((id, t) :: cache) (Ret (Ok (Some t))))
      end
    end).
Definition p_find_crex (id : crex_id) : prog (option table) :=
  tables <== (p_dirs ;;; p_index) ;;
  Rd LCrexCache (fun cache =>
    match map_find cid_lt id cache with
    | Some t => Ret (Ok (Some t))
    | None =>
      match search_crex id tables with
      | None => Ret (Ok None)
      | Some t => Rd LCrexCache (fun cache => Wr LCrexCache ((id, t) :: cache) (Ret (Ok (Some t))))
      end
    end).

(** The constructors of BufrVartable, CrexVartable and DTableBase.  A file that is not there is an error_system, written here
    like error_notfound. *)
Definition read_table (k : kind) (path : list Z) : res obj :=
  match e_file E path with
  | None => Err ENotFound
  | Some text =>
    match k with
    | BufrB => t <- load_bufr text ;; Ok (OB t)
    | CrexB => t <- load_crex text ;; Ok (OB t)
    | BufrD | CrexD => d <- load_dtable text ;; Ok (OD d)
    end
  end.

Fixpoint registered (path : list Z) (m : list (list Z * nat)) : option nat :=
  match m with
  | [] => None
  | (p, a) :: rest => if zlist_eqb p path then Some a else registered path rest
  end.

(** Vartable::load_bufr and load_crex: vartable.cc:485-497, 509-521; DTable::load_bufr and load_crex: dtable.cc:161-187.
    The object is made before the map gets a new key, so that an exception leaves the map as it is. *)
Definition p_load (k : kind) (path : list Z) : prog nat :=
  Rd (LReg k) (fun reg => match reg with Some _ => skip | None => Wr (LReg k) (Some []) skip end) ;;;
  Rd (LReg k) (fun reg =>
    match reg with
    | None => Ret UB
    | Some map =>
      match registered path map with
      | Some a => Ret (Ok a)
      | None =>
        match read_table k path with
        | Err e => Ret (Err e)
        | UB => Ret UB
        | Ok o => New o (fun a => Rd (LReg k) (fun reg =>
            match reg with None => Ret UB | Some map => Wr (LReg k) (Some ((path, a) :: map)) (Ret (Ok a)) end))
        end
      end
    end).

(** The path names of a table: tabledir.cc:32-35. *)
Definition path_b (t : table) : list Z := tb_dir t ++ 47 :: tb_file t.
Definition path_d (t : table) : list Z := tb_dir t ++ 47 :: 68 :: tl (tb_file t).

(** Tables::load_bufr and load_crex: tables.cc:53-81. *)
Definition p_tables_bufr (id : bufr_id) : prog (nat * nat) :=
  r <== p_find_bufr id ;;
  match r with
  | None => Ret (Err ENotFound)
  | Some t => b <== p_load BufrB (path_b t) ;; d <== p_load BufrD (path_d t) ;; Ret (Ok (b, d))
  end.
Definition p_tables_crex (id : crex_id) : prog (nat * nat) :=
  r <== p_find_crex id ;;
  match r with
  | None => Ret (Err ENotFound)
  | Some t => b <== p_load CrexB (path_b t) ;; d <== p_load CrexD (path_d t) ;; Ret (Ok (b, d))
  end.

(** Pointers to definitions: inside the table, or an object of its own. *)
Inductive iptr : Type := Inside (a e : nat) | Own (a : nat).

(** VartableBase::query: vartable.cc:252-261. *)
Definition p_query (a : nat) (code : Z) : prog (iptr * varinfo) :=
  Rd (LObj a) (fun o =>
    match o with
    | Some (OB t) =>
      match query_entry t code with
      | Err e => Ret (Err e)
      | UB => Ret UB
      | Ok None => Ret (Err ENotFound)
      | Ok (Some e) => match nth_error t e with Some x => Ret (Ok (Inside a e, be_info x)) | None => Ret UB end
      end
    | _ => Ret UB
    end).

(** VartableBase::query_altered: vartable.cc:268-304.  The chain is read to look for the alteration
    (get_alteration: 174-181), and read again when the new entry is made (118-119); the constructor may throw
    after that second read, here it does so before. *)
Definition p_altered (a : nat) (code scale bits ref : Z) : prog (iptr * varinfo) :=
  Rd (LObj a) (fun o =>
    match o with
    | Some (OB t) =>
      match query_entry t code with
      | Err e => Ret (Err e)
      | UB => Ret UB
      | Ok None => Ret (Err ENotFound)
      | Ok (Some e) =>
        match nth_error t e with
        | None => Ret UB
        | Some x =>
          if same_alteration (be_info x) scale bits ref then Ret (Ok (Inside a e, be_info x))
          else Rd (LChain a e) (fun chain =>
            match List.find (fun p => same_alteration (snd p) scale bits ref) chain with
            | Some (p, j) => Ret (Ok (Own p, j))
            | None =>
              match alter_checked (be_info x) scale bits ref with
              | Err e => Ret (Err e)
              | UB => Ret UB
              | Ok j => New (OAlt j) (fun p => Rd (LChain a e) (fun chain => Wr (LChain a e) ((p, j) :: chain) (Ret (Ok (Own p, j)))))
              end
            end)
        end
      end
    | _ => Ret UB
    end).

(** DTableBase::query: dtable.cc:135-158. *)
Definition p_dquery (a : nat) (code : Z) : prog opcodes :=
  Rd (LObj a) (fun o => match o with Some (OD d) => Ret (dquery d code) | _ => Ret UB end).

(** convert_units: conv.cc:254-264. *)
Definition p_convert (from to : string) (v : f64) : prog f64 :=
  if strcmp from to =? 0 then Ret (Ok v)
  else Rd LRepo (fun there => if (there : bool) then skip else Wr LRepo true skip) ;;;
       Rd LRepo (fun _ => Ret (convert_units (e_repo E) from to v)).

(** ** Programs that use the library *)
Inductive call : Type :=
| CTablesBufr (id : bufr_id) | CTablesCrex (id : crex_id) | CLoad (k : kind) (path : list Z)
| CQuery (a : nat) (code : Z) | CAltered (a : nat) (code scale bits ref : Z) | CDquery (a : nat) (code : Z)
| CConvert (from to : string) (v : f64).
Inductive answer : Type :=
| ATables (b d : nat) | ATable (a : nat) | AInfo (p : iptr) (i : varinfo) | AOps (o : opcodes) | ANum (v : f64).

Definition p_call (c : call) : prog answer :=
  match c with
  | CTablesBufr id => x <== p_tables_bufr id ;; Ret (Ok (ATables (fst x) (snd x)))
  | CTablesCrex id => x <== p_tables_crex id ;; Ret (Ok (ATables (fst x) (snd x)))
  | CLoad k path => a <== p_load k path ;; Ret (Ok (ATable a))
  | CQuery a code => x <== p_query a code ;; Ret (Ok (AInfo (fst x) (snd x)))
  | CAltered a code s b r => x <== p_altered a code s b r ;; Ret (Ok (AInfo (fst x) (snd x)))
  | CDquery a code => o <== p_dquery a code ;; Ret (Ok (AOps o))
  | CConvert from to v => x <== p_convert from to v ;; Ret (Ok (ANum x))
  end.

(** A job calls the library; what it calls next, and what it gives, may depend on the answers and exceptions so far. *)
Inductive job (A : Type) : Type :=
| Done (a : A)
| Call (c : call) (k : answer + err -> job A).
Arguments Done {A} a.
Arguments Call {A} c k.

Fixpoint p_job {A} (j : job A) : prog A :=
  match j with
  | Done a => Ret (Ok a)
  | Call c k => andthen (p_call c) (fun r =>
      match r with Ok a => p_job (k (inl a)) | Err e => p_job (k (inr e)) | UB => Ret UB end)
  end.

(** A thread does several jobs. *)
Fixpoint p_jobs {A} (js : list (job A)) : prog (list A) :=
  match js with
  | [] => Ret (Ok [])
  | j :: rest => x <== p_job j ;; xs <== p_jobs rest ;; Ret (Ok (x :: xs))
  end.
End Library.
Arguments Done {A} a.
Arguments Call {A} c k.

(** ** Threads *)
Definition step1 {A} (p : prog A) (m : mem) : option (prog A * mem) :=
  match p with
  | Ret _ => None
  | Rd l k => Some (k (cell m l), m)
  | Wr l v k => Some (k, write m l v)
  | New o k => Some (k (next m), alloc m o)
  end.

(** Any thread may make the next access. *)
Inductive steps {A} : mem * list (prog A) -> mem * list (prog A) -> Prop :=
| steps_none s : steps s s
| steps_one m before p after p' m' s : step1 p m = Some (p', m') -> steps (m', before ++ p' :: after) s ->
    steps (m, before ++ p :: after) s.

(** A data race: two threads about to access the same location, one of them to write.  Between threads that do not
    synchronise, as here, two such accesses are not ordered in any other execution either, which is what C++ calls a
    race; it is undefined behaviour. *)
Definition access {A} (p : prog A) : option (loc * bool) :=
  match p with Rd l _ => Some (l, false) | Wr l _ _ => Some (l, true) | _ => None end.
Definition race {A} (ps : list (prog A)) : Prop :=
  exists i j p q l w w', i <> j /\ nth_error ps i = Some p /\ nth_error ps j = Some q /\
    access p = Some (l, w) /\ access q = Some (l, w') /\ w || w' = true.

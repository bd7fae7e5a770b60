(** The Python and Lua bindings of variables and tables: python/var.cc, python/vartable.cc,
    python/common.cc, python/utils/values.cc and wreport/var-lua.cc.

    The functions of the interpreter that the bindings call are modelled by what its manual says they
    do.  Reference counts, memory exhaustion and subclasses of int, float, str and bytes that redefine
    conversions are not modelled. *)
From Coq Require Import String.
From Verif Require Import Base Bits.Spec Num.Float Varcode.Model Varinfo.Model Var.Model Var.Format.
From Verif Require Tables.Model.
Local Open Scope Z_scope.

(** ** Python objects and results *)

(** A str is a list of code points, lone surrogates included.  bool is an int.  [POther] is any object
    that is not an int, a float, a bytes or a str, None included. *)
Inductive pyobj : Type :=
| PInt (k : Z)
| PFloat (x : f64)
| PBytes (b : list Z)
| PStr (s : list Z)
| POther.

Inductive exn : Type :=
| KeyError | TypeError | MemoryError | OSError | SystemError | ValueError | RuntimeError
| NotImplementedError | OverflowError | UnicodeDecodeError | UnicodeEncodeError.

(** What a call from Python does: it returns, it raises, or the behaviour of the C++ code is undefined. *)
Inductive py (A : Type) : Type :=
| Return (a : A)
| Raise (e : exn)
| Crash.
Arguments Return {A} a.
Arguments Raise {A} e.
Arguments Crash {A}.

(** set_wreport_exception: python/common.cc:21-71.  [EEof] (a read cut short, reported as an error of the
    system) and [EFuel] (never returned by what is called here) complete the function. *)
Definition exn_of (e : err) : exn :=
  match e with
  | ENotFound => KeyError
  | EType => TypeError
  | EAlloc => MemoryError
  | EConsistency => RuntimeError
  | EParse => ValueError
  | EUnimpl => NotImplementedError
  | EDomain => OverflowError
  | EEof => OSError
  | EFuel => SystemError
  end.

(** WREPORT_CATCH_RETURN_PYO: python/common.h:48-55. *)
Definition catch {A B} (r : res A) (k : A -> py B) : py B :=
  match r with Ok a => k a | Err e => Raise (exn_of e) | UB => Crash end.

(** ** UTF-8, as the interpreter writes it (PyUnicode_AsUTF8AndSize: no surrogates) and reads it
    (PyUnicode_FromStringAndSize: shortest form only, no surrogates) *)
Definition scalar (c : Z) : bool := ((0 <=? c) && (c <? 55296)) || ((57344 <=? c) && (c <? 1114112)).
Definition utf8_char (c : Z) : list Z :=
  if c <? 128 then [c]
  else if c <? 2048 then [192 + c / 64; 128 + c mod 64]
  else if c <? 65536 then [224 + c / 4096; 128 + (c / 64) mod 64; 128 + c mod 64]
  else [240 + c / 262144; 128 + (c / 4096) mod 64; 128 + (c / 64) mod 64; 128 + c mod 64].
Definition utf8 (s : list Z) : list Z := flat_map utf8_char s.
Definition utf8_encode (s : list Z) : option (list Z) := if forallb scalar s then Some (utf8 s) else None.

Definition cont (b : Z) : bool := (128 <=? b) && (b <? 192).
Fixpoint utf8_decode (b : list Z) : option (list Z) :=
  match b with
  | [] => Some []
  | x :: r =>
    if x <? 128 then option_map (cons x) (utf8_decode r)
    else if (192 <=? x) && (x <? 224) then
      match r with
      | y :: r' =>
        let c := (x - 192) * 64 + (y - 128) in
        if cont y && (128 <=? c) then option_map (cons c) (utf8_decode r') else None
      | _ => None
      end
    else if (224 <=? x) && (x <? 240) then
      match r with
      | y :: z :: r' =>
        let c := (x - 224) * 4096 + (y - 128) * 64 + (z - 128) in
        if cont y && cont z && (2048 <=? c) && scalar c then option_map (cons c) (utf8_decode r') else None
      | _ => None
      end
    else if (240 <=? x) && (x <? 248) then
      match r with
      | y :: z :: w :: r' =>
        let c := (x - 240) * 262144 + (y - 128) * 4096 + (z - 128) * 64 + (w - 128) in
        if cont y && cont z && cont w && (65536 <=? c) && scalar c then option_map (cons c) (utf8_decode r') else None
      | _ => None
      end
    else None
  end.

(** cstring_to_python and string_to_python: python/utils/values.cc:8-16.  A C string is the readable
    memory at the pointer, up to its first NUL. *)
Definition str_of_bytes (b : list Z) : py pyobj :=
  match utf8_decode b with Some s => Return (PStr s) | None => Raise UnicodeDecodeError end.
Definition str_of_cstring (mem : list Z) : py pyobj :=
  if existsb (Z.eqb 0) mem then str_of_bytes (cstr mem) else Crash.
(** PyBytes_FromString. *)
Definition bytes_of_cstring (mem : list Z) : py pyobj :=
  if existsb (Z.eqb 0) mem then Return (PBytes (cstr mem)) else Crash.

(** ** Var *)

(** PyLong_AsLong, with a 64-bit long: the value, and whether OverflowError has been set. *)
Definition py_as_long (k : Z) : Z * bool :=
  if (- 2 ^ 63 <=? k) && (k <? 2 ^ 63) then (k, false) else (-1, true).

(** What var_value_from_python reports for an outcome of a setter.  When the setter returns normally with an
    OverflowError pending, the interpreter raises SystemError ("returned a result with an exception
    set"); an error of the setter replaces the pending one. *)
Definition stored (pending : bool) (r : outcome cell) : py unit * option cell :=
  match r with
  | Done c => (if pending then Raise SystemError else Return tt, Some c)
  | Thrown e c => (Raise (exn_of e), Some c)
  | Undef => (Crash, None)
  end.

(** var_value_from_python: python/var.cc:519-542.  The options of variables are those in force when the
    interpreter starts: Python code has no way to change them.  The second component is the variable
    afterwards. *)
Definition value_from_python (o : pyobj) (c : cell) : py unit * option cell :=
  match o with
  | PInt k => let (v, pending) := py_as_long k in stored pending (seti default_options c (wrap_int v))
  | PFloat x => stored false (setd default_options c x)
  | PBytes b => stored false (setc default_options c (b ++ [0]))
  | PStr s => match utf8_encode s with
              | Some b => stored false (sets default_options c b)
              | None => (Raise UnicodeEncodeError, Some c)
              end
  | POther => (Raise TypeError, Some c)
  end.

(** var_value_to_python: python/var.cc:501-517. *)
Definition value_to_python (c : cell) : py pyobj :=
  match vi_type (c_info c) with
  | TString => catch (enqc c) str_of_cstring
  | TBinary => catch (enqc c) bytes_of_cstring
  | TInteger => catch (enqi c) (fun k => Return (PInt k))
  | TDecimal => catch (enqd c) (fun x => Return (PFloat x))
  end.

(** First argument of the constructor. *)
Inductive varinfo_or_var : Type :=
| AInfo (i : varinfo)
| AVar (v : var)
| AOther.

(** VarDef::_init: python/var.cc:387-421.  [None] stands for arguments that PyArg_ParseTupleAndKeywords
    refuses (none, too many, unknown keywords).  The second component is the C++ variable inside the new
    object: the memory of the object is zeroed by PyType_GenericNew, and [None] means that no variable
    has been built there.  [dummy] is dummy_var. *)
Section Init.
Context (dummy : varinfo).
Definition var_init (args : option (varinfo_or_var * option pyobj)) : py unit * option var :=
  match args with
  | None => (Raise TypeError, None)
  | Some (AInfo i, None) => (Return tt, Some (mkvar (fresh i) []))
  | Some (AInfo i, Some x) =>
    let (r, c) := value_from_python x (fresh i) in
    (r, match c with Some c => Some (mkvar c []) | None => None end)
  | Some (AVar v, _) => (Return tt, Some v)
  | Some (AOther, _) => (Raise ValueError, Some (mkvar (fresh dummy) []))
  end.

(** VarDef::_dealloc: python/var.cc:423-428.  The destructor, Var::~Var at var.cc:174-187, starts with
    reading m_info->type: on zeroed memory that is a null pointer. *)
Definition var_dealloc (o : option var) : py unit :=
  match o with Some _ => Return tt | None => Crash end.

(** wreport.Var(...): the interpreter runs tp_new, tp_init, and on failure deallocates the object and
    lets the exception go on. *)
Definition py_var (args : option (varinfo_or_var * option pyobj)) : py var :=
  match var_init args with
  | (Return _, Some v) => Return v
  | (Return _, None) => Crash
  | (Raise e, o) => match var_dealloc o with Return _ => Raise e | Raise e' => Raise e' | Crash => Crash end
  | (Crash, _) => Crash
  end.
End Init.

(** Var.isset, Var.enqi, Var.enqd, Var.enqc, Var.enq: python/var.cc:113-212. *)
Definition py_isset (v : var) : bool := isset (v_cell v).
Definition py_enqi (v : var) : py pyobj := catch (enqi (v_cell v)) (fun k => Return (PInt k)).
Definition py_enqd (v : var) : py pyobj := catch (enqd (v_cell v)) (fun x => Return (PFloat x)).
Definition py_enqc (v : var) : py pyobj := catch (enqc (v_cell v)) str_of_cstring.
Definition py_enq (v : var) : py pyobj := value_to_python (v_cell v).

(** Var.get: python/var.cc:307-331. *)
Definition py_get (v : var) (default : pyobj) : py pyobj :=
  if isset (v_cell v) then value_to_python (v_cell v) else Return default.

(** An argument read with the format "s": a str without NULs that can be written in UTF-8. *)
Definition arg_s (s : list Z) : py (list Z) :=
  match utf8_encode s with
  | None => Raise UnicodeEncodeError
  | Some b => if existsb (Z.eqb 0) b then Raise ValueError else Return b
  end.
Definition pbind {A B} (p : py A) (k : A -> py B) : py B :=
  match p with Return a => k a | Raise e => Raise e | Crash => Crash end.

(** The attribute found by Var::enqa (var.cc:625-631) together with the attributes that follow it in the
    chain: Var.enqa copies both, because the copy constructor copies the attributes of what it copies
    and the rest of the chain hangs there (var.cc:128-133, 710-715). *)
Fixpoint enqa_chain (code : Z) (l : list cell) : option var :=
  match l with
  | [] => None
  | a :: l' => if c_code a <=? code then
                 if c_code a =? code then Some (mkvar a l') else enqa_chain code l'
               else None
  end.

(** Var.enqa, Var.seta, Var.unseta: python/var.cc:214-276. *)
Definition py_enqa (v : var) (code : list Z) : py (option var) :=
  pbind (arg_s code) (fun b => catch (varcode_parse (Some b)) (fun c => Return (enqa_chain c (v_attrs v)))).
Definition py_seta (v : var) (a : var) : py var := Return (var_seta v a).
Definition py_unseta (v : var) (code : list Z) : py var :=
  pbind (arg_s code) (fun b => catch (varcode_parse (Some b)) (fun c => Return (var_unseta v c))).

(** Var.get_attrs: python/var.cc:278-305.  [conv] is convert_units. *)
Fixpoint py_get_attrs (conv : string -> string -> f64 -> res f64) (l : list cell) : py (list var) :=
  match l with
  | [] => Return []
  | a :: l' =>
    match setval conv default_options (fresh (c_info a)) a with
    | Done c => pbind (py_get_attrs conv l') (fun r => Return (mkvar c [] :: r))
    | Thrown e _ => Raise (exn_of e)
    | Undef => Crash
    end
  end.

(** wrpy_varcode_format: python/common.cc:9-20, and the getter Var.code: python/var.cc:99-111. *)
Definition py_varcode (c : Z) : list Z :=
  (if var_f c =? 0 then 66 else if var_f c =? 1 then 82 else if var_f c =? 2 then 67
   else if var_f c =? 3 then 68 else 63) ::
  [48 + var_x c / 10; 48 + var_x c mod 10; 48 + var_y c / 100; 48 + (var_y c / 10) mod 10; 48 + var_y c mod 10].
Definition py_code (v : var) : list Z := py_varcode (c_code (v_cell v)).

Section Printf.
Context (fixed : nat -> f64 -> list Z).
(** Var.format and str(): python/var.cc:333-351, 430-435. *)
Definition py_format (v : var) (default : list Z) : py pyobj :=
  pbind (arg_s default) (fun d => catch (format fixed (v_cell v) d) str_of_bytes).
Definition none_text : list Z := [78; 111; 110; 101].
Definition py_str (v : var) : py pyobj := catch (format fixed (v_cell v) none_text) str_of_bytes.

(** repr(): python/var.cc:437-460. *)
Definition py_repr (v : var) : py pyobj :=
  let head := [86; 97; 114; 40; 39] ++ varcode_format (c_code (v_cell v)) ++ [39; 44; 32] in
  if isset (v_cell v) then
    catch (format fixed (v_cell v) [])
      (fun t => str_of_bytes (head ++ (match vi_type (c_info (v_cell v)) with
                                       | TString | TBinary => [39] ++ t ++ [39]
                                       | TInteger | TDecimal => t
                                       end) ++ [41]))
  else str_of_bytes (head ++ none_text ++ [41]).
End Printf.

(** == and !=: python/var.cc:462-485; Var::operator!= at var.h:132 is the negation of operator==. *)
Definition py_eq (a b : var) : py bool := catch (var_equals a b) Return.
Definition py_ne (a b : var) : py bool := catch (var_equals a b) (fun r => Return (negb r)).

(** ** Vartable *)

(** sq_contains, mp_subscript, sq_length, mp_length and sq_item: python/vartable.cc:259-290.  The key is
    read as a std::string. *)
Definition table_key (key : pyobj) : py (list Z) :=
  match key with
  | PStr s => match utf8_encode s with Some b => Return b | None => Raise UnicodeEncodeError end
  | _ => Raise TypeError
  end.
Definition py_contains (t : Tables.Model.btable) (key : pyobj) : py bool :=
  pbind (table_key key) (fun b => catch (varcode_parse (Some b)) (fun c => catch (Tables.Model.contains t c) Return)).
Definition py_getitem (t : Tables.Model.btable) (key : pyobj) : py varinfo :=
  pbind (table_key key) (fun b => catch (varcode_parse (Some b)) (fun c => catch (Tables.Model.query t c) Return)).
Definition py_len (t : Tables.Model.btable) : Z := 0.
Definition py_item (t : Tables.Model.btable) (i : nat) : py pyobj := Return POther.

(** A for loop over an object without __iter__ asks for items 0, 1, 2, ... until IndexError: the items
    met in the first [n] steps, and whether the loop has ended by then (sq_item never raises). *)
Fixpoint py_iterate (t : Tables.Model.btable) (n i : nat) : list pyobj * bool :=
  match n with
  | O => ([], false)
  | S k => match py_item t i with
           | Return x => let (l, e) := py_iterate t k (S i) in (x :: l, e)
           | _ => ([], true)
           end
  end.

(** ** Lua: wreport/var-lua.cc:41-108 *)
Inductive luaval : Type :=
| LNil
| LInt (k : Z)
| LNum (x : f64)
| LText (s : list Z).

(** A C++ exception becomes a Lua error. *)
Inductive lua : Type :=
| LReturn (x : luaval)
| LError
| LCrash.
Definition lua_get (c : cell) (r : res luaval) : lua :=
  if isset c then match r with Ok x => LReturn x | Err _ => LError | UB => LCrash end else LReturn LNil.
Definition rmap_lua {A} (f : A -> luaval) (r : res A) : res luaval := x <- r ;; Ok (f x).
Definition lua_enqi (v : var) : lua := lua_get (v_cell v) (rmap_lua LInt (enqi (v_cell v))).
Definition lua_enqd (v : var) : lua := lua_get (v_cell v) (rmap_lua LNum (enqd (v_cell v))).
(** lua_pushstring copies up to the first NUL. *)
Definition lua_enqc (v : var) : lua := lua_get (v_cell v) (rmap_lua LText (enqs (v_cell v))).
(** The character is taken from "BRCD". *)
Definition lua_code (v : var) : list Z :=
  let c := c_code (v_cell v) in
  nth (Z.to_nat (var_f c)) [66; 82; 67; 68] 0 ::
  [48 + var_x c / 10; 48 + var_x c mod 10; 48 + var_y c / 100; 48 + (var_y c / 10) mod 10; 48 + var_y c mod 10].
Definition lua_tostring (fixed : nat -> f64 -> list Z) (v : var) : lua :=
  match format fixed (v_cell v) [40; 117; 110; 100; 101; 102; 41] with
  | Ok t => LReturn (LText t) | Err _ => LError | UB => LCrash
  end.

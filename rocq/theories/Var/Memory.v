(** Memory of variables: wreport/var.cc, wreport/var.h.

    Blocks of memory hold a Var or the characters of a value.  All Vars are in blocks, also
    those on the stack or inside another object, since only their life time matters.  A value of
    the union m_value is a number or a pointer. *)
From Coq Require Import String.
From Verif Require Import Base Num.Float Varcode.Model Varinfo.Model Var.Model.
Local Open Scope Z_scope.

Notation addr := nat.

(** union { int32_t i; char* c; }.  All bits are zero after the initialisation m_value{}. *)
Inductive word : Type := WInt (i : Z) | WPtr (p : option addr).

(** class Var: var.h:36-50. *)
Record obj : Type := mkobj { ob_info : varinfo; ob_isset : bool; ob_word : word; ob_next : option addr }.

(** A block; characters that were not written yet are [None]. *)
Inductive block : Type := BVar (o : obj) | BChars (s : list (option Z)).

(** The block at each address, [None] if it was freed. *)
Definition heap : Type := list (option block).

Definition lookup (h : heap) (a : addr) : option block :=
  match nth_error h a with Some (Some b) => Some b | _ => None end.
Fixpoint update (h : heap) (a : addr) (b : option block) : heap :=
  match h, a with
  | [], _ => []
  | _ :: h', O => b :: h'
  | x :: h', S k => x :: update h' k b
  end.

(** new: memory never ends. *)
Definition new (b : block) (h : heap) : addr * heap := (length h, h ++ [Some b]).
Definition store (h : heap) (a : addr) (b : block) : res heap :=
  match lookup h a with Some _ => Ok (update h a (Some b)) | None => UB end.
Definition free (h : heap) (a : addr) : res heap :=
  match lookup h a with Some _ => Ok (update h a None) | None => UB end.
Definition load_var (h : heap) (a : addr) : res obj :=
  match lookup h a with Some (BVar o) => Ok o | _ => UB end.
Definition load_chars (h : heap) (a : addr) : res (list (option Z)) :=
  match lookup h a with Some (BChars s) => Ok s | _ => UB end.
Definition store_var (h : heap) (a : addr) (o : obj) : res heap := store h a (BVar o).

(** Reading a member of the union that was not the last written: a pointer that is not null has
    no known number, and a number is no pointer. *)
Definition word_int (w : word) : res Z := match w with WInt i => Ok i | WPtr None => Ok 0 | WPtr (Some _) => UB end.
Definition word_ptr (w : word) : res (option addr) := match w with WPtr p => Ok p | WInt _ => UB end.

Definition with_isset (o : obj) (b : bool) : obj := mkobj (ob_info o) b (ob_word o) (ob_next o).
Definition with_word (o : obj) (w : word) : obj := mkobj (ob_info o) (ob_isset o) w (ob_next o).
Definition with_next (o : obj) (n : option addr) : obj := mkobj (ob_info o) (ob_isset o) (ob_word o) n.
Definition with_info (o : obj) (i : varinfo) : obj := mkobj i (ob_isset o) (ob_word o) (ob_next o).

(** ** Creation and destruction *)

(** Var::Var(Varinfo): var.cc:97-100. *)
Definition m_new (i : varinfo) (h : heap) : addr * heap := new (BVar (mkobj i false (WPtr None) None)) h.

(** delete[] of a pointer: nothing if it is null. *)
Definition delete_chars (p : option addr) (h : heap) : res heap :=
  match p with
  | None => Ok h
  | Some b => _ <- load_chars h b ;; free h b
  end.

(** Var::~Var: var.cc:174-187, followed by the release of the memory of the Var. *)
Fixpoint m_delete (fuel : nat) (a : addr) (h : heap) : res heap :=
  match fuel with
  | O => Err EFuel
  | S k =>
    o <- load_var h a ;;
    h1 <- (if is_numeric (vi_type (ob_info o)) then Ok h
           else p <- word_ptr (ob_word o) ;; delete_chars p h) ;;
    h2 <- (match ob_next o with None => Ok h1 | Some n => m_delete k n h1 end) ;;
    free h2 a
  end.

(** Var::clear_attrs: var.cc:269-273. *)
Definition m_clear_attrs (fuel : nat) (a : addr) (h : heap) : res heap :=
  o <- load_var h a ;;
  h1 <- (match ob_next o with None => Ok h | Some n => m_delete fuel n h end) ;;
  o1 <- load_var h1 a ;;
  store_var h1 a (with_next o1 None).

(** ** Values *)

(** Var::allocate: var.cc:200-204. *)
Definition m_allocate (a : addr) (h : heap) : res (addr * heap) :=
  o <- load_var h a ;;
  p <- word_ptr (ob_word o) ;;
  match p with
  | Some b => Ok (b, h)
  | None =>
    let (b, h1) := new (BChars (repeat None (S (ilen (ob_info o))))) h in
    h2 <- store_var h1 a (with_word o (WPtr (Some b))) ;;
    Ok (b, h2)
  end.

(** memcpy of [s] to the beginning of a block. *)
Definition write_chars (h : heap) (b : addr) (s : list (option Z)) : res heap :=
  old <- load_chars h b ;;
  if Nat.ltb (length old) (length s) then UB
  else store h b (BChars (s ++ skipn (length s) old)).
Definition read_chars (h : heap) (b : addr) (n : nat) : res (list (option Z)) :=
  s <- load_chars h b ;;
  if Nat.ltb (length s) n then UB else Ok (firstn n s).

(** Var::copy_value: var.cc:206-226. *)
Definition m_copy_value (a src : addr) (h : heap) : res heap :=
  o <- load_var h a ;;
  so <- load_var h src ;;
  h1 <- store_var h a (with_isset o (ob_isset so)) ;;
  if negb (ob_isset so) then Ok h1
  else
    match vi_type (ob_info o) with
    | TBinary | TString =>
      let n := match vi_type (ob_info o) with TString => S (ilen (ob_info o)) | _ => ilen (ob_info o) end in
      ' (b, h2) <- m_allocate a h1 ;;
      sp <- word_ptr (ob_word so) ;;
      match sp with
      | None => UB
      | Some sb => s <- read_chars h2 sb n ;; write_chars h2 b s
      end
    | TInteger | TDecimal =>
      o1 <- load_var h1 a ;;
      i <- word_int (ob_word so) ;;
      store_var h1 a (with_word o1 (WInt i))
    end.

(** Var::move_value: var.cc:228-248. *)
Definition m_move_value (a src : addr) (h : heap) : res heap :=
  o <- load_var h a ;;
  so <- load_var h src ;;
  h1 <- store_var h a (with_isset o (ob_isset so)) ;;
  if negb (ob_isset so) then Ok h1
  else
    match vi_type (ob_info o) with
    | TBinary | TString =>
      p <- word_ptr (ob_word o) ;;
      h2 <- delete_chars p h1 ;;
      o1 <- load_var h2 a ;;
      sp <- word_ptr (ob_word so) ;;
      h3 <- store_var h2 a (with_word o1 (WPtr sp)) ;;
      store_var h3 src (with_isset (with_word so (WPtr None)) false)
    | TInteger | TDecimal =>
      o1 <- load_var h1 a ;;
      i <- word_int (ob_word so) ;;
      h2 <- store_var h1 a (with_word o1 (WInt i)) ;;
      store_var h2 src (with_isset so false)
    end.

(** Var::Var(const Var&): var.cc:127-132, with setattrs: 710-715, which calls the constructor on
    the first attribute. *)
Fixpoint m_copy (fuel : nat) (src : addr) (h : heap) : res (addr * heap) :=
  match fuel with
  | O => Err EFuel
  | S k =>
    so <- load_var h src ;;
    let (a, h1) := m_new (ob_info so) h in
    h2 <- m_copy_value a src h1 ;;
    so2 <- load_var h2 src ;;
    match ob_next so2 with
    | None => Ok (a, h2)
    | Some n =>
      ' (na, h3) <- m_copy k n h2 ;;
      o <- load_var h3 a ;;
      h4 <- store_var h3 a (with_next o (Some na)) ;;
      Ok (a, h4)
    end
  end.

(** Var::setattrs: var.cc:710-715. *)
Definition m_setattrs (fuel : nat) (a src : addr) (h : heap) : res heap :=
  h1 <- m_clear_attrs fuel a h ;;
  so <- load_var h1 src ;;
  match ob_next so with
  | None => Ok h1
  | Some n =>
    ' (na, h2) <- m_copy fuel n h1 ;;
    o <- load_var h2 a ;;
    store_var h2 a (with_next o (Some na))
  end.

(** Var::Var(Var&&): var.cc:134-139. *)
Definition m_move (src : addr) (h : heap) : res (addr * heap) :=
  so <- load_var h src ;;
  let (a, h1) := new (BVar (mkobj (ob_info so) false (WPtr None) (ob_next so))) h in
  h2 <- m_move_value a src h1 ;;
  so2 <- load_var h2 src ;;
  h3 <- store_var h2 src (with_next so2 None) ;;
  Ok (a, h3).

(** Var::operator=(const Var&): var.cc:148-162. *)
Definition m_assign (fuel : nat) (a src : addr) (h : heap) : res heap :=
  if Nat.eqb a src then Ok h
  else
    o <- load_var h a ;;
    so <- load_var h src ;;
    h1 <- store_var h a (with_info o (ob_info so)) ;;
    h2 <- m_copy_value a src h1 ;;
    m_setattrs fuel a src h2.

(** Var::operator=(Var&&): var.cc:164-172. *)
Definition m_move_assign (fuel : nat) (a src : addr) (h : heap) : res heap :=
  if Nat.eqb a src then Ok h
  else
    h1 <- m_move_value a src h ;;
    o <- load_var h1 a ;;
    h2 <- (match ob_next o with None => Ok h1 | Some n => m_delete fuel n h1 end) ;;
    so <- load_var h2 src ;;
    o2 <- load_var h2 a ;;
    h3 <- store_var h2 a (with_next o2 (ob_next so)) ;;
    so3 <- load_var h3 src ;;
    store_var h3 src (with_next so3 None).

(** ** Setters *)

(** Var::assign_c_checked: var.cc:496-508.  [val] is the memory readable at the pointer, which is
    not in the heap.  strncpy pads with zeros. *)
Definition m_assign_c (a : addr) (val : list Z) (size : nat) (h : heap) : res heap :=
  ' (b, h1) <- m_allocate a h ;;
  o <- load_var h1 a ;;
  let n := if Nat.ltb size (ilen (ob_info o)) then size else ilen (ob_info o) in
  match strncpy_str val n with
  | None => UB
  | Some s =>
    h2 <- write_chars h1 b (map Some (s ++ repeat 0 (n - length s)) ++ [Some 0]) ;;
    store_var h2 a (with_isset o true)
  end.

(** Var::assign_b_checked: var.cc:479-494; the bytes are those of the value level. *)
Definition m_assign_b (a : addr) (val : list Z) (size : nat) (h : heap) : res heap :=
  ' (b, h1) <- m_allocate a h ;;
  o <- load_var h1 a ;;
  match assign_b_checked (fresh (ob_info o)) val size with
  | Done (mkcell _ (Some (VBin bytes))) =>
    h2 <- write_chars h1 b (map Some bytes) ;;
    store_var h2 a (with_isset o true)
  | _ => UB
  end.

(** A setter on a numeric Var: the new value is the one of the value level. *)
Definition m_set_number (f : cell -> outcome cell) (a : addr) (h : heap) : res (option err * heap) :=
  o <- load_var h a ;;
  v <- (if ob_isset o then i <- word_int (ob_word o) ;; Ok (Some (VInt i)) else Ok None) ;;
  let write c :=
    match c_val c with
    | Some (VInt i) => store_var h a (with_isset (with_word o (WInt i)) true)
    | Some _ => UB
    | None => store_var h a (with_isset o false)
    end in
  match f (mkcell (ob_info o) v) with
  | Done c => h1 <- write c ;; Ok (None, h1)
  | Thrown e c => h1 <- write c ;; Ok (Some e, h1)
  | Undef => UB
  end.

Inductive setter : Type := Seti (v : Z) | Setd (d : f64) | Setc (s : list Z) | Sets (s : list Z) | Unset.
Definition run_setter (o : options) (c : cell) (x : setter) : outcome cell :=
  match x with
  | Seti v => seti o c v
  | Setd d => setd o c d
  | Setc s => setc o c (s ++ [0])
  | Sets s => sets o c s
  | Unset => Done (unset c)
  end.

(** Var::seti, setd, setc, sets, unset: var.cc:510-591, 620-623. *)
Definition m_set (op : options) (x : setter) (a : addr) (h : heap) : res (option err * heap) :=
  o <- load_var h a ;;
  match vi_type (ob_info o), x with
  | _, Unset => h1 <- store_var h a (with_isset o false) ;; Ok (None, h1)
  | TString, Setc s => h1 <- m_assign_c a (s ++ [0]) (ilen (ob_info o)) h ;; Ok (None, h1)
  | TString, Sets s => h1 <- m_assign_c a (s ++ [0]) (length s) h ;; Ok (None, h1)
  | TBinary, Setc s => h1 <- m_assign_b a (s ++ [0]) (ilen (ob_info o)) h ;; Ok (None, h1)
  | TBinary, Sets s => h1 <- m_assign_b a (s ++ [0]) (length s) h ;; Ok (None, h1)
  | TString, _ | TBinary, _ => Ok (Some EType, h)
  | _, _ => m_set_number (fun c => run_setter op c x) a h
  end.

(** ** Attributes *)

(** Var::seta(unique_ptr<Var>&&): var.cc:643-666. *)
Fixpoint m_seta_ptr (fuel : nat) (a attr : addr) (h : heap) : res heap :=
  match fuel with
  | O => Err EFuel
  | S k =>
    h1 <- m_clear_attrs k attr h ;;
    o <- load_var h1 a ;;
    ao <- load_var h1 attr ;;
    match ob_next o with
    | None =>
      h2 <- store_var h1 attr (with_next ao None) ;;
      store_var h2 a (with_next o (Some attr))
    | Some n =>
      no <- load_var h1 n ;;
      if vi_code (ob_info no) >? vi_code (ob_info ao) then
        h2 <- store_var h1 attr (with_next ao (Some n)) ;;
        store_var h2 a (with_next o (Some attr))
      else if vi_code (ob_info no) =? vi_code (ob_info ao) then
        h2 <- store_var h1 attr (with_next ao (ob_next no)) ;;
        h3 <- store_var h2 a (with_next o (Some attr)) ;;
        h4 <- store_var h3 n (with_next no None) ;;
        m_delete k n h4
      else m_seta_ptr k n attr h1
    end
  end.

(** Var::seta(const Var&), seta(Var&&): var.cc:633-641; both copy. *)
Definition m_seta (fuel : nat) (a src : addr) (h : heap) : res heap :=
  ' (attr, h1) <- m_copy fuel src h ;; m_seta_ptr fuel a attr h1.

(** Var::unseta: var.cc:668-684. *)
Fixpoint m_unseta (fuel : nat) (a : addr) (code : Z) (h : heap) : res heap :=
  match fuel with
  | O => Err EFuel
  | S k =>
    o <- load_var h a ;;
    match ob_next o with
    | None => Ok h
    | Some n =>
      no <- load_var h n ;;
      if vi_code (ob_info no) >? code then Ok h
      else if vi_code (ob_info no) =? code then
        h1 <- store_var h a (with_next o (ob_next no)) ;;
        h2 <- store_var h1 n (with_next no None) ;;
        m_delete k n h2
      else m_unseta k n code h
    end
  end.

(** ** Histories

    The variables that a program has are numbered in the order of their creation; those that were
    destroyed are [None]. *)
Inductive action : Type :=
| ANew (i : varinfo)
| ACopy (src : nat)                  (* Var v(src) *)
| AMove (src : nat)                  (* Var v(move(src)) *)
| AAssign (dst src : nat)            (* dst = src *)
| AMoveAssign (dst src : nat)        (* dst = move(src) *)
| ADelete (v : nat)
| ASet (v : nat) (x : setter)
| ASeta (v attr : nat)
| AUnseta (v : nat) (code : Z)
| AClear (v : nat)
| ASetattrs (dst src : nat).

Definition names : Type := list (option addr).
Definition name (ns : names) (k : nat) : option addr :=
  match nth_error ns k with Some (Some a) => Some a | _ => None end.
Fixpoint forget (ns : names) (k : nat) : names :=
  match ns, k with
  | [], _ => []
  | _ :: r, O => None :: r
  | x :: r, S k => x :: forget r k
  end.

(** Using a variable that was destroyed, or never created, is undefined. *)
Definition with_name {A} (ns : names) (k : nat) (f : addr -> res A) : res A :=
  match name ns k with Some a => f a | None => UB end.

(** The fuel is enough for any chain. *)
Definition enough (h : heap) : nat := S (S (length h)).

Definition act (op : options) (x : action) (ns : names) (h : heap) : res (option err * names * heap) :=
  let keep (r : res heap) := h1 <- r ;; Ok (None, ns, h1) in
  let add (r : res (addr * heap)) := ' (a, h1) <- r ;; Ok (None, ns ++ [Some a], h1) in
  match x with
  | ANew i => add (Ok (m_new i h))
  | ACopy k => with_name ns k (fun s => add (m_copy (enough h) s h))
  | AMove k => with_name ns k (fun s => add (m_move s h))
  | AAssign k l => with_name ns k (fun a => with_name ns l (fun s => keep (m_assign (enough h) a s h)))
  | AMoveAssign k l => with_name ns k (fun a => with_name ns l (fun s => keep (m_move_assign (enough h) a s h)))
  | ADelete k => with_name ns k (fun a => h1 <- m_delete (enough h) a h ;; Ok (None, forget ns k, h1))
  | ASet k s => with_name ns k (fun a => ' (e, h1) <- m_set op s a h ;; Ok (e, ns, h1))
  | ASeta k l => with_name ns k (fun a => with_name ns l (fun s => keep (m_seta (enough h) a s h)))
  | AUnseta k c => with_name ns k (fun a => keep (m_unseta (enough h) a c h))
  | AClear k => with_name ns k (fun a => keep (m_clear_attrs (enough h) a h))
  | ASetattrs k l => with_name ns k (fun a => with_name ns l (fun s => keep (m_setattrs (enough h) a s h)))
  end.

Fixpoint acts (op : options) (l : list action) (ns : names) (h : heap) : res (names * heap) :=
  match l with
  | [] => Ok (ns, h)
  | x :: r => ' (_, ns1, h1) <- act op x ns h ;; acts op r ns1 h1
  end.

(** What the memory of variables must look like, and what the operations on variables mean. *)
From Coq Require Import String.
From Verif Require Import Base Num.Float Varcode.Model Varinfo.Model Var.Model Var.Memory.
Local Open Scope Z_scope.

(** ** Layout *)

(** The member m_value of a variable of type [i], and the blocks that it owns: a number owns none,
    a text or binary variable has no buffer yet or one with a place for the terminator. *)
Definition storage_at (h : heap) (i : varinfo) (w : word) (bufs : list addr) : Prop :=
  if is_numeric (vi_type i) then bufs = [] /\ match w with WPtr (Some _) => False | _ => True end
  else match w with
       | WInt _ => False
       | WPtr None => bufs = []
       | WPtr (Some b) => bufs = [b] /\ exists s, lookup h b = Some (BChars s) /\ length s = S (ilen i)
       end.

(** What the buffer of a variable that is set contains. *)
Definition chars_of (i : varinfo) (s : list (option Z)) (v : value) : Prop :=
  match vi_type i, v with
  | TString, VStr t => ~ In 0 t /\ exists rest, s = map Some t ++ Some 0 :: rest
  | TBinary, VBin t => length t = ilen i /\ exists rest, s = map Some t ++ rest
  | _, _ => False
  end.
Definition value_at (h : heap) (i : varinfo) (isset : bool) (w : word) (val : option value) : Prop :=
  if isset then
    match w with
    | WInt n => is_numeric (vi_type i) = true /\ val = Some (VInt n)
    | WPtr None => False
    | WPtr (Some b) => is_numeric (vi_type i) = false /\
        exists s v, lookup h b = Some (BChars s) /\ val = Some v /\ chars_of i s v
    end
  else val = None.

(** A chain of variables, linked by m_attrs, with the blocks that it owns. *)
Inductive chain_at (h : heap) : option addr -> list cell -> list addr -> Prop :=
| chain_nil : chain_at h None [] []
| chain_cons a o c bufs cs fp :
    lookup h a = Some (BVar o) -> c_info c = ob_info o ->
    storage_at h (ob_info o) (ob_word o) bufs -> value_at h (ob_info o) (ob_isset o) (ob_word o) (c_val c) ->
    chain_at h (ob_next o) cs fp ->
    chain_at h (Some a) (c :: cs) (a :: bufs ++ fp).

Definition live (h : heap) (a : addr) : Prop := lookup h a <> None.

(** The variables of the program: each is in memory and owns its blocks alone, and every block in
    memory is owned by one of them. *)
Definition world : Type := list (option var).
Definition var_at (h : heap) (n : option (option addr)) (v : option (option var)) (fp : list addr) : Prop :=
  match n, v with
  | Some (Some a), Some (Some v) => chain_at h (Some a) (v_cell v :: v_attrs v) fp
  | Some None, Some None | None, None => fp = []
  | _, _ => False
  end.
Definition represents (h : heap) (ns : names) (w : world) : Prop :=
  exists owned : nat -> list addr,
    (forall k, var_at h (nth_error ns k) (nth_error w k) (owned k)) /\
    (forall k, NoDup (owned k)) /\
    (forall k l x, In x (owned k) -> In x (owned l) -> k = l) /\
    (forall x, live h x <-> exists k, In x (owned k)).

(** ** Meaning *)

(** The definitions can share a buffer. *)
Definition same_storage (i j : varinfo) : bool :=
  Bool.eqb (is_numeric (vi_type i)) (is_numeric (vi_type j)) && (is_numeric (vi_type i) || (vi_len i =? vi_len j)).
Definition same_kind (i j : varinfo) : bool :=
  same_storage i j && (is_numeric (vi_type i) || vartype_eqb (vi_type i) (vi_type j)).

Definition the (w : world) (k : nat) : option var := match nth_error w k with Some v => v | None => None end.
Fixpoint put (w : world) (k : nat) (v : option var) : world :=
  match w, k with
  | [], _ => []
  | _ :: r, O => v :: r
  | x :: r, S k => x :: put r k v
  end.

(** Hooks may choose the value of a numeric variable, but not change its type. *)
Definition is_number (c : cell) : Prop := forall v, c_val c = Some v -> exists i, v = VInt i.
Definition hook_ok (op : options) : Prop :=
  forall f c x, o_hook op = Some f -> is_number c ->
  match f c x with
  | Done d | Thrown _ d => c_info d = c_info c /\ is_number d
  | Undef => True
  end.

(** The effect of an action on the values; [None] if it is not allowed. *)
Definition meaning (op : options) (x : action) (w : world) : option (option err * world) :=
  match x with
  | ANew i => Some (None, w ++ [Some (mkvar (fresh i) [])])
  | ACopy k => match the w k with Some v => Some (None, w ++ [Some v]) | None => None end
  | AMove k =>
    match the w k with Some v => Some (None, put w k (Some (mkvar (unset (v_cell v)) [])) ++ [Some v]) | None => None end
  | AAssign k l =>
    match the w k, the w l with
    | Some d, Some s => if same_storage (c_info (v_cell d)) (c_info (v_cell s)) then Some (None, put w k (Some s)) else None
    | _, _ => None
    end
  | AMoveAssign k l =>
    match the w k, the w l with
    | Some d, Some s =>
      if Nat.eqb k l then Some (None, w)
      else if same_kind (c_info (v_cell d)) (c_info (v_cell s)) then
        Some (None, put (put w k (Some (mkvar (mkcell (c_info (v_cell d)) (c_val (v_cell s))) (v_attrs s)))) l
                      (Some (mkvar (unset (v_cell s)) [])))
      else None
    | _, _ => None
    end
  | ADelete k => match the w k with Some _ => Some (None, put w k None) | None => None end
  | ASet k s =>
    match the w k with
    | Some v =>
      match run_setter op (v_cell v) s with
      | Done c => Some (None, put w k (Some (mkvar c (v_attrs v))))
      | Thrown e c => Some (Some e, put w k (Some (mkvar c (v_attrs v))))
      | Undef => None
      end
    | None => None
    end
  | ASeta k l =>
    match the w k, the w l with
    | Some v, Some a => Some (None, put w k (Some (var_seta v a)))
    | _, _ => None
    end
  | AUnseta k c => match the w k with Some v => Some (None, put w k (Some (var_unseta v c))) | None => None end
  | AClear k => match the w k with Some v => Some (None, put w k (Some (var_clear_attrs v))) | None => None end
  | ASetattrs k l =>
    match the w k, the w l with
    | Some v, Some s => Some (None, put w k (Some (mkvar (v_cell v) (if Nat.eqb k l then [] else v_attrs s))))
    | _, _ => None
    end
  end.

Fixpoint meanings (op : options) (l : list action) (w : world) : option world :=
  match l with
  | [] => Some w
  | x :: r => match meaning op x w with Some (_, w1) => meanings op r w1 | None => None end
  end.

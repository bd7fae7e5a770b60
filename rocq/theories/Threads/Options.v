(** Settings for a scope: options.h LocalOverride, notes.h Collect.  All these are thread_local: a thread has its own. *)
From Coq Require Import ZArith List.
From Verif Require Import Base Num.Float Varinfo.Model Var.Model.
Import ListNotations.
Local Open Scope Z_scope.


(** A value for one of the options. *)
Inductive setting : Type :=
| SSilent (b : bool) | SClamp (b : bool) | SHook (h : option (cell -> Z + f64 -> outcome cell)).
Definition assign_opt (a : setting) (o : options) : options :=
  match a with
  | SSilent b => mkopts b (o_clamp o) (o_hook o)
  | SClamp b => mkopts (o_silent o) b (o_hook o)
  | SHook h => mkopts (o_silent o) (o_clamp o) h
  end.
(** The value now of the option that a setting is for. *)
Definition old_value (a : setting) (o : options) : setting :=
  match a with
  | SSilent _ => SSilent (o_silent o)
  | SClamp _ => SClamp (o_clamp o)
  | SHook _ => SHook (o_hook o)
  end.

(** What code does with the library, as far as it matters here. *)
Inductive act : Type :=
| ASetI (x : nat) (v : Z)          (* Var::seti *)
| ASetD (x : nat) (v : f64)        (* Var::setd *)
| AAssign (a : setting)            (* options::... = ... *)
| ATarget (out : nat)              (* notes::set_target *)
| ANote (text : list Z)            (* notes::logf *)
| AThrow (e : err).

(** What a thread has: options.cc:6-13, the target of notes (notes.cc:19; None: null), its variables, and what was written on
    each stream.  [ts_seen] is not in the code: it lists what was done, with the options and the target at that time. *)
Record tstate : Type := mkts {
  ts_opts : options; ts_target : option nat; ts_vars : nat -> cell; ts_out : list (nat * list Z);
  ts_seen : list (act * options * option nat) }.

(** The statements of a block, in order.  Objects live until the end of the block. *)
Inductive block : Type :=
| End
| Do (a : act) (rest : block)
| Override (a : setting) (rest : block)                 (* auto o = options::local_override(option, value); *)
| Collect (out : nat) (rest : block)                    (* notes::Collect c(out); *)
| Inner (b : block) (rest : block)                      (* a block, or a call of a function *)
| Try (b : block) (handler : block) (rest : block).     (* catch (std::exception&) *)

Inductive exit : Type := Normal | Exception (e : err) | Undefined.

Definition with_opts (s : tstate) (o : options) : tstate := mkts o (ts_target s) (ts_vars s) (ts_out s) (ts_seen s).
Definition with_target (s : tstate) (t : option nat) : tstate := mkts (ts_opts s) t (ts_vars s) (ts_out s) (ts_seen s).
Definition with_var (s : tstate) (x : nat) (c : cell) : tstate :=
  mkts (ts_opts s) (ts_target s) (fun y => if Nat.eqb y x then c else ts_vars s y) (ts_out s) (ts_seen s).

Definition do_set (x : nat) (r : outcome cell) (s : tstate) : exit * tstate :=
  match r with
  | Done c => (Normal, with_var s x c)
  | Thrown e c => (Exception e, with_var s x c)
  | Undef => (Undefined, s)
  end.

Definition do_act (a : act) (s : tstate) : exit * tstate :=
  match a with
  | ASetI x v => do_set x (seti (ts_opts s) (ts_vars s x) v) s
  | ASetD x v => do_set x (setd (ts_opts s) (ts_vars s x) v) s
  | AAssign a => (Normal, with_opts s (assign_opt a (ts_opts s)))
  | ATarget out => (Normal, with_target s (Some out))
  (* notes.cc:54-70 *)
  | ANote text => (Normal, match ts_target s with
                           | None => s
                           | Some out => mkts (ts_opts s) (ts_target s) (ts_vars s) (ts_out s ++ [(out, text)]) (ts_seen s)
                           end)
  | AThrow e => (Exception e, s)
  end.

Definition note_act (a : act) (s : tstate) : tstate :=
  mkts (ts_opts s) (ts_target s) (ts_vars s) (ts_out s) (ts_seen s ++ [(a, ts_opts s, ts_target s)]).

(** Running a block.  Destructors run when control leaves the block, also with an exception.
    Override: options.h:85-96.  Collect: notes.h:55-65, where the destructor makes a reference from the old pointer, also if it is
    null.  The hooks and the handlers of exceptions that are here do not change the options. *)
Fixpoint run (b : block) (s : tstate) : exit * tstate :=
  match b with
  | End => (Normal, s)
  | Do a rest => let (r, s1) := do_act a (note_act a s) in match r with Normal => run rest s1 | _ => (r, s1) end
  | Override a rest =>
    let old := old_value a (ts_opts s) in
    let (r, s1) := run rest (with_opts s (assign_opt a (ts_opts s))) in
    match r with Undefined => (Undefined, s1) | _ => (r, with_opts s1 (assign_opt old (ts_opts s1))) end
  | Collect out rest =>
    let old := ts_target s in
    let (r, s1) := run rest (with_target s (Some out)) in
    match r, old with
    | Undefined, _ | _, None => (Undefined, s1)
    | _, Some t => (r, with_target s1 (Some t))
    end
  | Inner b rest => let (r, s1) := run b s in match r with Normal => run rest s1 | _ => (r, s1) end
  | Try b handler rest =>
    let (r, s1) := run b s in
    match r with
    | Normal => run rest s1
    | Undefined => (Undefined, s1)
    | Exception _ => let (r2, s2) := run handler s1 in match r2 with Normal => run rest s2 | _ => (r2, s2) end
    end
  end.

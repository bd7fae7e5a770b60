(** Conventions shared by the whole model: results of C++ calls, byte buffers,
    machine integers. *)
From Coq Require Export ZArith NArith List Bool Lia.
Export ListNotations.
Local Open Scope Z_scope.

(** Exception classes thrown by the library (wreport/error.h), plus [EFuel]
    (the model ran out of fuel: no C++ counterpart, it stands for
    "still running"). *)
Inductive err : Type :=
| EConsistency   (* error_consistency *)
| EParse         (* error_parse *)
| EDomain        (* error_domain *)
| ENotFound      (* error_notfound *)
| EType          (* error_type *)
| EUnimpl        (* error_unimplemented *)
| EEof           (* error_eof *)
| EAlloc         (* error_alloc / std::bad_alloc *)
| EFuel.

(** Result of a C++ call: normal return, exception, or undefined behaviour. *)
Inductive res (A : Type) : Type :=
| Ok (a : A)
| Err (e : err)
| UB.
Arguments Ok {A} a.
Arguments Err {A} e.
Arguments UB {A}.

Definition bind {A B} (m : res A) (k : A -> res B) : res B :=
  match m with Ok a => k a | Err e => Err e | UB => UB end.

Notation "x <- m ;; k" := (bind m (fun x => k))
  (at level 61, m at next level, right associativity).
Notation "' p <- m ;; k" := (bind m (fun p => k))
  (at level 61, p pattern, m at next level, right associativity).

Definition is_ok {A} (m : res A) : bool :=
  match m with Ok _ => true | _ => false end.

Definition get_ok {A} (d : A) (m : res A) : A :=
  match m with Ok a => a | _ => d end.

Lemma bind_ok {A B} (m : res A) (k : A -> res B) b :
  bind m k = Ok b -> exists a, m = Ok a /\ k a = Ok b.
Proof. destruct m; simpl; intros H; try discriminate. eauto. Qed.

Lemma bind_assoc {A B C} (m : res A) (f : A -> res B) (g : B -> res C) :
  bind (bind m f) g = bind m (fun a => bind (f a) g).
Proof. destruct m; reflexivity. Qed.

(** Some fields of a computed result (used by examples, to avoid normalising
    whole results). *)
Lemma res_view {A B} (m : res A) (f : A -> B) b :
  bind m (fun a => Ok (f a)) = Ok b -> exists a, m = Ok a /\ f a = b.
Proof. destruct m; simpl; intros H; try discriminate. injection H as <-. eauto. Qed.

(** Machine integers. *)
Definition u8 (z : Z) : Z := z mod 2 ^ 8.
Definition u16 (z : Z) : Z := z mod 2 ^ 16.
Definition u32 (z : Z) : Z := z mod 2 ^ 32.
Definition int_min : Z := - 2 ^ 31.
Definition int_max : Z := 2 ^ 31 - 1.
Definition in_int (z : Z) : bool := (int_min <=? z) && (z <=? int_max).
Definition in_u32 (z : Z) : bool := (0 <=? z) && (z <? 2 ^ 32).

Definition is_byte (b : Z) : Prop := 0 <= b < 256.

(** C library isspace/isdigit in the "C" locale, on bytes. *)
Definition c_isspace (c : Z) : bool := (c =? 32) || ((9 <=? c) && (c <=? 13)).
Definition c_isdigit (c : Z) : bool := (48 <=? c) && (c <=? 57).

(** Invert successful binds in hypotheses. *)
Ltac inv_bind H :=
  let a := fresh "a" in let H1 := fresh "Hb" in let H2 := fresh "Hk" in
  apply bind_ok in H; destruct H as [a [H1 H2]].

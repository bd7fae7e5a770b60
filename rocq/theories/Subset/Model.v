(** Subsets as the client builds and compares them: wreport/subset.cc.

    A subset is the list of its variables; the tables that it points to are given
    separately.  store_variable(Varcode, const Var&) is in Subset.Copy; printing is not modelled here. *)
From Coq Require Import String.
From Verif Require Import Base Num.Float Varcode.Model Varinfo.Model Tables.Model Var.Model Interp.Model Codec.Model.
Local Open Scope Z_scope.

(** store_variable(const Var&), store_variable(Var&&): subset.cc:30-38. *)
Definition store_variable (v : var) (vars : list var) : list var := vars ++ [v].

(** store_variable_i: subset.cc:46-50; _d: 52-56; _c: 58-62, on a NUL-terminated
    buffer; _undef: 64-73.  Nothing is stored when the constructor of Var throws. *)
Definition store_variable_i (o : options) (t : btable) (code val : Z) (vars : list var) : res (list var) :=
  i <- query t code ;; c <- of_outcome (seti o (fresh i) val) ;; Ok (store_variable (mkvar c []) vars).
Definition store_variable_d (o : options) (t : btable) (code : Z) (val : f64) (vars : list var) : res (list var) :=
  i <- query t code ;; c <- of_outcome (setd o (fresh i) val) ;; Ok (store_variable (mkvar c []) vars).
Definition store_variable_c (o : options) (t : btable) (code : Z) (val : list Z) (vars : list var) : res (list var) :=
  i <- query t code ;; c <- of_outcome (setc o (fresh i) val) ;; Ok (store_variable (mkvar c []) vars).
Definition store_variable_undef (t : btable) (code : Z) (vars : list var) : res (list var) :=
  i <- query t code ;; Ok (store_variable (mkvar (fresh i) []) vars).

(** append_c_with_dpb: subset.cc:74-83.  [chars] is the bitmap without its
    terminator. *)
Definition append_c_with_dpb (o : options) (lt : localtables) (ccode : Z) (chars : list Z) (vars : list var)
  : res (list var * localtables) :=
  ' (i, lt') <- get_bitmap lt ccode chars ;;
  c <- of_outcome (setc o (fresh i) (chars ++ [0])) ;;
  Ok (store_variable (mkvar c []) vars, lt').

(** The loop of append_dpb: subset.cc:91-105.  [vars] are the variables from [src] on,
    [n] is what is left of [size].  When the variables run out, either the inner loop
    leaves [src] at the end and the variable there is read, or the rest of the bitmap is
    left uninitialised: both are undefined. *)
Fixpoint dpb_chars (attr : Z) (n : nat) (vars : list var) : res (list Z) :=
  match n with
  | O => Ok []
  | S k =>
    (fix skip (vs : list var) : res (list Z) :=
       match vs with
       | [] => UB
       | v :: rest =>
         if negb (var_f (c_code (v_cell v)) =? 0) then skip rest
         else
           cs <- dpb_chars attr k rest ;;
           Ok ((match var_enqa v attr with None => 45 | Some _ => 43 end) :: cs)
       end) vars
  end.

Definition count_plus (chars : list Z) : nat := length (filter (Z.eqb 43) chars).

(** append_dpb: subset.cc:85-113.  [count] is incremented at each '+' that is written. *)
Definition append_dpb (o : options) (lt : localtables) (ccode : Z) (size : nat) (attr : Z) (vars : list var)
  : res (nat * list var * localtables) :=
  chars <- dpb_chars attr size vars ;;
  ' (vars', lt') <- append_c_with_dpb o lt ccode chars vars ;;
  Ok (count_plus chars, vars', lt').

(** append_fixed_dpb: subset.cc:115-123.  A negative size is not modelled. *)
Definition append_fixed_dpb (o : options) (lt : localtables) (ccode : Z) (size : nat) (vars : list var)
  : res (list var * localtables) :=
  append_c_with_dpb o lt ccode (repeat 43 size) vars.

(** Subset::diff: subset.cc:134-158, on subsets with the same table B path: the number
    of differences of the first pair of variables that differ. *)
Fixpoint diff_vars (a b : list var) : res Z :=
  match a, b with
  | x :: a', y :: b' => d <- var_diff x y ;; if 0 <? d then Ok d else diff_vars a' b'
  | _, _ => Ok 0
  end.
Definition subset_diff (path1 path2 : string) (a b : list var) : res Z :=
  if negb (String.eqb path1 path2) then Ok 1
  else if negb (Nat.eqb (length a) (length b)) then Ok 1
  else diff_vars a b.

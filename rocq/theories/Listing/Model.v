(** Interpreters that do not read or write data: the listing of a template
    (bulletin/interpreter.cc, class Printer; Bulletin::print_datadesc), the scan of
    its features (bulletin/dds-scanfeatures.cc) and the printout of a message along
    its template (bulletin/dds-printer.cc; Bulletin::print_structured). *)
From Coq Require Import String Ascii.
From Verif Require Import Base Varcode.Model Varinfo.Model Var.Model Var.Spec Tables.Model Tables.Spec Interp.Model
  Subset.Model Codec.Model.
Local Open Scope Z_scope.

(** The methods of Interpreter that these classes override, beyond those of
    [visitor]: interpreter.h:120-165. *)
Record walker (S : Type) : Type := mkwalker {
  w_visitor : visitor S;
  w_element : Z -> istate * S -> res (istate * S);                    (* b_variable *)
  w_operator : Z -> list Z -> S -> S;                                 (* before Interpreter::c_modifier *)
  w_repeat : (istate * S -> res (istate * S)) -> Z -> Z -> istate * S -> res (istate * S);  (* r_replication *)
  w_bitmap : Z -> Z -> list Z -> istate * S -> res (istate * S);      (* r_bitmap *)
  w_enter : Z -> S -> S;                                              (* run_d_expansion, before run() *)
  w_leave : S -> S }.                                                 (* run_d_expansion, after run() *)
Arguments mkwalker {S}. Arguments w_visitor {S}. Arguments w_element {S}. Arguments w_operator {S}.
Arguments w_repeat {S}. Arguments w_bitmap {S}. Arguments w_enter {S}. Arguments w_leave {S}.

Definition on_snd {A B} (f : B -> B) (x : A * B) : A * B := (fst x, f (snd x)).

(** Interpreter::run with those methods: interpreter.cc:28-78. *)
Section Walk.
Context {S : Type} (W : walker S) (T : tables).

Fixpoint walk (fuel : nat) (ops : list Z) (x : istate * S) : res (istate * S) :=
  match fuel with
  | O => Err EFuel
  | Datatypes.S k =>
    match ops with
    | [] => Ok x
    | cur :: rest =>
      let f := var_f cur in
      if f =? 0 then x' <- w_element W cur x ;; walk k rest x'
      else if f =? 1 then
        let (delayed, rest1) := delayed_code cur rest in
        let n := Z.to_nat (var_x cur) in
        if Nat.ltb (length rest1) n then Err EConsistency
        else
          let ops' := firstn n rest1 in
          x' <- (if is_pending (fst x) =? 0 then w_repeat W (walk k ops') cur delayed x
                 else w_bitmap W cur delayed ops' x) ;;
          walk k (skipn n rest1) x'
      else if f =? 2 then
        ' (rest', st', s') <- c_modifier (w_visitor W) T cur rest (on_snd (w_operator W cur rest) x) ;;
        walk k rest' (st', s')
      else
        body <- dexpand (tb_d T) cur ;;
        x' <- walk k body (on_snd (w_enter W cur) x) ;; walk k rest (on_snd (w_leave W) x')
    end
  end.
End Walk.

(** The methods that are not overridden: interpreter.cc:499-545. *)
Definition unimplemented {A} : res A := Err EUnimpl.

(** r_bitmap with a define_bitmap that does nothing, so that no bitmap is active
    afterwards: interpreter.cc:466-487, 697-699, dds-scanfeatures.cc:45-47. *)
Definition r_bitmap_ignored {S} (V : visitor S) (T : tables) (code delayed : Z) (ops : list Z) (x : istate * S)
  : res (istate * S) :=
  let (st, s) := x in
  if negb (var_x code =? 1) then Err EConsistency
  else if negb (hd 0 ops =? var_B31031) then Err EConsistency
  else
    ' (_, s1) <- (if var_y code =? 0 then
                    info <- query (tb_b T) delayed ;; on_bitmap_factor V info s
                  else Ok (var_y code, s)) ;;
    Ok (with_pending st 0, s1).

(** ** Text *)

Definition chars (s : string) : list Z := map (fun a => Z.of_N (N_of_ascii a)) (list_ascii_of_string s).

(** "%d" for numbers between -999 and 999. *)
Definition small (n : Z) : list Z :=
  let m := Z.abs n in
  (if n <? 0 then [45] else []) ++
  (if m <? 10 then [48 + m] else if m <? 100 then [48 + m / 10; 48 + m mod 10]
   else [48 + m / 100; 48 + (m / 10) mod 10; 48 + m mod 10]).

(** "%d%02d%03d" of a descriptor. *)
Definition fxy (c : Z) : list Z := (48 + var_f c) :: tl (varcode_format c).

(** print_c_modifier: interpreter.cc:547-617. *)
Definition operator_text (code : Z) (next : list Z) : list Z :=
  let y := var_y code in
  let x := var_x code in
  let change := small (if y =? 0 then 0 else y - 128) in
  let nl := [10] in
  if x =? 1 then chars "change data width to " ++ change ++ nl
  else if x =? 2 then chars "change data scale to " ++ change ++ nl
  else if x =? 4 then small y ++ chars " bits of associated field" ++ nl
  else if x =? 5 then chars "character data" ++ nl
  else if x =? 6 then
    match next with
    | [] => chars "local descriptor (unknown) " ++ small y ++ chars " bits long" ++ nl
    | a :: _ => chars "local descriptor " ++ fxy a ++ chars " " ++ small y ++ chars " bits long" ++ nl
    end
  else if x =? 7 then chars "change data scale, reference value and data width by " ++ small y ++ nl
  else if x =? 8 then chars "change width of string fields to " ++ small y ++ nl
  else if x =? 22 then chars "quality information with bitmap" ++ nl
  else if x =? 23 then
    if y =? 0 then chars "substituted values bitmap" ++ nl
    else if y =? 255 then chars "one substituted value" ++ nl
    else chars "C modifier " ++ fxy code ++ chars " not yet supported"
  else if x =? 36 then chars "define data present bitmap for reuse" ++ nl
  else if x =? 37 then
    if y =? 0 then chars "reuse last data present bitmap" ++ nl
    else if y =? 255 then chars "cancel reuse of the last defined bitmap" ++ nl
    else chars "C modifier " ++ fxy code ++ chars " uses unsupported y=" ++ tl (tl (tl (varcode_format code)))
  else chars "(C modifier)" ++ nl.

(** ** Printer: interpreter.cc:620-710

    [describe] gives the description and the unit that table B has for an element
    ("desc[unit]"), [path] is the pathname of table B. *)
Section Printer.
Context (T : tables) (describe : Z -> list Z) (path : list Z).

Record pr : Type := mkpr { pr_indent : nat; pr_out : list Z; pr_lt : localtables }.

Definition put (t : list Z) (s : pr) : pr := mkpr (pr_indent s) (pr_out s ++ t) (pr_lt s).

(** print_lead: 625-629. *)
Definition lead (code : Z) (s : pr) : pr := put (repeat 32 (pr_indent s) ++ fxy code) s.

Definition deeper (s : pr) : pr := mkpr (pr_indent s + 2) (pr_out s) (pr_lt s).
Definition shallower (s : pr) : pr := mkpr (pr_indent s - 2) (pr_out s) (pr_lt s).

(** define_associated_field_significance: 701-706. *)
Definition p_significance (i : varinfo) (s : pr) : res (Z * pr) :=
  Ok (63, put (chars " " ++ describe (vi_code i) ++ [10]) (lead (vi_code i) s)).

(** 208-220 and 689-710.  The factor of an ordinary replication is never asked for. *)
Definition printer : visitor pr :=
  {| on_var _ s := Ok s;
     on_var_af _ _ _ s := Ok s;
     on_factor _ _ := unimplemented;
     on_bitmap_factor _ s := Ok (0, s);
     on_significance := p_significance;
     on_subst _ _ := unimplemented;
     on_attr _ _ _ := unimplemented;
     on_raw _ _ := unimplemented;
     on_refval _ _ _ := unimplemented;
     on_bitmap _ _ s := Ok ([], [], s);
     on_unknown c b s := ' (i, lt) <- get_unknown (pr_lt s) c b ;; Ok (i, mkpr (pr_indent s) (pr_out s) lt) |}.

(** b_variable: 631-645. *)
Definition p_element (code : Z) (x : istate * pr) : res (istate * pr) :=
  known <- contains (tb_b T) code ;;
  t <- (if known : bool then _ <- query (tb_b T) code ;; Ok (chars " " ++ describe code)
        else Ok (chars " (missing in B table " ++ path ++ chars ")")) ;;
  Ok (on_snd (fun s => put (t ++ [10]) (lead code s)) x).

(** c_modifier: 647-652. *)
Definition p_operator (code : Z) (next : list Z) (s : pr) : pr :=
  put (operator_text code next) (put (chars " ") (lead code s)).

(** r_replication: 654-671. *)
Definition repeat_text (code delayed : Z) : list Z :=
  chars " replicate " ++ small (var_x code) ++ chars " descriptors" ++
  (if var_y code =? 0 then chars " (delayed " ++ fxy delayed ++ chars ") times" ++ [10]
   else chars " " ++ small (var_y code) ++ chars " times" ++ [10]).
Definition p_repeat (body : istate * pr -> res (istate * pr)) (code delayed : Z) (x : istate * pr)
  : res (istate * pr) :=
  x' <- body (on_snd (fun s => deeper (put (repeat_text code delayed) (lead code s))) x) ;;
  Ok (on_snd shallower x').

(** run_d_expansion: 673-680. *)
Definition p_enter (code : Z) (s : pr) : pr := deeper (put (chars " (group)" ++ [10]) (lead code s)).

Definition lister : walker pr :=
  mkwalker printer p_element p_operator p_repeat (r_bitmap_ignored printer T) p_enter shallower.

(** Bulletin::print_datadesc: bulletin.cc:145-151. *)
Definition print_datadesc (fuel : nat) (lt : localtables) (ops : list Z) (indent : nat) : res (list Z) :=
  ' (_, s) <- walk lister T fuel ops (ist_init, mkpr indent [] lt) ;; Ok (pr_out s).
End Printer.

(** ** ScanFeatures: dds-scanfeatures.cc *)

(** operator< of std::string. *)
Fixpoint text_ltb (a b : list Z) : bool :=
  match a, b with
  | [], [] => false
  | [], _ :: _ => true
  | _ :: _, [] => false
  | x :: a', y :: b' => (x <? y) || (x =? y) && text_ltb a' b'
  end.

(** std::set<std::string>::insert: the elements are kept in order. *)
Fixpoint set_insert (t : list Z) (l : list (list Z)) : list (list Z) :=
  match l with
  | [] => [t]
  | u :: r => if text_ltb t u then t :: u :: r else if text_ltb u t then u :: set_insert t r else u :: r
  end.

Record sc : Type := mksc { sc_features : list (list Z); sc_lt : localtables }.
Definition found (t : list Z) (s : sc) : sc := mksc (set_insert t (sc_features s)) (sc_lt s).

(** 41-58; the other methods are those of Interpreter. *)
Definition scanning : visitor sc :=
  {| on_var _ s := Ok s;
     on_var_af _ _ _ _ := unimplemented;
     on_factor _ _ := unimplemented;
     on_bitmap_factor _ s := Ok (0, s);
     on_significance _ s := Ok (63, s);
     on_subst _ _ := unimplemented;
     on_attr _ _ _ := unimplemented;
     on_raw _ _ := unimplemented;
     on_refval _ _ _ := unimplemented;
     on_bitmap _ _ s := Ok ([], [], s);
     on_unknown c b s := ' (i, lt) <- get_unknown (sc_lt s) c b ;; Ok (i, mksc (sc_features s) lt) |}.

(** c_modifier: 11-26. *)
Definition s_operator (code : Z) (next : list Z) (s : sc) : sc :=
  found (varcode_format code ++
         (if var_x code =? 6 then match next with [] => [] | a :: _ => chars ":" ++ varcode_format a end else [])) s.

(** r_replication: 28-37. *)
Definition s_repeat (body : istate * sc -> res (istate * sc)) (code delayed : Z) (x : istate * sc)
  : res (istate * sc) :=
  body (on_snd (found (if delayed =? 0 then chars "Rxxyyy" else chars "Rxx000:" ++ varcode_format delayed)) x).

Definition scanner (T : tables) : walker sc :=
  mkwalker scanning (b_variable scanning T) s_operator s_repeat (r_bitmap_ignored scanning T)
    (fun _ s => s) (fun s => s).

(** ScanFeatures::run, as in src/output.cc:129-146. *)
Definition scan_features (T : tables) (fuel : nat) (lt : localtables) (ops : list Z) : res (list (list Z)) :=
  ' (_, s) <- walk (scanner T) T fuel ops (ist_init, mksc [] lt) ;; Ok (sc_features s).

(** Printing of a message along its template: bulletin/dds-printer.cc (DDSPrinter),
    Bulletin::print_structured (bulletin.cc:119-143). *)
From Coq Require Import String.
From Verif Require Import Base Num.Float Varcode.Model Varinfo.Model Tables.Model Var.Model Var.FormatSpec Var.Format
  Interp.Model Codec.Model Listing.Model.
Local Open Scope Z_scope.

(** What is printed after the context.  An attribute comes with those after it in the
    list of attributes of its variable, since Var::print goes on along the list. *)
Inductive content : Type :=
| PVar (v : var)               (* a variable of the subset, with its attributes *)
| PMade (c : cell)             (* a variable made on the spot *)
| PAttr (a : option var)       (* "(attr)", then the attribute if there is one *)
| PField (a : var)             (* the attribute of an associated field *)
| PNoField (significance : Z). (* an associated field that is not there *)

(** Var::enqa: var.cc:625-631, as a pointer into the list of attributes. *)
Fixpoint enqa_on (code : Z) (l : list cell) : option var :=
  match l with
  | [] => None
  | a :: l' => if c_code a <=? code then
                 if c_code a =? code then Some (mkvar a l') else enqa_on code l'
               else None
  end.

(** A call of print_context and what follows it. *)
Record entry : Type := mkentry { en_pos : nat; en_path : list Z; en_code : Z; en_what : content }.

Section Text.
(** [fixed] is what the C library prints for "%.*f", [desc] the description of a definition
    (at most 64 characters of it). *)
Context (fixed : nat -> f64 -> list Z) (desc : varinfo -> list Z).

(** "%2u". *)
Definition two (n : nat) : list Z := let d := digits (Z.of_nat n) in repeat 32 (2 - length d) ++ d.

(** print_context: dds-printer.cc:15-28. *)
Definition context_text (sub : nat) (e : entry) : list Z :=
  two sub ++ [46] ++ two (en_pos e) ++ [32] ++ flat_map (fun c => fxy c ++ [47]) (en_path e) ++ fxy (en_code e) ++ [58; 32].

(** Var::print_without_attrs: var.cc:771-781. *)
Definition cell_text (c : cell) : res (list Z) :=
  v <- format_file fixed c (chars "(undef)") ;;
  Ok (fxy (c_code c) ++ [32] ++ desc (c_info c) ++ [40] ++ chars (vi_unit (c_info c)) ++ chars "): " ++ v ++ [10]).

(** Var::print: var.cc:792-802. *)
Fixpoint attrs_text (l : list cell) : res (list Z) :=
  match l with
  | [] => Ok []
  | a :: r => t <- cell_text a ;; u <- attrs_text r ;; Ok (repeat 32 11 ++ t ++ u)
  end.
Definition var_text (v : var) : res (list Z) :=
  t <- cell_text (v_cell v) ;; u <- attrs_text (v_attrs v) ;; Ok (t ++ u).

(** No newline follows an attribute or a field that is not there. *)
Definition content_text (w : content) : res (list Z) :=
  match w with
  | PVar v => var_text v
  | PMade c => cell_text c
  | PAttr (Some a) => t <- var_text a ;; Ok (chars "(attr)" ++ t)
  | PAttr None => Ok (chars "(attr)(undef)")
  | PField a => var_text a
  | PNoField sig => Ok (chars "associated field with significance " ++ digits sig ++ chars " is not present")
  end.
Definition entry_text (sub : nat) (e : entry) : res (list Z) :=
  t <- content_text (en_what e) ;; Ok (context_text sub e ++ t).

(** ** DDSPrinter *)

(** The position in the subset, the stack of descriptors, what was printed (the text is
    that of the entries), the tables of the message. *)
Record sp : Type := mksp { sp_pos : nat; sp_path : list Z; sp_out : list entry; sp_lt : localtables }.

Section Printer.
Context (o : options) (T : tables) (vars : list var) (sub : nat).

Definition show (pos : nat) (code : Z) (w : content) (s : sp) : res sp :=
  let e := mkentry pos (sp_path s) code w in
  _ <- entry_text sub e ;; Ok (mksp (sp_pos s) (sp_path s) (sp_out s ++ [e]) (sp_lt s)).

(** get_var: internals.cc:39-50. *)
Definition sp_next (s : sp) : res (var * sp) :=
  v <- get_var vars (sp_pos s) ;; Ok (v, mksp (S (sp_pos s)) (sp_path s) (sp_out s) (sp_lt s)).

(** encode_var: dds-printer.cc:70-74, after get_var. *)
Definition sp_encode (i : varinfo) (v : var) (s : sp) : res sp := show (sp_pos s) (vi_code i) (PVar v) s.

(** define_variable: internals.cc:70-73. *)
Definition sp_var (i : varinfo) (s : sp) : res sp := ' (v, s1) <- sp_next s ;; sp_encode i v s1.

(** encode_associated_field: dds-printer.cc:58-68, associated_fields.cc:116-163; the code is that of the definition of the variable. *)
Definition sp_field (sig : Z) (v : var) (s : sp) : res sp :=
  oc <- af_code sig ;;
  show (sp_pos s) (c_code (v_cell v))
    (match oc with
     | None => PNoField sig
     | Some code => match enqa_on code (v_attrs v) with Some a => PField a | None => PNoField sig end
     end) s.

(** define_variable_with_associated_field: internals.cc:75-80. *)
Definition sp_var_af (bits sig : Z) (i : varinfo) (s : sp) : res sp :=
  ' (v, s1) <- sp_next s ;; s2 <- sp_field sig v s1 ;; sp_encode i v s2.

(** define_delayed_replication_factor, define_associated_field_significance: internals.cc:82-94. *)
Definition sp_factor (i : varinfo) (s : sp) : res (Z * sp) :=
  ' (v, s1) <- sp_next s ;; s2 <- sp_encode i v s1 ;; n <- enqi (v_cell v) ;; Ok (u32 n, s2).
Definition sp_significance (i : varinfo) (s : sp) : res (Z * sp) :=
  ' (v, s1) <- sp_next s ;; s2 <- sp_encode i v s1 ;;
  n <- (if isset (v_cell v) then enqi (v_cell v) else Ok 63) ;; Ok (u32 n, s2).

(** define_bitmap_delayed_replication_factor: internals.cc:96-102. *)
Definition sp_bitmap_factor (i : varinfo) (s : sp) : res (Z * sp) :=
  v <- get_var vars (sp_pos s) ;;
  let len := vi_len (c_info (v_cell v)) in
  c <- of_outcome (seti o (fresh i) (wrap_int len)) ;;
  s1 <- show (sp_pos s) (vi_code i) (PMade c) s ;; Ok (len, s1).

(** print_attr, define_attribute: dds-printer.cc:46-56, 105-108. *)
Definition sp_attr (i : varinfo) (pos : nat) (s : sp) : res sp :=
  v <- get_var vars pos ;; show pos (vi_code i) (PAttr (enqa_on (vi_code i) (v_attrs v))) s.

(** define_substituted_value: dds-printer.cc:98-103. *)
Definition sp_subst (pos : nat) (s : sp) : res sp :=
  match nth_error vars pos with
  | None => UB
  | Some v => sp_attr (c_info (v_cell v)) pos s
  end.

(** define_raw_character_data: dds-printer.cc:90-96; print_context comes before get_var,
    which makes a difference only if get_var throws. *)
Definition sp_raw (code : Z) (s : sp) : res sp := ' (v, s1) <- sp_next s ;; show 0 code (PVar v) s1.

(** define_bitmap: dds-printer.cc:76-88, internals.cc:52-59; bitmaps.cc:13-20: the length is that of
    the definition of the variable.  The bitmap is printed after Bitmaps::define, which makes a difference
    only if that throws. *)
Definition sp_bitmap (pending size : Z) (s : sp) : res (list Z * list Z * sp) :=
  ' (v, s1) <- sp_next s ;;
  if negb (var_f (c_code (v_cell v)) =? 2) then Err EConsistency
  else
    bits <- (if vi_len (c_info (v_cell v)) =? 0 then Ok [] else bitmap_chars (v_cell v)) ;;
    s2 <- show 0 (c_code (v_cell v)) (PVar v) s1 ;;
    Ok (codes_of (firstn (sp_pos s1) vars), bits, s2).

Definition sp_unknown (code bits : Z) (s : sp) : res (varinfo * sp) :=
  ' (i, lt) <- get_unknown (sp_lt s) code bits ;; Ok (i, mksp (sp_pos s) (sp_path s) (sp_out s) lt).

(** define_c03_refval_override is not overridden. *)
Definition sp_visitor : visitor sp :=
  mkvisitor sp_var sp_var_af sp_factor sp_bitmap_factor sp_significance sp_subst sp_attr sp_raw
    (fun _ _ _ => unimplemented) sp_bitmap sp_unknown.

(** run_d_expansion, r_replication: dds-printer.cc:30-44. *)
Definition into (code : Z) (s : sp) : sp := mksp (sp_pos s) (sp_path s ++ [code]) (sp_out s) (sp_lt s).
Definition out_of (s : sp) : sp := mksp (sp_pos s) (removelast (sp_path s)) (sp_out s) (sp_lt s).
Definition sp_repeat (body : istate * sp -> res (istate * sp)) (code delayed : Z) (x : istate * sp) : res (istate * sp) :=
  x' <- r_replication sp_visitor T body code delayed (on_snd (into code) x) ;; Ok (on_snd out_of x').

Definition structured_walker : walker sp :=
  mkwalker sp_visitor (b_variable sp_visitor T) (fun _ _ s => s) sp_repeat (r_bitmap sp_visitor T) into out_of.
End Printer.

(** The loop over the subsets: bulletin.cc:138-142. *)
Fixpoint print_subsets (o : options) (T : tables) (fuel : nat) (ops : list Z) (sub : nat) (subsets : list (list var)) (lt : localtables)
  : res (list (list entry) * localtables) :=
  match subsets with
  | [] => Ok ([], lt)
  | vars :: rest =>
    ' (_, s) <- walk (structured_walker o T vars sub) T fuel ops (ist_init, mksp 0 [] [] lt) ;;
    ' (es, lt') <- print_subsets o T fuel ops (S sub) rest (sp_lt s) ;;
    Ok (sp_out s :: es, lt')
  end.
End Text.

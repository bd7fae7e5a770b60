(** Decoding that tells what it does: VerboseDataSectionDecoder (bufr/decoder.h:185-228, bufr/decoder.cc:636-762),
    print_last_variable_added and print_last_attribute_added of the two targets (decoder.cc:386-398, 534-554) and
    BufrBulletin::decode_verbose (bulletin.cc:390-400). *)
From Coq Require Import String.
From Verif Require Import Base Bits.Model Num.Float Varcode.Model Varinfo.Model Tables.Model Var.Model Var.FormatSpec Var.Format
  Interp.Model Codec.Model Codec.Compressed Message.Model Listing.Model.
Local Open Scope Z_scope.

(** The state of the decoder, the indentation and what has been written. *)
Record telling (S : Type) : Type := mktelling { te_indent : nat; te_out : list Z; te_s : S }.
Arguments mktelling {S}. Arguments te_indent {S}. Arguments te_out {S}. Arguments te_s {S}.

Section Verbose.
(** [fixed] is what the C library prints for "%.*f", [full] the description of a definition, [path] the pathname of
    table B. *)
Context (fixed : nat -> f64 -> list Z) (full : varinfo -> list Z) (path : list Z).

(** What the decoder asks to a target after an element or an attribute. *)
Record target (S : Type) : Type := mktarget {
  tg_visitor : visitor S;
  tg_last : S -> res (list Z);                  (* print_last_variable_added *)
  tg_info : nat -> S -> res varinfo;            (* lookup_info *)
  tg_attr : Z -> nat -> S -> res (list Z) }.    (* print_last_attribute_added *)
Arguments tg_visitor {S}. Arguments tg_last {S}. Arguments tg_info {S}. Arguments tg_attr {S}.

(** Var::format(FILE*, "-"). *)
Definition dashed (c : cell) : res (list Z) := format_file fixed c (chars "-").
(** std::vector::back. *)
Definition last_text (vars : list var) : res (list Z) :=
  match rev vars with [] => UB | v :: _ => dashed (v_cell v) end.
(** operator[] of std::vector. *)
Definition var_at (vars : list var) (pos : nat) : res var := match nth_error vars pos with None => UB | Some v => Ok v end.
Definition attr_text (code : Z) (pos : nat) (vars : list var) : res (list Z) :=
  v <- var_at vars pos ;;
  match enqa code (v_attrs v) with Some a => dashed a | None => Ok (chars "-") end.
(** The same for each subset, with a space after it: decoder.cc:534-554. *)
Fixpoint each (f : list var -> res (list Z)) (subs : list (list var)) : res (list Z) :=
  match subs with
  | [] => Ok []
  | vars :: r => t <- f vars ;; u <- each f r ;; Ok (t ++ [32] ++ u)
  end.

(** decoder.cc:266-269, 386-398. *)
Definition one_by_one (o : options) (T : tables) (skip : bool) : target dec :=
  mktarget dec (decoder o T skip) (fun s => last_text (d_vars s)) (fun pos s => v <- var_at (d_vars s) pos ;; Ok (c_info (v_cell v)))
    (fun code pos s => attr_text code pos (d_vars s)).
(** decoder.cc:412-415, 534-554. *)
Definition together (o : options) (T : tables) (skip : bool) : target cdec :=
  mktarget cdec (cdecoder o T skip) (fun s => each last_text (k_subs s))
    (fun pos s => match k_subs s with [] => Err ENotFound | vars :: _ => v <- var_at vars pos ;; Ok (c_info (v_cell v)) end)
    (fun code pos s => each (attr_text code pos) (k_subs s)).

Section Target.
Context {S : Type} (G : target S) (T : tables).
Let V := tg_visitor G.

Definition with_s (s : S) (w : telling S) : telling S := mktelling (te_indent w) (te_out w) s.
Definition say (t : list Z) (w : telling S) : telling S := mktelling (te_indent w) (te_out w ++ t) (te_s w).
Definition inner (w : telling S) : telling S := mktelling (te_indent w + 2) (te_out w) (te_s w).
Definition outer (w : telling S) : telling S := mktelling (te_indent w - 2) (te_out w) (te_s w).

(** print_lead: 641-645. *)
Definition say_lead (code : Z) (w : telling S) : telling S := say (repeat 32 (te_indent w) ++ fxy code ++ [32]) w.
(** print_lead_continued: 647-650. *)
Definition say_continued (w : telling S) : telling S := say (repeat 32 (te_indent w) ++ repeat 32 7) w.

(** The methods that write nothing: 707-716, 724-728, 741-745, 753-762. *)
Definition quietly (f : S -> res S) (w : telling S) : res (telling S) := s <- f (te_s w) ;; Ok (with_s s w).
Definition quietly2 {X} (f : S -> res (X * S)) (w : telling S) : res (X * telling S) := ' (x, s) <- f (te_s w) ;; Ok (x, with_s s w).

(** define_variable: 746-752. *)
Definition v_var (i : varinfo) (w : telling S) : res (telling S) :=
  s <- on_var V i (te_s w) ;;
  t <- tg_last G s ;;
  Ok (say (t ++ [10]) (say_continued (with_s s w))).

(** define_delayed_replication_factor: 700-706. *)
Definition v_factor (i : varinfo) (w : telling S) : res (Z * telling S) :=
  ' (n, s) <- on_factor V i (te_s w) ;;
  Ok (n, say (chars "delayed replication factor: " ++ digits n ++ [10]) (say_continued (with_s s w))).

(** define_c03_refval_override: 718-722; "%u" of an int. *)
Definition v_refval (bits code : Z) (w : telling S) : res (Z * telling S) :=
  ' (r, s) <- on_refval V bits code (te_s w) ;;
  Ok (r, say (chars "C03 reference value override for " ++ fxy code ++ chars ": " ++ digits (u32 r) ++ [10]) (with_s s w)).

(** define_attribute: 729-740. *)
Definition v_attr (i : varinfo) (pos : nat) (w : telling S) : res (telling S) :=
  s <- on_attr V i pos (te_s w) ;;
  j <- tg_info G pos s ;;
  t <- tg_attr G (vi_code i) pos s ;;
  Ok (say (t ++ [10]) (say_continued
     (say (chars "at position " ++ digits (Z.of_nat pos) ++ chars ": " ++ fxy (vi_code j) ++ [32] ++ full j ++ [10]) (say_continued
     (say (chars "attribute " ++ fxy (vi_code i) ++ [32] ++ full i ++ [10]) (say_continued (with_s s w))))))).

Definition teller : visitor (telling S) :=
  {| on_var := v_var;
     on_var_af bits sig i := quietly (on_var_af V bits sig i);
     on_factor := v_factor;
     on_bitmap_factor i := quietly2 (on_bitmap_factor V i);
     on_significance i := quietly2 (on_significance V i);
     on_subst pos := quietly (on_subst V pos);
     on_attr := v_attr;
     on_raw code := quietly (on_raw V code);
     on_refval := v_refval;
     on_bitmap pending size := quietly2 (on_bitmap V pending size);
     on_unknown code bits := quietly2 (on_unknown V code bits) |}.

(** b_variable: 652-666. *)
Definition v_element (code : Z) (x : istate * telling S) : res (istate * telling S) :=
  known <- contains (tb_b T) code ;;
  t <- (if known : bool then i <- query (tb_b T) code ;; Ok (full i ++ chars "[" ++ chars (vi_unit i) ++ chars "]")
        else Ok (chars "(missing in B table " ++ path ++ chars ")")) ;;
  b_variable teller T code (on_snd (fun w => say (t ++ [10]) (say_lead code w)) x).

(** c_modifier: 668-673. *)
Definition v_operator (code : Z) (next : list Z) (w : telling S) : telling S := say (operator_text code next) (say_lead code w).

(** r_replication: 675-689. *)
Definition times_text (code delayed : Z) : list Z :=
  chars "replicate " ++ small (var_x code) ++ chars " descriptors" ++
  (if var_y code =? 0 then chars " (delayed " ++ fxy delayed ++ chars ") times" ++ [10]
   else chars " " ++ small (var_y code) ++ chars " times" ++ [10]).
Definition v_repeat (body : istate * telling S -> res (istate * telling S)) (code delayed : Z) (x : istate * telling S)
  : res (istate * telling S) :=
  x' <- r_replication teller T body code delayed (on_snd (fun w => inner (say (times_text code delayed) (say_lead code w))) x) ;;
  Ok (on_snd outer x').

(** run_d_expansion: 691-698. *)
Definition v_enter (code : Z) (w : telling S) : telling S := inner (say (chars " (group)" ++ [10]) (say_lead code w)).

Definition narrator : walker (telling S) :=
  mkwalker teller v_element v_operator v_repeat (r_bitmap teller T) v_enter outer.

(** One run of the template, with a new decoder. *)
Definition tell (fuel : nat) (ops : list Z) (s : S) : res (list Z * S) :=
  ' (_, w) <- walk narrator T fuel ops (ist_init, mktelling 0 [] s) ;; Ok (te_out w, te_s w).
End Target.

(** Decoder::decode_data, with verbose_output set: decoder.cc:201-225. *)
Fixpoint tell_subsets (o : options) (T : tables) (skip : bool) (fuel : nat) (ops : list Z) (n : nat)
  (lt : localtables) (inp : input) : res (list (list var) * localtables * input * list Z) :=
  match n with
  | O => Ok ([], lt, inp, [])
  | S k =>
    ' (t, s) <- tell (one_by_one o T skip) T fuel ops (mkdec inp [] lt) ;;
    ' (rest, lt', inp', u) <- tell_subsets o T skip fuel ops k (d_lt s) (d_in s) ;;
    Ok (d_vars s :: rest, lt', inp', t ++ u)
  end.
Definition tell_compressed (o : options) (T : tables) (skip : bool) (fuel : nat) (ops : list Z) (n : nat)
  (lt : localtables) (inp : input) : res (list (list var) * localtables * input * list Z) :=
  ' (t, s) <- tell (together o T skip) T fuel ops (mkcdec inp (repeat [] n) lt) ;;
  Ok (k_subs s, k_lt s, k_in s, t).
Definition tell_data (opt : options) (T : tables) (skip : bool) (fuel : nat) (d : list Z) (l : Message.Model.lead)
  : res (list (list var) * localtables * list Z) :=
  let se := l_sections l in
  let start := mkin d (s4 se + 4) 0 0 in
  if l_expected l =? 0 then Err EAlloc
  else
  let n := Z.to_nat (l_expected l) in
  ' (subsets, lt, _, t) <-
    (if l_compression l then tell_compressed opt T skip fuel (l_datadesc l) n empty_local start
     else tell_subsets opt T skip fuel (l_datadesc l) n empty_local start) ;;
  if Nat.ltb (length d) (s5 se + 4) then Err EParse
  else
  ok <- zlist_is d (s5 se) [55; 55; 55; 55] ;;
  if negb ok then Err EParse else Ok (subsets, lt, t).

(** BufrBulletin::decode_verbose: bulletin.cc:390-400.  Only what is written by a decoding that succeeds is modelled. *)
Definition decode_verbose (opt : options) (load : tableid -> res tables) (skip : bool) (fuel : nat) (d : list Z)
  : res (bulletin * tables * list nat * list Z) :=
  l <- decode_lead d ;;
  T <- load (tableid_of (l_header l)) ;;
  ' (subsets, _, t) <- tell_data opt T skip fuel d l ;;
  let se := l_sections l in
  Ok (mkbulletin (l_header l) (l_optional l) (l_compression l) (l_datadesc l) subsets, T,
      [s1 se; s2 se; s3 se; s4 se; s5 se; (s5 se + 4)%nat], t).
End Verbose.

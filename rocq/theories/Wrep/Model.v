(** The command line program wrep: src/wrep.cc, options.h, options.cc, input.cc, output.cc,
    iterate.cc, unparsable.cc. *)
From Coq Require Import String.
From Verif Require Import Base Num.Float Varcode.Model Varinfo.Model Var.Model Var.Format Interp.Model Message.Model Crex.Model Listing.Model.
Local Open Scope Z_scope.

(** ** The command line *)

(** What getopt_long returns: an option with its argument, or '?'. *)
Inductive event : Type :=
| Opt (c : Z) (arg : option (list Z))
| Unknown.

(** The option string: wrep.cc:92. *)
Definition optstring : list Z := chars "cdsDpivtUTFLh:"%string.

(** long_options: wrep.cc:64-81; the name, whether an argument is required, the character. *)
Definition long_options : list (list Z * bool * Z) :=
  [ (chars "crex"%string, false, 99); (chars "dump"%string, false, 100); (chars "trace"%string, false, 116);
    (chars "structure"%string, false, 115); (chars "dds"%string, false, 68); (chars "print"%string, true, 112);
    (chars "info"%string, false, 105); (chars "verbose"%string, false, 118); (chars "unparsable"%string, false, 85);
    (chars "tables"%string, false, 84); (chars "features"%string, false, 70); (chars "list-tables"%string, false, 76);
    (chars "help"%string, false, 104) ].

(** getopt_long of the GNU C library, as it is used by wrep.cc:86-100: the options may be mixed with
    the file names; "--" ends the options; a long option may be shortened as long as it is not
    ambiguous.  The variable POSIXLY_CORRECT is taken to be unset. *)

(** Whether a short option exists, and whether it takes an argument. *)
Fixpoint takes_arg (os : list Z) (c : Z) : option bool :=
  match os with
  | [] => None
  | o :: rest =>
    if (o =? c) && negb (o =? 58) then Some (match rest with 58 :: _ => true | _ => false end)
    else takes_arg rest c
  end.

(** A group of short options, and the option whose argument is the next word, if any. *)
Fixpoint short_group (s : list Z) : list event * option Z :=
  match s with
  | [] => ([], None)
  | c :: rest =>
    match takes_arg optstring c with
    | None => ([Unknown], None)
    | Some false => let (es, need) := short_group rest in (Opt c None :: es, need)
    | Some true =>
      match rest with
      | [] => ([], Some c)
      | _ => ([Opt c (Some rest)], None)
      end
    end
  end.

(** The name and the value of a long option. *)
Fixpoint split_equal (s : list Z) : list Z * option (list Z) :=
  match s with
  | [] => ([], None)
  | c :: rest => if c =? 61 then ([], Some rest) else let (n, v) := split_equal rest in (c :: n, v)
  end.

Fixpoint is_prefix (p s : list Z) : bool :=
  match p, s with
  | [], _ => true
  | a :: p', b :: s' => (a =? b) && is_prefix p' s'
  | _, [] => false
  end.

Definition find_long (name : list Z) : option (bool * Z) :=
  match find (fun o => list_eqb name (fst (fst o))) long_options with
  | Some (_, a, c) => Some (a, c)
  | None =>
    match filter (fun o => is_prefix name (fst (fst o))) long_options with
    | [(_, a, c)] => Some (a, c)
    | _ => None
    end
  end.

Definition long_option (s : list Z) : list event * option Z :=
  let (name, value) := split_equal s in
  match find_long name, value with
  | None, _ => ([Unknown], None)
  | Some (false, c), None => ([Opt c None], None)
  | Some (false, _), Some _ => ([Unknown], None)
  | Some (true, c), Some v => ([Opt c (Some v)], None)
  | Some (true, c), None => ([], Some c)
  end.

(** The options of the command line and the names that are left. *)
Fixpoint scan_args (args : list (list Z)) : list event * list (list Z) :=
  match args with
  | [] => ([], [])
  | a :: rest =>
    let group (g : list event * option Z) :=
      match g with
      | (es, None) => let (es', names) := scan_args rest in (es ++ es', names)
      | (es, Some c) =>
        match rest with
        | [] => (es ++ [Unknown], [])
        | v :: rest' => let (es', names) := scan_args rest' in (es ++ Opt c (Some v) :: es', names)
        end
      end in
    match a with
    | [45; 45] => ([], rest)
    | 45 :: 45 :: s => group (long_option s)
    | 45 :: c :: s => group (short_group (c :: s))
    | _ => let (es, names) := scan_args rest in (es, a :: names)
    end
  end.

(** ** Options: options.h:33-68 *)
Inductive action : Type :=
| DUMP | DUMP_STRUCTURE | DUMP_DDS | TRACE | PRINT_VARS | INFO | UNPARSABLE | TABLES | FEATURES | LIST_TABLES | HELP.

Record wopts : Type := mkwopts {
  w_crex : bool;
  w_verbose : bool;
  w_action : action;
  w_codes : list Z }.

Definition wopts_init : wopts := mkwopts false false DUMP [].

(** strchr(str, ',') and the step after the comma: options.cc:34-35. *)
Fixpoint after_comma (s : list Z) : option (list Z) :=
  match s with
  | [] => None
  | c :: rest => if c =? 44 then Some rest else after_comma rest
  end.

(** Options::init_varcodes: options.cc:28-37. *)
Fixpoint codes_from (fuel : nat) (s : list Z) : res (list Z) :=
  match fuel with
  | O => Err EFuel
  | S k =>
    if Nat.ltb (length s) 6 then Ok []
    else
      c <- varcode_parse (Some s) ;;
      match after_comma s with
      | None => Ok [c]
      | Some s' => cs <- codes_from k s' ;; Ok (c :: cs)
      end
  end.

Definition init_varcodes (str : option (list Z)) : res (list Z) :=
  match str with
  | None => Ok []
  | Some s => codes_from (S (length s)) s
  end.

(** The loop over the options: wrep.cc:86-125.  None when an option is not known. *)
Fixpoint set_options (o : wopts) (es : list event) : res (option wopts) :=
  match es with
  | [] => Ok (Some o)
  | Unknown :: _ => Ok None
  | Opt c arg :: rest =>
    let act a := Ok (Some (mkwopts (w_crex o) (w_verbose o) a (w_codes o))) in
    r <- (if c =? 99 then Ok (Some (mkwopts true (w_verbose o) (w_action o) (w_codes o)))
          else if c =? 118 then Ok (Some (mkwopts (w_crex o) true (w_action o) (w_codes o)))
          else if c =? 100 then act DUMP
          else if c =? 116 then act TRACE
          else if c =? 115 then act DUMP_STRUCTURE
          else if c =? 68 then act DUMP_DDS
          else if c =? 112 then
            codes <- init_varcodes arg ;; Ok (Some (mkwopts (w_crex o) (w_verbose o) PRINT_VARS codes))
          else if c =? 105 then act INFO
          else if c =? 85 then act UNPARSABLE
          else if c =? 84 then act TABLES
          else if c =? 70 then act FEATURES
          else if c =? 76 then act LIST_TABLES
          else if c =? 104 then act HELP
          else Ok None) ;;
    match r with
    | None => Ok None
    | Some o' => set_options o' rest
    end
  end.

(** ** The handlers *)

(** What is written on standard error, without its wording.  The remarks of -v are not modelled. *)
Inductive complaint : Type :=
| BadOption                                       (* wrep.cc:121-122 *)
| Usage                                           (* wrep.cc:157 *)
| InMessage (name : list Z) (off : Z) (e : err)   (* options.cc:49, 63, 77, 91 *)
| Unparsed (e : err)                              (* unparsable.cc:35, 46 *)
| InFile (name : list Z) (e : err)                (* wrep.cc:173 *)
| Unopened (name : list Z).                       (* wrep.cc:173, input.cc:35 *)

(** What wrep gets from its surroundings: the files, the decoders of the library
    (BufrBulletin::decode and decode_header, CrexBulletin::decode), the scan of the features, what
    the other actions print (or the exception they end with), the fixed texts. *)
Record world : Type := mkworld {
  files : list Z -> option (list Z);
  full_bufr : list Z -> res bulletin;
  head_bufr : list Z -> res bulletin;
  full_crex : list Z -> res cbulletin;
  features : bool -> list Z -> res (list (list Z));
  other : action -> bool -> list Z -> Z -> list Z -> res (list Z * option err);
  text : action -> list Z }.

(** try { … } catch (std::exception&): what is caught is on the right.  A run that never ends or
    has no defined behaviour stays so. *)
Definition guarded {A} (r : res A) : res (A + err) :=
  match r with
  | Ok a => Ok (inl a)
  | UB => UB
  | Err EFuel => Err EFuel
  | Err e => Ok (inr e)
  end.

Section Handlers.
Context (fixed : nat -> f64 -> list Z) (W : world).

(** PrintVars: iterate.cc:32-57.  format() of a variable never throws, so that nothing is written
    of a message that fails. *)
Definition find_varcode (vars : list var) (code : Z) : option var :=
  find (fun v => c_code (v_cell v) =? code) vars.

Fixpoint print_codes (codes : list Z) (vars : list var) : res (list Z) :=
  match codes with
  | [] => Ok []
  | c :: rest =>
    t <- match find_varcode vars c with
         | Some v => s <- format fixed (v_cell v) [] ;; Ok (9 :: s)
         | None => Ok []
         end ;;
    ts <- print_codes rest vars ;; Ok (t ++ ts)
  end.

Fixpoint print_subsets (name : list Z) (codes : list Z) (n : Z) (subsets : list (list var)) : res (list Z) :=
  match subsets with
  | [] => Ok []
  | s :: rest =>
    l <- print_codes codes s ;;
    ls <- print_subsets name codes (n + 1) rest ;;
    Ok (name ++ [58] ++ decimal n ++ [58] ++ l ++ [10] ++ ls)
  end.

(** PrintTables: output.cc:91-121; "%-*s" pads the title to the length of the name. *)
Definition pad (n : nat) (s : list Z) : list Z := s ++ repeat 32 (n - length s).

Definition tabbed (fields : list (list Z)) : list Z :=
  match fields with
  | [] => []
  | f :: rest => f ++ flat_map (fun g => 9 :: g) rest
  end.

Definition bufr_title (name : list Z) : list Z :=
  tabbed [pad (length name) (chars "Filename"%string); chars "Offset"%string; chars "Centre"%string;
          chars "Subc."%string; chars "Master"%string; chars "Local"%string] ++ [10].
Definition crex_title : list Z :=
  tabbed [chars "Filename"%string; chars "Offset"%string; chars "Master"%string; chars "Edition"%string;
          chars "Table"%string] ++ [10].

Definition bufr_row (name : list Z) (off : Z) (b : bulletin) : list Z :=
  let h := b_header b in
  tabbed [name; decimal off; decimal (h_centre h); decimal (h_subcentre h); decimal (h_version h);
          decimal (h_version_local h)] ++ [10].
Definition crex_row (name : list Z) (off : Z) (b : cbulletin) : list Z :=
  let h := cb_header b in
  tabbed [name; decimal off; decimal (ch_mtn h); decimal (ch_edition h); decimal (ch_mtv h)] ++ [10].

(** PrintFeatures: output.cc:130-144. *)
Fixpoint commas (l : list (list Z)) : list Z :=
  match l with
  | [] => []
  | [f] => f
  | f :: rest => f ++ [44] ++ commas rest
  end.

Definition features_row (name : list Z) (off : Z) (fs : list (list Z)) : list Z :=
  name ++ [58] ++ decimal off ++ [58] ++ commas fs ++ [10].

(** handle_raw_bufr and handle_raw_crex: options.cc:39-93, unparsable.cc:30-51, output.cc:44-58.
    [titled] is header_printed of PrintTables. *)
Definition handle (o : wopts) (name : list Z) (titled : bool) (off : Z) (m : list Z)
  : res (bool * list Z * list complaint) :=
  let line (r : res (list Z)) :=
    g <- guarded r ;;
    match g with
    | inl t => Ok (titled, t, [])
    | inr e => Ok (titled, [], [InMessage name off e])
    end in
  match w_action o with
  | UNPARSABLE =>
    g <- (if w_crex o then guarded (_ <- full_crex W m ;; Ok tt) else guarded (_ <- full_bufr W m ;; Ok tt)) ;;
    match g with
    | inl _ => Ok (titled, [], [])
    | inr e => Ok (titled, m, [Unparsed e])
    end
  | PRINT_VARS =>
    line (ss <- (if w_crex o then b <- full_crex W m ;; Ok (cb_subsets b) else b <- full_bufr W m ;; Ok (b_subsets b)) ;;
          print_subsets name (w_codes o) 1 ss)
  | TABLES =>
    g <- guarded (if w_crex o then b <- full_crex W m ;; Ok (crex_title, crex_row name off b)
                  else b <- head_bufr W m ;; Ok (bufr_title name, bufr_row name off b)) ;;
    match g with
    | inl (title, row) => Ok (true, (if titled then [] else title) ++ row, [])
    | inr e => Ok (titled, [], [InMessage name off e])
    end
  | FEATURES => line (fs <- features W (w_crex o) m ;; Ok (features_row name off fs))
  | a =>
    ' (t, e) <- other W a (w_crex o) name off m ;;
    Ok (titled, t, match e with None => [] | Some e => [InMessage name off e] end)
  end.

(** ** The files: input.cc:30-103, wrep.cc:161-183 *)

Definition reader (o : wopts) : list Z -> res (option (list Z * list Z)) :=
  if w_crex o then read_crex else read_message.

(** The loop over the messages of a file; [pos] is the place reached in the file. *)
Fixpoint feed (fuel : nat) (o : wopts) (name : list Z) (titled : bool) (pos : Z) (file : list Z)
  : res (bool * list Z * list complaint) :=
  match fuel with
  | O => Err EFuel
  | S k =>
    match reader o file with
    | Ok None => Ok (titled, [], [])
    | Ok (Some (m, rest)) =>
      let next := pos + Z.of_nat (length file) - Z.of_nat (length rest) in
      ' (t1, o1, c1) <- handle o name titled (next - Z.of_nat (length m)) m ;;
      ' (t2, o2, c2) <- feed k o name t1 next rest ;;
      Ok (t2, o1 ++ o2, c1 ++ c2)
    | Err e => Ok (titled, [], [InFile name e])
    | UB => UB
    end
  end.

Fixpoint process (o : wopts) (titled : bool) (names : list (list Z)) : res (list Z * list complaint) :=
  match names with
  | [] => Ok ([], [])
  | n :: rest =>
    ' (t1, o1, c1) <- match files W n with
                      | None => Ok (titled, [], [Unopened n])
                      | Some f => feed (S (length f)) o n titled 0 f
                      end ;;
    ' (o2, c2) <- process o t1 rest ;;
    Ok (o1 ++ o2, c1 ++ c2)
  end.

(** ** main: wrep.cc:61-184 *)

(** How the program ends: with a status and what was written, or with an exception that nobody
    catches. *)
Inductive ending : Type :=
| Exit (status : Z) (out : list Z) (log : list complaint)
| Terminated (e : err).

Definition wrep (args : list (list Z)) : res ending :=
  let (es, names) := scan_args args in
  g <- guarded (set_options wopts_init es) ;;
  match g with
  | inr e => Ok (Terminated e)
  | inl None => Ok (Exit 1 [] [BadOption])
  | inl (Some o) =>
    match w_action o with
    | HELP | INFO | LIST_TABLES => Ok (Exit 0 (text W (w_action o)) [])
    | _ =>
      match names with
      | [] => Ok (Exit 1 [] [Usage])
      | _ => ' (out, log) <- process o false names ;; Ok (Exit 0 out log)
      end
    end
  end.
End Handlers.

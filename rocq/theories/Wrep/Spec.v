(** What the user of the command line program relies on, said without its code. *)
From Coq Require Import String.
From Verif Require Import Base Num.Float Varcode.Model Varinfo.Model Var.Model Var.Format Interp.Model Message.Model Crex.Model
  Listing.Model Wrep.Model.
Local Open Scope Z_scope.

(** The messages that a reader finds in a file from the place [pos] on, each with its offset, and
    the error that ends the reading, if any.  The bytes between the messages are skipped. *)
Inductive delivers (read : list Z -> res (option (list Z * list Z))) : Z -> list Z -> list (Z * list Z) -> option err -> Prop :=
| dl_end : forall pos file, read file = Ok None -> delivers read pos file [] None
| dl_error : forall pos file e, read file = Err e -> delivers read pos file [] (Some e)
| dl_message : forall pos file gap m rest ms e,
    read file = Ok (Some (m, rest)) -> file = gap ++ m ++ rest ->
    delivers read (pos + Z.of_nat (length gap) + Z.of_nat (length m)) rest ms e ->
    delivers read pos file ((pos + Z.of_nat (length gap), m) :: ms) e.

Definition read_of (crex : bool) := if crex then read_crex else read_message.

(** What the program finds under a name: messages, and what is wrong with the file itself. *)
Inductive input (W : world) (crex : bool) : list Z -> list (Z * list Z) -> list complaint -> Prop :=
| in_missing : forall n, files W n = None -> input W crex n [] [Unopened n]
| in_whole : forall n f ms, files W n = Some f -> delivers (read_of crex) 0 f ms None -> input W crex n ms []
| in_broken : forall n f ms e, files W n = Some f -> delivers (read_of crex) 0 f ms (Some e) -> input W crex n ms [InFile n e].

(** The files of a command line with what is found in each. *)
Definition job : Type := list Z * list (Z * list Z) * list complaint.
Definition j_name (j : job) : list Z := fst (fst j).
Definition j_messages (j : job) : list (Z * list Z) := snd (fst j).
Definition j_trouble (j : job) : list complaint := snd j.
Definition job_of (W : world) (crex : bool) (j : job) : Prop := input W crex (j_name j) (j_messages j) (j_trouble j).

(** A file name that is not taken for an option. *)
Definition operand (n : list Z) : Prop := match n with 45 :: _ :: _ => False | _ => True end.

(** "-c" when CREX is read. *)
Definition crex_flag (crex : bool) : list (list Z) := if crex then [chars "-c"%string] else [].

(** A decoder that comes back with a result or an error. *)
Definition returns {A} (r : res A) : Prop := r <> UB /\ r <> Err EFuel.
Definition fails {A} (r : res A) : bool := match r with Err _ => true | _ => false end.

Definition refused (W : world) (crex : bool) (m : list Z) : bool :=
  if crex then fails (full_crex W m) else fails (full_bufr W m).
Definition decides (W : world) (crex : bool) (m : list Z) : Prop :=
  if crex then returns (full_crex W m) else returns (full_bufr W m).

(** The subsets of a message, None when it cannot be decoded. *)
Definition subsets_of (W : world) (crex : bool) (m : list Z) : res (list (list var)) :=
  if crex then match full_crex W m with Ok b => Ok (cb_subsets b) | Err e => Err e | UB => UB end
  else match full_bufr W m with Ok b => Ok (b_subsets b) | Err e => Err e | UB => UB end.

(** The first variable of a subset with a code. *)
Definition first_with (c : Z) (vars : list var) (v : var) : Prop :=
  exists before after, vars = before ++ v :: after /\ c_code (v_cell v) = c /\
    Forall (fun w => c_code (v_cell w) <> c) before.

(** The columns of a line: the values of the codes asked for; a code that is not in the subset has
    no column. *)
Inductive columns (fixed : nat -> f64 -> list Z) (vars : list var) : list Z -> list (list Z) -> Prop :=
| col_nil : columns fixed vars [] []
| col_found : forall c cs v s cols, first_with c vars v -> format fixed (v_cell v) [] = Ok s ->
    columns fixed vars cs cols -> columns fixed vars (c :: cs) (s :: cols)
| col_absent : forall c cs cols, Forall (fun w => c_code (v_cell w) <> c) vars ->
    columns fixed vars cs cols -> columns fixed vars (c :: cs) cols.

(** The line of a subset: the name of the file, the number of the subset, the columns. *)
Definition print_line (name : list Z) (n : nat) (cols : list (list Z)) : list Z :=
  name ++ chars ":"%string ++ decimal (Z.of_nat n) ++ chars ":"%string ++ flat_map (fun s => 9 :: s) cols ++ [10].

Fixpoint print_lines (name : list Z) (n : nat) (colss : list (list (list Z))) : list Z :=
  match colss with
  | [] => []
  | cols :: rest => print_line name n cols ++ print_lines name (S n) rest
  end.

(** What --print writes for a message. *)
Inductive printed (fixed : nat -> f64 -> list Z) (W : world) (crex : bool) (codes : list Z) (name : list Z)
  : Z * list Z -> list Z -> list complaint -> Prop :=
| pr_ok : forall off m ss colss, subsets_of W crex m = Ok ss ->
    Forall2 (fun vars cols => columns fixed vars codes cols) ss colss ->
    printed fixed W crex codes name (off, m) (print_lines name 1 colss) []
| pr_fail : forall off m e, subsets_of W crex m = Err e -> e <> EFuel ->
    printed fixed W crex codes name (off, m) [] [InMessage name off e].

(** One text after the other. *)
Inductive one_by_one {A} (P : A -> list Z -> list complaint -> Prop) : list A -> list Z -> list complaint -> Prop :=
| obo_nil : one_by_one P [] [] []
| obo_cons : forall a t c l ts cs, P a t c -> one_by_one P l ts cs -> one_by_one P (a :: l) (t ++ ts) (c ++ cs).

(** The same over files: a job is the messages of its file, then what is wrong with the file. *)
Definition in_job (P : list Z -> Z * list Z -> list Z -> list complaint -> Prop) (j : job) (t : list Z) (c : list complaint) : Prop :=
  exists c', one_by_one (P (j_name j)) (j_messages j) t c' /\ c = c' ++ j_trouble j.

(** The list of codes of --print: codes separated by commas. *)
Fixpoint code_list (codes : list Z) : list Z :=
  match codes with
  | [] => []
  | [c] => varcode_format c
  | c :: rest => varcode_format c ++ chars ","%string ++ code_list rest
  end.

(** Fields separated by tabs. *)
Fixpoint tab_separated (l : list (list Z)) : list Z :=
  match l with
  | [] => []
  | [f] => f
  | f :: rest => f ++ [9] ++ tab_separated rest
  end.

(** A word followed by spaces up to a length. *)
Definition spaces_to (n : nat) (s : list Z) : list Z := s ++ repeat 32 (n - length s).

(** The title and the line of -T for a message: the numbers that say which tables it uses. *)
Definition table_line (W : world) (crex : bool) (name : list Z) (om : Z * list Z) : res (list Z * list Z) :=
  if crex then
    match full_crex W (snd om) with
    | Ok b => Ok (tab_separated [chars "Filename"%string; chars "Offset"%string; chars "Master"%string; chars "Edition"%string;
                                 chars "Table"%string] ++ [10],
                  tab_separated [name; decimal (fst om); decimal (ch_mtn (cb_header b)); decimal (ch_edition (cb_header b));
                                 decimal (ch_mtv (cb_header b))] ++ [10])
    | Err e => Err e
    | UB => UB
    end
  else
    match head_bufr W (snd om) with
    | Ok b => Ok (tab_separated [spaces_to (length name) (chars "Filename"%string); chars "Offset"%string; chars "Centre"%string;
                                 chars "Subc."%string; chars "Master"%string; chars "Local"%string] ++ [10],
                  tab_separated [name; decimal (fst om); decimal (h_centre (b_header b)); decimal (h_subcentre (b_header b));
                                 decimal (h_version (b_header b)); decimal (h_version_local (b_header b))] ++ [10])
    | Err e => Err e
    | UB => UB
    end.

(** The lines of all the messages whose header can be decoded. *)
Definition table_lines (W : world) (crex : bool) (jobs : list job) : list (list Z * list Z) :=
  flat_map (fun j => flat_map (fun om => match table_line W crex (j_name j) om with Ok x => [x] | _ => [] end) (j_messages j)) jobs.

(** The title of the first line, then the lines. *)
Definition with_title (l : list (list Z * list Z)) : list Z :=
  match l with
  | [] => []
  | (t, _) :: _ => t ++ concat (map snd l)
  end.

(** A world where everything that the program calls comes back, with a result or an error. *)
Record comes_back (fixed : nat -> f64 -> list Z) (W : world) : Prop := mkcomes_back {
  cb_full_bufr : forall m, returns (full_bufr W m);
  cb_head_bufr : forall m, returns (head_bufr W m);
  cb_full_crex : forall m, returns (full_crex W m);
  cb_features : forall crex m, returns (features W crex m);
  cb_other : forall a crex name off m, exists x, other W a crex name off m = Ok x;
  cb_format : forall crex m ss vars v, subsets_of W crex m = Ok ss -> In vars ss -> In v vars ->
    exists s, format fixed (v_cell v) [] = Ok s }.

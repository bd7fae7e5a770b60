(** What a decoding that tells what it does writes, for the values that were decoded. *)
From Coq Require Import String.
From Verif Require Import Base Num.Float Varcode.Model Varinfo.Model Tables.Model Var.Model Var.FormatSpec Var.Format
  Interp.Model Interp.Spec Codec.Compressed Listing.Model Listing.Spec.
Local Open Scope Z_scope.

(** Where there is no descriptor. *)
Definition under_line (i : nat) (t : list Z) : list Z := repeat 32 (i + 7) ++ t ++ [10].

Section Told.
(** A value is that of a variable, or those of the same variable in all the subsets: [shows] gives their text, [counts]
    the replication factor that they are. *)
Context {C : Type} (T : tables) (full : varinfo -> list Z) (shows : C -> list Z -> Prop) (counts : C -> Z -> Prop).

(** [told i ops vs t] : for the descriptors [ops], indented by [i], that gave the values [vs], the text is [t].
    - an element has a line with its description and one with its value;
    - an operator has a line; 205YYY gives a value that is not told, 206YYY takes a descriptor that has no line;
    - what is in a sequence is indented more, and so is what is repeated;
    - a delayed replication says its factor. *)
Inductive told : nat -> list Z -> list C -> list Z -> Prop :=
| to_end i : told i [] [] []
| to_element i c ops d v vs u t : var_f c = 0 -> query (tb_b T) c = Ok d -> shows v u -> told i ops vs t ->
    told i (c :: ops) (v :: vs) (line i c (full d ++ chars "[" ++ chars (vi_unit d) ++ chars "]") ++ under_line i u ++ t)
| to_operator i c ops vs t : var_f c = 2 -> ~ In (var_x c) [3; 4; 5; 6; 22; 23; 37] -> told i ops vs t ->
    told i (c :: ops) vs (line i c (operator_says c None) ++ t)
| to_chars i c ops v vs t : var_f c = 2 -> var_x c = 5 -> told i ops vs t ->
    told i (c :: ops) (v :: vs) (line i c (chars "character data") ++ t)
| to_skip i c a ops vs t : var_f c = 2 -> var_x c = 6 -> var_y c = 0 -> told i ops vs t ->
    told i (c :: a :: ops) vs (line i c (chars "local descriptor " ++ fxy a ++ chars " 0 bits long") ++ t)
| to_local i c a ops v vs u t : var_f c = 2 -> var_x c = 6 -> var_y c <> 0 -> shows v u -> told i ops vs t ->
    told i (c :: a :: ops) (v :: vs)
      (line i c (chars "local descriptor " ++ fxy a ++ chars " " ++ small (var_y c) ++ chars " bits long") ++ under_line i u ++ t)
| to_group i c body vs1 t1 ops vs2 t2 : var_f c = 3 -> dexpand (tb_d T) c = Ok body ->
    told (i + 2) body vs1 t1 -> told i ops vs2 t2 ->
    told i (c :: ops) (vs1 ++ vs2) (line i c (chars " (group)") ++ t1 ++ t2)
| to_repeat i r body parts ops vs t : var_f r = 1 -> var_y r <> 0 -> Z.of_nat (length body) = var_x r ->
    Z.of_nat (length parts) = var_y r -> Forall (fun p => told (i + 2) body (fst p) (snd p)) parts -> told i ops vs t ->
    told i (r :: body ++ ops) (concat (map fst parts) ++ vs)
      (line i r (chars "replicate " ++ small (var_x r) ++ chars " descriptors " ++ small (var_y r) ++ chars " times") ++
       concat (map snd parts) ++ t)
| to_delayed i r f body v n parts ops vs t : var_f r = 1 -> var_y r = 0 -> class31 f -> Z.of_nat (length body) = var_x r ->
    counts v n -> Z.of_nat (length parts) = n -> Forall (fun p => told (i + 2) body (fst p) (snd p)) parts -> told i ops vs t ->
    told i (r :: f :: body ++ ops) (v :: concat (map fst parts) ++ vs)
      (line i r (chars "replicate " ++ small (var_x r) ++ chars " descriptors (delayed " ++ fxy f ++ chars ") times") ++
       under_line (i + 2) (chars "delayed replication factor: " ++ digits n) ++ concat (map snd parts) ++ t)
| to_implied i r body v n parts ops vs t : var_f r = 1 -> var_y r = 0 -> (forall c l, body ++ ops = c :: l -> ~ class31 c) ->
    Z.of_nat (length body) = var_x r ->
    counts v n -> Z.of_nat (length parts) = n -> Forall (fun p => told (i + 2) body (fst p) (snd p)) parts -> told i ops vs t ->
    told i (r :: body ++ ops) (v :: concat (map fst parts) ++ vs)
      (line i r (chars "replicate " ++ small (var_x r) ++ chars " descriptors (delayed 031012) times") ++
       under_line (i + 2) (chars "delayed replication factor: " ++ digits n) ++ concat (map snd parts) ++ t).
End Told.

(** A variable: its value, or a dash. *)
Definition var_shows (fixed : nat -> f64 -> list Z) (v : var) (t : list Z) : Prop := format_file fixed (v_cell v) (chars "-") = Ok t.
Definition var_counts (v : var) (n : Z) : Prop := exists m, enqi (v_cell v) = Ok m /\ n = u32 m.

(** The variables of a column, each followed by a space. *)
Inductive column_shows (fixed : nat -> f64 -> list Z) : list var -> list Z -> Prop :=
| cs_end : column_shows fixed [] []
| cs_more v t col u : var_shows fixed v t -> column_shows fixed col u -> column_shows fixed (v :: col) (t ++ [32] ++ u).
(** They are all the same factor. *)
Definition column_counts (col : list var) (n : Z) : Prop := exists c m, Forall (fun v => v_cell v = c) col /\ enqi c = Ok m /\ n = u32 m.
(** The subsets that have these columns. *)
Definition of_columns (n : nat) (cols : list (list var)) : list (list var) := fold_left push_all cols (repeat [] n).

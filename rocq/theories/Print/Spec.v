(** What a printed text is expected to tell. *)
From Coq Require Import String.
From Verif Require Import Base Num.Float Varinfo.Model Var.Model Var.Spec Var.Format Interp.Model Message.Model Listing.Model Print.Model.
Local Open Scope Z_scope.

Definition on_one_line (t : list Z) : Prop := Forall (fun c => c <> 10) t.

(** A cell of a bulletin whose value can be told from the text: a value in its range, without
    newlines, that is not the text that stands for a missing value. *)
Definition readable (c : cell) : Prop :=
  cell_ok c /\ 0 <= c_code c < 2 ^ 16 /\
  match c_val c with
  | Some (VStr s) => on_one_line s /\ s <> chars "(undef)"
  | Some (VBin b) => Forall (fun x => 0 <= x < 256) b
  | _ => True
  end.

(** Description and unit of a cell are those of its code. *)
Definition labelled (full : varinfo -> list Z) (label : Z -> list Z) (c : cell) : Prop :=
  on_one_line (label (c_code c)) /\
  firstn 64 (full (c_info c)) ++ chars "(" ++ chars (vi_unit (c_info c)) ++ chars "): " = label (c_code c).

Definition cells (v : var) : list cell := v_cell v :: v_attrs v.
Definition every_cell (P : cell -> Prop) (subsets : list (list var)) : Prop :=
  Forall (Forall (fun v => Forall P (cells v))) subsets.

(** The same code, and the same value when the definition is the same. *)
Definition same_cell (c d : cell) : Prop := c_code c = c_code d /\ (c_info c = c_info d -> c = d).
Definition same_var (v w : var) : Prop := Forall2 same_cell (cells v) (cells w).
Definition same_subsets (s t : list (list var)) : Prop := Forall2 (Forall2 same_var) s t.

Definition good_path (p : option (list Z)) : Prop := match p with Some t => on_one_line t | None => True end.

(** ** The layout of the text *)

(** Words with a separator between them, and lines. *)
Fixpoint join (sep : list Z) (l : list (list Z)) : list Z :=
  match l with [] => [] | [x] => x | x :: r => x ++ sep ++ join sep r end.
Definition unlines (l : list (list Z)) : list Z := flat_map (fun t => t ++ [10]) l.

(** The items of a list with their places, from a given one. *)
Fixpoint with_place {A} (n : nat) (l : list A) : list (nat * A) :=
  match l with [] => [] | x :: r => (n, x) :: with_place (S n) r end.

(** What is in the lines of the variables: the beginning of the line and a variable or an attribute. *)
Definition places (subsets : list (list var)) : list (list Z * cell) :=
  flat_map (fun s => flat_map (fun v =>
      (chars "  [" ++ padded 0 (Z.of_nat (fst s)) ++ chars "][" ++ padded 0 (Z.of_nat (fst v)) ++ chars "] ", v_cell (snd v)) ::
      map (fun a => (chars "           ", a)) (v_attrs (snd v)))
    (with_place 0 (snd s))) (with_place 0 subsets).

(** The line of a variable or an attribute, with the text of its value. *)
Definition line_of (fixed : nat -> f64 -> list Z) (full : varinfo -> list Z) (p : list Z * cell) (l : list Z) : Prop :=
  exists value, format_file fixed (snd p) (chars "(undef)") = Ok value /\
    l = fst p ++ join [32] [fxy (c_code (snd p)); firstn 64 (full (c_info (snd p))) ++ chars "(" ++ chars (vi_unit (c_info (snd p))) ++ chars "):"; value].

(** The first line. *)
Definition heading (encoding : string) (h : header) (n : nat) : list Z :=
  join [32] [chars encoding; join [58] (map (padded 0) [h_category h; h_subcategory h; h_local h]); join [58] (map (padded 0) [h_centre h; h_subcentre h]);
    join [45] [padded 4 (h_year h); padded 2 (h_month h); padded 2 (h_day h)]; join [58] (map (padded 2) [h_hour h; h_minute h; h_second h]);
    padded 0 (h_update h); padded 0 (Z.of_nat n); chars "subsets"].
Definition path_text (p : option (list Z)) : list Z := match p with Some t => t | None => chars "(not loaded)" end.

(** The structure of a template as a tree, and what a listing and a scan of it show. *)
From Coq Require Import String Sorting.Sorted.
From Verif Require Import Base Varcode.Model Varinfo.Model Tables.Model Interp.Model Interp.Spec Listing.Model.
Local Open Scope Z_scope.

Inductive node : Type :=
| NElement (c : Z)
| NOperator (c : Z)
| NOperand (c a : Z)                    (* 204YYY or 206YYY with the descriptor that it takes *)
| NSequence (d : Z) (body : list node)
| NRepeat (r : Z) (body : list node)    (* a fixed number of times *)
| NDelayed (r c : Z) (body : list node) (* as many times as the factor [c] says *)
| NImplied (r : Z) (body : list node)   (* the same, with a factor that is not written *)
| NBitmap (r : Z) (f : list Z).         (* a data present bitmap, with its factor if it has one *)

(** [reads T b ops ns b'] : the descriptors [ops] are the tree [ns].  [b] tells that the
    next replication is a bitmap (222000 or 223000 came before), [b'] the same for what
    comes after. *)
Definition next_bitmap (c : Z) (b : bool) : bool := m_bitmap (next_mode c (mkmode b false)).

Inductive reads (T : tables) : bool -> list Z -> list node -> bool -> Prop :=
| rd_nil b : reads T b [] [] b
| rd_element b c ops ns b' : var_f c = 0 ->
    reads T b ops ns b' -> reads T b (c :: ops) (NElement c :: ns) b'
| rd_operator b c ops ns b' : var_f c = 2 -> takes_arg c = false ->
    reads T (next_bitmap c b) ops ns b' -> reads T b (c :: ops) (NOperator c :: ns) b'
| rd_operand b c a ops ns b' : var_f c = 2 -> takes_arg c = true ->
    reads T b ops ns b' -> reads T b (c :: a :: ops) (NOperand c a :: ns) b'
| rd_sequence b d body ns1 b1 ops ns2 b2 : var_f d = 3 -> dexpand (tb_d T) d = Ok body ->
    reads T b body ns1 b1 -> reads T b1 ops ns2 b2 -> reads T b (d :: ops) (NSequence d ns1 :: ns2) b2
| rd_repeat r body ns1 b1 ops ns2 b2 : var_f r = 1 -> var_y r <> 0 -> Z.of_nat (length body) = var_x r ->
    reads T false body ns1 b1 -> reads T b1 ops ns2 b2 ->
    reads T false (r :: body ++ ops) (NRepeat r ns1 :: ns2) b2
| rd_delayed r c body ns1 b1 ops ns2 b2 : var_f r = 1 -> var_y r = 0 -> class31 c -> Z.of_nat (length body) = var_x r ->
    reads T false body ns1 b1 -> reads T b1 ops ns2 b2 ->
    reads T false (r :: c :: body ++ ops) (NDelayed r c ns1 :: ns2) b2
| rd_implied r body ns1 b1 ops ns2 b2 : var_f r = 1 -> var_y r = 0 ->
    (forall c l, body ++ ops = c :: l -> ~ class31 c) -> Z.of_nat (length body) = var_x r ->
    reads T false body ns1 b1 -> reads T b1 ops ns2 b2 ->
    reads T false (r :: body ++ ops) (NImplied r ns1 :: ns2) b2
| rd_bitmap r ops ns b' : var_f r = 1 -> var_x r = 1 -> var_y r <> 0 ->
    reads T false ops ns b' -> reads T true (r :: wr_var 0 31 31 :: ops) (NBitmap r [] :: ns) b'
| rd_bitmap_delayed r c ops ns b' : var_f r = 1 -> var_x r = 1 -> var_y r = 0 -> class31 c ->
    reads T false ops ns b' -> reads T true (r :: c :: wr_var 0 31 31 :: ops) (NBitmap r [c] :: ns) b'.

(** ** The listing: one line per descriptor, indented by its nesting *)

Section Lines.
Context (text : Z -> list Z).    (* what is written of an element *)

Definition line (i : nat) (c : Z) (t : list Z) : list Z := repeat 32 i ++ fxy c ++ chars " " ++ t ++ [10].

(** What is written of an operator, with the descriptor it takes. *)
Definition change_of (y : Z) : Z := if y =? 0 then 0 else y - 128.
Definition operator_says (c : Z) (a : option Z) : list Z :=
  let y := var_y c in
  match Z.to_nat (var_x c) with
  | 1%nat => chars "change data width to " ++ small (change_of y)
  | 2%nat => chars "change data scale to " ++ small (change_of y)
  | 4%nat => small y ++ chars " bits of associated field"
  | 5%nat => chars "character data"
  | 6%nat => chars "local descriptor " ++ (match a with Some a => fxy a | None => chars "(unknown)" end) ++
             chars " " ++ small y ++ chars " bits long"
  | 7%nat => chars "change data scale, reference value and data width by " ++ small y
  | 8%nat => chars "change width of string fields to " ++ small y
  | 22%nat => chars "quality information with bitmap"
  | 23%nat => if y =? 0 then chars "substituted values bitmap" else chars "one substituted value"
  | 36%nat => chars "define data present bitmap for reuse"
  | 37%nat => if y =? 0 then chars "reuse last data present bitmap" else chars "cancel reuse of the last defined bitmap"
  | _ => chars "(C modifier)"
  end.

Fixpoint node_text (i : nat) (n : node) : list Z :=
  let inside := fix inside (l : list node) : list Z :=
    match l with [] => [] | m :: r => node_text (i + 2) m ++ inside r end in
  match n with
  | NElement c => line i c (text c)
  | NOperator c => line i c (operator_says c None)
  | NOperand c a => line i c (operator_says c (Some a)) ++ (if var_x c =? 4 then line i a (text a) else [])
  | NSequence d body => line i d (chars "(group)") ++ inside body
  | NRepeat r body =>
    line i r (chars "replicate " ++ small (var_x r) ++ chars " descriptors " ++ small (var_y r) ++ chars " times") ++
    inside body
  | NDelayed r c body =>
    line i r (chars "replicate " ++ small (var_x r) ++ chars " descriptors (delayed " ++ fxy c ++ chars ") times") ++
    inside body
  | NImplied r body =>
    line i r (chars "replicate " ++ small (var_x r) ++ chars " descriptors (delayed 031012) times") ++ inside body
  | NBitmap _ _ => []
  end.
Definition listing (i : nat) (ns : list node) : list Z := concat (map (node_text i) ns).
End Lines.

(** ** The features *)

Fixpoint node_features (n : node) : list (list Z) :=
  let inside := fix inside (l : list node) : list (list Z) :=
    match l with [] => [] | m :: r => node_features m ++ inside r end in
  match n with
  | NElement _ | NBitmap _ _ => []
  | NOperator c => [varcode_format c]
  | NOperand c a => [varcode_format c ++ (if var_x c =? 6 then chars ":" ++ varcode_format a else [])]
  | NSequence _ body => inside body
  | NRepeat _ body => chars "Rxxyyy" :: inside body
  | NDelayed _ c body => (chars "Rxx000:" ++ varcode_format c) :: inside body
  | NImplied _ body => chars "Rxx000:B31012" :: inside body
  end.
Definition features (ns : list node) : list (list Z) := concat (map node_features ns).

(** In strictly increasing order. *)
Definition ascending (l : list (list Z)) : Prop := StronglySorted (fun a b => text_ltb a b = true) l.

(** ** When they can be made *)

(** The nodes in the order in which they are met. *)
Fixpoint flat_node (n : node) : list node :=
  let inside := fix inside (l : list node) : list node :=
    match l with [] => [] | m :: r => flat_node m ++ inside r end in
  match n with
  | NSequence _ b | NRepeat _ b | NDelayed _ _ b | NImplied _ b => n :: inside b
  | _ => [n]
  end.
Definition flat (ns : list node) : list node := concat (map flat_node ns).

Definition in_table (T : tables) (c : Z) : Prop := exists i, query (tb_b T) c = Ok i.

(** The operators in force after some nodes; new reference values are never read. *)
Definition in_force (ns : list node) : istate :=
  fold_left (fun st n =>
    match n with
    | NOperator c =>
      let y := var_y c in
      if var_x c =? 1 then with_width st (change_of y)
      else if var_x c =? 2 then with_scale st (change_of y)
      else if var_x c =? 3 then with_refbits st (if y =? 255 then 0 else y)
      else if var_x c =? 4 then with_af st 0 (is_afsig st)
      else if var_x c =? 7 then with_srw st y
      else if var_x c =? 8 then with_strlen st y
      else if ((var_x c =? 22) || (var_x c =? 23)) && (y =? 0) then with_pending st c
      else if (var_x c =? 37) && (y =? 0) then with_pending st 0
      else st
    | NOperand c _ => if var_x c =? 4 then with_af st (var_y c) 63 else st
    | NBitmap _ _ => with_pending st 0
    | _ => st
    end) ns ist_init.

(** 206YYY: a descriptor of the table has a definition there; the others have one
    name for each width ([name]), since Tables::get_unknown finds them by their width. *)
Definition local_ok (T : tables) (name : Z -> Z) (pre : list node) (y a : Z) : Prop :=
  y = 0 \/ (exists i, get_varinfo (tb_b T) (in_force pre) a = Ok i /\ vi_bit_len i = y) \/
  ((in_table T a -> exists i, get_varinfo (tb_b T) (in_force pre) a = Ok i) /\ name y = a).

(** What a listing goes over: operators other than 205YYY and 223255, with the operands
    that the standard has; 204YYY with its significance and at most 32 bits, not nested. *)
Definition listable (T : tables) (name : Z -> Z) (pre : list node) (n : node) : Prop :=
  match n with
  | NOperator c =>
    var_x c <> 5 /\ (var_x c = 22 -> var_y c = 0) /\ (var_x c = 23 -> var_y c = 0) /\
    (var_x c = 37 -> var_y c = 0 \/ var_y c = 255)
  | NOperand c a =>
    if var_x c =? 4 then var_y c <= 32 /\ a = wr_var 0 31 21 /\ in_table T a /\ is_afbits (in_force pre) = 0
    else local_ok T name pre (var_y c) a
  | NBitmap _ f => Forall (in_table T) f
  | _ => True
  end.

(** What a scan goes over: also, every element has a definition, and there is no element
    in the reach of 203YYY or 204YYY. *)
Definition scannable (T : tables) (name : Z -> Z) (pre : list node) (n : node) : Prop :=
  listable T name pre n /\
  match n with
  | NElement c =>
    is_refbits (in_force pre) = 0 /\ is_afbits (in_force pre) = 0 /\
    exists i, get_varinfo (tb_b T) (in_force pre) c = Ok i
  | _ => True
  end.

Definition throughout (P : list node -> node -> Prop) (ns : list node) : Prop :=
  forall pre n post, flat ns = pre ++ n :: post -> P pre n.

(** The unknown descriptors met so far have the names that [name] gives to their widths. *)
Definition named (name : Z -> Z) (lt : localtables) : Prop :=
  forall bits i, assoc Z.eqb bits (lt_unknown lt) = Some i -> vi_code i = name bits.

(** The descriptors of a tree. *)
Fixpoint written_node (n : node) : list Z :=
  let inside := fix inside (l : list node) : list Z :=
    match l with [] => [] | m :: r => written_node m ++ inside r end in
  match n with
  | NElement c | NOperator c => [c]
  | NOperand c a => [c; a]
  | NSequence d _ => [d]
  | NRepeat r b | NImplied r b => r :: inside b
  | NDelayed r c b => r :: c :: inside b
  | NBitmap r f => r :: f ++ [wr_var 0 31 31]
  end.
Definition written (ns : list node) : list Z := concat (map written_node ns).

(** Trees without the two things that a listing leaves out: data present bitmaps, and
    whether a factor is written. *)
Definition all_shown (ns : list node) : Prop :=
  Forall (fun n => match n with NImplied _ _ | NBitmap _ _ => False | _ => True end) (flat ns).

(** Every descriptor is 16 bits, those inside sequences too. *)
Definition code16 (c : Z) : Prop := 0 <= c < 2 ^ 16.
Definition node16 (n : node) : Prop :=
  match n with
  | NElement c | NOperator c | NSequence c _ | NRepeat c _ | NImplied c _ => code16 c
  | NOperand c a | NDelayed c a _ => code16 c /\ code16 a
  | NBitmap r f => code16 r /\ Forall code16 f
  end.

(** A text on one line. *)
Definition one_line (t : list Z) : Prop := Forall (fun z => z <> 10) t.

(** What is written of an element: its description if the table has it. *)
Definition element_lines (T : tables) (describe : Z -> list Z) (path : list Z) (text : Z -> list Z) : Prop :=
  forall c, (in_table T c -> text c = describe c) /\
            (~ in_table T c -> text c = chars "(missing in B table " ++ path ++ chars ")").

(** What printing a message along its template shows. *)
From Verif Require Import Base Num.Float Varcode.Model Varinfo.Model Tables.Model Var.Model Interp.Model Interp.Spec Codec.Model
  Listing.Spec Structured.Model.
Local Open Scope Z_scope.

(** ** The values *)

(** The variables that are printed, in order. *)
Definition printed (es : list entry) : list var :=
  flat_map (fun e => match en_what e with PVar v => [v] | _ => [] end) es.

(** [follows o vars n es m]: the entries show the variables from the n-th (counting from 0)
    to before the m-th.  The number in front is that of the variable, counting from 1
    (0 for bitmaps and for text with 205YYY); the line of an associated field comes before
    its variable; the line of an attribute has the number of its variable counting from 0, and so has that of
    the length of a bitmap, a variable made from the definition of the bitmap that follows. *)
Fixpoint follows (o : options) (vars : list var) (n : nat) (es : list entry) (m : nat) : Prop :=
  match es with
  | [] => n = m
  | e :: r =>
    match en_what e with
    | PVar v => nth_error vars n = Some v /\ (en_pos e = S n \/ (en_pos e = O /\ var_f (en_code e) = 2)) /\ follows o vars (S n) r m
    | PAttr a =>
      (exists v, nth_error vars (en_pos e) = Some v /\ a = enqa_on (en_code e) (v_attrs v)) /\ follows o vars n r m
    | PField a =>
      (exists v code, nth_error vars n = Some v /\ Some a = enqa_on code (v_attrs v)) /\ en_pos e = S n /\ follows o vars n r m
    | PNoField _ => (n < length vars)%nat /\ en_pos e = S n /\ follows o vars n r m
    | PMade c =>
      (exists v i, nth_error vars n = Some v /\ vi_code i = en_code e /\
         seti o (fresh i) (wrap_int (vi_len (c_info (v_cell v)))) = Done c) /\ en_pos e = n /\ follows o vars n r m
    end
  end.

(** ** The structure *)

(** The line of descriptor [c] inside the sequences and replications [p]. *)
Definition at_ (p : list Z) (c : Z) (e : entry) : Prop := en_path e = p /\ en_code e = c.
Definition is_attr (e : entry) : Prop := match en_what e with PAttr _ => True | _ => False end.
Definition is_field (e : entry) : Prop := match en_what e with PField _ | PNoField _ => True | _ => False end.
Definition is_value (e : entry) : Prop := match en_what e with PVar _ => True | _ => False end.

(** The lines of an element: that of its associated field, if there is one, and its own. *)
Definition element_entries (p : list Z) (c : Z) (es : list entry) : Prop :=
  exists e, at_ p c e /\ (is_value e \/ is_attr e) /\ (es = [e] \/ exists f, es = [f; e] /\ en_path f = p /\ is_field f).

(** The lines of an operator: the text of 205YYY, the value of 223255. *)
Definition operator_entries (p : list Z) (c : Z) (es : list entry) : Prop :=
  if var_x c =? 5 then exists e, es = [e] /\ at_ p c e /\ is_value e
  else if (var_x c =? 23) && negb (var_y c =? 0) then exists e, es = [e] /\ en_path e = p /\ is_attr e
  else es = [].

(** 204YYY: the significance; 206YYY: the local descriptor. *)
Definition operand_entries (p : list Z) (c a : Z) (es : list entry) : Prop :=
  if var_x c =? 4 then exists e, es = [e] /\ at_ p (wr_var 0 31 21) e /\ a = wr_var 0 31 21 /\ is_value e
  else if var_y c =? 0 then es = []
  else exists e, es = [e] /\ at_ p a e /\ is_value e.

(** The line of a factor, which says [n]. *)
Definition factor_entry (p : list Z) (c : Z) (n : nat) (e : entry) : Prop :=
  at_ p c e /\ exists v k, en_what e = PVar v /\ enqi (v_cell v) = Ok k /\ n = Z.to_nat (u32 k).

(** The line of a bitmap. *)
Definition bitmap_entry (p : list Z) (e : entry) : Prop := en_path e = p /\ var_f (en_code e) = 2 /\ is_value e.

(** [outline T b p ops es b']: the lines [es] are those of the descriptors [ops] inside [p],
    replicated as many times as the factors say.  [b], [b'] are as in [reads]. *)
Inductive outline (T : tables) : bool -> list Z -> list Z -> list entry -> bool -> Prop :=
| ol_nil b p : outline T b p [] [] b
| ol_element b p c ops es1 es2 b' : var_f c = 0 -> element_entries p c es1 ->
    outline T b p ops es2 b' -> outline T b p (c :: ops) (es1 ++ es2) b'
| ol_operator b p c ops es1 es2 b' : var_f c = 2 -> takes_arg c = false -> operator_entries p c es1 ->
    outline T (next_bitmap c b) p ops es2 b' -> outline T b p (c :: ops) (es1 ++ es2) b'
| ol_operand b p c a ops es1 es2 b' : var_f c = 2 -> takes_arg c = true -> operand_entries p c a es1 ->
    outline T b p ops es2 b' -> outline T b p (c :: a :: ops) (es1 ++ es2) b'
| ol_sequence b p d body es1 b1 ops es2 b2 : var_f d = 3 -> dexpand (tb_d T) d = Ok body ->
    outline T b (p ++ [d]) body es1 b1 -> outline T b1 p ops es2 b2 -> outline T b p (d :: ops) (es1 ++ es2) b2
| ol_repeat p r body es1 b1 ops es2 b2 : var_f r = 1 -> var_y r <> 0 -> Z.of_nat (length body) = var_x r ->
    times T (Z.to_nat (var_y r)) false (p ++ [r]) body es1 b1 -> outline T b1 p ops es2 b2 ->
    outline T false p (r :: body ++ ops) (es1 ++ es2) b2
| ol_delayed p r c n e body es1 b1 ops es2 b2 : var_f r = 1 -> var_y r = 0 -> class31 c -> Z.of_nat (length body) = var_x r ->
    factor_entry (p ++ [r]) c n e -> times T n false (p ++ [r]) body es1 b1 -> outline T b1 p ops es2 b2 ->
    outline T false p (r :: c :: body ++ ops) ((e :: es1) ++ es2) b2
| ol_implied p r n e body es1 b1 ops es2 b2 : var_f r = 1 -> var_y r = 0 ->
    (forall c l, body ++ ops = c :: l -> ~ class31 c) -> Z.of_nat (length body) = var_x r ->
    factor_entry (p ++ [r]) (wr_var 0 31 12) n e -> times T n false (p ++ [r]) body es1 b1 -> outline T b1 p ops es2 b2 ->
    outline T false p (r :: body ++ ops) ((e :: es1) ++ es2) b2
| ol_bitmap p r e ops es b' : var_f r = 1 -> var_x r = 1 -> var_y r <> 0 -> bitmap_entry p e ->
    outline T false p ops es b' -> outline T true p (r :: wr_var 0 31 31 :: ops) ([e] ++ es) b'
| ol_bitmap_delayed p r c f e ops es b' : var_f r = 1 -> var_x r = 1 -> var_y r = 0 -> class31 c -> at_ p c f -> bitmap_entry p e ->
    outline T false p ops es b' -> outline T true p (r :: c :: wr_var 0 31 31 :: ops) ([f; e] ++ es) b'
with times (T : tables) : nat -> bool -> list Z -> list Z -> list entry -> bool -> Prop :=
| tm_none b p body : times T 0 b p body [] b
| tm_more n b p body es1 b1 es2 b2 : outline T b p body es1 b1 -> times T n b1 p body es2 b2 ->
    times T (S n) b p body (es1 ++ es2) b2.

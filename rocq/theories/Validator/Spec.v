(** What it means that a subset can be encoded without loss.

    [exact_encoder] is the encoder of the library, made to stop as soon as a number or an
    associated field does not fit in the bits that the template gives it. *)
From Verif Require Import Base Bits.Model Num.Float Varcode.Model Varinfo.Model Tables.Model
  Var.Model Var.Spec Interp.Model Codec.Model Codec.Spec Validator.Model.
Local Open Scope Z_scope.

(** The number that the definition [i] makes of the value fits in the field. *)
Definition whole (i : varinfo) (c : cell) : bool :=
  negb (isset c && is_numeric (vi_type i)) ||
  match (d <- enqd c ;; encode_binary i d) with
  | Ok n => (1 <=? vi_bit_len i) && (vi_bit_len i <=? 32) && (0 <=? n) && (n <? 2 ^ vi_bit_len i)
  | _ => false
  end.

(** The associated field of a variable fits in [bits] bits. *)
Definition af_whole (bits sig : Z) (v : var) : bool :=
  match af_code sig with
  | Ok (Some code) =>
    match var_enqa v code with
    | Some a => negb (isset a) || match enqi a with Ok n => (0 <=? n) && (n <? 2 ^ bits) | _ => false end
    | None => true
    end
  | Ok None => true
  | _ => false
  end.

Definition next_is (vars : list var) (pos : nat) (f : var -> bool) : res unit :=
  v <- get_var vars pos ;; guard (f v).

Section Exact.
Context (p : shift_policy) (o : options) (T : tables) (vars : list var).
Let E := encoder p o T vars.

Definition exact_encoder : visitor enc :=
  {| on_var := fun i s => _ <- next_is vars (e_pos s) (fun v => whole i (v_cell v)) ;; on_var E i s;
     on_var_af := fun bits sig i s =>
       _ <- next_is vars (e_pos s) (fun v => whole i (v_cell v) && af_whole bits sig v) ;; on_var_af E bits sig i s;
     on_factor := fun i s => _ <- next_is vars (e_pos s) (fun v => whole i (v_cell v)) ;; on_factor E i s;
     on_bitmap_factor := fun i s =>
       _ <- next_is vars (e_pos s) (fun v => whole i (mkcell i (Some (VInt (vi_len (c_info (v_cell v))))))) ;; on_bitmap_factor E i s;
     on_significance := fun i s => _ <- next_is vars (e_pos s) (fun v => whole i (v_cell v)) ;; on_significance E i s;
     on_subst := fun pos s =>
       _ <- next_is vars pos (fun v => match var_enqa v (c_code (v_cell v)) with
                                       | Some a => whole (c_info (v_cell v)) a | None => true end) ;; on_subst E pos s;
     on_attr := fun i pos s =>
       _ <- next_is vars pos (fun v => match var_enqa v (vi_code i) with
                                       | Some a => whole i a | None => true end) ;; on_attr E i pos s;
     on_raw := on_raw E; on_refval := on_refval E; on_bitmap := on_bitmap E; on_unknown := on_unknown E |}.
End Exact.

(** The checks that the validator does not make: the variable has the kind of data that
    the template asks for, the associated field fits, a bitmap has the announced size (and
    that size fits in its field: the validator checks the value that is left after the
    setter, which may have been clamped). *)
Definition kind_ok (i : varinfo) (c : cell) : bool :=
  negb (isset c) ||
  match vi_type i, vi_type (c_info c) with
  | TString, TString => true
  | TBinary, TBinary => (vi_bit_len i + 7) / 8 <=? vi_len (c_info c)
  | TString, _ | TBinary, _ => false
  | _, _ => true
  end.

Section Checked.
Context (p : shift_policy) (o : options) (T : tables) (vars : list var).
Let V := validator p o false T vars.

Definition careful_validator : visitor check :=
  {| on_var := fun i s => _ <- next_is vars (k_pos s) (fun v => kind_ok i (v_cell v)) ;; on_var V i s;
     on_var_af := fun bits sig i s =>
       _ <- next_is vars (k_pos s) (fun v => kind_ok i (v_cell v) && af_whole bits sig v) ;; on_var_af V bits sig i s;
     on_factor := fun i s => _ <- next_is vars (k_pos s) (fun v => kind_ok i (v_cell v)) ;; on_factor V i s;
     on_bitmap_factor := fun i s =>
       _ <- next_is vars (k_pos s) (fun v => is_numeric (vi_type i) && whole i (mkcell i (Some (VInt (vi_len (c_info (v_cell v))))))) ;;
       on_bitmap_factor V i s;
     on_significance := fun i s => _ <- next_is vars (k_pos s) (fun v => kind_ok i (v_cell v)) ;; on_significance V i s;
     on_subst := fun pos s =>
       _ <- next_is vars pos (fun v => match var_enqa v (c_code (v_cell v)) with
                                       | Some a => kind_ok (c_info (v_cell v)) a | None => true end) ;; on_subst V pos s;
     on_attr := fun i pos s =>
       _ <- next_is vars pos (fun v => match var_enqa v (vi_code i) with
                                       | Some a => kind_ok i a | None => true end) ;; on_attr V i pos s;
     on_raw := fun code s => _ <- next_is vars (k_pos s) (fun v => is_string (vi_type (c_info (v_cell v)))) ;; on_raw V code s;
     on_refval := on_refval V;
     on_bitmap := fun pending size s => _ <- next_is vars (k_pos s) (fun v => vi_len (c_info (v_cell v)) =? size) ;; on_bitmap V pending size s;
     on_unknown := on_unknown V |}.
End Checked.

(** Variables as the library makes them: the value agrees with the definition. *)
Definition sound_cell (c : cell) : Prop := match c_val c with None => True | Some v => value_ok (c_info c) v end.
Definition sound_var (v : var) : Prop := Forall sound_cell (v_cell v :: v_attrs v).

(** Templates made of elements, replications, sequences and operators 201, 202, 203, 207 and
    208 (and others that take no data), at all levels. *)
Definition simple_op (c : Z) : bool :=
  negb (var_f c =? 2) ||
  negb (existsb (Z.eqb (var_x c)) [4; 5; 6; 22; 23; 37]).
Definition simple_template (T : tables) (ops : list Z) : Prop :=
  forallb simple_op ops = true /\ forall d body, dexpand (tb_d T) d = Ok body -> forallb simple_op body = true.

(** Table B has no binary elements, and the variables for its text elements hold text. *)
Definition table_types (T : tables) (vars : list var) : Prop :=
  forall e, In e (tb_b T) -> vi_type (be_info e) <> TBinary /\
    (vi_type (be_info e) = TString ->
     forall v, In v vars -> c_code (v_cell v) = be_code e -> vi_type (c_info (v_cell v)) = TString).

(** A definition whose numbers take less than 32 bits. *)
Definition narrow (i : varinfo) : Prop := is_numeric (vi_type i) = true -> vi_bit_len i < 32.

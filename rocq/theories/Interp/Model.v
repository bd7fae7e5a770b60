(** The template interpreter: wreport/bulletin/interpreter.{h,cc} and
    wreport/bulletin/bitmaps.{h,cc}.

    The virtual methods are the fields of [visitor]; [S] is the state of the
    subclass.  Descriptor lists are plain lists (C17 shows that [Opcodes] behaves like
    them) and altered definitions are computed by [expected] (C16 shows that this is
    what the tables return after any history). *)
From Coq Require Import String.
From Verif Require Import Base Num.Float Varcode.Model Varinfo.Model Tables.Model Tables.Spec.
Local Open Scope Z_scope.

Record tables : Type := mktables { tb_b : btable; tb_d : dtable }.

(** DTable::query followed by iteration over the Opcodes. *)
Definition dexpand (d : dtable) (code : Z) : res (list Z) :=
  o <- dquery d code ;; Ok (slice o).

(** ** Bitmaps *)

(** A Bitmap: the positions with data present and those still to visit:
    bitmaps.h:14-62. *)
Record bitmap : Type := mkbitmap { bm_refs : list nat; bm_rest : list nat }.

(** The inner loop of the constructor: the last position below [n] that holds a data
    variable: bitmaps.cc:37-42. *)
Fixpoint skip_back (codes : list Z) (n : nat) : option nat :=
  match n with
  | O => None
  | S m => if var_f (nth m codes 0) =? 0 then Some m else skip_back codes m
  end.

(** The outer loop: bitmaps.cc:34-51, on the reversed bitmap.  Positions come out in
    the order in which they are iterated (the C++ list is visited backwards). *)
Fixpoint bitmap_walk (codes : list Z) (rbits : list Z) (n : nat) : res (list nat) :=
  match rbits with
  | [] => Ok []
  | b :: rest =>
    match skip_back codes n with
    | None => Err EConsistency
    | Some m => refs <- bitmap_walk codes rest m ;; Ok (if b =? 43 then refs ++ [m] else refs)
    end
  end.

(** Bitmap::Bitmap: bitmaps.cc:13-55.  [bits] are the characters of the bitmap
    variable, [codes] the codes of the variables before the anchor. *)
Definition make_bitmap (codes bits : list Z) : res (list nat) :=
  match bits with
  | [] => Err EConsistency
  | _ => bitmap_walk codes (rev bits) (length codes)
  end.

(** ** Interpreter state: interpreter.h:25-56, bitmaps.h:64-100, associated_fields.h *)

Record istate : Type := mkist {
  is_scale : Z;                    (* c_scale_change *)
  is_width : Z;                    (* c_width_change *)
  is_srw : Z;                      (* c_scale_ref_width_increase *)
  is_strlen : Z;                   (* c_string_len_override *)
  is_refs : list (Z * Z);          (* c03_refval_overrides, newest first *)
  is_refbits : Z;                  (* c03_refval_override_bits *)
  is_pending : Z;                  (* bitmaps.pending_definitions *)
  is_cur : option bitmap;          (* bitmaps.current *)
  is_last : option (list nat);     (* bitmaps.last *)
  is_afbits : Z;                   (* associated_field.bit_count *)
  is_afsig : Z }.                  (* associated_field.significance *)

(** Interpreter::Interpreter and AssociatedField::AssociatedField:
    interpreter.h:36-56, associated_fields.cc:18-21. *)
Definition ist_init : istate := mkist 0 0 0 0 [] 0 0 None None 0 63.

Definition with_scale st v := mkist v (is_width st) (is_srw st) (is_strlen st) (is_refs st) (is_refbits st)
  (is_pending st) (is_cur st) (is_last st) (is_afbits st) (is_afsig st).
Definition with_width st v := mkist (is_scale st) v (is_srw st) (is_strlen st) (is_refs st) (is_refbits st)
  (is_pending st) (is_cur st) (is_last st) (is_afbits st) (is_afsig st).
Definition with_srw st v := mkist (is_scale st) (is_width st) v (is_strlen st) (is_refs st) (is_refbits st)
  (is_pending st) (is_cur st) (is_last st) (is_afbits st) (is_afsig st).
Definition with_strlen st v := mkist (is_scale st) (is_width st) (is_srw st) v (is_refs st) (is_refbits st)
  (is_pending st) (is_cur st) (is_last st) (is_afbits st) (is_afsig st).
Definition with_refs st v := mkist (is_scale st) (is_width st) (is_srw st) (is_strlen st) v (is_refbits st)
  (is_pending st) (is_cur st) (is_last st) (is_afbits st) (is_afsig st).
Definition with_refbits st v := mkist (is_scale st) (is_width st) (is_srw st) (is_strlen st) (is_refs st) v
  (is_pending st) (is_cur st) (is_last st) (is_afbits st) (is_afsig st).
Definition with_pending st v := mkist (is_scale st) (is_width st) (is_srw st) (is_strlen st) (is_refs st) (is_refbits st)
  v (is_cur st) (is_last st) (is_afbits st) (is_afsig st).
Definition with_bitmaps st c l := mkist (is_scale st) (is_width st) (is_srw st) (is_strlen st) (is_refs st) (is_refbits st)
  (is_pending st) c l (is_afbits st) (is_afsig st).
Definition with_af st b s := mkist (is_scale st) (is_width st) (is_srw st) (is_strlen st) (is_refs st) (is_refbits st)
  (is_pending st) (is_cur st) (is_last st) b s.

(** Bitmaps::next: bitmaps.cc:76-88; Bitmap::next at the end reads before the start
    of the vector. *)
Definition bitmaps_next (st : istate) : res (nat * istate) :=
  match is_cur st with
  | None => Err EConsistency
  | Some b =>
    match bm_rest b with
    | [] => UB
    | p :: rest =>
      Ok (p, match rest with
             | [] => with_bitmaps st None (Some (bm_refs b))
             | _ => with_bitmaps st (Some (mkbitmap (bm_refs b) rest)) (is_last st)
             end)
    end
  end.

(** Bitmaps::define: bitmaps.cc:95-99.  The current bitmap is deleted before the new
    one is constructed: if the constructor throws, the destructor of Bitmaps
    (bitmaps.cc:70-74) deletes it a second time. *)
Definition bitmaps_define (st : istate) (codes bits : list Z) : res istate :=
  match make_bitmap codes bits with
  | Ok refs => Ok (with_bitmaps st (Some (mkbitmap refs refs)) (is_last st))
  | Err e => match is_cur st with Some _ => UB | None => Err e end
  | UB => UB
  end.

(** Bitmaps::reuse_last: bitmaps.cc:101-110; discard_last: 112-116. *)
Definition bitmaps_reuse (st : istate) : istate :=
  with_bitmaps st (match is_last st with Some r => Some (mkbitmap r r) | None => None end) None.
Definition bitmaps_discard (st : istate) : istate := with_bitmaps st (is_cur st) None.

(** ** Interpreter::get_varinfo: interpreter.cc:80-128.  pow10 has 10 elements; the
    product is an int.  The length is passed on as unsigned. *)
Definition get_varinfo (t : btable) (st : istate) (code : Z) : res varinfo :=
  peek <- query t code ;;
  if (is_scale st =? 0) && (is_width st =? 0) && (is_strlen st =? 0) && (is_srw st =? 0) &&
     (match is_refs st with [] => true | _ => false end)
  then Ok peek
  else
    let scale := vi_scale peek + is_scale st in
    let bit_len := match vi_type peek with
                   | TString => if is_strlen st =? 0 then vi_bit_len peek + is_width st else is_strlen st * 8
                   | _ => vi_bit_len peek + is_width st
                   end in
    ' (scale', bit_len', bit_ref') <-
      (if is_srw st =? 0 then Ok (scale, bit_len, vi_bit_ref peek)
       else if 9 <? is_srw st then UB
       else r <- int_checked (vi_bit_ref peek * 10 ^ is_srw st) ;;
            Ok (scale + is_srw st, bit_len + (10 * is_srw st + 2) / 3, r)) ;;
    let bit_ref := match assoc Z.eqb code (is_refs st) with Some r => r | None => bit_ref' end in
    expected t (mkreq code scale' (u32 bit_len') bit_ref).

(** The virtual methods: interpreter.h:66-185. *)
Record visitor (S : Type) : Type := mkvisitor {
  on_var : varinfo -> S -> res S;                       (* define_variable *)
  on_var_af : Z -> Z -> varinfo -> S -> res S;          (* ..._with_associated_field; bits, significance *)
  on_factor : varinfo -> S -> res (Z * S);              (* define_delayed_replication_factor *)
  on_bitmap_factor : varinfo -> S -> res (Z * S);       (* define_bitmap_delayed_replication_factor *)
  on_significance : varinfo -> S -> res (Z * S);        (* define_associated_field_significance *)
  on_subst : nat -> S -> res S;                         (* define_substituted_value *)
  on_attr : varinfo -> nat -> S -> res S;               (* define_attribute *)
  on_raw : Z -> S -> res S;                             (* define_raw_character_data *)
  on_refval : Z -> Z -> S -> res (Z * S);               (* define_c03_refval_override; bits, code *)
  on_bitmap : Z -> Z -> S -> res (list Z * list Z * S); (* define_bitmap; pending operator, size;
                                                           codes before the anchor and bitmap *)
  on_unknown : Z -> Z -> S -> res (varinfo * S) }.      (* tables.get_unknown *)
Arguments mkvisitor {S}.
Arguments on_var {S}. Arguments on_var_af {S}. Arguments on_factor {S}. Arguments on_bitmap_factor {S}.
Arguments on_significance {S}. Arguments on_subst {S}. Arguments on_attr {S}. Arguments on_raw {S}.
Arguments on_refval {S}. Arguments on_bitmap {S}. Arguments on_unknown {S}.

Definition var_B31021 : Z := wr_var 0 31 21.
Definition var_B31012 : Z := wr_var 0 31 12.
Definition var_B31031 : Z := wr_var 0 31 31.

(** Repetition of a step. *)
Fixpoint repeat_m {A} (n : nat) (f : A -> res A) (a : A) : res A :=
  match n with
  | O => Ok a
  | S k => a' <- f a ;; repeat_m k f a'
  end.

Section Run.
Context {S : Type} (V : visitor S) (T : tables).

(** b_variable: interpreter.cc:130-156. *)
Definition b_variable (code : Z) (x : istate * S) : res (istate * S) :=
  let (st, s) := x in
  if negb (is_refbits st =? 0) then
    ' (r, s') <- on_refval V (is_refbits st) code s ;;
    Ok (with_refs st ((code, r) :: is_refs st), s')
  else
    info <- get_varinfo (tb_b T) st code ;;
    if (var_f code =? 0) && (var_x code =? 33) && (match is_cur st with Some _ => true | None => false end) then
      ' (pos, st') <- bitmaps_next st ;;
      s' <- on_attr V info pos s ;; Ok (st', s')
    else if negb (is_afbits st =? 0) then
      s' <- on_var_af V (is_afbits st) (is_afsig st) info s ;; Ok (st, s')
    else
      s' <- on_var V info s ;; Ok (st, s').

(** Opcodes::pop_left: opcodes.h:55-59. *)
Definition pop_left (ops : list Z) : res (Z * list Z) :=
  match ops with [] => Err EConsistency | c :: r => Ok (c, r) end.

(** c_modifier: interpreter.cc:158-423.  Also returns what is left of the
    descriptors. *)
Definition c_modifier (code : Z) (next : list Z) (x : istate * S) : res (list Z * istate * S) :=
  let (st, s) := x in
  let y := var_y code in
  let plain st' := Ok (next, st', s) in
  let X := var_x code in
  if X =? 1 then plain (with_width st (if y =? 0 then 0 else y - 128))
  else if X =? 2 then plain (with_scale st (if y =? 0 then 0 else y - 128))
  else if X =? 3 then plain (with_refbits st (if y =? 255 then 0 else y))
  else if X =? 4 then
    if negb (y =? 0) && negb (is_afbits st =? 0) then Err EUnimpl
    else if 32 <? y then Err EUnimpl
    else if y =? 0 then plain (with_af st 0 (is_afsig st))
    else
      ' (c, next') <- pop_left next ;;
      if negb (c =? var_B31021) then Err EConsistency
      else
        info <- query (tb_b T) var_B31021 ;;
        ' (sig, s') <- on_significance V info s ;;
        Ok (next', with_af st y sig, s')
  else if X =? 5 then s' <- on_raw V code s ;; Ok (next, st, s')
  else if X =? 6 then
    ' (c, next') <- pop_left next ;;
    if y =? 0 then Ok (next', st, s)
    else
      known <- contains (tb_b T) c ;;
      oi <- (if known : bool then
               i <- get_varinfo (tb_b T) st c ;; Ok (if vi_bit_len i =? y then Some i else None)
             else Ok None) ;;
      ' (i, s1) <- (match oi with
                    | Some i => Ok (i, s)
                    | None => on_unknown V c y s
                    end) ;;
      s2 <- on_var V i s1 ;; Ok (next', st, s2)
  else if X =? 7 then plain (with_srw st y)
  else if X =? 8 then plain (with_strlen st y)
  else if X =? 22 then
    if negb (y =? 0) then Err EConsistency else plain (with_pending st code)
  else if X =? 23 then
    if y =? 0 then plain (with_pending st code)
    else if y =? 255 then
      ' (pos, st') <- bitmaps_next st ;;
      s' <- on_subst V pos s ;; Ok (next, st', s')
    else Err EConsistency
  else if X =? 37 then
    if y =? 0 then plain (with_pending (bitmaps_reuse st) 0)
    else if y =? 255 then plain (bitmaps_discard st)
    else Err EConsistency
  else plain st.

(** The delayed replication code: interpreter.cc:40-54. *)
Definition delayed_code (cur : Z) (rest : list Z) : Z * list Z :=
  if var_y cur =? 0 then
    match rest with
    | n :: rest' => if (var_f n =? 0) && (var_x n =? 31) then (n, rest') else (var_B31012, rest)
    | [] => (var_B31012, rest)
    end
  else (0, rest).

(** r_bitmap: interpreter.cc:466-487. *)
Definition r_bitmap (code delayed : Z) (ops : list Z) (x : istate * S) : res (istate * S) :=
  let (st, s) := x in
  if negb (var_x code =? 1) then Err EConsistency
  else if negb (hd 0 ops =? var_B31031) then Err EConsistency
  else
    ' (count, s1) <- (if var_y code =? 0 then
                        info <- query (tb_b T) delayed ;; on_bitmap_factor V info s
                      else Ok (var_y code, s)) ;;
    ' (codes, bits, s2) <- on_bitmap V (is_pending st) count s1 ;;
    st' <- bitmaps_define st codes bits ;;
    Ok (with_pending st' 0, s2).

(** r_replication: interpreter.cc:425-459. *)
Definition r_replication (body : istate * S -> res (istate * S)) (code delayed : Z) (x : istate * S)
  : res (istate * S) :=
  let (st, s) := x in
  ' (count, s1) <- (if var_y code =? 0 then
                      info <- query (tb_b T) delayed ;; on_factor V info s
                    else Ok (var_y code, s)) ;;
  repeat_m (Z.to_nat count) body (st, s1).

(** run: interpreter.cc:30-78.  [fuel] bounds the length of the descriptor lists plus
    the nesting, not the number of repetitions. *)
Fixpoint run (fuel : nat) (ops : list Z) (x : istate * S) : res (istate * S) :=
  match fuel with
  | O => Err EFuel
  | Datatypes.S k =>
    match ops with
    | [] => Ok x
    | cur :: rest =>
      let f := var_f cur in
      if f =? 0 then x' <- b_variable cur x ;; run k rest x'
      else if f =? 1 then
        let (delayed, rest1) := delayed_code cur rest in
        let n := Z.to_nat (var_x cur) in
        if Nat.ltb (length rest1) n then Err EConsistency
        else
          let ops' := firstn n rest1 in
          x' <- (if is_pending (fst x) =? 0 then r_replication (run k ops') cur delayed x
                 else r_bitmap cur delayed ops' x) ;;
          run k (skipn n rest1) x'
      else if f =? 2 then
        ' (rest', st', s') <- c_modifier cur rest x ;; run k rest' (st', s')
      else
        body <- dexpand (tb_d T) cur ;;
        x' <- run k body x ;; run k rest x'
    end
  end.

End Run.

(** What a receiver should get from a subset: an ideal transmission, without bits.

    [transfer] walks the template like the encoder does, takes the sender's variables
    one by one, checks that each of them is what the template asks for and that its
    value can be represented in its field, and builds the receiver's variables. *)
From Coq Require Import String SpecFloat.
From Flocq Require Import Core BinarySingleNaN.
From Verif Require Import Base Bits.Model Bits.Spec Bits.StringProofs Num.Float Varcode.Model Varinfo.Model
  Tables.Model Var.Model Interp.Model Codec.Model.
Local Open Scope Z_scope.

(** Equality of definitions. *)
Lemma sf_eq_dec : forall a b : spec_float, {a = b} + {a <> b}.
Proof. repeat decide equality. Defined.
Definition f64_eq_dec (a b : f64) : {a = b} + {a <> b}.
Proof.
  destruct (sf_eq_dec (B2SF a) (B2SF b)) as [E|E].
  - left. exact (B2SF_inj _ _ a b E).
  - right. intros ->. apply E. reflexivity.
Defined.
Definition vartype_eq_dec (a b : vartype) : {a = b} + {a <> b}.
Proof. decide equality. Defined.
Definition varinfo_eq_dec (i j : varinfo) : {i = j} + {i <> j}.
Proof.
  decide equality; first [apply f64_eq_dec | apply Z.eq_dec | apply string_dec | apply vartype_eq_dec].
Defined.

(** The values that a field can carry.  A missing string longer than 32 bits needs a
    shift by more than the width of an int: it only works on machines that take the
    count modulo 32. *)
Definition number_fits (i : varinfo) (k : Z) : bool :=
  (vi_imin i <=? k) && (k <=? vi_imax i) && (vi_bit_ref i <=? k) &&
  (k - vi_bit_ref i <? 2 ^ vi_bit_len i - (if no_missing (vi_code i) then 0 else 1)).

Definition text_fits (i : varinfo) (s : list Z) : bool :=
  (1 <=? Z.of_nat (length s)) && (Z.of_nat (length s) <=? vi_len i) && (8 * Z.of_nat (length s) <=? vi_bit_len i) &&
  forallb (fun ch => (1 <=? ch) && (ch <? 256)) s &&
  (negb (last_is_blank s) || zlist_eqb s [32]) &&
  negb ((8 * Z.of_nat (length s) =? vi_bit_len i) && forallb (Z.eqb 255) s).

Definition binary_fits (i : varinfo) (b : list Z) : bool :=
  (Z.of_nat (length b) =? vi_len i) && forallb (fun ch => (0 <=? ch) && (ch <? 256)) b &&
  ((vi_bit_len i mod 8 =? 0) || (last b 0 <? 2 ^ (vi_bit_len i mod 8))) &&
  negb (forallb (Z.eqb 255) b).

Definition field_ok (p : shift_policy) (i : varinfo) (v : option value) : bool :=
  match vi_type i with
  | TInteger | TDecimal =>
    (1 <=? vi_bit_len i) && (vi_bit_len i <=? 32) &&
    match v with
    | None => negb (no_missing (vi_code i))
    | Some (VInt k) => number_fits i k
    | Some _ => false
    end
  | TString =>
    (8 <=? vi_bit_len i) && (vi_bit_len i mod 8 =? 0) &&
    match v with
    | None => (vi_bit_len i <=? 32) || match p with X86 => true | Strict => false end
    | Some (VStr s) => text_fits i s
    | Some _ => false
    end
  | TBinary =>
    (1 <=? vi_bit_len i) && (vi_len i =? (vi_bit_len i + 7) / 8) &&
    match v with
    | None => (vi_bit_len i mod 8 =? 0) && (vi_bit_len i <=? 32)
    | Some (VBin b) => binary_fits i b
    | Some _ => false
    end
  end.

Definition is_string (t : vartype) : bool := match t with TString => true | _ => false end.

(** ** The ideal transmission *)

(** Position in the sender's subset, receiver's variables, local tables; and two logs:
    the attributes that the template asked for, as (position, code), and the variables
    with associated fields, as (position, (width, significance)). *)
Record xfer : Type := mkxfer {
  x_pos : nat; x_got : list var; x_lt : localtables;
  x_asked : list (nat * Z); x_fields : list (nat * (Z * Z)) }.

Definition xfer_init (lt : localtables) : xfer := mkxfer 0 [] lt [] [].

Section Transfer.
Context (p : shift_policy) (T : tables) (skip_missing : bool) (vars : list var).

Definition guard (b : bool) : res unit := if b then Ok tt else Err EConsistency.

(** The next variable of the sender, which must have definition [i] and a value that
    fits. *)
Definition x_take (i : varinfo) (s : xfer) : res var :=
  v <- get_var vars (x_pos s) ;;
  if varinfo_eq_dec (c_info (v_cell v)) i then
    _ <- guard (field_ok p i (c_val (v_cell v))) ;; Ok v
  else Err EConsistency.

Definition x_give (c : cell) (attrs : list cell) (s : xfer) : xfer :=
  mkxfer (S (x_pos s)) (x_got s ++ [mkvar c attrs]) (x_lt s) (x_asked s) (x_fields s).

Definition x_note (bits sig : Z) (s : xfer) : xfer :=
  mkxfer (x_pos s) (x_got s) (x_lt s) (x_asked s) (x_fields s ++ [(x_pos s, (bits, sig))]).

Definition x_tables (lt : localtables) (s : xfer) : xfer :=
  mkxfer (x_pos s) (x_got s) lt (x_asked s) (x_fields s).

Definition x_var (i : varinfo) (s : xfer) : res xfer :=
  v <- x_take i s ;; Ok (x_give (v_cell v) [] s).

(** The attribute that the associated field of a variable becomes. *)
Definition x_af (bits sig : Z) (v : var) : res (list cell) :=
  oc <- af_code sig ;;
  match oc with
  | None => Ok []
  | Some code =>
    i <- query (tb_b T) code ;;
    let absent :=
      if sig =? 21 then
        if skip_missing then Ok []
        else _ <- guard (is_numeric (vi_type i) && (vi_imin i <=? 0) && (0 <=? vi_imax i)) ;;
             Ok [mkcell i (Some (VInt 0))]
      else Ok (if ((sig =? 6) || (sig =? 8)) && skip_missing then [] else [fresh i]) in
    match var_enqa v code with
    | None => absent
    | Some a =>
      match c_val a with
      | None => absent
      | Some (VInt k) =>
        let got := if sig =? 21 then 0 else k in
        _ <- guard (is_numeric (vi_type (c_info a)) && (0 <=? k) && (k <? 2 ^ bits - 1) &&
                    is_numeric (vi_type i) && (vi_imin i <=? got) && (got <=? vi_imax i)) ;;
        Ok [mkcell i (Some (VInt got))]
      | Some _ => Err EConsistency
      end
    end
  end.

Definition x_var_af (bits sig : Z) (i : varinfo) (s : xfer) : res xfer :=
  v <- x_take i s ;;
  attrs <- x_af bits sig v ;;
  Ok (x_give (v_cell v) attrs (x_note bits sig s)).

Definition x_factor (i : varinfo) (s : xfer) : res (Z * xfer) :=
  v <- x_take i s ;;
  n <- enqi (v_cell v) ;; Ok (u32 n, x_give (v_cell v) [] s).

Definition x_significance (i : varinfo) (s : xfer) : res (Z * xfer) :=
  v <- x_take i s ;;
  n <- (if isset (v_cell v) then enqi (v_cell v) else Ok 63) ;;
  Ok (u32 n, x_give (v_cell v) [] s).

(** The length of the bitmap that comes next. *)
Definition x_bitmap_factor (i : varinfo) (s : xfer) : res (Z * xfer) :=
  v <- get_var vars (x_pos s) ;;
  let len := vi_len (c_info (v_cell v)) in
  _ <- guard (is_numeric (vi_type i) && field_ok p i (Some (VInt len)) && (0 <=? len)) ;;
  Ok (len, s).

(** The attribute of the sender's variable at [pos], with definition [i]: it is given to
    the receiver's variable at the same position. *)
Definition x_attr (i : varinfo) (pos : nat) (s : xfer) : res xfer :=
  v <- get_var vars pos ;;
  got <- get_var (x_got s) pos ;;
  let asked := x_asked s ++ [(pos, vi_code i)] in
  match var_enqa v (vi_code i) with
  | None => _ <- guard (field_ok p i None) ;; Ok (mkxfer (x_pos s) (x_got s) (x_lt s) asked (x_fields s))
  | Some a =>
    if varinfo_eq_dec (c_info a) i then
      _ <- guard (field_ok p i (c_val a)) ;;
      Ok (mkxfer (x_pos s)
            (if isset a then update (x_got s) pos (mkvar (v_cell got) (seta a (v_attrs got))) else x_got s)
            (x_lt s) asked (x_fields s))
    else Err EConsistency
  end.

Definition x_subst (pos : nat) (s : xfer) : res xfer :=
  v <- get_var vars pos ;; x_attr (c_info (v_cell v)) pos s.

(** Character data: the receiver gets it padded with blanks. *)
Definition x_raw (code : Z) (s : xfer) : res xfer :=
  v <- get_var vars (x_pos s) ;;
  ' (i, lt) <- get_chardata (x_lt s) code (var_y code) ;;
  if varinfo_eq_dec (c_info (v_cell v)) i then
    s' <- (match c_val (v_cell v) with
           | None => Ok []
           | Some (VStr str) => _ <- guard (forallb (fun ch => (1 <=? ch) && (ch <? 256)) str) ;; Ok str
           | _ => Err EConsistency
           end) ;;
    _ <- guard ((vi_len i =? var_y code) && is_string (vi_type i)) ;;
    Ok (x_tables lt (x_give (mkcell i (Some (VStr (pad_field (Z.to_nat (var_y code)) s')))) [] s))
  else Err EConsistency.

Definition x_refval (bits code : Z) (s : xfer) : res (Z * xfer) :=
  ref <- find_ref T vars code ;;
  _ <- guard (negb (ref =? 0) && (Z.abs ref <? 2 ^ (bits - 1)) && (bits <=? 32)) ;;
  Ok (ref, s).

Definition x_bitmap (pending size : Z) (s : xfer) : res (list Z * list Z * xfer) :=
  v <- get_var vars (x_pos s) ;;
  match c_val (v_cell v) with
  | Some (VStr chars) =>
    ' (i, lt) <- get_bitmap (x_lt s) pending chars ;;
    if varinfo_eq_dec (c_info (v_cell v)) i then
      _ <- guard (forallb (fun ch => (ch =? 43) || (ch =? 45)) chars && (Z.of_nat (length chars) =? size) && (1 <=? size) &&
                  (vi_len i =? size) && (var_f (vi_code i) =? 2) && is_string (vi_type i)) ;;
      let s' := x_tables lt (x_give (v_cell v) [] s) in
      Ok (codes_of (x_got s'), chars, s')
    else Err EConsistency
  | _ => Err EConsistency
  end.

Definition x_unknown (code bits : Z) (s : xfer) : res (varinfo * xfer) :=
  ' (i, lt) <- get_unknown (x_lt s) code bits ;; Ok (i, x_tables lt s).

Definition transmitter : visitor xfer :=
  mkvisitor x_var x_var_af x_factor x_bitmap_factor x_significance x_subst x_attr x_raw x_refval
    x_bitmap x_unknown.

(** The whole subset: every variable of the sender must be used. *)
Definition transfer_state (fuel : nat) (ops : list Z) (lt : localtables) : res xfer :=
  ' (_, s) <- run transmitter T fuel ops (ist_init, xfer_init lt) ;;
  _ <- guard (Nat.eqb (x_pos s) (length vars)) ;;
  Ok s.

Definition transfer (fuel : nat) (ops : list Z) (lt : localtables) : res (list var * localtables) :=
  s <- transfer_state fuel ops lt ;; Ok (x_got s, x_lt s).

End Transfer.

(** A list of subsets, with the local tables of the message. *)
Fixpoint transfer_all (p : shift_policy) (T : tables) (skip_missing : bool) (fuel : nat) (ops : list Z)
  (subsets : list (list var)) (lt : localtables) : res (list (list var) * localtables) :=
  match subsets with
  | [] => Ok ([], lt)
  | vars :: rest =>
    ' (got, lt1) <- transfer p T skip_missing vars fuel ops lt ;;
    ' (gots, lt2) <- transfer_all p T skip_missing fuel ops rest lt1 ;;
    Ok (got :: gots, lt2)
  end.

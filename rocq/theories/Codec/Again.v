(** What has to be the case for a decoded subset to be encoded and decoded again without changes.

    [recorder] is the decoder, with a record of what the template asks for. *)
From Verif Require Import Base Bits.Model Bits.StringProofs Num.Float Varcode.Model Varinfo.Model Tables.Model Var.Model Interp.Model
  Codec.Model.
Local Open Scope Z_scope.

(** What is read: a value that becomes the variable at [pos]; one with an associated field before
    it; the length of a bitmap, which is not stored; an attribute of the variable at [pos];
    character data; a reference value.  [i] is the definition of what is read. *)
Inductive request : Type :=
| RField (pos : nat) (i : varinfo)
| RAssoc (pos : nat) (bits sig : Z) (i : varinfo)
| RCount (i : varinfo)
| RAttr (pos : nat) (i : varinfo)
| RChars (pos : nat) (code : Z)
| RRef (bits code r : Z).

Notation recording := (dec * list request)%type.

Section Recorder.
Context (o : options) (T : tables) (skip : bool).

Definition next_pos (x : recording) : nat := length (d_vars (fst x)).
Definition note (r : request) (m : res dec) (x : recording) : res recording :=
  s <- m ;; Ok (s, snd x ++ [r]).
Definition note_with {A} (r : A -> request) (m : res (A * dec)) (x : recording) : res (A * recording) :=
  ' (a, s) <- m ;; Ok (a, (s, snd x ++ [r a])).

Definition recorder : visitor recording :=
  mkvisitor
    (fun i x => note (RField (next_pos x) i) (d_var o i (fst x)) x)
    (fun bits sig i x => note (RAssoc (next_pos x) bits sig i) (d_var_af o T skip bits sig i (fst x)) x)
    (fun i x => note_with (fun _ => RField (next_pos x) i) (d_factor o i (fst x)) x)
    (fun i x => note_with (fun _ => RCount i) (d_bitmap_factor o i (fst x)) x)
    (fun i x => note_with (fun _ => RField (next_pos x) i) (d_significance o i (fst x)) x)
    (fun pos x => match nth_error (d_vars (fst x)) pos with
                  | None => UB
                  | Some v => note (RAttr pos (c_info (v_cell v))) (d_subst o pos (fst x)) x
                  end)
    (fun i pos x => note (RAttr pos i) (d_attr o i pos (fst x)) x)
    (fun code x => note (RChars (next_pos x) code) (d_raw o code (fst x)) x)
    (fun bits code x => note_with (fun r => RRef bits code r) (d_refval bits code (fst x)) x)
    (fun pending size x => ' (codes, bits, s) <- d_bitmap o pending size (fst x) ;; Ok (codes, bits, (s, snd x)))
    (fun code bits x => ' (i, s) <- d_unknown code bits (fst x) ;; Ok (i, (s, snd x))).

(** [decode_subsets], with the records. *)
Fixpoint record_subsets (fuel : nat) (ops : list Z) (n : nat) (lt : localtables) (inp : input)
  : res (list (list var * list request) * localtables * input) :=
  match n with
  | O => Ok ([], lt, inp)
  | S k =>
    ' (_, x) <- run recorder T fuel ops (ist_init, (mkdec inp [] lt, [])) ;;
    ' (rest, lt', inp') <- record_subsets fuel ops k (d_lt (fst x)) (d_in (fst x)) ;;
    Ok ((d_vars (fst x), snd x) :: rest, lt', inp')
  end.
End Recorder.

(** ** Conditions *)

(** Fields whose values all have a representation.  Numbers of more than 31 bits wrap around and
    text is made of bytes. *)
Definition roomy (i : varinfo) : Prop :=
  match vi_type i with
  | TInteger | TDecimal => 1 <= vi_bit_len i <= 32 /\ vi_bit_ref i + 2 ^ vi_bit_len i <= 2 ^ 31
  | TString => 8 <= vi_bit_len i /\ vi_bit_len i mod 8 = 0
  | TBinary => 1 <= vi_bit_len i /\ vi_len i = (vi_bit_len i + 7) / 8
  end.

(** Values that are not altered when they are written.  The decoder cuts texts at the first NUL, after it
    has taken away the blanks at the end: what is left may be empty or end with blanks.  Missing values
    of more than 32 bits are a shift by more than the width of an int. *)
Definition neat (p : shift_policy) (i : varinfo) (v : option value) : Prop :=
  match v with
  | None => match vi_type i with
            | TString => vi_bit_len i <= 32 \/ p = X86
            | TBinary => vi_bit_len i mod 8 = 0 /\ vi_bit_len i <= 32
            | _ => True
            end
  | Some (VStr s) => s <> [] /\ (last_is_blank s = false \/ s = [32])
  | Some _ => True
  end.

(** The attribute that a request sets, as position and code. *)
Definition keys_of (r : request) : list (nat * Z) :=
  match r with
  | RAttr pos i => [(pos, vi_code i)]
  | RAssoc pos _ sig _ => match af_code sig with Ok (Some code) => [(pos, code)] | _ => [] end
  | _ => []
  end.
Definition keys (l : list request) : list (nat * Z) := flat_map keys_of l.

Definition value_at (vars : list var) (pos : nat) (P : cell -> Prop) : Prop :=
  forall v, nth_error vars pos = Some v -> P (v_cell v).

Definition request_ok (p : shift_policy) (T : tables) (vars : list var) (r : request) : Prop :=
  match r with
  | RField pos i => roomy i /\ value_at vars pos (fun c => neat p i (c_val c))
  | RAssoc pos bits sig i => roomy i /\ value_at vars pos (fun c => neat p i (c_val c)) /\
      forall code, af_code sig = Ok (Some code) ->
        exists j, query (tb_b T) code = Ok j /\ is_numeric (vi_type j) = true /\ 0 <= vi_imin j
  | RCount i => is_numeric (vi_type i) = true /\ roomy i /\ 0 <= vi_bit_ref i
  | RAttr pos i => roomy i /\
      forall v, nth_error vars pos = Some v -> neat p i (match var_enqa v (vi_code i) with Some a => c_val a | None => None end)
  | RChars pos code => value_at vars pos (fun c => forall s, c_val c = Some (VStr s) -> Z.of_nat (length s) = var_y code)
  | RRef bits code r => r <> 0 /\ find_ref T vars code = Ok r
  end.

(** Every attribute is read once, and everything that is read can be written. *)
Definition faithful (p : shift_policy) (T : tables) (vars : list var) (reqs : list request) : Prop :=
  NoDup (keys reqs) /\ Forall (request_ok p T vars) reqs.

(** The default options: values out of range are errors. *)
Definition strict_options (o : options) : Prop := o_silent o = false /\ o_clamp o = false /\ o_hook o = None.

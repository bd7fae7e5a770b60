(** What has to be the case for subsets that were decoded from compressed data to be encoded, without
    compression, and decoded again without changes.

    [comp_recorder] is the decoder of compressed data, with a record of what the template asks for:
    one record for all the subsets. *)
From Verif Require Import Base Bits.Model Bits.StringProofs Num.Float Varcode.Model Varinfo.Model Tables.Model Var.Model Interp.Model
  Codec.Model Codec.Compressed Codec.Again.
Local Open Scope Z_scope.

Notation comp_recording := (cdec * list request)%type.

Section Recorder.
Context (o : options) (T : tables) (skip : bool).

Definition comp_pos (x : comp_recording) : nat := length (hd [] (k_subs (fst x))).
Definition comp_note (r : request) (m : res cdec) (x : comp_recording) : res comp_recording :=
  s <- m ;; Ok (s, snd x ++ [r]).
Definition comp_note_with {A} (r : A -> request) (m : res (A * cdec)) (x : comp_recording) : res (A * comp_recording) :=
  ' (a, s) <- m ;; Ok (a, (s, snd x ++ [r a])).

Definition comp_recorder : visitor comp_recording :=
  mkvisitor
    (fun i x => comp_note (RField (comp_pos x) i) (k_var o i (fst x)) x)
    (fun bits sig i x => comp_note (RAssoc (comp_pos x) bits sig i) (k_var_af o T skip bits sig i (fst x)) x)
    (fun i x => comp_note_with (fun _ => RField (comp_pos x) i) (k_factor o i (fst x)) x)
    (fun i x => comp_note_with (fun _ => RCount i) (k_bitmap_factor o i (fst x)) x)
    (fun i x => comp_note_with (fun _ => RField (comp_pos x) i) (k_significance o i (fst x)) x)
    (fun pos x => match k_subs (fst x) with
                  | [] => Err ENotFound
                  | vars :: _ =>
                    match nth_error vars pos with
                    | None => UB
                    | Some v => comp_note (RAttr pos (c_info (v_cell v))) (k_subst o pos (fst x)) x
                    end
                  end)
    (fun i pos x => comp_note (RAttr pos i) (k_attr o i pos (fst x)) x)
    (fun code x => comp_note (RChars (comp_pos x) code) (k_raw code (fst x)) x)
    (fun bits code x => comp_note_with (fun r => RRef bits code r) (k_refval bits code (fst x)) x)
    (fun pending size x => ' (codes, bits, s) <- k_bitmap o pending size (fst x) ;; Ok (codes, bits, (s, snd x)))
    (fun code bits x => ' (i, s) <- k_unknown code bits (fst x) ;; Ok (i, (s, snd x))).

(** [decode_compressed], with the record. *)
Definition record_compressed (fuel : nat) (ops : list Z) (n : nat) (lt : localtables) (inp : input)
  : res (list (list var) * list request * localtables * input) :=
  ' (_, x) <- run comp_recorder T fuel ops (ist_init, (mkcdec inp (repeat [] n) lt, [])) ;;
  Ok (k_subs (fst x), snd x, k_lt (fst x), k_in (fst x)).
End Recorder.

(** ** Conditions *)

(** The number is one of those that its field holds: base and difference can add up to more, and
    numbers of class 31 can be missing in compressed data only. *)
Definition inside (i : varinfo) (v : option value) : Prop :=
  match v with
  | None => is_numeric (vi_type i) = true -> no_missing (vi_code i) = false
  | Some (VInt k) => vi_bit_ref i <= k < vi_bit_ref i + 2 ^ vi_bit_len i - 1
  | Some _ => True
  end.

(** No associated fields: the decoder drops a column of missing ones, and gives to a subset those of the
    subsets before it. *)
Definition comp_request_ok (p : shift_policy) (vars : list var) (r : request) : Prop :=
  match r with
  | RField pos i => roomy i /\ value_at vars pos (fun c => neat p i (c_val c) /\ inside i (c_val c))
  | RCount i => is_numeric (vi_type i) = true /\ roomy i /\ 0 <= vi_bit_ref i
  | RAttr pos i => roomy i /\
      forall v, nth_error vars pos = Some v ->
        let a := match var_enqa v (vi_code i) with Some a => c_val a | None => None end in neat p i a /\ inside i a
  | _ => False
  end.

Definition comp_faithful (p : shift_policy) (vars : list var) (reqs : list request) : Prop :=
  NoDup (keys reqs) /\ Forall (comp_request_ok p vars) reqs.

(** Specifications for descriptor lists and tables. *)
From Coq Require Import Sorting.Sorted String.
From Verif Require Import Base Varinfo.Model Varcode.Model Tables.Model.
Local Open Scope Z_scope.

(** The list of descriptors that a slice denotes. *)
Definition slice (o : opcodes) : list Z := firstn (o_end o - o_beg o) (skipn (o_beg o) (o_mem o)).
Definition wf_ops (o : opcodes) : Prop := (o_beg o <= o_end o <= length (o_mem o))%nat.

(** Programs that use a descriptor list: each step shows what was read and leaves the
    rest.  [list_step] is what the steps mean on plain lists. *)
Inductive ops_op : Type :=
| OPop | OPopN (n : nat) | ONext | OHead | OSub (skip : nat) | OSubLen (skip len : nat).

Definition list_step (l : list Z) (op : ops_op) : option (list Z * list Z) :=
  match op with
  | OPop => match l with [] => None | c :: r => Some ([c], r) end
  | OPopN n => if Nat.ltb (length l) n then None else Some (firstn n l, skipn n l)
  | ONext => Some ([], tl l)
  | OHead => Some ([hd 0 l], l)
  | OSub k => Some ([], skipn k l)
  | OSubLen k n => Some ([], firstn n (skipn k l))
  end.
Fixpoint list_run (l : list Z) (ops : list ops_op) : list (option (list Z)) :=
  match ops with
  | [] => []
  | op :: rest => match list_step l op with
                  | None => None :: list_run l rest
                  | Some (seen, l') => Some seen :: list_run l' rest
                  end
  end.

(** The same steps on [opcodes]; a popped sublist is read element by element. *)
Fixpoint read_from (mem : list Z) (b n : nat) : res (list Z) :=
  match n with
  | O => Ok []
  | S k => c <- deref mem b ;; r <- read_from mem (S b) k ;; Ok (c :: r)
  end.
Definition ops_step (o : opcodes) (op : ops_op) : res (list Z * opcodes) :=
  match op with
  | OPop => '(c, o') <- ops_pop o ;; Ok ([c], o')
  | OPopN n => '(a, b) <- ops_pop_n o n ;; l <- read_from (o_mem a) (o_beg a) (ops_size a) ;; Ok (l, b)
  | ONext => Ok ([], ops_next o)
  | OHead => c <- ops_head o ;; Ok ([c], o)
  | OSub k => Ok ([], ops_sub o k)
  | OSubLen k n => Ok ([], ops_sub_len o k n)
  end.
Fixpoint ops_run (o : opcodes) (ops : list ops_op) : res (list (option (list Z))) :=
  match ops with
  | [] => Ok []
  | op :: rest => match ops_step o op with
                  | Ok (seen, o') => r <- ops_run o' rest ;; Ok (Some seen :: r)
                  | Err EConsistency => r <- ops_run o rest ;; Ok (None :: r)
                  | Err e => Err e
                  | UB => UB
                  end
  end.

(** Requests made to a table, in order; each returns a pointer or fails. *)
Record request : Type := mkreq { r_code : Z; r_scale : Z; r_bits : Z; r_ref : Z }.

Definition ask (t : btable) (r : request) : res (ptr * varinfo * btable) :=
  query_altered t (r_code r) (r_scale r) (r_bits r) (r_ref r).

(** The table after a list of requests (a failed request leaves it unchanged). *)
Fixpoint after_requests (t : btable) (l : list request) : btable :=
  match l with
  | [] => t
  | r :: l' => match ask t r with
               | Ok (_, _, t') => after_requests t' l'
               | _ => after_requests t l'
               end
  end.

(** What a request should return, as a function of the loaded table only. *)
Definition expected (t : btable) (r : request) : res varinfo :=
  match List.find (fun e => be_code e =? r_code r) t with
  | None => Err ENotFound
  | Some e =>
    let i := be_info e in
    if (vi_scale i =? r_scale r) && (vi_bit_len i =? r_bits r) && (vi_bit_ref i =? r_ref r) then Ok i
    else alter_checked i (r_scale r) (r_bits r) (r_ref r)
  end.

(** A freshly loaded table: no alterations, increasing codes. *)
Definition fresh_table (t : btable) : Prop :=
  StronglySorted (fun a b => be_code a < be_code b) t /\ Forall (fun e => be_alts e = []) t.

(** D table source: the expansion of each code, and its text. *)
Definition dblock : Type := (Z * list Z)%type.

Definition dec3 (n : Z) : list Z :=
  if n <? 10 then [32; 32; 48 + n]
  else if n <? 100 then [32; 48 + n / 10; 48 + n mod 10]
  else [48 + n / 100; 48 + (n / 10) mod 10; 48 + n mod 10].

Definition render_block (b : dblock) : list (list Z) :=
  match snd b with
  | [] => []
  | c :: cs =>
    (32 :: varcode_format (fst b) ++ dec3 (Z.of_nat (length (snd b))) ++ 32 :: varcode_format c ++ [10])
    :: map (fun c => repeat 32 11 ++ varcode_format c ++ [10]) cs
  end.
Definition render (bs : list dblock) : list Z := concat (concat (map render_block bs)).

Definition dblock_ok (b : dblock) : Prop :=
  var_f (fst b) = 3 /\ 0 <= fst b < 2 ^ 16 /\ (1 <= length (snd b) <= 999)%nat /\
  Forall (fun c => 0 <= c < 2 ^ 16) (snd b).

Definition dsource_ok (bs : list dblock) : Prop :=
  bs <> [] /\ Forall dblock_ok bs /\ StronglySorted (fun a b => fst a < fst b) bs.

(** B table source: what a row says, and its text.  Columns as in the files of the
    library: code, description (64 characters), unit (24), scale, reference value and
    bits, right-aligned, each followed by a space. *)
Fixpoint dec_nat (fuel : nat) (n : Z) : list Z :=
  match fuel with
  | O => []
  | S k => if n <? 10 then [48 + n] else dec_nat k (n / 10) ++ [48 + n mod 10]
  end.
Definition dec (z : Z) : list Z := if z <? 0 then 45 :: dec_nat 20 (- z) else dec_nat 20 z.
Definition rjust (w : nat) (s : list Z) : list Z := repeat 32 (w - length s) ++ s.
Definition ljust (w : nat) (s : list Z) : list Z := s ++ repeat 32 (w - length s).

Record brow : Type := mkbrow {
  row_code : Z; row_desc : list Z; row_unit : list Z; row_scale : Z; row_ref : Z; row_bits : Z }.

Definition render_brow (r : brow) : list Z :=
  [32] ++ varcode_format (row_code r) ++ [32] ++ ljust 64 (row_desc r) ++ [32] ++ ljust 24 (row_unit r) ++ [32] ++
  rjust 3 (dec (row_scale r)) ++ [32] ++ rjust 12 (dec (row_ref r)) ++ [32] ++ rjust 3 (dec (row_bits r)) ++ [10].

Definition printable (c : Z) : Prop := 32 <= c < 127.
(** A unit: no spaces at the end, and room for the terminator. *)
Definition unit_ok (u : list Z) : Prop :=
  Forall printable u /\ (length u <= 23)%nat /\ (forall w c, u = w ++ [c] -> c <> 32).
Definition row_text (r : brow) : bool := String.eqb (to_string (row_unit r)) "CCITTIA5".
Definition brow_ok (r : brow) : Prop :=
  0 <= row_code r < 2 ^ 14 /\ Forall printable (row_desc r) /\ (length (row_desc r) <= 64)%nat /\ unit_ok (row_unit r) /\
  -16 <= row_scale r <= 16 /\ - 2 ^ 30 <= row_ref r < 2 ^ 30 /\
  if row_text r then 0 <= row_bits r < 1000 else 1 <= row_bits r <= 32.

(** The same for CREX files: [row_desc] stands for the 111 columns between the code and
    the unit, [row_bits] for the number of characters. *)
Definition render_crow (r : brow) : list Z :=
  [32] ++ varcode_format (row_code r) ++ [32] ++ ljust 111 (row_desc r) ++ ljust 24 (row_unit r) ++
  rjust 5 (dec (row_scale r)) ++ [32] ++ rjust 7 (dec (row_bits r)) ++ [10].
Definition crow_text (r : brow) : bool := String.eqb (to_string (row_unit r)) "CHARACTER".
Definition crow_ok (r : brow) : Prop :=
  0 <= row_code r < 2 ^ 14 /\ Forall printable (row_desc r) /\ (length (row_desc r) <= 111)%nat /\ unit_ok (row_unit r) /\
  -16 <= row_scale r <= 16 /\ 1 <= row_bits r < 1000.

(** The unit as it is stored: the names of code and flag tables are normalised. *)
Definition starts (p u : list Z) : Prop := exists rest, u = p ++ rest.
Definition unit_means (u : list Z) (s : string) : Prop :=
  (starts s_code_table u \/ starts s_codetable u) /\ s = "CODE TABLE"%string \/
  (starts s_flag_table u \/ starts s_flagtable u) /\ s = "FLAG TABLE"%string \/
  ~ (starts s_code_table u \/ starts s_codetable u \/ starts s_flag_table u \/ starts s_flagtable u) /\ s = to_string u.

(** The definition that a row stands for. *)
Record row_means (text : bool) (r : brow) (i : varinfo) : Prop := {
  rm_code : vi_code i = row_code r;
  rm_unit : unit_means (row_unit r) (vi_unit i);
  rm_scale : vi_scale i = row_scale r;
  rm_type : vi_type i = if text then TString else if row_scale r =? 0 then TInteger else TDecimal }.
Record brow_means (r : brow) (i : varinfo) : Prop := {
  br_row : row_means (row_text r) r i;
  br_ref : vi_bit_ref i = row_ref r;
  br_bits : vi_bit_len i = row_bits r;
  br_text : row_text r = true -> vi_len i = row_bits r / 8;
  (** all the numbers of that many bits, and no less, have [len] digits *)
  br_len : row_text r = false -> 10 ^ (vi_len i - 1) < 2 ^ row_bits r <= 10 ^ vi_len i }.
Record crow_means (r : brow) (i : varinfo) : Prop := {
  cr_row : row_means (crow_text r) r i;
  cr_ref : vi_bit_ref i = 0;
  cr_bits : vi_bit_len i = 0;
  cr_len : vi_len i = row_bits r }.

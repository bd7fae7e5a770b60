(** What a template means, without recursion: the WMO expansion of a list of
    descriptors is a flat list of items, executed one after the other. *)
From Verif Require Import Base Varcode.Model Varinfo.Model Tables.Model Tables.Spec Interp.Model.
Local Open Scope Z_scope.

(** ** Expansion *)

Inductive item : Type :=
| IElem (c : Z)                              (* an element: 0XXYYY *)
| INewRef (c r : Z)                          (* an element after 203YYY: its new reference value *)
| IOp (c : Z)                                (* an operator *)
| IAssoc (c g : Z)                           (* 204YYY with the associated field significance that follows *)
| ISkip (c a : Z)                            (* 206YYY and the local descriptor that follows *)
| IFactor (c : Z) (n : nat)                  (* a delayed replication factor and its value *)
| IBitmap (r d : Z) (codes bits : list Z).   (* a replication that is a bitmap: its descriptor, delayed
                                                factor, the codes of the variables before it, its bits *)

(** Operators that are followed by a descriptor of their own. *)
Definition takes_arg (c : Z) : bool := (var_x c =? 4) && negb (var_y c =? 0) || (var_x c =? 6).

(** The replication that follows 222000 or 223000 is a bitmap; elements between 203YYY
    and 203255 are new reference values. *)
Record mode : Type := mkmode { m_bitmap : bool; m_refs : bool }.
Definition next_mode (c : Z) (m : mode) : mode :=
  if ((var_x c =? 22) || (var_x c =? 23)) && (var_y c =? 0) then mkmode true (m_refs m)
  else if (var_x c =? 37) && (var_y c =? 0) then mkmode false (m_refs m)
  else if var_x c =? 3 then mkmode (m_bitmap m) (negb (var_y c =? 255) && negb (var_y c =? 0))
  else m.

Definition class31 (c : Z) : Prop := var_f c = 0 /\ var_x c = 31.

(** [expands T m ops items m'] : in mode [m], the descriptors [ops] stand for [items].
    The numbers of repetitions of delayed replications are free: they are in the
    [IFactor] items. *)
Inductive expands (T : tables) : mode -> list Z -> list item -> mode -> Prop :=
| ex_nil m : expands T m [] [] m
| ex_elem b c rest items m' : var_f c = 0 ->
    expands T (mkmode b false) rest items m' -> expands T (mkmode b false) (c :: rest) (IElem c :: items) m'
| ex_ref b c r rest items m' : var_f c = 0 ->
    expands T (mkmode b true) rest items m' -> expands T (mkmode b true) (c :: rest) (INewRef c r :: items) m'
| ex_op m c rest items m' : var_f c = 2 -> takes_arg c = false ->
    expands T (next_mode c m) rest items m' -> expands T m (c :: rest) (IOp c :: items) m'
| ex_assoc m c g rest items m' : var_f c = 2 -> var_x c = 4 -> var_y c <> 0 ->
    expands T m rest items m' -> expands T m (c :: wr_var 0 31 21 :: rest) (IAssoc c g :: items) m'
| ex_skip m c a rest items m' : var_f c = 2 -> var_x c = 6 ->
    expands T m rest items m' -> expands T m (c :: a :: rest) (ISkip c a :: items) m'
| ex_sequence m d body rest items1 m1 items2 m2 : var_f d = 3 -> dexpand (tb_d T) d = Ok body ->
    expands T m body items1 m1 -> expands T m1 rest items2 m2 ->
    expands T m (d :: rest) (items1 ++ items2) m2
| ex_repeat b r body rest items1 m1 items2 m2 : var_f r = 1 -> var_y r <> 0 -> Z.of_nat (length body) = var_x r ->
    repeats T (mkmode false b) (Z.to_nat (var_y r)) body items1 m1 -> expands T m1 rest items2 m2 ->
    expands T (mkmode false b) (r :: body ++ rest) (items1 ++ items2) m2
| ex_delayed b r c n body rest items1 m1 items2 m2 : var_f r = 1 -> var_y r = 0 -> class31 c ->
    Z.of_nat (length body) = var_x r ->
    repeats T (mkmode false b) n body items1 m1 -> expands T m1 rest items2 m2 ->
    expands T (mkmode false b) (r :: c :: body ++ rest) (IFactor c n :: items1 ++ items2) m2
| ex_delayed_implicit b r n body rest items1 m1 items2 m2 : var_f r = 1 -> var_y r = 0 ->
    (forall c l, body ++ rest = c :: l -> ~ class31 c) -> Z.of_nat (length body) = var_x r ->
    repeats T (mkmode false b) n body items1 m1 -> expands T m1 rest items2 m2 ->
    expands T (mkmode false b) (r :: body ++ rest) (IFactor (wr_var 0 31 12) n :: items1 ++ items2) m2
| ex_bitmap b r codes bits rest items m' : var_f r = 1 -> var_x r = 1 -> var_y r <> 0 ->
    expands T (mkmode false b) rest items m' ->
    expands T (mkmode true b) (r :: wr_var 0 31 31 :: rest) (IBitmap r 0 codes bits :: items) m'
| ex_bitmap_delayed b r c codes bits rest items m' : var_f r = 1 -> var_x r = 1 -> var_y r = 0 -> class31 c ->
    expands T (mkmode false b) rest items m' ->
    expands T (mkmode true b) (r :: c :: wr_var 0 31 31 :: rest) (IBitmap r c codes bits :: items) m'
with repeats (T : tables) : mode -> nat -> list Z -> list item -> mode -> Prop :=
| rp_none m body : repeats T m 0 body [] m
| rp_one_more m n body items1 m1 items2 m2 :
    expands T m body items1 m1 -> repeats T m1 n body items2 m2 -> repeats T m (S n) body (items1 ++ items2) m2.

(** ** Execution of single items *)
Section Exec.
Context {S : Type} (V : visitor S) (T : tables).

Definition zeqb_list (a b : list Z) : bool := if list_eq_dec Z.eq_dec a b then true else false.

Definition step (it : item) (x : istate * S) : res (istate * S) :=
  let (st, s) := x in
  match it with
  | IElem c => if is_refbits st =? 0 then b_variable V T c x else Err EConsistency
  | INewRef c r =>
    if is_refbits st =? 0 then Err EConsistency
    else
      ' (r', s') <- on_refval V (is_refbits st) c s ;;
      if r' =? r then Ok (with_refs st ((c, r) :: is_refs st), s') else Err EConsistency
  | IOp c => ' (_, st', s') <- c_modifier V T c [] x ;; Ok (st', s')
  | IAssoc c g =>
    if (var_x c =? 4) && negb (var_y c =? 0) then
      ' (_, st', s') <- c_modifier V T c [wr_var 0 31 21] x ;;
      if is_afsig st' =? g then Ok (st', s') else Err EConsistency
    else Err EConsistency
  | ISkip c a =>
    if var_x c =? 6 then ' (_, st', s') <- c_modifier V T c [a] x ;; Ok (st', s') else Err EConsistency
  | IFactor c n =>
    info <- query (tb_b T) c ;;
    ' (m, s') <- on_factor V info s ;;
    if Nat.eqb (Z.to_nat m) n then Ok (st, s') else Err EConsistency
  | IBitmap r d codes bits =>
    ' (size, s1) <- (if var_y r =? 0 then info <- query (tb_b T) d ;; on_bitmap_factor V info s
                     else Ok (var_y r, s)) ;;
    ' (codes', bits', s2) <- on_bitmap V (is_pending st) size s1 ;;
    if zeqb_list codes' codes && zeqb_list bits' bits then
      st' <- bitmaps_define st codes bits ;; Ok (with_pending st' 0, s2)
    else Err EConsistency
  end.

Fixpoint exec (items : list item) (x : istate * S) : res (istate * S) :=
  match items with
  | [] => Ok x
  | it :: rest => x' <- step it x ;; exec rest x'
  end.
End Exec.

(** ** Operators in force after a list of items *)

(** The operand of the last operator 2XXYYY with the given XX. *)
Definition operand (X : Z) (items : list item) : option Z :=
  fold_left (fun y it => match it with IOp c => if var_x c =? X then Some (var_y c) else y | _ => y end) items None.

(** 201YYY and 202YYY add YYY-128; YYY = 0 cancels. *)
Definition change (y : option Z) : Z := match y with None => 0 | Some y => if y =? 0 then 0 else y - 128 end.
Definition width_change (items : list item) : Z := change (operand 1 items).
Definition scale_change (items : list item) : Z := change (operand 2 items).
(** 207YYY: YYY = 0 cancels.  208YYY: likewise. *)
Definition increase (items : list item) : Z := match operand 7 items with Some y => y | None => 0 end.
Definition string_length (items : list item) : Z := match operand 8 items with Some y => y | None => 0 end.
(** 203YYY: the width of new reference values; 203255 ends their list. *)
Definition reference_width (items : list item) : Z :=
  match operand 3 items with Some y => if y =? 255 then 0 else y | None => 0 end.

(** The last reference value given for [c], if any. *)
Definition new_reference (c : Z) (items : list item) : option Z :=
  fold_left (fun o it => match it with INewRef c' r => if c' =? c then Some r else o | _ => o end) items None.

(** The associated field in force: width and significance.  204000 cancels. *)
Definition associated (items : list item) : option (Z * Z) :=
  fold_left (fun o it => match it with
                         | IAssoc c g => Some (var_y c, g)
                         | IOp c => if var_x c =? 4 then None else o
                         | _ => o
                         end) items None.

(** [defines t pre c i] : after [pre], element [c] has definition [i]. *)
Definition unchanged (pre : list item) : Prop :=
  width_change pre = 0 /\ scale_change pre = 0 /\ increase pre = 0 /\ string_length pre = 0 /\
  forall c, new_reference c pre = None.

Definition defines (t : btable) (pre : list item) (c : Z) (i : varinfo) : Prop :=
  vi_code i = c /\
  exists base, query t c = Ok base /\
    (unchanged pre -> i = base) /\
    (is_numeric (vi_type base) = true ->
       vi_scale i = vi_scale base + scale_change pre + increase pre /\
       vi_bit_len i = (vi_bit_len base + width_change pre + (10 * increase pre + 2) / 3) mod 2 ^ 32 /\
       vi_bit_ref i = match new_reference c pre with
                      | Some r => r
                      | None => vi_bit_ref base * 10 ^ increase pre
                      end) /\
    (vi_type base = TString -> 0 < string_length pre -> increase pre = 0 ->
       vi_bit_len i = 8 * string_length pre).

(** ** Bitmaps *)

(** The positions of the data elements, and of the last [n] of them. *)
Definition data_positions (codes : list Z) : list nat :=
  filter (fun p => var_f (nth p codes 0) =? 0) (seq 0 (length codes)).
Definition lastn {A} (n : nat) (l : list A) : list A := skipn (length l - n) l.

(** The positions marked as present. *)
Definition present (codes bits : list Z) : list nat :=
  map fst (filter (fun pb => snd pb =? 43) (combine (lastn (length bits) (data_positions codes)) bits)).

(** The items that use a value of the bitmap: class 33 elements and 223255. *)
Definition consumer (it : item) : bool :=
  match it with
  | IElem c => (var_f c =? 0) && (var_x c =? 33)
  | IOp c => (var_x c =? 23) && (var_y c =? 255)
  | _ => false
  end.

Definition no_bitmap (pre : list item) : Prop := forall r d codes bits, ~ In (IBitmap r d codes bits) pre.

(** [serves pre refs k] : after [pre], the bitmap that refers to the positions [refs] is
    in force and [k] items used it. *)
Inductive serves : list item -> list nat -> nat -> Prop :=
| sv_define pre r d codes bits : serves (pre ++ [IBitmap r d codes bits]) (present codes bits) 0
| sv_reuse pre refs k c : serves pre refs k -> refs <> [] -> (length refs <= k)%nat ->
    var_x c = 37 -> var_y c = 0 -> serves (pre ++ [IOp c]) refs 0
| sv_cancel pre refs k c : serves pre refs k -> (k < length refs)%nat ->
    var_x c = 37 -> var_y c = 255 -> serves (pre ++ [IOp c]) refs k
| sv_more pre refs k it : serves pre refs k ->
    (forall r d codes bits, it <> IBitmap r d codes bits) -> (forall c, it = IOp c -> var_x c <> 37) ->
    serves (pre ++ [it]) refs (if consumer it then S k else k).

(** The operator that the next bitmap belongs to. *)
Definition pending (pre : list item) : Z :=
  fold_left (fun p it => match it with
                         | IOp c => if ((var_x c =? 22) || (var_x c =? 23)) && (var_y c =? 0) then c
                                    else if (var_x c =? 37) && (var_y c =? 0) then 0 else p
                         | IBitmap _ _ _ _ => 0
                         | _ => p
                         end) pre 0.

(** ** What a visitor is told *)

Inductive event : Type :=
| EvVar (i : varinfo)
| EvVarAf (bits sig : Z) (i : varinfo)
| EvFactor (i : varinfo) (n : Z)
| EvBitmapFactor (i : varinfo) (n : Z)
| EvSignificance (i : varinfo) (n : Z)
| EvSubst (pos : nat)
| EvAttr (i : varinfo) (pos : nat)
| EvRaw (c : Z)
| EvRefval (bits c r : Z)
| EvBitmap (op size : Z) (codes bits : list Z)
| EvUnknown (c bits : Z) (i : varinfo).

(** Any visitor, with the calls made to it. *)
Section Watch.
Context {S : Type} (V : visitor S).
Definition watched : Type := (list event * S)%type.
Definition told (e : event) (w : watched) (s : S) : watched := (fst w ++ [e], s).

Definition watch : visitor watched :=
  {| on_var i w := s <- on_var V i (snd w) ;; Ok (told (EvVar i) w s);
     on_var_af b g i w := s <- on_var_af V b g i (snd w) ;; Ok (told (EvVarAf b g i) w s);
     on_factor i w := ' (n, s) <- on_factor V i (snd w) ;; Ok (n, told (EvFactor i n) w s);
     on_bitmap_factor i w := ' (n, s) <- on_bitmap_factor V i (snd w) ;; Ok (n, told (EvBitmapFactor i n) w s);
     on_significance i w := ' (n, s) <- on_significance V i (snd w) ;; Ok (n, told (EvSignificance i n) w s);
     on_subst pos w := s <- on_subst V pos (snd w) ;; Ok (told (EvSubst pos) w s);
     on_attr i pos w := s <- on_attr V i pos (snd w) ;; Ok (told (EvAttr i pos) w s);
     on_raw c w := s <- on_raw V c (snd w) ;; Ok (told (EvRaw c) w s);
     on_refval b c w := ' (r, s) <- on_refval V b c (snd w) ;; Ok (r, told (EvRefval b c r) w s);
     on_bitmap op n w := ' (codes, bits, s) <- on_bitmap V op n (snd w) ;;
                         Ok (codes, bits, told (EvBitmap op n codes bits) w s);
     on_unknown c b w := ' (i, s) <- on_unknown V c b (snd w) ;; Ok (i, told (EvUnknown c b i) w s) |}.
End Watch.

(** [says T pre it evs] : after [pre], item [it] makes the calls [evs]. *)
Definition plainly (pre : list item) (i : varinfo) : event :=
  match associated pre with None => EvVar i | Some (b, g) => EvVarAf b g i end.

Definition element_event (pre : list item) (c : Z) (i : varinfo) (e : event) : Prop :=
  if var_x c =? 33 then
    (e = plainly pre i \/ exists pos, e = EvAttr i pos) /\
    (no_bitmap pre -> e = plainly pre i) /\
    (forall refs k, serves pre refs k ->
       e = match nth_error refs k with Some pos => EvAttr i pos | None => plainly pre i end)
  else e = plainly pre i.

Definition says (T : tables) (pre : list item) (it : item) (evs : list event) : Prop :=
  match it with
  | IElem c => exists i e, defines (tb_b T) pre c i /\ element_event pre c i e /\ evs = [e]
  | INewRef c r => evs = [EvRefval (reference_width pre) c r]
  | IOp c =>
    if var_x c =? 5 then evs = [EvRaw c]
    else if consumer it then
      ~ no_bitmap pre /\
      exists pos, evs = [EvSubst pos] /\ forall refs k, serves pre refs k -> nth_error refs k = Some pos
    else evs = []
  | IAssoc c g => exists i, query (tb_b T) (wr_var 0 31 21) = Ok i /\ evs = [EvSignificance i g]
  | ISkip c a =>
    if var_y c =? 0 then evs = []
    else exists i, (defines (tb_b T) pre a i /\ vi_bit_len i = var_y c /\ evs = [EvVar i]) \/
                   evs = [EvUnknown a (var_y c) i; EvVar i]
  | IFactor c n => exists i m, query (tb_b T) c = Ok i /\ Z.to_nat m = n /\ evs = [EvFactor i m]
  | IBitmap r d codes bits =>
    (1 <= length bits <= length (data_positions codes))%nat /\
    if var_y r =? 0 then
      exists i m, query (tb_b T) d = Ok i /\ evs = [EvBitmapFactor i m; EvBitmap (pending pre) m codes bits]
    else evs = [EvBitmap (pending pre) (var_y r) codes bits]
  end.

(** The calls made by a list of items after [pre]. *)
Inductive script (T : tables) : list item -> list item -> list event -> Prop :=
| sc_nil pre : script T pre [] []
| sc_cons pre it items evs more : says T pre it evs -> script T (pre ++ [it]) items more ->
    script T pre (it :: items) (evs ++ more).

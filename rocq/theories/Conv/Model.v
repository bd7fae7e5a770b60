(** Conversion of units and code tables: wreport/conv.{h,cc}. *)
From Coq Require Import String Ascii.
From Flocq Require Import Core BinarySingleNaN.
From Verif Require Import Base Num.Float.
Local Open Scope string_scope.
Local Open Scope Z_scope.

(** ** Strings *)

(** strcmp: the sign of the difference of the first characters that differ (the end of a string is
    less than any character). *)
Definition code (c : ascii) : Z := Z.of_N (N_of_ascii c).
Fixpoint strcmp (a b : string) : Z :=
  match a, b with
  | EmptyString, EmptyString => 0
  | EmptyString, String _ _ => -1
  | String _ _, EmptyString => 1
  | String c r, String d s => if code c <? code d then -1 else if code d <? code c then 1 else strcmp r s
  end.

(** ** Conversions *)

(** Convert and its subclasses: conv.cc:16-43. *)
Inductive convert : Type :=
  | CIdent
  | CLinear (mul add : f64)
  | CFunction (f : f64 -> res f64).
Definition do_convert (c : convert) (val : f64) : res f64 :=
  match c with
  | CIdent => Ok val
  | CLinear mul add => Ok (fadd (fmul val mul) add)
  | CFunction f => f val
  end.

(** struct Conv: conv.cc:45-91. *)
Record conv : Type := mkconv { cv_from : string; cv_to : string; cv_conv : convert }.
Definition conv_compare (c : conv) (from to : string) : Z :=
  if negb (strcmp (cv_from c) from =? 0) then strcmp (cv_from c) from
  else if negb (strcmp (cv_to c) to =? 0) then strcmp (cv_to c) to
  else 0.
(** operator<: conv.cc:82-85. *)
Definition conv_lt (a b : conv) : bool := conv_compare a (cv_from b) (cv_to b) <? 0.

(** A double literal of the source: the double nearest to m / 10^e.  Both are exact in a double
    for the literals of the source, and the division is correctly rounded. *)
Definition dec (m e : Z) : f64 := fdiv (f_of_Z m) (f_of_Z (10 ^ e)).

(** convert_octants_to_degrees and convert_degrees_to_octants: conv.cc:463-500. *)
Definition octants_to_degrees (from : Z) : res f64 :=
  if (from <? 0) || (from >? 8) then Err EDomain
  else Ok (fmul (f_of_Z from) (f_of_Z 45)).
Definition degrees_to_octants (from : f64) : res Z :=
  if flt from fzero || flt (f_of_Z 360) from then Err EDomain
  else if feq from fzero then Ok 0
  else if flt (dec 3375 1) from || fle from (dec 225 1) then Ok 8
  else if flt (dec 225 1) from && fle from (dec 675 1) then Ok 1
  else if flt (dec 675 1) from && fle from (dec 1125 1) then Ok 2
  else if flt (dec 1125 1) from && fle from (dec 1575 1) then Ok 3
  else if flt (dec 1575 1) from && fle from (dec 2025 1) then Ok 4
  else if flt (dec 2025 1) from && fle from (dec 2475 1) then Ok 5
  else if flt (dec 2475 1) from && fle from (dec 2925 1) then Ok 6
  else Ok 7.
(** As std::function<double(double)>: the argument of the first is converted to int. *)
Definition octants_to_degrees_f (from : f64) : res f64 := i <- f_to_int from ;; octants_to_degrees i.
Definition degrees_to_octants_f (from : f64) : res f64 := i <- degrees_to_octants from ;; Ok (f_of_Z i).

(** add_ident, add_linear, add_function: conv.cc:207-229. *)
Definition add_ident (from to : string) : list conv := [mkconv from to CIdent; mkconv to from CIdent].
Definition add_linear (from to : string) (mul add : f64) : list conv :=
  [mkconv from to (CLinear mul add); mkconv to from (CLinear (fdiv (f_of_Z 1) mul) (Bopp add))].
Definition add_function (from to : string) (forward backward : f64 -> res f64) : list conv :=
  [mkconv from to (CFunction forward); mkconv to from (CFunction backward)].

(** ConvertRepository: conv.cc:97-202, before the sort. *)
Definition repo0 : list conv :=
  (add_linear "K" "C" (dec 1 0) (dec (-27315001) 5) ++
   add_linear "K" "C/10" (dec 10 0) (dec (-27315001) 4) ++
   add_linear "C" "C/10" (dec 10 0) (dec 0 0) ++
   add_linear "minuti" "S" (dec 60 0) (dec 0 0) ++
   add_linear "MINUTE" "S" (dec 60 0) (dec 0 0) ++
   add_linear "S" "MINUTE" (fdiv (f_of_Z 1) (f_of_Z 60)) (dec 0 0) ++
   add_linear "G/M**3" "KG/M**3" (dec 1 3) (dec 0 0) ++
   add_linear "KG/M**3" "G/M**3" (dec 1000 0) (dec 0 0) ++
   add_linear "ug/m**3" "KG/M**3" (dec 1 9) (dec 0 0) ++
   add_linear "KG/M**3" "ug/m**3" (dec 1000000000 0) (dec 0 0) ++
   add_linear "mg/l" "KG/M**3" (dec 1 3) (dec 0 0) ++
   add_linear "KG/M**3" "mg/l" (dec 1000 0) (dec 0 0) ++
   add_linear "PA" "KPA" (dec 1 3) (dec 0 0) ++
   add_linear "KPA" "PA" (dec 1000 0) (dec 0 0) ++
   add_linear "M" "MM" (dec 1000 0) (dec 0 0) ++
   add_linear "MM" "M" (dec 1 3) (dec 0 0) ++
   add_linear "M" "cm" (dec 100 0) (dec 0 0) ++
   add_linear "cm" "M" (dec 1 2) (dec 0 0) ++
   add_linear "M" "KM" (dec 1 3) (dec 0 0) ++
   add_linear "KM" "M" (dec 1000 0) (dec 0 0) ++
   add_linear "%" "PERCENT" (dec 1 0) (dec 0 0) ++
   add_linear "PERCENT" "%" (dec 1 0) (dec 0 0) ++
   add_linear "M" "FT" (dec 32808 4) (dec 0 0) ++
   add_linear "FT" "M" (dec 3048 4) (dec 0 0) ++
   add_linear "cal/cm**2" "J/M**2" (dec 41868 0) (dec 0 0) ++
   add_linear "J/M**2" "cal/cm**2" (dec 23885 9) (dec 0 0) ++
   add_linear "J/M**2" "MJ/M**2" (dec 1 6) (dec 0 0) ++
   add_linear "MJ/M**2" "J/M**2" (dec 1000000 0) (dec 0 0) ++
   add_linear "m/s/10" "M/S" (dec 1 1) (dec 0 0) ++
   add_linear "M/S" "m/s/10" (dec 10 0) (dec 0 0) ++
   add_linear "nodi" "M/S" (dec 51444 5) (dec 0 0) ++
   add_linear "M/S" "nodi" (dec 194384 5) (dec 0 0) ++
   add_linear "PA" "mBar" (dec 1 2) (dec 0 0) ++
   add_linear "mBar" "PA" (dec 100 0) (dec 0 0) ++
   add_linear "PA" "hPa" (dec 1 2) (dec 0 0) ++
   add_linear "hPa" "PA" (dec 100 0) (dec 0 0) ++
   add_linear "PA" "Bar" (dec 1 5) (dec 0 0) ++
   add_linear "Bar" "PA" (dec 100000 0) (dec 0 0) ++
   add_linear "PA" "NBAR" (dec 1 4) (dec 0 0) ++
   add_linear "NBAR" "PA" (dec 10000 0) (dec 0 0) ++
   add_linear "hm" "M" (dec 100 0) (dec 0 0) ++
   add_linear "M" "hm" (dec 1 2) (dec 0 0) ++
   add_linear "mm" "M" (dec 1 3) (dec 0 0) ++
   add_linear "M" "mm" (dec 1000 0) (dec 0 0) ++
   add_linear "mV" "V" (dec 1 3) (dec 0 0) ++
   add_linear "V" "mV" (dec 1000 0) (dec 0 0) ++
   add_linear "1/8" "%" (dec 125 1) (dec 0 0) ++
   add_linear "%" "1/8" (dec 8 2) (dec 0 0) ++
   add_linear "mm/10" "KG/M**2" (dec 1 1) (dec 0 0) ++
   add_linear "GPM" "m**2/s**2" (dec 980665 5) (dec 0 0) ++
   add_linear "GPM" "M**2/S**2" (dec 980665 5) (dec 0 0) ++
   add_linear "MGP" "m**2/s**2" (dec 980665 5) (dec 0 0) ++
   add_linear "MGP" "M**2/S**2" (dec 980665 5) (dec 0 0) ++
   add_linear "m**2/s**2" "GPM" (dec 101971621 9) (dec 0 0) ++
   add_linear "M**2/S**2" "GPM" (dec 101971621 9) (dec 0 0) ++
   add_linear "m**2/s**2" "MGP" (dec 101971621 9) (dec 0 0) ++
   add_linear "M**2/S**2" "MGP" (dec 101971621 9) (dec 0 0) ++
   add_linear "cal/s/cm**2" "W/M**2" (dec 41868 0) (dec 0 0) ++
   add_linear "cal/h/cm**2" "W/M**2" (dec 1163 2) (dec 0 0) ++
   add_linear "Mj/m**2" "J/M**2" (dec 1000000 0) (dec 0 0) ++
   add_linear "RATIO" "%" (dec 100 0) (dec 0 0) ++
   add_linear "%" "RATIO" (dec 1 2) (dec 0 0) ++
   add_linear "ms/cm" "S/M" (dec 1 1) (dec 0 0) ++
   add_linear "S/M" "ms/cm" (dec 10 0) (dec 0 0) ++
   add_linear "mS/cm" "S/M" (dec 1 1) (dec 0 0) ++
   add_linear "S/M" "mS/cm" (dec 10 0) (dec 0 0) ++
   add_ident "A" "YEAR" ++
   add_ident "YEARS" "YEAR" ++
   add_ident "MON" "MONTH" ++
   add_ident "MONTHS" "MONTH" ++
   add_ident "D" "DAY" ++
   add_ident "DAYS" "DAY" ++
   add_ident "H" "HOUR" ++
   add_ident "HOURS" "HOUR" ++
   add_ident "MIN" "MINUTE" ++
   add_ident "MINUTES" "MINUTE" ++
   add_ident "SECONDS" "SECOND" ++
   add_ident "SECOND" "S" ++
   add_ident "sec" "S" ++
   add_ident "G/G" "KG/KG" ++
   add_ident "m**(2/3)/S" "M**(2/3)/S" ++
   add_ident "DEGREE**2" "DEGREE2" ++
   add_ident "KG/M**2" "KGM-2" ++
   add_ident "KG/M**2" "KG M-2" ++
   add_ident "J/M**2" "JM-2" ++
   add_ident "Bq/L" "BQ L-1" ++
   add_ident "DOBSON" "DU" ++
   add_ident "LOG(1/M**2)" "LOG (M-2)" ++
   add_ident "DEGREE" "DEG" ++
   add_ident "DEGREE TRUE" "DEG" ++
   add_ident "DEGREE TRUE" "gsess" ++
   add_ident "m/sec" "M/S" ++
   add_ident "m" "M" ++
   add_ident "mm" "KG/M**2" ++
   add_ident "degree true" "DEGREE TRUE" ++
   add_ident "GPM" "MGP" ++
   add_ident "W/m**2" "W/M**2" ++
   add_ident "J M-2" "J/M**2" ++
   add_ident "ppt" "PART PER THOUSAND" ++
   add_ident "NTU" "LM" ++
   add_function "octants" "DEGREE TRUE" octants_to_degrees_f degrees_to_octants_f)%list.

(** ConvertRepository::find: conv.cc:231-249. *)
Section Find.
Context (repo : list conv).
Fixpoint find_loop (fuel : nat) (from to : string) (begin end_ : Z) : Z :=
  match fuel with
  | O => begin
  | S k =>
    if end_ - begin >? 1 then
      let cur := Z.quot (end_ + begin) 2 in
      match nth_error repo (Z.to_nat cur) with
      | Some c => if conv_compare c from to >? 0 then find_loop k from to begin cur else find_loop k from to cur end_
      | None => begin
      end
    else begin
  end.
Definition repo_find (from to : string) : option convert :=
  let begin := find_loop (S (S (length repo))) from to (-1) (Z.of_nat (length repo)) in
  if begin =? -1 then None
  else match nth_error repo (Z.to_nat begin) with
       | Some c => if negb (conv_compare c from to =? 0) then None else Some (cv_conv c)
       | None => None
       end.

(** convert_units: conv.cc:254-264.  [repo] is [repo0] sorted; std::sort may leave elements that
    are the same in any order. *)
Definition convert_units (from to : string) (val : f64) : res f64 :=
  if strcmp from to =? 0 then Ok val
  else match repo_find from to with
       | None => Err EUnimpl
       | Some c => do_convert c val
       end.
End Find.

(** ** Code tables: conv.cc:293-429, 501-524 *)
Definition WMO0500_to_BUFR20012 (from : Z) : res Z :=
  if (from >=? 0) && (from <=? 9) then Ok from
  else if from =? -1 then Ok 59
  else Err EDomain.
Definition BUFR20012_to_WMO0500 (from : Z) : res Z :=
  if (from >=? 0) && (from <=? 9) then Ok from
  else if from =? 59 then Ok (-1)
  else Err EDomain.
Definition WMO0509_to_BUFR20012 (from : Z) : res Z :=
  if (from >=? 0) && (from <=? 9) then Ok (from + 10)
  else if from =? -1 then Ok 60
  else Err EDomain.
Definition BUFR20012_to_WMO0509 (from : Z) : res Z :=
  if (from >=? 10) && (from <=? 19) then Ok (from - 10)
  else if from =? 60 then Ok (-1)
  else Err EDomain.
Definition WMO0515_to_BUFR20012 (from : Z) : res Z :=
  if (from >=? 0) && (from <=? 9) then Ok (from + 20)
  else if from =? -1 then Ok 61
  else Err EDomain.
Definition BUFR20012_to_WMO0515 (from : Z) : res Z :=
  if (from >=? 20) && (from <=? 29) then Ok (from - 20)
  else if from =? 61 then Ok (-1)
  else Err EDomain.
Definition WMO0513_to_BUFR20012 (from : Z) : res Z :=
  if (from >=? 0) && (from <=? 9) then Ok (from + 30)
  else if from =? -1 then Ok 62
  else Err EDomain.
Definition BUFR20012_to_WMO0513 (from : Z) : res Z :=
  if (from >=? 30) && (from <=? 39) then Ok (from - 30)
  else if from =? 62 then Ok (-1)
  else Err EDomain.
Definition WMO4677_to_BUFR20003 (from : Z) : res Z := if from <=? 99 then Ok from else Err EDomain.
Definition BUFR20003_to_WMO4677 (from : Z) : res Z := if from <=? 99 then Ok from else Err EDomain.
Definition WMO4561_to_BUFR20004 (from : Z) : res Z := if from <=? 9 then Ok from else Err EDomain.
Definition BUFR20004_to_WMO4561 (from : Z) : res Z := if from <=? 9 then Ok from else Err EDomain.

(** Vertical sounding significance, as masks (codetables.h:14-52). *)
Definition S1_MISSING := 1.
Definition S1_SIGWIND := 2.
Definition S1_SIGTH := 4.
Definition S1_MAXWIND := 8.
Definition S1_TROPO := 16.
Definition S1_STD := 32.
Definition S1_SURFACE := 64.
Definition S1_ALL_MISSING := 127.
Definition S42_MISSING := 1.
Definition S42_SIGWIND := 2048.
Definition S42_SIGHUM := 4096.
Definition S42_SIGTEMP := 8192.
Definition S42_MAXWIND := 16384.
Definition S42_TROPO := 32768.
Definition S42_STD := 65536.
Definition S42_SURFACE := 131072.
Definition S42_ALL_MISSING := 262143.

(** if (from & mask) res |= bits *)
Definition set_if (from : Z) (res : Z) (rule : Z * Z) : Z :=
  if negb (Z.land from (fst rule) =? 0) then Z.lor res (snd rule) else res.

Definition BUFR08001_to_BUFR08042 (from : Z) : Z :=
  if negb (Z.land from S1_MISSING =? 0) then S42_ALL_MISSING
  else fold_left (set_if from)
    [(S1_SIGWIND, S42_SIGWIND); (S1_SIGTH, Z.lor S42_SIGTEMP S42_SIGHUM); (S1_MAXWIND, S42_MAXWIND);
     (S1_TROPO, S42_TROPO); (S1_STD, S42_STD); (S1_SURFACE, S42_SURFACE)] 0.
Definition BUFR08042_to_BUFR08001 (from : Z) : Z :=
  if negb (Z.land from S42_MISSING =? 0) then S1_ALL_MISSING
  else fold_left (set_if from)
    [(S42_SIGWIND, S1_SIGWIND); (S42_SIGHUM, S1_SIGTH); (S42_SIGTEMP, S1_SIGTH); (S42_MAXWIND, S1_MAXWIND);
     (S42_TROPO, S1_TROPO); (S42_STD, S1_STD); (S42_SURFACE, S1_SURFACE)] 0.
Definition AOFVSS_to_BUFR08042 (from : Z) : Z :=
  fold_left (set_if from)
    [(Z.shiftl 1 0, S42_MAXWIND); (Z.shiftl 1 1, S42_TROPO); (Z.shiftl 1 3, S42_STD); (Z.shiftl 1 5, S42_STD);
     (Z.shiftl 1 6, S42_SURFACE); (Z.shiftl 1 7, S42_SIGWIND); (Z.shiftl 1 8, S42_SIGTEMP)] 0.

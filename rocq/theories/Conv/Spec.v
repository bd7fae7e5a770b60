(** Units. *)
From Coq Require Import String QArith Permutation Sorting.Sorted.
From Flocq Require Import Core BinarySingleNaN.
From Verif Require Import Base Num.Float Conv.Model.
Local Open Scope string_scope.

(** What std::sort does: the elements are those of the source, in any order where no element is
    less than one before it. *)
Definition sorted_repo (repo : list conv) : Prop :=
  Permutation repo0 repo /\ Sorted (fun a b => conv_lt b a = false) repo.

(** One unit of a quantity, in the SI (factors are exact).  A millimetre of water is one kilogram
    on a square metre. *)
Definition si_units : list (string * list (string * Q)) := [
  ("temperature difference", [("C", 1); ("C/10", 1#10)]);
  ("time", [("S", 1); ("SECOND", 1); ("SECONDS", 1); ("sec", 1); ("minuti", 60); ("MINUTE", 60); ("MINUTES", 60); ("MIN", 60);
            ("HOUR", 3600); ("HOURS", 3600); ("H", 3600); ("DAY", 86400); ("DAYS", 86400); ("D", 86400);
            ("MONTH", 2629800); ("MONTHS", 2629800); ("MON", 2629800); ("YEAR", 31557600); ("YEARS", 31557600); ("A", 31557600)]);
  ("density", [("KG/M**3", 1); ("G/M**3", 1#1000); ("ug/m**3", 1#1000000000); ("mg/l", 1#1000)]);
  ("pressure", [("PA", 1); ("hPa", 100); ("mBar", 100); ("KPA", 1000); ("Bar", 100000); ("NBAR", 1#10000)]);
  ("length", [("M", 1); ("m", 1); ("cm", 1#100); ("MM", 1#1000); ("mm", 1#1000); ("hm", 100); ("KM", 1000); ("FT", 3048#10000)]);
  ("ratio", [("RATIO", 1); ("%", 1#100); ("PERCENT", 1#100); ("1/8", 1#8); ("ppt", 1#1000); ("PART PER THOUSAND", 1#1000)]);
  ("energy on area", [("J/M**2", 1); ("JM-2", 1); ("J M-2", 1); ("MJ/M**2", 1000000); ("Mj/m**2", 1000000); ("cal/cm**2", 41868)]);
  ("power on area", [("W/M**2", 1); ("W/m**2", 1); ("cal/s/cm**2", 41868); ("cal/h/cm**2", 41868#3600)]);
  ("speed", [("M/S", 1); ("m/sec", 1); ("m/s/10", 1#10); ("nodi", 1852#3600)]);
  ("voltage", [("V", 1); ("mV", 1#1000)]);
  ("mass on area", [("KG/M**2", 1); ("KGM-2", 1); ("KG M-2", 1); ("mm", 1); ("mm/10", 1#10)]);
  ("geopotential", [("m**2/s**2", 1); ("M**2/S**2", 1); ("GPM", 980665#100000); ("MGP", 980665#100000)]);
  ("conductivity", [("S/M", 1); ("ms/cm", 1#10); ("mS/cm", 1#10)]);
  ("mixing ratio", [("KG/KG", 1); ("G/G", 1)]);
  ("turbulence", [("M**(2/3)/S", 1); ("m**(2/3)/S", 1)]);
  ("solid angle", [("DEGREE2", 1); ("DEGREE**2", 1)]);
  ("activity", [("BQ L-1", 1000); ("Bq/L", 1000)]);
  ("ozone", [("DU", 1); ("DOBSON", 1)]);
  ("logarithm", [("LOG (M-2)", 1); ("LOG(1/M**2)", 1)]);
  ("angle", [("DEGREE", 1); ("DEG", 1); ("DEGREE TRUE", 1); ("degree true", 1); ("gsess", 1)]) ]%Q.

Definition unit_of (units : list (string * Q)) (u : string) : option Q :=
  match find (fun e => String.eqb (fst e) u) units with Some e => Some (snd e) | None => None end.

(** The value of a finite double as a fraction. *)
Definition f2q (x : f64) : Q :=
  match x with
  | B754_finite s m e _ =>
    let z := if s then Z.neg m else Z.pos m in
    if (0 <=? e)%Z then inject_Z (z * 2 ^ e) else z # (Pos.pow 2 (Z.to_pos (- e)))
  | _ => 0
  end.

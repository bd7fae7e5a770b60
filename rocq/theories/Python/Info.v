(** The Python object Varinfo and the choice of a Vartable: python/varinfo.cc, python/vartable.cc:80-240.
    The description of a variable is not modelled. *)
From Coq Require Import String.
From Verif Require Import Base Varcode.Model Varinfo.Model Tables.Model Var.Model Select.Model Python.Model.
From Verif Require Listing.Model.
Local Open Scope Z_scope.

Notation chars := Listing.Model.chars.

(** vartype_format and vartype_parse: wreport/varinfo.cc:14-33.  The argument of the second is the content of
    a C string. *)
Definition vartype_format (t : vartype) : list Z :=
  match t with
  | TBinary => chars "binary"
  | TString => chars "string"
  | TInteger => chars "integer"
  | TDecimal => chars "decimal"
  end.
Definition vartype_parse (s : list Z) : res vartype :=
  if zlist_eqb s (chars "string") then Ok TString
  else if zlist_eqb s (chars "decimal") then Ok TDecimal
  else if zlist_eqb s (chars "integer") then Ok TInteger
  else if zlist_eqb s (chars "binary") then Ok TBinary
  else Err EConsistency.

(** The getters: python/varinfo.cc:20-133.  The unit is a C string; lengths are unsigned. *)
Definition info_type (i : varinfo) : py pyobj := str_of_cstring (vartype_format (vi_type i) ++ [0]).
Definition info_code (i : varinfo) : list Z := py_varcode (vi_code i).
Definition info_len (i : varinfo) : pyobj := PInt (u32 (vi_len i)).
Definition info_unit (i : varinfo) : py pyobj := str_of_cstring (chars (vi_unit i) ++ [0]).
Definition info_scale (i : varinfo) : pyobj := PInt (vi_scale i).
Definition info_bit_ref (i : varinfo) : pyobj := PInt (vi_bit_ref i).
Definition info_bit_len (i : varinfo) : pyobj := PInt (u32 (vi_bit_len i)).
(** str() and repr(): 153-167. *)
Definition info_str (i : varinfo) : list Z := py_varcode (vi_code i).
Definition info_repr (i : varinfo) : py pyobj := str_of_cstring (chars "Varinfo('" ++ varcode_format (vi_code i) ++ chars "')" ++ [0]).

(** An argument read with the format "i"; [None] is an argument that is not given. *)
Definition arg_i (k : option Z) (default : Z) : py Z :=
  match k with
  | None => Return default
  | Some k => if in_int k then Return k else Raise OverflowError
  end.

(** Vartable.get_bufr, without a basename: python/vartable.cc:108-141, and Vartable::get_bufr: wreport/vartable.cc:523-531.
    The result is the table that is loaded.  The constructor of BufrTableID takes numbers of 16 and of 8 bits. *)
Definition py_bufr_id (centre subcentre mt mtv local : option Z) : py bufr_id :=
  pbind (arg_i centre 0) (fun centre => pbind (arg_i subcentre 0) (fun subcentre => pbind (arg_i mt 0) (fun mt =>
  pbind (arg_i mtv (-1)) (fun mtv => pbind (arg_i local 0) (fun local =>
  if mtv =? -1 then Raise ValueError else Return (mkbid (u16 centre) (u16 subcentre) (u8 mt) (u8 mtv) (u8 local))))))).
Definition py_get_bufr (fs : filesystem) (td : tabledirs) (centre subcentre mt mtv local : option Z) : py table :=
  pbind (py_bufr_id centre subcentre mt mtv local) (fun id =>
  match fst (find_bufr fs id td) with None => Raise KeyError | Some t => Return t end).

(** Vartable.get_crex: python/vartable.cc:167-207, wreport/vartable.cc:533-543. *)
Definition py_crex_id (edition centre subcentre mt mtv mtv_bufr local : option Z) : py crex_id :=
  pbind (arg_i edition 2) (fun edition => pbind (arg_i centre 0) (fun centre => pbind (arg_i subcentre 0) (fun subcentre =>
  pbind (arg_i mt 0) (fun mt => pbind (arg_i mtv (-1)) (fun mtv => pbind (arg_i mtv_bufr (-1)) (fun mtv_bufr => pbind (arg_i local 0) (fun local =>
  if (mtv =? -1) && (mtv_bufr =? -1) then Raise ValueError
  else Return (mkcid (u8 edition) (u16 centre) (u16 subcentre) (u8 mt) (if mtv =? -1 then 255 else u8 mtv)
                     (if mtv_bufr =? -1 then 255 else u8 mtv_bufr) (u8 local))))))))).
Definition py_get_crex (fs : filesystem) (td : tabledirs) (edition centre subcentre mt mtv mtv_bufr local : option Z) : py table :=
  pbind (py_crex_id edition centre subcentre mt mtv mtv_bufr local) (fun id =>
  match fst (find_crex fs id td) with None => Raise KeyError | Some t => Return t end).

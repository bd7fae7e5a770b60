(** Decoding of whole messages by the decoders that check: see Codec/Checked.v and
    Codec/CheckedComp.v.  Nothing of this exists in /repo: it is what C47 compares the library with. *)
From Verif Require Import Base Bits.Model Varcode.Model Varinfo.Model Tables.Model Var.Model Interp.Model Codec.Model Codec.Compressed
  Codec.Checked Codec.CheckedComp Message.Model.
Local Open Scope Z_scope.

(** [decode_data] of Message/Model.v (decoder.cc:192-252) with the decoders that check. *)
Definition checked_data (opt : options) (T : tables) (skip : bool) (fuel : nat) (d : list Z) (l : lead)
  : res (list (list var) * localtables) :=
  let se := l_sections l in
  let start := mkin d (s4 se + 4) 0 0 in
  if l_expected l =? 0 then Err EAlloc
  else
  let n := Z.to_nat (l_expected l) in
  ' (subsets, lt, _) <-
    (if l_compression l then kk_subsets opt T skip fuel (l_datadesc l) n empty_local start
     else ck_subsets opt T skip fuel (l_datadesc l) n empty_local start) ;;
  if Nat.ltb (length d) (s5 se + 4) then Err EParse
  else
  ok <- zlist_is d (s5 se) [55; 55; 55; 55] ;;
  if negb ok then Err EParse else Ok (subsets, lt).

(** [decode] of Message/Model.v (bulletin.cc:346-380) with the decoders that check. *)
Definition checked_decode (opt : options) (load : tableid -> res tables) (skip : bool) (fuel : nat) (d : list Z)
  : res (bulletin * tables * list nat) :=
  l <- decode_lead d ;;
  T <- load (tableid_of (l_header l)) ;;
  ' (subsets, _) <- checked_data opt T skip fuel d l ;;
  let se := l_sections l in
  Ok (mkbulletin (l_header l) (l_optional l) (l_compression l) (l_datadesc l) subsets, T,
      [s1 se; s2 se; s3 se; s4 se; s5 se; (s5 se + 4)%nat]).

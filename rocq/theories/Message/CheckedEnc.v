(** Encoding of whole messages by the encoder that checks: see Codec/CheckedEnc.v.  Nothing of this
    exists in /repo: it is what C49 compares the library with. *)
From Verif Require Import Base Bits.Model Varcode.Model Varinfo.Model Tables.Model Var.Model Interp.Model Codec.Model
  Codec.CheckedEnc Message.Model.
Local Open Scope Z_scope.

(** [encode_sec4] of Message/Model.v (bufr_encoder.cc:340-372) with the encoder that checks. *)
Definition checked_sec4 (p : shift_policy) (opt : options) (T : tables) (fuel : nat) (lt : localtables)
  (b : bulletin) (o : bufout) : res bufout :=
  let sec4 := length (obytes o) in
  o1 <- write_fields p [three 0; byte 0] o ;;
  ' (_, o2) <- sf_subsets p opt T fuel (b_datadesc b) (b_subsets b) lt o1 ;;
  let o3 := flush o2 in
  o4 <- (if Nat.odd (length (obytes o3)) then append_byte p 0 o3 else Ok o3) ;;
  let o5 := flush o4 in
  Ok (mkout (patch (obytes o5) sec4 (be3 (u32 (Z.of_nat (length (obytes o5) - sec4))))) (opbyte o5) (oplen o5)).

(** [encode] of Message/Model.v (bufr_encoder.cc:376-417) with the encoder that checks. *)
Definition checked_encode (p : shift_policy) (opt : options) (T : tables) (fuel : nat) (lt : localtables)
  (b : bulletin) : res (list Z) :=
  let ed := h_edition (b_header b) in
  o0 <- append_byte p ed (raw_append [66; 85; 70; 82; 0; 0; 0] out_empty) ;;
  o1 <- (if (ed =? 2) || (ed =? 3) then write_fields p (sec1_ed3 b) o0
         else if ed =? 4 then write_fields p (sec1_ed4 b) o0
         else Err EUnimpl) ;;
  o2 <- encode_sec2 p b o1 ;;
  o3 <- encode_sec3 p b o2 ;;
  o4 <- checked_sec4 p opt T fuel lt b o3 ;;
  let o5 := raw_append [55; 55; 55; 55] o4 in
  Ok (patch (obytes o5) 4 (be3 (u32 (Z.of_nat (length (obytes o5)))))).

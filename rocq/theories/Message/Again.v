(** Messages that are decoded, encoded and decoded again: the record of what was asked for, and what
    is lost. *)
From Verif Require Import Base Bits.Model Varcode.Model Varinfo.Model Tables.Model Var.Model Interp.Model Codec.Model Codec.Again
  Message.Model.
Local Open Scope Z_scope.

(** [decode] with the record of each subset; messages without compression. *)
Definition record_message (opt : options) (load : tableid -> res tables) (skip : bool) (fuel : nat) (d : list Z)
  : res (list (list var * list request)) :=
  l <- decode_lead d ;;
  T <- load (tableid_of (l_header l)) ;;
  ' (subs, _, _) <- record_subsets opt T skip fuel (l_datadesc l) (Z.to_nat (l_expected l)) empty_local
                      (mkin d (s4 (l_sections l) + 4) 0 0) ;;
  Ok subs.

(** The encoder does not write the master table in edition 4; in editions 2 and 3 the year has two digits,
    from 1951 to 2050. *)
Definition header_kept (h : header) : Prop :=
  if h_edition h =? 4 then h_master_table h = 0 else h_year h <= 2050.

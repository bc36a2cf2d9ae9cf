(** TraceV4UnsubAck.v -- GENERATED by tools/rust2coq.py from src/v4/unsuback.rs; do not edit.
    No proofs in this file. *)
From Verif Require Import Base Lib SrcBase TraceBase.
From Verif Require V4UnsubAck.
From Verif Require TraceLib.

(** src/v4/unsuback.rs:11-13 `UnsubAck::new` *)
Definition UnsubAck_new (pkid : N) : outcome V4UnsubAck.UnsubAck :=
  run (
    wret (V4UnsubAck.mkUnsubAck pkid)) [].

(** src/v4/unsuback.rs:15-26 `UnsubAck::read` *)
Definition UnsubAck_read (fixed_header : Lib.FixedHeader) (bytes : list N) : outcome V4UnsubAck.UnsubAck :=
  run (
    (
      if (negb ((Lib.remaining_len fixed_header) =? 2)) then (
        werr Base.PayloadSizeIncorrect)
      else (
        wret tt)) ;;w
    let variable_header_index := (Lib.fixed_header_len fixed_header) in
    keep (advance variable_header_index) ;;w
    pkid <-w TraceLib.read_u16 ;;
    let unsuback := (V4UnsubAck.mkUnsubAck pkid) in
    wret unsuback) bytes.

(** src/v4/unsuback.rs:28-32 `UnsubAck::write` *)
Definition UnsubAck_write (self : V4UnsubAck.UnsubAck) : writer N :=
  put_slice [176; 2] ;;w
  put_u16 (V4UnsubAck.pkid self) ;;w
  wret 4.

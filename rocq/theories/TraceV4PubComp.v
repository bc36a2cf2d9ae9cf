(** TraceV4PubComp.v -- GENERATED by tools/rust2coq.py from src/v4/pubcomp.rs; do not edit.
    No proofs in this file. *)
From Verif Require Import Base Lib SrcBase TraceBase.
From Verif Require V4PubComp.
From Verif Require TraceLib.

(** src/v4/pubcomp.rs:11-13 `PubComp::new` *)
Definition PubComp_new (pkid : N) : outcome V4PubComp.PubComp :=
  run (
    wret (V4PubComp.mkPubComp pkid)) [].

(** src/v4/pubcomp.rs:15-18 `PubComp::len` *)
Definition PubComp_len (self : V4PubComp.PubComp) : outcome N :=
  run (
    let len := 2 in
    wret len) [].

(** src/v4/pubcomp.rs:20-36 `PubComp::read` *)
Definition PubComp_read (fixed_header : Lib.FixedHeader) (bytes : list N) : outcome V4PubComp.PubComp :=
  run (
    let variable_header_index := (Lib.fixed_header_len fixed_header) in
    keep (advance variable_header_index) ;;w
    pkid <-w TraceLib.read_u16 ;;
    if ((Lib.remaining_len fixed_header) =? 2) then (
      wret (V4PubComp.mkPubComp pkid))
    else (
      if ((Lib.remaining_len fixed_header) <? 4) then (
        wret (V4PubComp.mkPubComp pkid))
      else (
        let puback := (V4PubComp.mkPubComp pkid) in
        wret puback))) bytes.

(** src/v4/pubcomp.rs:38-44 `PubComp::write` *)
Definition PubComp_write (fuel : nat) (self : V4PubComp.PubComp) : writer N :=
  len <-w lift (PubComp_len self) ;;
  put_u8 112 ;;w
  count <-w TraceLib.write_remaining_length fuel len ;;
  put_u16 (V4PubComp.pkid self) ;;w
  t1 <-w lift (usize_add 1 count) ;;
  t2 <-w lift (usize_add t1 len) ;;
  wret t2.

(** PortV4PubAck.v -- GENERATED by tools/rust2coq.py from src/v4/puback.rs; do not edit.
    Not translated:
     src/v4/puback.rs:49 conditional item #[cfg(test)]
    No proofs in this file. *)
From Verif Require Import Base Lib SrcBase PortBase.
From Verif Require V4PubAck.
From Verif Require PortLib.

Section Port.
Context {target : Target}.

(** src/v4/puback.rs:11-13 `PubAck::new` *)
Definition PubAck_new (pkid : N) : outcome V4PubAck.PubAck :=
  run (
    wret (V4PubAck.mkPubAck pkid)) [].

(** src/v4/puback.rs:15-18 `PubAck::len` *)
Definition PubAck_len (self : V4PubAck.PubAck) : outcome N :=
  run (
    let len := 2 in
    wret len) [].

(** src/v4/puback.rs:20-38 `PubAck::read` *)
Definition PubAck_read (fixed_header : Lib.FixedHeader) (bytes : list N) : outcome V4PubAck.PubAck :=
  run (
    let variable_header_index := (Lib.fixed_header_len fixed_header) in
    keep (advance variable_header_index) ;;w
    pkid <-w PortLib.read_u16 ;;
    if ((Lib.remaining_len fixed_header) =? 2) then (
      wret (V4PubAck.mkPubAck pkid))
    else (
      if ((Lib.remaining_len fixed_header) <? 4) then (
        wret (V4PubAck.mkPubAck pkid))
      else (
        let puback := (V4PubAck.mkPubAck pkid) in
        wret puback))) bytes.

(** src/v4/puback.rs:40-46 `PubAck::write` *)
Definition PubAck_write (fuel : nat) (self : V4PubAck.PubAck) : writer N :=
  len <-w lift (PubAck_len self) ;;
  put_u8 64 ;;w
  count <-w PortLib.write_remaining_length fuel len ;;
  put_u16 (V4PubAck.pkid self) ;;w
  t1 <-w lift (usize_add 1 count) ;;
  t2 <-w lift (usize_add t1 len) ;;
  wret t2.

End Port.

(** V4PubAck.v -- model of src/v4/puback.rs.  No proofs in this file. *)
From Verif Require Import Base Utf8 Lib.

(** src/v4/puback.rs:5-8 `PubAck` *)
Record PubAck := mkPubAck { pkid : N }.

(** src/v4/puback.rs:11-13 `PubAck::new` *)
Definition new (pkid : N) : PubAck := mkPubAck pkid.

(** src/v4/puback.rs:15-18 `PubAck::len` *)
Definition len (self : PubAck) : N := 2.

(** src/v4/puback.rs:20-38 `PubAck::read` *)
Definition read (fixed_header : FixedHeader) : reader PubAck :=
  advance (fixed_header_len fixed_header) ;;r
  pkid <-r read_u16 ;;
  if remaining_len fixed_header =? 2 then rret (mkPubAck pkid)
  else if remaining_len fixed_header <? 4 then rret (mkPubAck pkid)
  else rret (mkPubAck pkid).

(** src/v4/puback.rs:40-46 `PubAck::write` *)
Definition write (self : PubAck) : writer N :=
  let len := len self in
  put_u8 0x40 ;;w
  count <-w write_remaining_length len ;;
  put_u16 (pkid self) ;;w
  wret (1 + count + len).

(** V4PubComp.v -- model of src/v4/pubcomp.rs.  No proofs in this file. *)
From Verif Require Import Base Utf8 Lib.

(** src/v4/pubcomp.rs:5-8 `PubComp` *)
Record PubComp := mkPubComp { pkid : N }.

(** src/v4/pubcomp.rs:11-13 `PubComp::new` *)
Definition new (pkid : N) : PubComp := mkPubComp pkid.

(** src/v4/pubcomp.rs:15-18 `PubComp::len` *)
Definition len (self : PubComp) : N := 2.

(** src/v4/pubcomp.rs:20-36 `PubComp::read` *)
Definition read (fixed_header : FixedHeader) : reader PubComp :=
  advance (fixed_header_len fixed_header) ;;r
  pkid <-r read_u16 ;;
  if remaining_len fixed_header =? 2 then rret (mkPubComp pkid)
  else if remaining_len fixed_header <? 4 then rret (mkPubComp pkid)
  else rret (mkPubComp pkid).

(** src/v4/pubcomp.rs:38-44 `PubComp::write` *)
Definition write (self : PubComp) : writer N :=
  let len := len self in
  put_u8 0x70 ;;w
  count <-w write_remaining_length len ;;
  put_u16 (pkid self) ;;w
  wret (1 + count + len).

(** V4PubRec.v -- model of src/v4/pubrec.rs.  No proofs in this file. *)
From Verif Require Import Base Utf8 Lib.

(** src/v4/pubrec.rs:5-8 `PubRec` *)
Record PubRec := mkPubRec { pkid : N }.

(** src/v4/pubrec.rs:11-13 `PubRec::new` *)
Definition new (pkid : N) : PubRec := mkPubRec pkid.

(** src/v4/pubrec.rs:15-18 `PubRec::len` *)
Definition len (self : PubRec) : N := 2.

(** src/v4/pubrec.rs:20-35 `PubRec::read` *)
Definition read (fixed_header : FixedHeader) : reader PubRec :=
  advance (fixed_header_len fixed_header) ;;r
  pkid <-r read_u16 ;;
  if remaining_len fixed_header =? 2 then rret (mkPubRec pkid)
  else if remaining_len fixed_header <? 4 then rret (mkPubRec pkid)
  else rret (mkPubRec pkid).

(** src/v4/pubrec.rs:37-43 `PubRec::write` *)
Definition write (self : PubRec) : writer N :=
  let len := len self in
  put_u8 0x50 ;;w
  count <-w write_remaining_length len ;;
  put_u16 (pkid self) ;;w
  wret (1 + count + len).

(** V4PubRel.v -- model of src/v4/pubrel.rs.  No proofs in this file. *)
From Verif Require Import Base Utf8 Lib.

(** src/v4/pubrel.rs:5-8 `PubRel` *)
Record PubRel := mkPubRel { pkid : N }.

(** src/v4/pubrel.rs:11-13 `PubRel::new` *)
Definition new (pkid : N) : PubRel := mkPubRel pkid.

(** src/v4/pubrel.rs:15-18 `PubRel::len` *)
Definition len (self : PubRel) : N := 2.

(** src/v4/pubrel.rs:20-35 `PubRel::read` *)
Definition read (fixed_header : FixedHeader) : reader PubRel :=
  advance (fixed_header_len fixed_header) ;;r
  pkid <-r read_u16 ;;
  if remaining_len fixed_header =? 2 then rret (mkPubRel pkid)
  else if remaining_len fixed_header <? 4 then rret (mkPubRel pkid)
  else rret (mkPubRel pkid).

(** src/v4/pubrel.rs:37-43 `PubRel::write` *)
Definition write (self : PubRel) : writer N :=
  let len := len self in
  put_u8 0x62 ;;w
  count <-w write_remaining_length len ;;
  put_u16 (pkid self) ;;w
  wret (1 + count + len).

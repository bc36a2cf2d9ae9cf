(** V4ConnAck.v -- model of src/v4/connack.rs.  No proofs in this file. *)
From Verif Require Import Base Utf8 Lib.

(** src/v4/connack.rs:5-14 `ConnectReturnCode` *)
Inductive ConnectReturnCode :=
| Success | RefusedProtocolVersion | BadClientId | ServiceUnavailable
| BadUserNamePassword | NotAuthorized.

(** `code as u8` (src/v4/connack.rs:5-14, 60). *)
Definition code_u8 (c : ConnectReturnCode) : N :=
  match c with
  | Success => 0 | RefusedProtocolVersion => 1 | BadClientId => 2
  | ServiceUnavailable => 3 | BadUserNamePassword => 4 | NotAuthorized => 5
  end.

(** src/v4/connack.rs:17-21 `ConnAck` *)
Record ConnAck := mkConnAck { session_present : bool; code : ConnectReturnCode }.

(** src/v4/connack.rs:24-29 `ConnAck::new` *)
Definition new (code : ConnectReturnCode) (session_present : bool) : ConnAck :=
  mkConnAck session_present code.

(** src/v4/connack.rs:31-35 `ConnAck::len` *)
Definition len (self : ConnAck) : N := 1 + 1.

(** src/v4/connack.rs:67-77 `connect_return` *)
Definition connect_return (num : N) : outcome ConnectReturnCode :=
  match num with
  | 0 => Ok Success
  | 1 => Ok RefusedProtocolVersion
  | 2 => Ok BadClientId
  | 3 => Ok ServiceUnavailable
  | 4 => Ok BadUserNamePassword
  | 5 => Ok NotAuthorized
  | num => Err (InvalidConnectReturnCode num)
  end.

(** src/v4/connack.rs:37-52 `ConnAck::read` *)
Definition read (fixed_header : FixedHeader) : reader ConnAck :=
  advance (fixed_header_len fixed_header) ;;r
  flags <-r read_u8 ;;
  return_code <-r read_u8 ;;
  let session_present := N.land flags 1 =? 1 in
  code <-r rlift (connect_return return_code) ;;
  rret (mkConnAck session_present code).

(** src/v4/connack.rs:54-63 `ConnAck::write` *)
Definition write (self : ConnAck) : writer N :=
  let len := len self in
  put_u8 0x20 ;;w
  count <-w write_remaining_length len ;;
  put_u8 (bool_u8 (session_present self)) ;;w
  put_u8 (code_u8 (code self)) ;;w
  wret (1 + count + len).

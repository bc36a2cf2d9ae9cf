(** SrcV4ConnAck.v -- GENERATED by tools/rust2coq.py from src/v4/connack.rs; do not edit.
    Not translated:
     src/v4/connack.rs:79 conditional item #[cfg(test)]
    No proofs in this file. *)
From Verif Require Import Base Lib SrcBase.
From Verif Require V4ConnAck.
From Verif Require SrcLib.

(** src/v4/connack.rs:5 `ConnectReturnCode as u8` (the discriminants of the declaration; also decides the derived `==`) *)
Definition ConnectReturnCode_as_u8 (x : V4ConnAck.ConnectReturnCode) : N :=
  match x with
  | V4ConnAck.Success => 0
  | V4ConnAck.RefusedProtocolVersion => 1
  | V4ConnAck.BadClientId => 2
  | V4ConnAck.ServiceUnavailable => 3
  | V4ConnAck.BadUserNamePassword => 4
  | V4ConnAck.NotAuthorized => 5
  end.

(** src/v4/connack.rs:24-29 `ConnAck::new` *)
Definition ConnAck_new (code : V4ConnAck.ConnectReturnCode) (session_present : bool) : outcome V4ConnAck.ConnAck :=
  run (
    wret (V4ConnAck.mkConnAck session_present code)) [].

(** src/v4/connack.rs:31-35 `ConnAck::len` *)
Definition ConnAck_len (self : V4ConnAck.ConnAck) : outcome N :=
  run (
    len <-w lift (usize_add 1 1) ;;
    wret len) [].

(** src/v4/connack.rs:67-77 `connect_return` *)
Definition connect_return (num : N) : outcome V4ConnAck.ConnectReturnCode :=
  run (
    match num with
    | 0 =>
        wret V4ConnAck.Success
    | 1 =>
        wret V4ConnAck.RefusedProtocolVersion
    | 2 =>
        wret V4ConnAck.BadClientId
    | 3 =>
        wret V4ConnAck.ServiceUnavailable
    | 4 =>
        wret V4ConnAck.BadUserNamePassword
    | 5 =>
        wret V4ConnAck.NotAuthorized
    | num =>
        werr (Base.InvalidConnectReturnCode num)
    end) [].

(** src/v4/connack.rs:37-52 `ConnAck::read` *)
Definition ConnAck_read (fixed_header : Lib.FixedHeader) (bytes : list N) : outcome V4ConnAck.ConnAck :=
  run (
    let variable_header_index := (Lib.fixed_header_len fixed_header) in
    keep (advance variable_header_index) ;;w
    flags <-w SrcLib.read_u8 ;;
    return_code <-w SrcLib.read_u8 ;;
    let session_present := ((N.land flags 1) =? 1) in
    code <-w lift (connect_return return_code) ;;
    let connack := (V4ConnAck.mkConnAck session_present code) in
    wret connack) bytes.

(** src/v4/connack.rs:54-63 `ConnAck::write` *)
Definition ConnAck_write (fuel : nat) (self : V4ConnAck.ConnAck) : writer N :=
  len <-w lift (ConnAck_len self) ;;
  put_u8 32 ;;w
  count <-w SrcLib.write_remaining_length fuel len ;;
  put_u8 (bool_u8 (V4ConnAck.session_present self)) ;;w
  put_u8 (ConnectReturnCode_as_u8 (V4ConnAck.code self)) ;;w
  t1 <-w lift (usize_add 1 count) ;;
  t2 <-w lift (usize_add t1 len) ;;
  wret t2.

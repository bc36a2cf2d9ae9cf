(** V4SubAck.v -- model of src/v4/suback.rs.  No proofs in this file. *)
From Verif Require Import Base Utf8 Lib.

(** src/v4/suback.rs:61-65 `SubscribeReasonCode` *)
Inductive SubscribeReasonCode := Success (q : QoS) | Failure.

(** src/v4/suback.rs:7-11 `SubAck` *)
Record SubAck := mkSubAck { pkid : N; return_codes : list SubscribeReasonCode }.

(** src/v4/suback.rs:14-16 `SubAck::new` *)
Definition new (pkid : N) (return_codes : list SubscribeReasonCode) : SubAck :=
  mkSubAck pkid return_codes.

(** src/v4/suback.rs:18-21 `SubAck::len` *)
Definition len (self : SubAck) : N := 2 + blen (return_codes self).

(** src/v4/suback.rs:67-81 `TryFrom<u8> for SubscribeReasonCode` *)
Definition try_from (value : N) : outcome SubscribeReasonCode :=
  match value with
  | 0 => Ok (Success AtMostOnce)
  | 1 => Ok (Success AtLeastOnce)
  | 2 => Ok (Success ExactlyOnce)
  | 128 => Ok Failure
  | v => Err (InvalidSubscribeReasonCode v)
  end.

(** src/v4/suback.rs:33-36: the `while bytes.has_remaining()` loop *)
Fixpoint codes_loop (fuel : nat) (return_codes : list SubscribeReasonCode)
  : reader (list SubscribeReasonCode) :=
  fun bytes =>
    match fuel with
    | O => Diverge
    | S fuel =>
        if has_remaining bytes then
          (return_code <-r read_u8 ;;
           c <-r rlift (try_from return_code) ;;
           codes_loop fuel (return_codes ++ [c])) bytes
        else Ok (return_codes, bytes)
    end.

(** src/v4/suback.rs:23-40 `SubAck::read` *)
Definition read (fixed_header : FixedHeader) : reader SubAck :=
  advance (fixed_header_len fixed_header) ;;r
  pkid <-r read_u16 ;;
  fun bytes =>
    if negb (has_remaining bytes) then Err MalformedPacket
    else
      (return_codes <-r codes_loop (S (List.length bytes)) [] ;;
       rret (mkSubAck pkid return_codes)) bytes.

(** src/v4/suback.rs:51-54: code to byte *)
Definition code_u8 (c : SubscribeReasonCode) : N :=
  match c with Success qos => qos_u8 qos | Failure => 0x80 end.

(** src/v4/suback.rs:42-58 `SubAck::write` *)
Definition write (self : SubAck) : writer N :=
  put_u8 0x90 ;;w
  let remaining_len := len self in
  remaining_len_bytes <-w write_remaining_length remaining_len ;;
  put_u16 (pkid self) ;;w
  let p := map code_u8 (return_codes self) in
  extend_from_slice p ;;w
  wret (1 + remaining_len_bytes + remaining_len).

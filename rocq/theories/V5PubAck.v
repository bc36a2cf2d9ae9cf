(** V5PubAck.v -- model of src/v5/puback.rs.  No proofs in this file. *)
From Verif Require Import Base Utf8 Lib V5Property.

(** src/v5/puback.rs:7-17 `PubAckReason` *)
Inductive PubAckReason :=
| Success
| NoMatchingSubscribers
| UnspecifiedError
| ImplementationSpecificError
| NotAuthorized
| TopicNameInvalid
| PacketIdentifierInUse
| QuotaExceeded
| PayloadFormatInvalid.

(** the discriminants of `PubAckReason` (src/v5/puback.rs:7-17), `as u8` *)
Definition code_u8 (c : PubAckReason) : N :=
  match c with
  | Success => 0
  | NoMatchingSubscribers => 16
  | UnspecifiedError => 128
  | ImplementationSpecificError => 131
  | NotAuthorized => 135
  | TopicNameInvalid => 144
  | PacketIdentifierInUse => 145
  | QuotaExceeded => 151
  | PayloadFormatInvalid => 153
  end.

(** src/v5/puback.rs:188-203 `reason` *)
Definition reason_of (num : N) : outcome PubAckReason :=
  match num with
  | 0 => Ok Success
  | 16 => Ok NoMatchingSubscribers
  | 128 => Ok UnspecifiedError
  | 131 => Ok ImplementationSpecificError
  | 135 => Ok NotAuthorized
  | 144 => Ok TopicNameInvalid
  | 145 => Ok PacketIdentifierInUse
  | 151 => Ok QuotaExceeded
  | 153 => Ok PayloadFormatInvalid
  | num => Err (InvalidConnectReturnCode num)
  end.

(** `==` on `PubAckReason` (derived PartialEq, src/v5/puback.rs:5-7). *)
Definition reason_eqb (a b : PubAckReason) : bool := code_u8 a =? code_u8 b.

(** src/v5/puback.rs:111-114 `PubAckProperties` *)
Record PubAckProperties := mkPubAckProperties {
  reason_string : option bytes;
  user_properties : list (bytes * bytes)
}.

(** src/v5/puback.rs:131-167: the local variables before the loop (the loop state is
    kept in the record it finally builds) *)
Definition props_new : PubAckProperties := mkPubAckProperties None [].

(** src/v5/puback.rs:131-167: assignment to the local variable for `reason_string` *)
Definition set_reason_string (self : PubAckProperties) (v : bytes) : PubAckProperties :=
  mkPubAckProperties (Some v) (user_properties self).
(** src/v5/puback.rs:131-167: `push` onto the local vector for `user_properties` *)
Definition push_user_properties (self : PubAckProperties) (v : bytes * bytes) : PubAckProperties :=
  mkPubAckProperties (reason_string self) (user_properties self ++ [v]).

(** src/v5/puback.rs:117-129 `PubAckProperties::len` *)
Definition props_len (self : PubAckProperties) : N :=
  let len := 0 in
  let len := match reason_string self with Some v => len + (1 + 2 + blen v) | None => len end in
  let len := fold_left (fun len kv => len + (1 + 2 + blen (fst kv) + 2 + blen (snd kv))) (user_properties self) len in
  len.

(** src/v5/puback.rs:144-161: the `match property(prop)?` of the loop body.  Returns the
    updated variables and what is added to `cursor`. *)
Definition props_step (ty : PropertyType) (prop : N) (self : PubAckProperties)
  : reader (PubAckProperties * N) :=
  match ty with
  | ReasonString =>
      v <-r read_mqtt_string ;; rret (set_reason_string self v, 2 + blen v)
  | UserProperty =>
      key <-r read_mqtt_string ;;
      value <-r read_mqtt_string ;;
      rret (push_user_properties self (key, value), 2 + blen key + 2 + blen value)
  | _ => rerr (InvalidPropertyType prop)
  end.

(** src/v5/puback.rs:131-167 `PubAckProperties::extract` *)
Definition extract : reader (option PubAckProperties) :=
  ll <-r peek_length ;;
  advance (fst ll) ;;r
  if snd ll =? 0 then rret None
  else
    p <-r props_loop props_step (snd ll) props_new ;;
    rret (Some p).

(** src/v5/puback.rs:169-185 `PubAckProperties::write` *)
Definition props_write (self : PubAckProperties) : writer unit :=
  let len := props_len self in
  write_remaining_length len ;;w
  when_some (reason_string self) (fun v => put_u8 (property_u8 ReasonString) ;;w write_mqtt_string v) ;;w
  for_each (user_properties self) (fun kv =>
    put_u8 (property_u8 UserProperty) ;;w
    write_mqtt_string (fst kv) ;;w write_mqtt_string (snd kv)) ;;w
  wret tt.

(** src/v5/puback.rs:21-25 `PubAck` *)
Record PubAck := mkPubAck {
  pkid : N;
  reason : PubAckReason;
  properties : option PubAckProperties
}.

(** src/v5/puback.rs:28-34 `PubAck::new` *)
Definition new (pkid : N) : PubAck := mkPubAck pkid Success None.

(** src/v5/puback.rs:36-54 `PubAck::len` *)
Definition len (self : PubAck) : N :=
  let len := 2 + 1 in
  if reason_eqb (reason self) Success && is_none (properties self) then 2
  else
    match properties self with
    | Some properties => add_props_len len (props_len properties)
    | None => len
    end.

(** src/v5/puback.rs:56-87 `PubAck::read` *)
Definition read (fixed_header : FixedHeader) : reader PubAck :=
  advance (fixed_header_len fixed_header) ;;r
  pkid <-r read_u16 ;;
  if remaining_len fixed_header =? 2 then rret (mkPubAck pkid Success None)
  else
    ack_reason <-r read_u8 ;;
    if remaining_len fixed_header <? 4 then
      reason <-r rlift (reason_of ack_reason) ;;
      rret (mkPubAck pkid reason None)
    else
      reason <-r rlift (reason_of ack_reason) ;;
      properties <-r extract ;;
      rret (mkPubAck pkid reason properties).

(** src/v5/puback.rs:89-107 `PubAck::write` *)
Definition write (self : PubAck) : writer N :=
  let len := len self in
  put_u8 0x40 ;;w
  count <-w write_remaining_length len ;;
  put_u16 (pkid self) ;;w
  if reason_eqb (reason self) Success && is_none (properties self) then wret 4
  else
    put_u8 (code_u8 (reason self)) ;;w
    when_some (properties self) props_write ;;w
    wret (1 + count + len).

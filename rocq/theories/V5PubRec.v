(** V5PubRec.v -- model of src/v5/pubrec.rs.  No proofs in this file. *)
From Verif Require Import Base Utf8 Lib V5Property.

(** src/v5/pubrec.rs:7-17 `PubRecReason` *)
Inductive PubRecReason :=
| Success
| NoMatchingSubscribers
| UnspecifiedError
| ImplementationSpecificError
| NotAuthorized
| TopicNameInvalid
| PacketIdentifierInUse
| QuotaExceeded
| PayloadFormatInvalid.

(** the discriminants of `PubRecReason` (src/v5/pubrec.rs:7-17), `as u8` *)
Definition code_u8 (c : PubRecReason) : N :=
  match c with
  | Success => 0
  | NoMatchingSubscribers => 16
  | UnspecifiedError => 128
  | ImplementationSpecificError => 131
  | NotAuthorized => 135
  | TopicNameInvalid => 144
  | PacketIdentifierInUse => 145
  | QuotaExceeded => 151
  | PayloadFormatInvalid => 153
  end.

(** src/v5/pubrec.rs:184-199 `reason` *)
Definition reason_of (num : N) : outcome PubRecReason :=
  match num with
  | 0 => Ok Success
  | 16 => Ok NoMatchingSubscribers
  | 128 => Ok UnspecifiedError
  | 131 => Ok ImplementationSpecificError
  | 135 => Ok NotAuthorized
  | 144 => Ok TopicNameInvalid
  | 145 => Ok PacketIdentifierInUse
  | 151 => Ok QuotaExceeded
  | 153 => Ok PayloadFormatInvalid
  | num => Err (InvalidConnectReturnCode num)
  end.

(** `==` on `PubRecReason` (derived PartialEq, src/v5/pubrec.rs:5-7). *)
Definition reason_eqb (a b : PubRecReason) : bool := code_u8 a =? code_u8 b.

(** src/v5/pubrec.rs:107-110 `PubRecProperties` *)
Record PubRecProperties := mkPubRecProperties {
  reason_string : option bytes;
  user_properties : list (bytes * bytes)
}.

(** src/v5/pubrec.rs:127-163: the local variables before the loop (the loop state is
    kept in the record it finally builds) *)
Definition props_new : PubRecProperties := mkPubRecProperties None [].

(** src/v5/pubrec.rs:127-163: assignment to the local variable for `reason_string` *)
Definition set_reason_string (self : PubRecProperties) (v : bytes) : PubRecProperties :=
  mkPubRecProperties (Some v) (user_properties self).
(** src/v5/pubrec.rs:127-163: `push` onto the local vector for `user_properties` *)
Definition push_user_properties (self : PubRecProperties) (v : bytes * bytes) : PubRecProperties :=
  mkPubRecProperties (reason_string self) (user_properties self ++ [v]).

(** src/v5/pubrec.rs:113-125 `PubRecProperties::len` *)
Definition props_len (self : PubRecProperties) : N :=
  let len := 0 in
  let len := match reason_string self with Some v => len + (1 + 2 + blen v) | None => len end in
  let len := fold_left (fun len kv => len + (1 + 2 + blen (fst kv) + 2 + blen (snd kv))) (user_properties self) len in
  len.

(** src/v5/pubrec.rs:140-157: the `match property(prop)?` of the loop body.  Returns the
    updated variables and what is added to `cursor`. *)
Definition props_step (ty : PropertyType) (prop : N) (self : PubRecProperties)
  : reader (PubRecProperties * N) :=
  match ty with
  | ReasonString =>
      v <-r read_mqtt_string ;; rret (set_reason_string self v, 2 + blen v)
  | UserProperty =>
      key <-r read_mqtt_string ;;
      value <-r read_mqtt_string ;;
      rret (push_user_properties self (key, value), 2 + blen key + 2 + blen value)
  | _ => rerr (InvalidPropertyType prop)
  end.

(** src/v5/pubrec.rs:127-163 `PubRecProperties::extract` *)
Definition extract : reader (option PubRecProperties) :=
  ll <-r peek_length ;;
  advance (fst ll) ;;r
  if snd ll =? 0 then rret None
  else
    p <-r props_loop props_step (snd ll) props_new ;;
    rret (Some p).

(** src/v5/pubrec.rs:165-181 `PubRecProperties::write` *)
Definition props_write (self : PubRecProperties) : writer unit :=
  let len := props_len self in
  write_remaining_length len ;;w
  when_some (reason_string self) (fun v => put_u8 (property_u8 ReasonString) ;;w write_mqtt_string v) ;;w
  for_each (user_properties self) (fun kv =>
    put_u8 (property_u8 UserProperty) ;;w
    write_mqtt_string (fst kv) ;;w write_mqtt_string (snd kv)) ;;w
  wret tt.

(** src/v5/pubrec.rs:21-25 `PubRec` *)
Record PubRec := mkPubRec {
  pkid : N;
  reason : PubRecReason;
  properties : option PubRecProperties
}.

(** src/v5/pubrec.rs:28-34 `PubRec::new` *)
Definition new (pkid : N) : PubRec := mkPubRec pkid Success None.

(** src/v5/pubrec.rs:36-53 `PubRec::len` *)
Definition len (self : PubRec) : N :=
  let len := 2 + 1 in
  if reason_eqb (reason self) Success && is_none (properties self) then 2
  else
    match properties self with
    | Some properties => add_props_len len (props_len properties)
    | None => len
    end.

(** src/v5/pubrec.rs:55-83 `PubRec::read` *)
Definition read (fixed_header : FixedHeader) : reader PubRec :=
  advance (fixed_header_len fixed_header) ;;r
  pkid <-r read_u16 ;;
  if remaining_len fixed_header =? 2 then rret (mkPubRec pkid Success None)
  else
    ack_reason <-r read_u8 ;;
    if remaining_len fixed_header <? 4 then
      reason <-r rlift (reason_of ack_reason) ;;
      rret (mkPubRec pkid reason None)
    else
      reason <-r rlift (reason_of ack_reason) ;;
      properties <-r extract ;;
      rret (mkPubRec pkid reason properties).

(** src/v5/pubrec.rs:85-103 `PubRec::write` *)
Definition write (self : PubRec) : writer N :=
  let len := len self in
  put_u8 0x50 ;;w
  count <-w write_remaining_length len ;;
  put_u16 (pkid self) ;;w
  if reason_eqb (reason self) Success && is_none (properties self) then wret 4
  else
    put_u8 (code_u8 (reason self)) ;;w
    when_some (properties self) props_write ;;w
    wret (1 + count + len).

(** V5SubAck.v -- model of src/v5/suback.rs.  No proofs in this file. *)
From Verif Require Import Base Utf8 Lib V5Property.

(** src/v5/suback.rs:167-180 `SubscribeReasonCode` *)
Inductive SubscribeReasonCode :=
| QoS0
| QoS1
| QoS2
| Unspecified
| ImplementationSpecific
| NotAuthorized
| TopicFilterInvalid
| PkidInUse
| QuotaExceeded
| SharedSubscriptionsNotSupported
| SubscriptionIdNotSupported
| WildcardSubscriptionsNotSupported.

(** the discriminants of `SubscribeReasonCode` (src/v5/suback.rs:167-180), `as u8` *)
Definition code_u8 (c : SubscribeReasonCode) : N :=
  match c with
  | QoS0 => 0
  | QoS1 => 1
  | QoS2 => 2
  | Unspecified => 128
  | ImplementationSpecific => 131
  | NotAuthorized => 135
  | TopicFilterInvalid => 143
  | PkidInUse => 145
  | QuotaExceeded => 151
  | SharedSubscriptionsNotSupported => 158
  | SubscriptionIdNotSupported => 161
  | WildcardSubscriptionsNotSupported => 162
  end.

(** src/v5/suback.rs:182-204 `TryFrom<u8>` *)
Definition try_from (num : N) : outcome SubscribeReasonCode :=
  match num with
  | 0 => Ok QoS0
  | 1 => Ok QoS1
  | 2 => Ok QoS2
  | 128 => Ok Unspecified
  | 131 => Ok ImplementationSpecific
  | 135 => Ok NotAuthorized
  | 143 => Ok TopicFilterInvalid
  | 145 => Ok PkidInUse
  | 151 => Ok QuotaExceeded
  | 158 => Ok SharedSubscriptionsNotSupported
  | 161 => Ok SubscriptionIdNotSupported
  | 162 => Ok WildcardSubscriptionsNotSupported
  | num => Err (InvalidSubscribeReasonCode num)
  end.

(** src/v5/suback.rs:88-91 `SubAckProperties` *)
Record SubAckProperties := mkSubAckProperties {
  reason_string : option bytes;
  user_properties : list (bytes * bytes)
}.

(** src/v5/suback.rs:108-144: the local variables before the loop (the loop state is
    kept in the record it finally builds) *)
Definition props_new : SubAckProperties := mkSubAckProperties None [].

(** src/v5/suback.rs:108-144: assignment to the local variable for `reason_string` *)
Definition set_reason_string (self : SubAckProperties) (v : bytes) : SubAckProperties :=
  mkSubAckProperties (Some v) (user_properties self).
(** src/v5/suback.rs:108-144: `push` onto the local vector for `user_properties` *)
Definition push_user_properties (self : SubAckProperties) (v : bytes * bytes) : SubAckProperties :=
  mkSubAckProperties (reason_string self) (user_properties self ++ [v]).

(** src/v5/suback.rs:94-106 `SubAckProperties::len` *)
Definition props_len (self : SubAckProperties) : N :=
  let len := 0 in
  let len := match reason_string self with Some v => len + (1 + 2 + blen v) | None => len end in
  let len := fold_left (fun len kv => len + (1 + 2 + blen (fst kv) + 2 + blen (snd kv))) (user_properties self) len in
  len.

(** src/v5/suback.rs:120-138: the `match property(prop)?` of the loop body.  Returns the
    updated variables and what is added to `cursor`. *)
Definition props_step (ty : PropertyType) (prop : N) (self : SubAckProperties)
  : reader (SubAckProperties * N) :=
  match ty with
  | ReasonString =>
      v <-r read_mqtt_string ;; rret (set_reason_string self v, 2 + blen v)
  | UserProperty =>
      key <-r read_mqtt_string ;;
      value <-r read_mqtt_string ;;
      rret (push_user_properties self (key, value), 2 + blen key + 2 + blen value)
  | _ => rerr (InvalidPropertyType prop)
  end.

(** src/v5/suback.rs:108-144 `SubAckProperties::extract` *)
Definition extract : reader (option SubAckProperties) :=
  ll <-r peek_length ;;
  advance (fst ll) ;;r
  if snd ll =? 0 then rret None
  else
    p <-r props_loop props_step (snd ll) props_new ;;
    rret (Some p).

(** src/v5/suback.rs:146-162 `SubAckProperties::write` *)
Definition props_write (self : SubAckProperties) : writer unit :=
  let len := props_len self in
  write_remaining_length len ;;w
  when_some (reason_string self) (fun v => put_u8 (property_u8 ReasonString) ;;w write_mqtt_string v) ;;w
  for_each (user_properties self) (fun kv =>
    put_u8 (property_u8 UserProperty) ;;w
    write_mqtt_string (fst kv) ;;w write_mqtt_string (snd kv)) ;;w
  wret tt.

(** src/v5/suback.rs:8-12 `SubAck` *)
Record SubAck := mkSubAck {
  pkid : N;
  return_codes : list SubscribeReasonCode;
  properties : option SubAckProperties
}.

(** src/v5/suback.rs:15-21 `SubAck::new` *)
Definition new (pkid : N) (return_codes : list SubscribeReasonCode) : SubAck := mkSubAck pkid return_codes None.

(** src/v5/suback.rs:23-39 `SubAck::len` *)
Definition len (self : SubAck) : N :=
  let len := 2 + blen (return_codes self) in
  match properties self with
  | Some properties => add_props_len len (props_len properties)
  | None => len + 1
  end.

(** src/v5/suback.rs:53-56: the `while bytes.has_remaining()` loop *)
Fixpoint codes_loop (fuel : nat) (return_codes : list SubscribeReasonCode)
  : reader (list SubscribeReasonCode) :=
  fun bytes =>
    match fuel with
    | O => Diverge
    | S fuel =>
        if has_remaining bytes then
          (return_code <-r read_u8 ;;
           c <-r rlift (try_from return_code) ;;
           codes_loop fuel (return_codes ++ [c])) bytes
        else Ok (return_codes, bytes)
    end.

(** src/v5/suback.rs:41-65 `SubAck::read` *)
Definition read (fixed_header : FixedHeader) : reader SubAck :=
  advance (fixed_header_len fixed_header) ;;r
  pkid <-r read_u16 ;;
  properties <-r extract ;;
  fun bytes =>
    if negb (has_remaining bytes) then Err MalformedPacket
    else
      (return_codes <-r codes_loop (S (List.length bytes)) [] ;;
       rret (mkSubAck pkid return_codes properties)) bytes.

(** src/v5/suback.rs:67-84 `SubAck::write` *)
Definition write (self : SubAck) : writer N :=
  put_u8 0x90 ;;w
  let remaining_len := len self in
  remaining_len_bytes <-w write_remaining_length remaining_len ;;
  put_u16 (pkid self) ;;w
  (match properties self with
   | Some properties => props_write properties
   | None => write_remaining_length 0 ;;w wret tt
   end) ;;w
  let p := map code_u8 (return_codes self) in
  extend_from_slice p ;;w
  wret (1 + remaining_len_bytes + remaining_len).

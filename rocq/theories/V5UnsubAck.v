(** V5UnsubAck.v -- model of src/v5/unsuback.rs.  No proofs in this file. *)
From Verif Require Import Base Utf8 Lib V5Property.

(** src/v5/unsuback.rs:7-15 `UnsubAckReason` *)
Inductive UnsubAckReason :=
| Success
| NoSubscriptionExisted
| UnspecifiedError
| ImplementationSpecificError
| NotAuthorized
| TopicFilterInvalid
| PacketIdentifierInUse.

(** the discriminants of `UnsubAckReason` (src/v5/unsuback.rs:7-15), `as u8` *)
Definition code_u8 (c : UnsubAckReason) : N :=
  match c with
  | Success => 0x00
  | NoSubscriptionExisted => 0x11
  | UnspecifiedError => 0x80
  | ImplementationSpecificError => 0x83
  | NotAuthorized => 0x87
  | TopicFilterInvalid => 0x8F
  | PacketIdentifierInUse => 0x91
  end.

(** src/v5/unsuback.rs:177-190 `reason` *)
Definition reason_of (num : N) : outcome UnsubAckReason :=
  match num with
  | 0x00 => Ok Success
  | 0x11 => Ok NoSubscriptionExisted
  | 0x80 => Ok UnspecifiedError
  | 0x83 => Ok ImplementationSpecificError
  | 0x87 => Ok NotAuthorized
  | 0x8F => Ok TopicFilterInvalid
  | 0x91 => Ok PacketIdentifierInUse
  | num => Err (InvalidSubscribeReasonCode num)
  end.

(** src/v5/unsuback.rs:99-102 `UnsubAckProperties` *)
Record UnsubAckProperties := mkUnsubAckProperties {
  reason_string : option bytes;
  user_properties : list (bytes * bytes)
}.

(** src/v5/unsuback.rs:119-155: the local variables before the loop (the loop state is
    kept in the record it finally builds) *)
Definition props_new : UnsubAckProperties := mkUnsubAckProperties None [].

(** src/v5/unsuback.rs:119-155: assignment to the local variable for `reason_string` *)
Definition set_reason_string (self : UnsubAckProperties) (v : bytes) : UnsubAckProperties :=
  mkUnsubAckProperties (Some v) (user_properties self).
(** src/v5/unsuback.rs:119-155: `push` onto the local vector for `user_properties` *)
Definition push_user_properties (self : UnsubAckProperties) (v : bytes * bytes) : UnsubAckProperties :=
  mkUnsubAckProperties (reason_string self) (user_properties self ++ [v]).

(** src/v5/unsuback.rs:105-117 `UnsubAckProperties::len` *)
Definition props_len (self : UnsubAckProperties) : N :=
  let len := 0 in
  let len := match reason_string self with Some v => len + (1 + 2 + blen v) | None => len end in
  let len := fold_left (fun len kv => len + (1 + 2 + blen (fst kv) + 2 + blen (snd kv))) (user_properties self) len in
  len.

(** src/v5/unsuback.rs:131-149: the `match property(prop)?` of the loop body.  Returns the
    updated variables and what is added to `cursor`. *)
Definition props_step (ty : PropertyType) (prop : N) (self : UnsubAckProperties)
  : reader (UnsubAckProperties * N) :=
  match ty with
  | ReasonString =>
      v <-r read_mqtt_string ;; rret (set_reason_string self v, 2 + blen v)
  | UserProperty =>
      key <-r read_mqtt_string ;;
      value <-r read_mqtt_string ;;
      rret (push_user_properties self (key, value), 2 + blen key + 2 + blen value)
  | _ => rerr (InvalidPropertyType prop)
  end.

(** src/v5/unsuback.rs:119-155 `UnsubAckProperties::extract` *)
Definition extract : reader (option UnsubAckProperties) :=
  ll <-r peek_length ;;
  advance (fst ll) ;;r
  if snd ll =? 0 then rret None
  else
    p <-r props_loop props_step (snd ll) props_new ;;
    rret (Some p).

(** src/v5/unsuback.rs:157-173 `UnsubAckProperties::write` *)
Definition props_write (self : UnsubAckProperties) : writer unit :=
  let len := props_len self in
  write_remaining_length len ;;w
  when_some (reason_string self) (fun v => put_u8 (property_u8 ReasonString) ;;w write_mqtt_string v) ;;w
  for_each (user_properties self) (fun kv =>
    put_u8 (property_u8 UserProperty) ;;w
    write_mqtt_string (fst kv) ;;w write_mqtt_string (snd kv)) ;;w
  wret tt.

(** src/v5/unsuback.rs:19-23 `UnsubAck` *)
Record UnsubAck := mkUnsubAck {
  pkid : N;
  reasons : list UnsubAckReason;
  properties : option UnsubAckProperties
}.

(** src/v5/unsuback.rs:26-32 `UnsubAck::new` *)
Definition new (pkid : N) : UnsubAck := mkUnsubAck pkid [] None.

(** src/v5/unsuback.rs:34-50 `UnsubAck::len` *)
Definition len (self : UnsubAck) : N :=
  let len := 2 + blen (reasons self) in
  match properties self with
  | Some properties => add_props_len len (props_len properties)
  | None => len + 1
  end.

(** src/v5/unsuback.rs:64-67: the `while bytes.has_remaining()` loop *)
Fixpoint codes_loop (fuel : nat) (reasons : list UnsubAckReason)
  : reader (list UnsubAckReason) :=
  fun bytes =>
    match fuel with
    | O => Diverge
    | S fuel =>
        if has_remaining bytes then
          (return_code <-r read_u8 ;;
           c <-r rlift (reason_of return_code) ;;
           codes_loop fuel (reasons ++ [c])) bytes
        else Ok (reasons, bytes)
    end.

(** src/v5/unsuback.rs:52-76 `UnsubAck::read` *)
Definition read (fixed_header : FixedHeader) : reader UnsubAck :=
  advance (fixed_header_len fixed_header) ;;r
  pkid <-r read_u16 ;;
  properties <-r extract ;;
  fun bytes =>
    if negb (has_remaining bytes) then Err MalformedPacket
    else
      (reasons <-r codes_loop (S (List.length bytes)) [] ;;
       rret (mkUnsubAck pkid reasons properties)) bytes.

(** src/v5/unsuback.rs:78-95 `UnsubAck::write` *)
Definition write (self : UnsubAck) : writer N :=
  put_u8 0xB0 ;;w
  let remaining_len := len self in
  remaining_len_bytes <-w write_remaining_length remaining_len ;;
  put_u16 (pkid self) ;;w
  (match properties self with
   | Some properties => props_write properties
   | None => write_remaining_length 0 ;;w wret tt
   end) ;;w
  let p := map code_u8 (reasons self) in
  extend_from_slice p ;;w
  wret (1 + remaining_len_bytes + remaining_len).

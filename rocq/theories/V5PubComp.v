(** V5PubComp.v -- model of src/v5/pubcomp.rs.  No proofs in this file. *)
From Verif Require Import Base Utf8 Lib V5Property.

(** src/v5/pubcomp.rs:7-10 `PubCompReason` *)
Inductive PubCompReason :=
| Success
| PacketIdentifierNotFound.

(** the discriminants of `PubCompReason` (src/v5/pubcomp.rs:7-10), `as u8` *)
Definition code_u8 (c : PubCompReason) : N :=
  match c with
  | Success => 0
  | PacketIdentifierNotFound => 146
  end.

(** src/v5/pubcomp.rs:176-184 `reason` *)
Definition reason_of (num : N) : outcome PubCompReason :=
  match num with
  | 0 => Ok Success
  | 146 => Ok PacketIdentifierNotFound
  | num => Err (InvalidConnectReturnCode num)
  end.

(** `==` on `PubCompReason` (derived PartialEq, src/v5/pubcomp.rs:5-7). *)
Definition reason_eqb (a b : PubCompReason) : bool := code_u8 a =? code_u8 b.

(** src/v5/pubcomp.rs:99-102 `PubCompProperties` *)
Record PubCompProperties := mkPubCompProperties {
  reason_string : option bytes;
  user_properties : list (bytes * bytes)
}.

(** src/v5/pubcomp.rs:119-155: the local variables before the loop (the loop state is
    kept in the record it finally builds) *)
Definition props_new : PubCompProperties := mkPubCompProperties None [].

(** src/v5/pubcomp.rs:119-155: assignment to the local variable for `reason_string` *)
Definition set_reason_string (self : PubCompProperties) (v : bytes) : PubCompProperties :=
  mkPubCompProperties (Some v) (user_properties self).
(** src/v5/pubcomp.rs:119-155: `push` onto the local vector for `user_properties` *)
Definition push_user_properties (self : PubCompProperties) (v : bytes * bytes) : PubCompProperties :=
  mkPubCompProperties (reason_string self) (user_properties self ++ [v]).

(** src/v5/pubcomp.rs:105-117 `PubCompProperties::len` *)
Definition props_len (self : PubCompProperties) : N :=
  let len := 0 in
  let len := match reason_string self with Some v => len + (1 + 2 + blen v) | None => len end in
  let len := fold_left (fun len kv => len + (1 + 2 + blen (fst kv) + 2 + blen (snd kv))) (user_properties self) len in
  len.

(** src/v5/pubcomp.rs:132-149: the `match property(prop)?` of the loop body.  Returns the
    updated variables and what is added to `cursor`. *)
Definition props_step (ty : PropertyType) (prop : N) (self : PubCompProperties)
  : reader (PubCompProperties * N) :=
  match ty with
  | ReasonString =>
      v <-r read_mqtt_string ;; rret (set_reason_string self v, 2 + blen v)
  | UserProperty =>
      key <-r read_mqtt_string ;;
      value <-r read_mqtt_string ;;
      rret (push_user_properties self (key, value), 2 + blen key + 2 + blen value)
  | _ => rerr (InvalidPropertyType prop)
  end.

(** src/v5/pubcomp.rs:119-155 `PubCompProperties::extract` *)
Definition extract : reader (option PubCompProperties) :=
  ll <-r peek_length ;;
  advance (fst ll) ;;r
  if snd ll =? 0 then rret None
  else
    p <-r props_loop props_step (snd ll) props_new ;;
    rret (Some p).

(** src/v5/pubcomp.rs:157-173 `PubCompProperties::write` *)
Definition props_write (self : PubCompProperties) : writer unit :=
  let len := props_len self in
  write_remaining_length len ;;w
  when_some (reason_string self) (fun v => put_u8 (property_u8 ReasonString) ;;w write_mqtt_string v) ;;w
  for_each (user_properties self) (fun kv =>
    put_u8 (property_u8 UserProperty) ;;w
    write_mqtt_string (fst kv) ;;w write_mqtt_string (snd kv)) ;;w
  wret tt.

(** src/v5/pubcomp.rs:14-18 `PubComp` *)
Record PubComp := mkPubComp {
  pkid : N;
  reason : PubCompReason;
  properties : option PubCompProperties
}.

(** src/v5/pubcomp.rs:21-27 `PubComp::new` *)
Definition new (pkid : N) : PubComp := mkPubComp pkid Success None.

(** src/v5/pubcomp.rs:29-44 `PubComp::len` *)
Definition len (self : PubComp) : N :=
  let len := 2 + 1 in
  if reason_eqb (reason self) Success && is_none (properties self) then 2
  else
    match properties self with
    | Some properties => add_props_len len (props_len properties)
    | None => len
    end.

(** src/v5/pubcomp.rs:46-75 `PubComp::read` *)
Definition read (fixed_header : FixedHeader) : reader PubComp :=
  advance (fixed_header_len fixed_header) ;;r
  pkid <-r read_u16 ;;
  if remaining_len fixed_header =? 2 then rret (mkPubComp pkid Success None)
  else
    ack_reason <-r read_u8 ;;
    if remaining_len fixed_header <? 4 then
      reason <-r rlift (reason_of ack_reason) ;;
      rret (mkPubComp pkid reason None)
    else
      reason <-r rlift (reason_of ack_reason) ;;
      properties <-r extract ;;
      rret (mkPubComp pkid reason properties).

(** src/v5/pubcomp.rs:77-95 `PubComp::write` *)
Definition write (self : PubComp) : writer N :=
  let len := len self in
  put_u8 0x70 ;;w
  count <-w write_remaining_length len ;;
  put_u16 (pkid self) ;;w
  if reason_eqb (reason self) Success && is_none (properties self) then wret 4
  else
    put_u8 (code_u8 (reason self)) ;;w
    when_some (properties self) props_write ;;w
    wret (1 + count + len).

(** V5Disconnect.v -- model of src/v5/disconnect.rs.  No proofs in this file. *)
From Verif Require Import Base Utf8 Lib V5Property.

(** src/v5/disconnect.rs:11-70 `DisconnectReasonCode` *)
Inductive DisconnectReasonCode :=
| NormalDisconnection
| DisconnectWithWillMessage
| UnspecifiedError
| MalformedPacket
| ProtocolError
| ImplementationSpecificError
| NotAuthorized
| ServerBusy
| ServerShuttingDown
| KeepAliveTimeout
| SessionTakenOver
| TopicFilterInvalid
| TopicNameInvalid
| ReceiveMaximumExceeded
| TopicAliasInvalid
| PacketTooLarge
| MessageRateTooHigh
| QuotaExceeded
| AdministrativeAction
| PayloadFormatInvalid
| RetainNotSupported
| QoSNotSupported
| UseAnotherServer
| ServerMoved
| SharedSubscriptionNotSupported
| ConnectionRateExceeded
| MaximumConnectTime
| SubscriptionIdentifiersNotSupported
| WildcardSubscriptionsNotSupported.

(** the discriminants of `DisconnectReasonCode` (src/v5/disconnect.rs:11-70), `as u8` *)
Definition code_u8 (c : DisconnectReasonCode) : N :=
  match c with
  | NormalDisconnection => 0x00
  | DisconnectWithWillMessage => 0x04
  | UnspecifiedError => 0x80
  | MalformedPacket => 0x81
  | ProtocolError => 0x82
  | ImplementationSpecificError => 0x83
  | NotAuthorized => 0x87
  | ServerBusy => 0x89
  | ServerShuttingDown => 0x8B
  | KeepAliveTimeout => 0x8D
  | SessionTakenOver => 0x8E
  | TopicFilterInvalid => 0x8F
  | TopicNameInvalid => 0x90
  | ReceiveMaximumExceeded => 0x93
  | TopicAliasInvalid => 0x94
  | PacketTooLarge => 0x95
  | MessageRateTooHigh => 0x96
  | QuotaExceeded => 0x97
  | AdministrativeAction => 0x98
  | PayloadFormatInvalid => 0x99
  | RetainNotSupported => 0x9A
  | QoSNotSupported => 0x9B
  | UseAnotherServer => 0x9C
  | ServerMoved => 0x9D
  | SharedSubscriptionNotSupported => 0x9E
  | ConnectionRateExceeded => 0x9F
  | MaximumConnectTime => 0xA0
  | SubscriptionIdentifiersNotSupported => 0xA1
  | WildcardSubscriptionsNotSupported => 0xA2
  end.

(** src/v5/disconnect.rs:72-111 `TryFrom<u8>` *)
Definition try_from (num : N) : outcome DisconnectReasonCode :=
  match num with
  | 0x00 => Ok NormalDisconnection
  | 0x04 => Ok DisconnectWithWillMessage
  | 0x80 => Ok UnspecifiedError
  | 0x81 => Ok MalformedPacket
  | 0x82 => Ok ProtocolError
  | 0x83 => Ok ImplementationSpecificError
  | 0x87 => Ok NotAuthorized
  | 0x89 => Ok ServerBusy
  | 0x8B => Ok ServerShuttingDown
  | 0x8D => Ok KeepAliveTimeout
  | 0x8E => Ok SessionTakenOver
  | 0x8F => Ok TopicFilterInvalid
  | 0x90 => Ok TopicNameInvalid
  | 0x93 => Ok ReceiveMaximumExceeded
  | 0x94 => Ok TopicAliasInvalid
  | 0x95 => Ok PacketTooLarge
  | 0x96 => Ok MessageRateTooHigh
  | 0x97 => Ok QuotaExceeded
  | 0x98 => Ok AdministrativeAction
  | 0x99 => Ok PayloadFormatInvalid
  | 0x9A => Ok RetainNotSupported
  | 0x9B => Ok QoSNotSupported
  | 0x9C => Ok UseAnotherServer
  | 0x9D => Ok ServerMoved
  | 0x9E => Ok SharedSubscriptionNotSupported
  | 0x9F => Ok ConnectionRateExceeded
  | 0xA0 => Ok MaximumConnectTime
  | 0xA1 => Ok SubscriptionIdentifiersNotSupported
  | 0xA2 => Ok WildcardSubscriptionsNotSupported
  | num => Err (InvalidConnectReturnCode num)
  end.

(** `==` on `DisconnectReasonCode` (derived PartialEq, src/v5/disconnect.rs:9-11). *)
Definition reason_eqb (a b : DisconnectReasonCode) : bool := code_u8 a =? code_u8 b.

(** src/v5/disconnect.rs:114-126 `DisconnectProperties` *)
Record DisconnectProperties := mkDisconnectProperties {
  session_expiry_interval : option N;
  reason_string : option bytes;
  user_properties : list (bytes * bytes);
  server_reference : option bytes
}.

(** src/v5/disconnect.rs:138-145 `DisconnectProperties::new`; also the state of the local variables before the loop
    (src/v5/disconnect.rs:169-223) *)
Definition props_new : DisconnectProperties := mkDisconnectProperties None None [] None.

(** src/v5/disconnect.rs:169-223: assignment to the local variable for `session_expiry_interval` *)
Definition set_session_expiry_interval (self : DisconnectProperties) (v : N) : DisconnectProperties :=
  mkDisconnectProperties (Some v) (reason_string self) (user_properties self) (server_reference self).
(** src/v5/disconnect.rs:169-223: assignment to the local variable for `reason_string` *)
Definition set_reason_string (self : DisconnectProperties) (v : bytes) : DisconnectProperties :=
  mkDisconnectProperties (session_expiry_interval self) (Some v) (user_properties self) (server_reference self).
(** src/v5/disconnect.rs:169-223: `push` onto the local vector for `user_properties` *)
Definition push_user_properties (self : DisconnectProperties) (v : bytes * bytes) : DisconnectProperties :=
  mkDisconnectProperties (session_expiry_interval self) (reason_string self) (user_properties self ++ [v]) (server_reference self).
(** src/v5/disconnect.rs:169-223: assignment to the local variable for `server_reference` *)
Definition set_server_reference (self : DisconnectProperties) (v : bytes) : DisconnectProperties :=
  mkDisconnectProperties (session_expiry_interval self) (reason_string self) (user_properties self) (Some v).

(** src/v5/disconnect.rs:147-167 `DisconnectProperties::len` *)
Definition props_len (self : DisconnectProperties) : N :=
  let len := 0 in
  let len := if is_some (session_expiry_interval self) then len + (1 + 4) else len in
  let len := match reason_string self with Some v => len + (1 + 2 + blen v) | None => len end in
  let len := fold_left (fun len kv => len + (1 + 2 + blen (fst kv) + 2 + blen (snd kv))) (user_properties self) len in
  let len := match server_reference self with Some v => len + (1 + 2 + blen v) | None => len end in
  len.

(** src/v5/disconnect.rs:186-213: the `match property(prop)?` of the loop body.  Returns the
    updated variables and what is added to `cursor`. *)
Definition props_step (ty : PropertyType) (prop : N) (self : DisconnectProperties)
  : reader (DisconnectProperties * N) :=
  match ty with
  | SessionExpiryInterval =>
      v <-r read_u32 ;; rret (set_session_expiry_interval self v, 4)
  | ReasonString =>
      v <-r read_mqtt_string ;; rret (set_reason_string self v, 2 + blen v)
  | UserProperty =>
      key <-r read_mqtt_string ;;
      value <-r read_mqtt_string ;;
      rret (push_user_properties self (key, value), 2 + blen key + 2 + blen value)
  | ServerReference =>
      v <-r read_mqtt_string ;; rret (set_server_reference self v, 2 + blen v)
  | _ => rerr (InvalidPropertyType prop)
  end.

(** src/v5/disconnect.rs:169-223 `DisconnectProperties::extract` *)
Definition extract : reader (option DisconnectProperties) :=
  ll <-r peek_length ;;
  advance (fst ll) ;;r
  if snd ll =? 0 then rret None
  else
    p <-r props_loop props_step (snd ll) props_new ;;
    rret (Some p).

(** src/v5/disconnect.rs:225-251 `DisconnectProperties::write` *)
Definition props_write (self : DisconnectProperties) : writer unit :=
  let len := props_len self in
  write_remaining_length len ;;w
  when_some (session_expiry_interval self) (fun v => put_u8 (property_u8 SessionExpiryInterval) ;;w put_u32 v) ;;w
  when_some (reason_string self) (fun v => put_u8 (property_u8 ReasonString) ;;w write_mqtt_string v) ;;w
  for_each (user_properties self) (fun kv =>
    put_u8 (property_u8 UserProperty) ;;w
    write_mqtt_string (fst kv) ;;w write_mqtt_string (snd kv)) ;;w
  when_some (server_reference self) (fun v => put_u8 (property_u8 ServerReference) ;;w write_mqtt_string v) ;;w
  wret tt.

(** src/v5/disconnect.rs:129-135 `Disconnect` *)
Record Disconnect := mkDisconnect {
  reason_code : DisconnectReasonCode;
  properties : option DisconnectProperties
}.

(** src/v5/disconnect.rs:255-260 `Disconnect::new` *)
Definition new : Disconnect := mkDisconnect NormalDisconnection None.

(** src/v5/disconnect.rs:262-286 `Disconnect::len` *)
Definition len (self : Disconnect) : N :=
  if reason_eqb (reason_code self) NormalDisconnection && is_none (properties self) then 2
  else
    let length := 0 in
    match properties self with
    | Some properties =>
        let length := length + 1 in
        add_props_len length (props_len properties)
    | None =>
        if reason_eqb (reason_code self) NormalDisconnection then length
        else length + 1
    end.

(** src/v5/disconnect.rs:288-314 `Disconnect::read` *)
Definition read (fixed_header : FixedHeader) : reader Disconnect :=
  let packet_type := N.shiftr (byte1 fixed_header) 4 in
  let flags := N.land (byte1 fixed_header) 15 in
  advance (fixed_header_len fixed_header) ;;r
  if negb (packet_type =? packet_type_u8 PT_Disconnect) then rerr (InvalidPacketType packet_type)
  else if negb (flags =? 0x00) then rerr Base.MalformedPacket
  else if remaining_len fixed_header =? 0 then rret new
  else
    reason_code <-r read_u8 ;;
    reason_code <-r rlift (try_from reason_code) ;;
    properties <-r extract ;;
    rret (mkDisconnect reason_code properties).

(** src/v5/disconnect.rs:316-336 `Disconnect::write` *)
Definition write (self : Disconnect) : writer N :=
  put_u8 0xE0 ;;w
  let length := len self in
  if length =? 2 then put_u8 0x00 ;;w wret length
  else
    len_len <-w write_remaining_length length ;;
    put_u8 (code_u8 (reason_code self)) ;;w
    when_some (properties self) props_write ;;w
    wret (1 + len_len + length).

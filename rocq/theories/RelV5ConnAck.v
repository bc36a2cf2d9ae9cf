(** RelV5ConnAck.v -- generated by tools/gen_release.py from V5ConnAck.v: its definitions that use
    machine integers, without overflow checks (Release.v).  No proofs in this file. *)
From Verif Require Import Base Utf8 Lib V5Property V5ConnAck Release RelLib RelV5Property.

Section WithBuild.
Context {build : Build}.

(** src/v5/connack.rs:142-214 `ConnAckProperties::len` *)
Definition props_len (self : ConnAckProperties) : N :=
  let len := 0 in
  let len := if is_some (session_expiry_interval self) then len + (1 + 4) else len in
  let len := if is_some (receive_max self) then len + (1 + 2) else len in
  let len := if is_some (max_qos self) then len + (1 + 1) else len in
  let len := if is_some (retain_available self) then len + (1 + 1) else len in
  let len := if is_some (max_packet_size self) then len + (1 + 4) else len in
  let len := match assigned_client_identifier self with Some v => len + (1 + 2 + blen v) | None => len end in
  let len := if is_some (topic_alias_max self) then len + (1 + 2) else len in
  let len := match reason_string self with Some v => len + (1 + 2 + blen v) | None => len end in
  let len := fold_left (fun len kv => len + (1 + 2 + blen (fst kv) + 2 + blen (snd kv))) (user_properties self) len in
  let len := if is_some (wildcard_subscription_available self) then len + (1 + 1) else len in
  let len := if is_some (subscription_identifiers_available self) then len + (1 + 1) else len in
  let len := if is_some (shared_subscription_available self) then len + (1 + 1) else len in
  let len := if is_some (server_keep_alive self) then len + (1 + 2) else len in
  let len := match response_information self with Some v => len + (1 + 2 + blen v) | None => len end in
  let len := match server_reference self with Some v => len + (1 + 2 + blen v) | None => len end in
  let len := match authentication_method self with Some v => len + (1 + 2 + blen v) | None => len end in
  let len := match authentication_data self with Some v => len + (1 + 2 + blen v) | None => len end in
  len.

(** src/v5/connack.rs:243-326: the `match property(prop)?` of the loop body.  Returns the
    updated variables and what is added to `cursor`. *)
Definition props_step (ty : PropertyType) (prop : N) (self : ConnAckProperties)
  : reader (ConnAckProperties * N) :=
  match ty with
  | SessionExpiryInterval =>
      v <-r read_u32 ;; rret (set_session_expiry_interval self v, 4)
  | ReceiveMaximum =>
      v <-r read_u16 ;; rret (set_receive_max self v, 2)
  | MaximumQos =>
      v <-r read_u8 ;; rret (set_max_qos self v, 1)
  | RetainAvailable =>
      v <-r read_u8 ;; rret (set_retain_available self v, 1)
  | AssignedClientIdentifier =>
      v <-r read_mqtt_string ;; rret (set_assigned_client_identifier self v, 2 + blen v)
  | MaximumPacketSize =>
      v <-r read_u32 ;; rret (set_max_packet_size self v, 4)
  | TopicAliasMaximum =>
      v <-r read_u16 ;; rret (set_topic_alias_max self v, 2)
  | ReasonString =>
      v <-r read_mqtt_string ;; rret (set_reason_string self v, 2 + blen v)
  | UserProperty =>
      key <-r read_mqtt_string ;;
      value <-r read_mqtt_string ;;
      rret (push_user_properties self (key, value), 2 + blen key + 2 + blen value)
  | WildcardSubscriptionAvailable =>
      v <-r read_u8 ;; rret (set_wildcard_subscription_available self v, 1)
  | SubscriptionIdentifierAvailable =>
      v <-r read_u8 ;; rret (set_subscription_identifiers_available self v, 1)
  | SharedSubscriptionAvailable =>
      v <-r read_u8 ;; rret (set_shared_subscription_available self v, 1)
  | ServerKeepAlive =>
      v <-r read_u16 ;; rret (set_server_keep_alive self v, 2)
  | ResponseInformation =>
      v <-r read_mqtt_string ;; rret (set_response_information self v, 2 + blen v)
  | ServerReference =>
      v <-r read_mqtt_string ;; rret (set_server_reference self v, 2 + blen v)
  | AuthenticationMethod =>
      v <-r read_mqtt_string ;; rret (set_authentication_method self v, 2 + blen v)
  | AuthenticationData =>
      v <-r read_mqtt_bytes ;; rret (set_authentication_data self v, 2 + blen v)
  | _ => rerr (InvalidPropertyType prop)
  end.

(** src/v5/connack.rs:216-347 `ConnAckProperties::extract` *)
Definition extract : reader (option ConnAckProperties) :=
  ll <-r peek_length ;;
  advance (fst ll) ;;r
  if snd ll =? 0 then rret None
  else
    p <-r props_loop props_step (snd ll) props_new ;;
    rret (Some p).

(** src/v5/connack.rs:349-440 `ConnAckProperties::write` *)
Definition props_write (self : ConnAckProperties) : writer unit :=
  let len := props_len self in
  write_remaining_length len ;;w
  when_some (session_expiry_interval self) (fun v => put_u8 (property_u8 SessionExpiryInterval) ;;w put_u32 v) ;;w
  when_some (receive_max self) (fun v => put_u8 (property_u8 ReceiveMaximum) ;;w put_u16 v) ;;w
  when_some (max_qos self) (fun v => put_u8 (property_u8 MaximumQos) ;;w put_u8 v) ;;w
  when_some (retain_available self) (fun v => put_u8 (property_u8 RetainAvailable) ;;w put_u8 v) ;;w
  when_some (max_packet_size self) (fun v => put_u8 (property_u8 MaximumPacketSize) ;;w put_u32 v) ;;w
  when_some (assigned_client_identifier self) (fun v => put_u8 (property_u8 AssignedClientIdentifier) ;;w write_mqtt_string v) ;;w
  when_some (topic_alias_max self) (fun v => put_u8 (property_u8 TopicAliasMaximum) ;;w put_u16 v) ;;w
  when_some (reason_string self) (fun v => put_u8 (property_u8 ReasonString) ;;w write_mqtt_string v) ;;w
  for_each (user_properties self) (fun kv =>
    put_u8 (property_u8 UserProperty) ;;w
    write_mqtt_string (fst kv) ;;w write_mqtt_string (snd kv)) ;;w
  when_some (wildcard_subscription_available self) (fun v => put_u8 (property_u8 WildcardSubscriptionAvailable) ;;w put_u8 v) ;;w
  when_some (subscription_identifiers_available self) (fun v => put_u8 (property_u8 SubscriptionIdentifierAvailable) ;;w put_u8 v) ;;w
  when_some (shared_subscription_available self) (fun v => put_u8 (property_u8 SharedSubscriptionAvailable) ;;w put_u8 v) ;;w
  when_some (server_keep_alive self) (fun v => put_u8 (property_u8 ServerKeepAlive) ;;w put_u16 v) ;;w
  when_some (response_information self) (fun v => put_u8 (property_u8 ResponseInformation) ;;w write_mqtt_string v) ;;w
  when_some (server_reference self) (fun v => put_u8 (property_u8 ServerReference) ;;w write_mqtt_string v) ;;w
  when_some (authentication_method self) (fun v => put_u8 (property_u8 AuthenticationMethod) ;;w write_mqtt_string v) ;;w
  when_some (authentication_data self) (fun v => put_u8 (property_u8 AuthenticationData) ;;w write_mqtt_bytes v) ;;w
  wret tt.

(** src/v5/connack.rs:51-62 `ConnAck::len` *)
Definition len (self : ConnAck) : N :=
  let len := 1 + 1 in
  match properties self with
  | Some properties => add_props_len len (props_len properties)
  | None => len
  end.

(** src/v5/connack.rs:64-80 `ConnAck::read` *)
Definition read (fixed_header : FixedHeader) : reader ConnAck :=
  advance (fixed_header_len fixed_header) ;;r
  flags <-r read_u8 ;;
  return_code <-r read_u8 ;;
  let session_present := N.land flags 1 =? 1 in
  code <-r rlift (connect_return return_code) ;;
  properties <-r extract ;;
  rret (mkConnAck session_present code properties).

(** src/v5/connack.rs:82-95 `ConnAck::write` *)
Definition write (self : ConnAck) : writer N :=
  let len := len self in
  put_u8 0x20 ;;w
  count <-w write_remaining_length len ;;
  put_u8 (bool_u8 (session_present self)) ;;w
  put_u8 (code_u8 (code self)) ;;w
  when_some (properties self) props_write ;;w
  wret (1 + count + len).

End WithBuild.

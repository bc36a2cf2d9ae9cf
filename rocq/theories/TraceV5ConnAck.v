(** TraceV5ConnAck.v -- GENERATED by tools/rust2coq.py from src/v5/connack.rs; do not edit.
    Not translated:
     src/v5/connack.rs:474 conditional item #[cfg(test)]
    No proofs in this file. *)
From Verif Require Import Base Lib SrcBase TraceBase.
From Verif Require V5ConnAck V5Property.
From Verif Require TraceLib TraceV5Property.

(** src/v5/connack.rs:7 `ConnectReturnCode as u8` (the discriminants of the declaration; also decides the derived `==`) *)
Definition ConnectReturnCode_as_u8 (x : V5ConnAck.ConnectReturnCode) : N :=
  match x with
  | V5ConnAck.Success => 0
  | V5ConnAck.UnspecifiedError => 128
  | V5ConnAck.MalformedPacket => 129
  | V5ConnAck.ProtocolError => 130
  | V5ConnAck.ImplementationSpecificError => 131
  | V5ConnAck.UnsupportedProtocolVersion => 132
  | V5ConnAck.ClientIdentifierNotValid => 133
  | V5ConnAck.BadUserNamePassword => 134
  | V5ConnAck.NotAuthorized => 135
  | V5ConnAck.ServerUnavailable => 136
  | V5ConnAck.ServerBusy => 137
  | V5ConnAck.Banned => 138
  | V5ConnAck.BadAuthenticationMethod => 140
  | V5ConnAck.TopicNameInvalid => 144
  | V5ConnAck.PacketTooLarge => 149
  | V5ConnAck.QuotaExceeded => 151
  | V5ConnAck.PayloadFormatInvalid => 153
  | V5ConnAck.RetainNotSupported => 154
  | V5ConnAck.QoSNotSupported => 155
  | V5ConnAck.UseAnotherServer => 156
  | V5ConnAck.ServerMoved => 157
  | V5ConnAck.ConnectionRateExceeded => 159
  end.

(** src/v5/connack.rs:43-49 `ConnAck::new` *)
Definition ConnAck_new (code : V5ConnAck.ConnectReturnCode) (session_present : bool) : outcome V5ConnAck.ConnAck :=
  run (
    wret (V5ConnAck.mkConnAck session_present code None)) [].

(** src/v5/connack.rs:142-214 `ConnAckProperties::len` *)
Definition ConnAckProperties_len (self : V5ConnAck.ConnAckProperties) : outcome N :=
  run (
    let len := 0 in
    len <-w (
      match (V5ConnAck.session_expiry_interval self) with
      | Some _ =>
          t1 <-w lift (usize_add 1 4) ;;
          len <-w lift (usize_add len t1) ;;
          wret len
      | _ =>
          wret len
      end) ;;
    len <-w (
      match (V5ConnAck.receive_max self) with
      | Some _ =>
          t2 <-w lift (usize_add 1 2) ;;
          len <-w lift (usize_add len t2) ;;
          wret len
      | _ =>
          wret len
      end) ;;
    len <-w (
      match (V5ConnAck.max_qos self) with
      | Some _ =>
          t3 <-w lift (usize_add 1 1) ;;
          len <-w lift (usize_add len t3) ;;
          wret len
      | _ =>
          wret len
      end) ;;
    len <-w (
      match (V5ConnAck.retain_available self) with
      | Some _ =>
          t4 <-w lift (usize_add 1 1) ;;
          len <-w lift (usize_add len t4) ;;
          wret len
      | _ =>
          wret len
      end) ;;
    len <-w (
      match (V5ConnAck.max_packet_size self) with
      | Some _ =>
          t5 <-w lift (usize_add 1 4) ;;
          len <-w lift (usize_add len t5) ;;
          wret len
      | _ =>
          wret len
      end) ;;
    len <-w (
      match (V5ConnAck.assigned_client_identifier self) with
      | Some id =>
          t6 <-w lift (usize_add 1 2) ;;
          t7 <-w lift (usize_add t6 (blen id)) ;;
          len <-w lift (usize_add len t7) ;;
          wret len
      | _ =>
          wret len
      end) ;;
    len <-w (
      match (V5ConnAck.topic_alias_max self) with
      | Some _ =>
          t8 <-w lift (usize_add 1 2) ;;
          len <-w lift (usize_add len t8) ;;
          wret len
      | _ =>
          wret len
      end) ;;
    len <-w (
      match (V5ConnAck.reason_string self) with
      | Some reason =>
          t9 <-w lift (usize_add 1 2) ;;
          t10 <-w lift (usize_add t9 (blen reason)) ;;
          len <-w lift (usize_add len t10) ;;
          wret len
      | _ =>
          wret len
      end) ;;
    len <-w for_ (fun '(key, value) len =>
        t11 <-w lift (usize_add 1 2) ;;
        t12 <-w lift (usize_add t11 (blen key)) ;;
        t13 <-w lift (usize_add t12 2) ;;
        t14 <-w lift (usize_add t13 (blen value)) ;;
        len <-w lift (usize_add len t14) ;;
        wret len)
      (V5ConnAck.user_properties self) len ;;
    len <-w (
      match (V5ConnAck.wildcard_subscription_available self) with
      | Some _ =>
          t15 <-w lift (usize_add 1 1) ;;
          len <-w lift (usize_add len t15) ;;
          wret len
      | _ =>
          wret len
      end) ;;
    len <-w (
      match (V5ConnAck.subscription_identifiers_available self) with
      | Some _ =>
          t16 <-w lift (usize_add 1 1) ;;
          len <-w lift (usize_add len t16) ;;
          wret len
      | _ =>
          wret len
      end) ;;
    len <-w (
      match (V5ConnAck.shared_subscription_available self) with
      | Some _ =>
          t17 <-w lift (usize_add 1 1) ;;
          len <-w lift (usize_add len t17) ;;
          wret len
      | _ =>
          wret len
      end) ;;
    len <-w (
      match (V5ConnAck.server_keep_alive self) with
      | Some _ =>
          t18 <-w lift (usize_add 1 2) ;;
          len <-w lift (usize_add len t18) ;;
          wret len
      | _ =>
          wret len
      end) ;;
    len <-w (
      match (V5ConnAck.response_information self) with
      | Some info =>
          t19 <-w lift (usize_add 1 2) ;;
          t20 <-w lift (usize_add t19 (blen info)) ;;
          len <-w lift (usize_add len t20) ;;
          wret len
      | _ =>
          wret len
      end) ;;
    len <-w (
      match (V5ConnAck.server_reference self) with
      | Some reference =>
          t21 <-w lift (usize_add 1 2) ;;
          t22 <-w lift (usize_add t21 (blen reference)) ;;
          len <-w lift (usize_add len t22) ;;
          wret len
      | _ =>
          wret len
      end) ;;
    len <-w (
      match (V5ConnAck.authentication_method self) with
      | Some authentication_method =>
          t23 <-w lift (usize_add 1 2) ;;
          t24 <-w lift (usize_add t23 (blen authentication_method)) ;;
          len <-w lift (usize_add len t24) ;;
          wret len
      | _ =>
          wret len
      end) ;;
    len <-w (
      match (V5ConnAck.authentication_data self) with
      | Some authentication_data =>
          t25 <-w lift (usize_add 1 2) ;;
          t26 <-w lift (usize_add t25 (blen authentication_data)) ;;
          len <-w lift (usize_add len t26) ;;
          wret len
      | _ =>
          wret len
      end) ;;
    wret len) [].

(** src/v5/connack.rs:51-62 `ConnAck::len` *)
Definition ConnAck_len (self : V5ConnAck.ConnAck) : outcome N :=
  run (
    len <-w lift (usize_add 1 1) ;;
    len <-w (
      match (V5ConnAck.properties self) with
      | Some properties =>
          properties_len <-w lift (ConnAckProperties_len properties) ;;
          properties_len_len <-w lift (TraceLib.len_len properties_len) ;;
          t1 <-w lift (usize_add properties_len_len properties_len) ;;
          len <-w lift (usize_add len t1) ;;
          wret len
      | _ =>
          wret len
      end) ;;
    wret len) [].

(** src/v5/connack.rs:444-472 `connect_return` *)
Definition connect_return (num : N) : outcome V5ConnAck.ConnectReturnCode :=
  run (
    code <-w (
      match num with
      | 0 =>
          wret V5ConnAck.Success
      | 128 =>
          wret V5ConnAck.UnspecifiedError
      | 129 =>
          wret V5ConnAck.MalformedPacket
      | 130 =>
          wret V5ConnAck.ProtocolError
      | 131 =>
          wret V5ConnAck.ImplementationSpecificError
      | 132 =>
          wret V5ConnAck.UnsupportedProtocolVersion
      | 133 =>
          wret V5ConnAck.ClientIdentifierNotValid
      | 134 =>
          wret V5ConnAck.BadUserNamePassword
      | 135 =>
          wret V5ConnAck.NotAuthorized
      | 136 =>
          wret V5ConnAck.ServerUnavailable
      | 137 =>
          wret V5ConnAck.ServerBusy
      | 138 =>
          wret V5ConnAck.Banned
      | 140 =>
          wret V5ConnAck.BadAuthenticationMethod
      | 144 =>
          wret V5ConnAck.TopicNameInvalid
      | 149 =>
          wret V5ConnAck.PacketTooLarge
      | 151 =>
          wret V5ConnAck.QuotaExceeded
      | 153 =>
          wret V5ConnAck.PayloadFormatInvalid
      | 154 =>
          wret V5ConnAck.RetainNotSupported
      | 155 =>
          wret V5ConnAck.QoSNotSupported
      | 156 =>
          wret V5ConnAck.UseAnotherServer
      | 157 =>
          wret V5ConnAck.ServerMoved
      | 159 =>
          wret V5ConnAck.ConnectionRateExceeded
      | num =>
          werr (Base.InvalidConnectReturnCode num)
      end) ;;
    wret code) [].

(** src/v5/connack.rs:216-347 `ConnAckProperties::extract` *)
Definition ConnAckProperties_extract (fuel : nat) : writer (option V5ConnAck.ConnAckProperties) :=
  let session_expiry_interval : option N := None in
  let receive_max : option N := None in
  let max_qos : option N := None in
  let retain_available : option N := None in
  let max_packet_size : option N := None in
  let assigned_client_identifier : option (list N) := None in
  let topic_alias_max : option N := None in
  let reason_string : option (list N) := None in
  let user_properties : list ((list N) * (list N)) := [] in
  let wildcard_subscription_available : option N := None in
  let subscription_identifiers_available : option N := None in
  let shared_subscription_available : option N := None in
  let server_keep_alive : option N := None in
  let response_information : option (list N) := None in
  let server_reference : option (list N) := None in
  let authentication_method : option (list N) := None in
  let authentication_data : option (list N) := None in
  t1 <-w get ;;
  t2 <-w lift (TraceLib.length t1) ;;
  let '(properties_len_len, properties_len) := t2 in
  keep (advance properties_len_len) ;;w
  if (properties_len =? 0) then (
    wret None)
  else (
    let cursor := 0 in
    '(cursor, session_expiry_interval, receive_max, max_qos, retain_available, assigned_client_identifier, max_packet_size, topic_alias_max, reason_string, user_properties, wildcard_subscription_available, subscription_identifiers_available, shared_subscription_available, server_keep_alive, response_information, server_reference, authentication_method, authentication_data) <-w while_ fuel
      (fun '(cursor, session_expiry_interval, receive_max, max_qos, retain_available, assigned_client_identifier, max_packet_size, topic_alias_max, reason_string, user_properties, wildcard_subscription_available, subscription_identifiers_available, shared_subscription_available, server_keep_alive, response_information, server_reference, authentication_method, authentication_data) =>
        wret (cursor <? properties_len))
      (fun '(cursor, session_expiry_interval, receive_max, max_qos, retain_available, assigned_client_identifier, max_packet_size, topic_alias_max, reason_string, user_properties, wildcard_subscription_available, subscription_identifiers_available, shared_subscription_available, server_keep_alive, response_information, server_reference, authentication_method, authentication_data) =>
        prop <-w TraceLib.read_u8 ;;
        cursor <-w lift (usize_add cursor 1) ;;
        t3 <-w lift (TraceV5Property.property prop) ;;
        '(session_expiry_interval, cursor, receive_max, max_qos, retain_available, assigned_client_identifier, max_packet_size, topic_alias_max, reason_string, user_properties, wildcard_subscription_available, subscription_identifiers_available, shared_subscription_available, server_keep_alive, response_information, server_reference, authentication_method, authentication_data) <-w (
          match t3 with
          | V5Property.SessionExpiryInterval =>
              t4 <-w TraceLib.read_u32 ;;
              let session_expiry_interval := (Some t4) in
              cursor <-w lift (usize_add cursor 4) ;;
              wret (session_expiry_interval, cursor, receive_max, max_qos, retain_available, assigned_client_identifier, max_packet_size, topic_alias_max, reason_string, user_properties, wildcard_subscription_available, subscription_identifiers_available, shared_subscription_available, server_keep_alive, response_information, server_reference, authentication_method, authentication_data)
          | V5Property.ReceiveMaximum =>
              t5 <-w TraceLib.read_u16 ;;
              let receive_max := (Some t5) in
              cursor <-w lift (usize_add cursor 2) ;;
              wret (session_expiry_interval, cursor, receive_max, max_qos, retain_available, assigned_client_identifier, max_packet_size, topic_alias_max, reason_string, user_properties, wildcard_subscription_available, subscription_identifiers_available, shared_subscription_available, server_keep_alive, response_information, server_reference, authentication_method, authentication_data)
          | V5Property.MaximumQos =>
              t6 <-w TraceLib.read_u8 ;;
              let max_qos := (Some t6) in
              cursor <-w lift (usize_add cursor 1) ;;
              wret (session_expiry_interval, cursor, receive_max, max_qos, retain_available, assigned_client_identifier, max_packet_size, topic_alias_max, reason_string, user_properties, wildcard_subscription_available, subscription_identifiers_available, shared_subscription_available, server_keep_alive, response_information, server_reference, authentication_method, authentication_data)
          | V5Property.RetainAvailable =>
              t7 <-w TraceLib.read_u8 ;;
              let retain_available := (Some t7) in
              cursor <-w lift (usize_add cursor 1) ;;
              wret (session_expiry_interval, cursor, receive_max, max_qos, retain_available, assigned_client_identifier, max_packet_size, topic_alias_max, reason_string, user_properties, wildcard_subscription_available, subscription_identifiers_available, shared_subscription_available, server_keep_alive, response_information, server_reference, authentication_method, authentication_data)
          | V5Property.AssignedClientIdentifier =>
              id <-w TraceLib.read_mqtt_string ;;
              t8 <-w lift (usize_add 2 (blen id)) ;;
              cursor <-w lift (usize_add cursor t8) ;;
              let assigned_client_identifier := (Some id) in
              wret (session_expiry_interval, cursor, receive_max, max_qos, retain_available, assigned_client_identifier, max_packet_size, topic_alias_max, reason_string, user_properties, wildcard_subscription_available, subscription_identifiers_available, shared_subscription_available, server_keep_alive, response_information, server_reference, authentication_method, authentication_data)
          | V5Property.MaximumPacketSize =>
              t9 <-w TraceLib.read_u32 ;;
              let max_packet_size := (Some t9) in
              cursor <-w lift (usize_add cursor 4) ;;
              wret (session_expiry_interval, cursor, receive_max, max_qos, retain_available, assigned_client_identifier, max_packet_size, topic_alias_max, reason_string, user_properties, wildcard_subscription_available, subscription_identifiers_available, shared_subscription_available, server_keep_alive, response_information, server_reference, authentication_method, authentication_data)
          | V5Property.TopicAliasMaximum =>
              t10 <-w TraceLib.read_u16 ;;
              let topic_alias_max := (Some t10) in
              cursor <-w lift (usize_add cursor 2) ;;
              wret (session_expiry_interval, cursor, receive_max, max_qos, retain_available, assigned_client_identifier, max_packet_size, topic_alias_max, reason_string, user_properties, wildcard_subscription_available, subscription_identifiers_available, shared_subscription_available, server_keep_alive, response_information, server_reference, authentication_method, authentication_data)
          | V5Property.ReasonString =>
              reason <-w TraceLib.read_mqtt_string ;;
              t11 <-w lift (usize_add 2 (blen reason)) ;;
              cursor <-w lift (usize_add cursor t11) ;;
              let reason_string := (Some reason) in
              wret (session_expiry_interval, cursor, receive_max, max_qos, retain_available, assigned_client_identifier, max_packet_size, topic_alias_max, reason_string, user_properties, wildcard_subscription_available, subscription_identifiers_available, shared_subscription_available, server_keep_alive, response_information, server_reference, authentication_method, authentication_data)
          | V5Property.UserProperty =>
              key <-w TraceLib.read_mqtt_string ;;
              value <-w TraceLib.read_mqtt_string ;;
              t12 <-w lift (usize_add 2 (blen key)) ;;
              t13 <-w lift (usize_add t12 2) ;;
              t14 <-w lift (usize_add t13 (blen value)) ;;
              cursor <-w lift (usize_add cursor t14) ;;
              let user_properties := (user_properties ++ [(key, value)]) in
              wret (session_expiry_interval, cursor, receive_max, max_qos, retain_available, assigned_client_identifier, max_packet_size, topic_alias_max, reason_string, user_properties, wildcard_subscription_available, subscription_identifiers_available, shared_subscription_available, server_keep_alive, response_information, server_reference, authentication_method, authentication_data)
          | V5Property.WildcardSubscriptionAvailable =>
              t15 <-w TraceLib.read_u8 ;;
              let wildcard_subscription_available := (Some t15) in
              cursor <-w lift (usize_add cursor 1) ;;
              wret (session_expiry_interval, cursor, receive_max, max_qos, retain_available, assigned_client_identifier, max_packet_size, topic_alias_max, reason_string, user_properties, wildcard_subscription_available, subscription_identifiers_available, shared_subscription_available, server_keep_alive, response_information, server_reference, authentication_method, authentication_data)
          | V5Property.SubscriptionIdentifierAvailable =>
              t16 <-w TraceLib.read_u8 ;;
              let subscription_identifiers_available := (Some t16) in
              cursor <-w lift (usize_add cursor 1) ;;
              wret (session_expiry_interval, cursor, receive_max, max_qos, retain_available, assigned_client_identifier, max_packet_size, topic_alias_max, reason_string, user_properties, wildcard_subscription_available, subscription_identifiers_available, shared_subscription_available, server_keep_alive, response_information, server_reference, authentication_method, authentication_data)
          | V5Property.SharedSubscriptionAvailable =>
              t17 <-w TraceLib.read_u8 ;;
              let shared_subscription_available := (Some t17) in
              cursor <-w lift (usize_add cursor 1) ;;
              wret (session_expiry_interval, cursor, receive_max, max_qos, retain_available, assigned_client_identifier, max_packet_size, topic_alias_max, reason_string, user_properties, wildcard_subscription_available, subscription_identifiers_available, shared_subscription_available, server_keep_alive, response_information, server_reference, authentication_method, authentication_data)
          | V5Property.ServerKeepAlive =>
              t18 <-w TraceLib.read_u16 ;;
              let server_keep_alive := (Some t18) in
              cursor <-w lift (usize_add cursor 2) ;;
              wret (session_expiry_interval, cursor, receive_max, max_qos, retain_available, assigned_client_identifier, max_packet_size, topic_alias_max, reason_string, user_properties, wildcard_subscription_available, subscription_identifiers_available, shared_subscription_available, server_keep_alive, response_information, server_reference, authentication_method, authentication_data)
          | V5Property.ResponseInformation =>
              info <-w TraceLib.read_mqtt_string ;;
              t19 <-w lift (usize_add 2 (blen info)) ;;
              cursor <-w lift (usize_add cursor t19) ;;
              let response_information := (Some info) in
              wret (session_expiry_interval, cursor, receive_max, max_qos, retain_available, assigned_client_identifier, max_packet_size, topic_alias_max, reason_string, user_properties, wildcard_subscription_available, subscription_identifiers_available, shared_subscription_available, server_keep_alive, response_information, server_reference, authentication_method, authentication_data)
          | V5Property.ServerReference =>
              reference <-w TraceLib.read_mqtt_string ;;
              t20 <-w lift (usize_add 2 (blen reference)) ;;
              cursor <-w lift (usize_add cursor t20) ;;
              let server_reference := (Some reference) in
              wret (session_expiry_interval, cursor, receive_max, max_qos, retain_available, assigned_client_identifier, max_packet_size, topic_alias_max, reason_string, user_properties, wildcard_subscription_available, subscription_identifiers_available, shared_subscription_available, server_keep_alive, response_information, server_reference, authentication_method, authentication_data)
          | V5Property.AuthenticationMethod =>
              method <-w TraceLib.read_mqtt_string ;;
              t21 <-w lift (usize_add 2 (blen method)) ;;
              cursor <-w lift (usize_add cursor t21) ;;
              let authentication_method := (Some method) in
              wret (session_expiry_interval, cursor, receive_max, max_qos, retain_available, assigned_client_identifier, max_packet_size, topic_alias_max, reason_string, user_properties, wildcard_subscription_available, subscription_identifiers_available, shared_subscription_available, server_keep_alive, response_information, server_reference, authentication_method, authentication_data)
          | V5Property.AuthenticationData =>
              data <-w TraceLib.read_mqtt_bytes ;;
              t22 <-w lift (usize_add 2 (blen data)) ;;
              cursor <-w lift (usize_add cursor t22) ;;
              let authentication_data := (Some data) in
              wret (session_expiry_interval, cursor, receive_max, max_qos, retain_available, assigned_client_identifier, max_packet_size, topic_alias_max, reason_string, user_properties, wildcard_subscription_available, subscription_identifiers_available, shared_subscription_available, server_keep_alive, response_information, server_reference, authentication_method, authentication_data)
          | _ =>
              werr (Base.InvalidPropertyType prop)
          end) ;;
        wret (cursor, session_expiry_interval, receive_max, max_qos, retain_available, assigned_client_identifier, max_packet_size, topic_alias_max, reason_string, user_properties, wildcard_subscription_available, subscription_identifiers_available, shared_subscription_available, server_keep_alive, response_information, server_reference, authentication_method, authentication_data))
      (cursor, session_expiry_interval, receive_max, max_qos, retain_available, assigned_client_identifier, max_packet_size, topic_alias_max, reason_string, user_properties, wildcard_subscription_available, subscription_identifiers_available, shared_subscription_available, server_keep_alive, response_information, server_reference, authentication_method, authentication_data) ;;
    wret (Some (V5ConnAck.mkConnAckProperties session_expiry_interval receive_max max_qos retain_available max_packet_size assigned_client_identifier topic_alias_max reason_string user_properties wildcard_subscription_available subscription_identifiers_available shared_subscription_available server_keep_alive response_information server_reference authentication_method authentication_data))).

(** src/v5/connack.rs:64-80 `ConnAck::read` *)
Definition ConnAck_read (fuel : nat) (fixed_header : Lib.FixedHeader) (bytes : list N) : outcome V5ConnAck.ConnAck :=
  run (
    let variable_header_index := (Lib.fixed_header_len fixed_header) in
    keep (advance variable_header_index) ;;w
    flags <-w TraceLib.read_u8 ;;
    return_code <-w TraceLib.read_u8 ;;
    let session_present := ((N.land flags 1) =? 1) in
    code <-w lift (connect_return return_code) ;;
    t1 <-w ConnAckProperties_extract fuel ;;
    let connack := (V5ConnAck.mkConnAck session_present code t1) in
    wret connack) bytes.

(** src/v5/connack.rs:349-440 `ConnAckProperties::write` *)
Definition ConnAckProperties_write (fuel : nat) (self : V5ConnAck.ConnAckProperties) : writer unit :=
  len <-w lift (ConnAckProperties_len self) ;;
  t1 <-w TraceLib.write_remaining_length fuel len ;;
  (
    match (V5ConnAck.session_expiry_interval self) with
    | Some session_expiry_interval =>
        put_u8 (TraceV5Property.PropertyType_as_u8 V5Property.SessionExpiryInterval) ;;w
        put_u32 session_expiry_interval ;;w
        wret tt
    | _ =>
        wret tt
    end) ;;w
  (
    match (V5ConnAck.receive_max self) with
    | Some receive_maximum =>
        put_u8 (TraceV5Property.PropertyType_as_u8 V5Property.ReceiveMaximum) ;;w
        put_u16 receive_maximum ;;w
        wret tt
    | _ =>
        wret tt
    end) ;;w
  (
    match (V5ConnAck.max_qos self) with
    | Some qos =>
        put_u8 (TraceV5Property.PropertyType_as_u8 V5Property.MaximumQos) ;;w
        put_u8 qos ;;w
        wret tt
    | _ =>
        wret tt
    end) ;;w
  (
    match (V5ConnAck.retain_available self) with
    | Some retain_available =>
        put_u8 (TraceV5Property.PropertyType_as_u8 V5Property.RetainAvailable) ;;w
        put_u8 retain_available ;;w
        wret tt
    | _ =>
        wret tt
    end) ;;w
  (
    match (V5ConnAck.max_packet_size self) with
    | Some max_packet_size =>
        put_u8 (TraceV5Property.PropertyType_as_u8 V5Property.MaximumPacketSize) ;;w
        put_u32 max_packet_size ;;w
        wret tt
    | _ =>
        wret tt
    end) ;;w
  (
    match (V5ConnAck.assigned_client_identifier self) with
    | Some id =>
        put_u8 (TraceV5Property.PropertyType_as_u8 V5Property.AssignedClientIdentifier) ;;w
        TraceLib.write_mqtt_string id ;;w
        wret tt
    | _ =>
        wret tt
    end) ;;w
  (
    match (V5ConnAck.topic_alias_max self) with
    | Some topic_alias_max =>
        put_u8 (TraceV5Property.PropertyType_as_u8 V5Property.TopicAliasMaximum) ;;w
        put_u16 topic_alias_max ;;w
        wret tt
    | _ =>
        wret tt
    end) ;;w
  (
    match (V5ConnAck.reason_string self) with
    | Some reason =>
        put_u8 (TraceV5Property.PropertyType_as_u8 V5Property.ReasonString) ;;w
        TraceLib.write_mqtt_string reason ;;w
        wret tt
    | _ =>
        wret tt
    end) ;;w
  for_ (fun '(key, value) (_ : unit) =>
      put_u8 (TraceV5Property.PropertyType_as_u8 V5Property.UserProperty) ;;w
      TraceLib.write_mqtt_string key ;;w
      TraceLib.write_mqtt_string value ;;w
      wret tt)
    (V5ConnAck.user_properties self) tt ;;w
  (
    match (V5ConnAck.wildcard_subscription_available self) with
    | Some w =>
        put_u8 (TraceV5Property.PropertyType_as_u8 V5Property.WildcardSubscriptionAvailable) ;;w
        put_u8 w ;;w
        wret tt
    | _ =>
        wret tt
    end) ;;w
  (
    match (V5ConnAck.subscription_identifiers_available self) with
    | Some s =>
        put_u8 (TraceV5Property.PropertyType_as_u8 V5Property.SubscriptionIdentifierAvailable) ;;w
        put_u8 s ;;w
        wret tt
    | _ =>
        wret tt
    end) ;;w
  (
    match (V5ConnAck.shared_subscription_available self) with
    | Some s =>
        put_u8 (TraceV5Property.PropertyType_as_u8 V5Property.SharedSubscriptionAvailable) ;;w
        put_u8 s ;;w
        wret tt
    | _ =>
        wret tt
    end) ;;w
  (
    match (V5ConnAck.server_keep_alive self) with
    | Some keep_alive =>
        put_u8 (TraceV5Property.PropertyType_as_u8 V5Property.ServerKeepAlive) ;;w
        put_u16 keep_alive ;;w
        wret tt
    | _ =>
        wret tt
    end) ;;w
  (
    match (V5ConnAck.response_information self) with
    | Some info =>
        put_u8 (TraceV5Property.PropertyType_as_u8 V5Property.ResponseInformation) ;;w
        TraceLib.write_mqtt_string info ;;w
        wret tt
    | _ =>
        wret tt
    end) ;;w
  (
    match (V5ConnAck.server_reference self) with
    | Some reference =>
        put_u8 (TraceV5Property.PropertyType_as_u8 V5Property.ServerReference) ;;w
        TraceLib.write_mqtt_string reference ;;w
        wret tt
    | _ =>
        wret tt
    end) ;;w
  (
    match (V5ConnAck.authentication_method self) with
    | Some authentication_method =>
        put_u8 (TraceV5Property.PropertyType_as_u8 V5Property.AuthenticationMethod) ;;w
        TraceLib.write_mqtt_string authentication_method ;;w
        wret tt
    | _ =>
        wret tt
    end) ;;w
  (
    match (V5ConnAck.authentication_data self) with
    | Some authentication_data =>
        put_u8 (TraceV5Property.PropertyType_as_u8 V5Property.AuthenticationData) ;;w
        TraceLib.write_mqtt_bytes authentication_data ;;w
        wret tt
    | _ =>
        wret tt
    end) ;;w
  wret tt.

(** src/v5/connack.rs:82-95 `ConnAck::write` *)
Definition ConnAck_write (fuel : nat) (self : V5ConnAck.ConnAck) : writer N :=
  len <-w lift (ConnAck_len self) ;;
  put_u8 32 ;;w
  count <-w TraceLib.write_remaining_length fuel len ;;
  put_u8 (bool_u8 (V5ConnAck.session_present self)) ;;w
  put_u8 (ConnectReturnCode_as_u8 (V5ConnAck.code self)) ;;w
  (
    match (V5ConnAck.properties self) with
    | Some properties =>
        ConnAckProperties_write fuel properties ;;w
        wret tt
    | _ =>
        wret tt
    end) ;;w
  t1 <-w lift (usize_add 1 count) ;;
  t2 <-w lift (usize_add t1 len) ;;
  wret t2.

(** src/v5/connack.rs:120-140 `ConnAckProperties::new` *)
Definition ConnAckProperties_new : outcome V5ConnAck.ConnAckProperties :=
  run (
    wret (V5ConnAck.mkConnAckProperties None None None None None None None None [] None None None None None None None None)) [].

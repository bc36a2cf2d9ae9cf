(** WrapV5Disconnect.v -- GENERATED by tools/rust2coq.py from src/v5/disconnect.rs; do not edit.
    Not translated:
     src/v5/disconnect.rs:339 conditional item #[cfg(test)]
    No proofs in this file. *)
From Verif Require Import Base Lib SrcBase WrapBase.
From Verif Require V5Disconnect V5Property.
From Verif Require WrapLib WrapV5Property.

(** src/v5/disconnect.rs:9 `DisconnectReasonCode as u8` (the discriminants of the declaration; also decides the derived `==`) *)
Definition DisconnectReasonCode_as_u8 (x : V5Disconnect.DisconnectReasonCode) : N :=
  match x with
  | V5Disconnect.NormalDisconnection => 0
  | V5Disconnect.DisconnectWithWillMessage => 4
  | V5Disconnect.UnspecifiedError => 128
  | V5Disconnect.MalformedPacket => 129
  | V5Disconnect.ProtocolError => 130
  | V5Disconnect.ImplementationSpecificError => 131
  | V5Disconnect.NotAuthorized => 135
  | V5Disconnect.ServerBusy => 137
  | V5Disconnect.ServerShuttingDown => 139
  | V5Disconnect.KeepAliveTimeout => 141
  | V5Disconnect.SessionTakenOver => 142
  | V5Disconnect.TopicFilterInvalid => 143
  | V5Disconnect.TopicNameInvalid => 144
  | V5Disconnect.ReceiveMaximumExceeded => 147
  | V5Disconnect.TopicAliasInvalid => 148
  | V5Disconnect.PacketTooLarge => 149
  | V5Disconnect.MessageRateTooHigh => 150
  | V5Disconnect.QuotaExceeded => 151
  | V5Disconnect.AdministrativeAction => 152
  | V5Disconnect.PayloadFormatInvalid => 153
  | V5Disconnect.RetainNotSupported => 154
  | V5Disconnect.QoSNotSupported => 155
  | V5Disconnect.UseAnotherServer => 156
  | V5Disconnect.ServerMoved => 157
  | V5Disconnect.SharedSubscriptionNotSupported => 158
  | V5Disconnect.ConnectionRateExceeded => 159
  | V5Disconnect.MaximumConnectTime => 160
  | V5Disconnect.SubscriptionIdentifiersNotSupported => 161
  | V5Disconnect.WildcardSubscriptionsNotSupported => 162
  end.

(** src/v5/disconnect.rs:75-110 `DisconnectReasonCode::try_from` *)
Definition DisconnectReasonCode_try_from (value : N) : outcome V5Disconnect.DisconnectReasonCode :=
  run (
    rc <-w (
      match value with
      | 0 =>
          wret V5Disconnect.NormalDisconnection
      | 4 =>
          wret V5Disconnect.DisconnectWithWillMessage
      | 128 =>
          wret V5Disconnect.UnspecifiedError
      | 129 =>
          wret V5Disconnect.MalformedPacket
      | 130 =>
          wret V5Disconnect.ProtocolError
      | 131 =>
          wret V5Disconnect.ImplementationSpecificError
      | 135 =>
          wret V5Disconnect.NotAuthorized
      | 137 =>
          wret V5Disconnect.ServerBusy
      | 139 =>
          wret V5Disconnect.ServerShuttingDown
      | 141 =>
          wret V5Disconnect.KeepAliveTimeout
      | 142 =>
          wret V5Disconnect.SessionTakenOver
      | 143 =>
          wret V5Disconnect.TopicFilterInvalid
      | 144 =>
          wret V5Disconnect.TopicNameInvalid
      | 147 =>
          wret V5Disconnect.ReceiveMaximumExceeded
      | 148 =>
          wret V5Disconnect.TopicAliasInvalid
      | 149 =>
          wret V5Disconnect.PacketTooLarge
      | 150 =>
          wret V5Disconnect.MessageRateTooHigh
      | 151 =>
          wret V5Disconnect.QuotaExceeded
      | 152 =>
          wret V5Disconnect.AdministrativeAction
      | 153 =>
          wret V5Disconnect.PayloadFormatInvalid
      | 154 =>
          wret V5Disconnect.RetainNotSupported
      | 155 =>
          wret V5Disconnect.QoSNotSupported
      | 156 =>
          wret V5Disconnect.UseAnotherServer
      | 157 =>
          wret V5Disconnect.ServerMoved
      | 158 =>
          wret V5Disconnect.SharedSubscriptionNotSupported
      | 159 =>
          wret V5Disconnect.ConnectionRateExceeded
      | 160 =>
          wret V5Disconnect.MaximumConnectTime
      | 161 =>
          wret V5Disconnect.SubscriptionIdentifiersNotSupported
      | 162 =>
          wret V5Disconnect.WildcardSubscriptionsNotSupported
      | other =>
          werr (Base.InvalidConnectReturnCode other)
      end) ;;
    wret rc) [].

(** src/v5/disconnect.rs:138-145 `DisconnectProperties::new` *)
Definition DisconnectProperties_new : outcome V5Disconnect.DisconnectProperties :=
  run (
    wret (V5Disconnect.mkDisconnectProperties None None [] None)) [].

(** src/v5/disconnect.rs:147-167 `DisconnectProperties::len` *)
Definition DisconnectProperties_len (self : V5Disconnect.DisconnectProperties) : outcome N :=
  run (
    let length := 0 in
    length <-w (
      if (is_some (V5Disconnect.session_expiry_interval self)) then (
        t1 <-w lift (usize_add 1 4) ;;
        length <-w lift (usize_add length t1) ;;
        wret length)
      else (
        wret length)) ;;
    length <-w (
      match (V5Disconnect.reason_string self) with
      | Some reason =>
          t2 <-w lift (usize_add 1 2) ;;
          t3 <-w lift (usize_add t2 (blen reason)) ;;
          length <-w lift (usize_add length t3) ;;
          wret length
      | _ =>
          wret length
      end) ;;
    length <-w for_ (fun '(key, value) length =>
        t4 <-w lift (usize_add 1 2) ;;
        t5 <-w lift (usize_add t4 (blen key)) ;;
        t6 <-w lift (usize_add t5 2) ;;
        t7 <-w lift (usize_add t6 (blen value)) ;;
        length <-w lift (usize_add length t7) ;;
        wret length)
      (V5Disconnect.user_properties self) length ;;
    length <-w (
      match (V5Disconnect.server_reference self) with
      | Some server_reference =>
          t8 <-w lift (usize_add 1 2) ;;
          t9 <-w lift (usize_add t8 (blen server_reference)) ;;
          length <-w lift (usize_add length t9) ;;
          wret length
      | _ =>
          wret length
      end) ;;
    wret length) [].

(** src/v5/disconnect.rs:169-223 `DisconnectProperties::extract` *)
Definition DisconnectProperties_extract (fuel : nat) : writer (option V5Disconnect.DisconnectProperties) :=
  t1 <-w get ;;
  t2 <-w lift (WrapLib.length t1) ;;
  let '(properties_len_len, properties_len) := t2 in
  keep (advance properties_len_len) ;;w
  if (properties_len =? 0) then (
    wret None)
  else (
    let session_expiry_interval : option N := None in
    let reason_string : option (list N) := None in
    let user_properties : list ((list N) * (list N)) := [] in
    let server_reference : option (list N) := None in
    let cursor := 0 in
    '(cursor, session_expiry_interval, reason_string, user_properties, server_reference) <-w while_ fuel
      (fun '(cursor, session_expiry_interval, reason_string, user_properties, server_reference) =>
        wret (cursor <? properties_len))
      (fun '(cursor, session_expiry_interval, reason_string, user_properties, server_reference) =>
        prop <-w WrapLib.read_u8 ;;
        cursor <-w lift (usize_add cursor 1) ;;
        t3 <-w lift (WrapV5Property.property prop) ;;
        '(session_expiry_interval, cursor, reason_string, user_properties, server_reference) <-w (
          match t3 with
          | V5Property.SessionExpiryInterval =>
              t4 <-w WrapLib.read_u32 ;;
              let session_expiry_interval := (Some t4) in
              cursor <-w lift (usize_add cursor 4) ;;
              wret (session_expiry_interval, cursor, reason_string, user_properties, server_reference)
          | V5Property.ReasonString =>
              reason <-w WrapLib.read_mqtt_string ;;
              t5 <-w lift (usize_add 2 (blen reason)) ;;
              cursor <-w lift (usize_add cursor t5) ;;
              let reason_string := (Some reason) in
              wret (session_expiry_interval, cursor, reason_string, user_properties, server_reference)
          | V5Property.UserProperty =>
              key <-w WrapLib.read_mqtt_string ;;
              value <-w WrapLib.read_mqtt_string ;;
              t6 <-w lift (usize_add 2 (blen key)) ;;
              t7 <-w lift (usize_add t6 2) ;;
              t8 <-w lift (usize_add t7 (blen value)) ;;
              cursor <-w lift (usize_add cursor t8) ;;
              let user_properties := (user_properties ++ [(key, value)]) in
              wret (session_expiry_interval, cursor, reason_string, user_properties, server_reference)
          | V5Property.ServerReference =>
              reference <-w WrapLib.read_mqtt_string ;;
              t9 <-w lift (usize_add 2 (blen reference)) ;;
              cursor <-w lift (usize_add cursor t9) ;;
              let server_reference := (Some reference) in
              wret (session_expiry_interval, cursor, reason_string, user_properties, server_reference)
          | _ =>
              werr (Base.InvalidPropertyType prop)
          end) ;;
        wret (cursor, session_expiry_interval, reason_string, user_properties, server_reference))
      (cursor, session_expiry_interval, reason_string, user_properties, server_reference) ;;
    let properties := (V5Disconnect.mkDisconnectProperties session_expiry_interval reason_string user_properties server_reference) in
    wret (Some properties)).

(** src/v5/disconnect.rs:225-251 `DisconnectProperties::write` *)
Definition DisconnectProperties_write (fuel : nat) (self : V5Disconnect.DisconnectProperties) : writer unit :=
  length <-w lift (DisconnectProperties_len self) ;;
  t1 <-w WrapLib.write_remaining_length fuel length ;;
  (
    match (V5Disconnect.session_expiry_interval self) with
    | Some session_expiry_interval =>
        put_u8 (WrapV5Property.PropertyType_as_u8 V5Property.SessionExpiryInterval) ;;w
        put_u32 session_expiry_interval ;;w
        wret tt
    | _ =>
        wret tt
    end) ;;w
  (
    match (V5Disconnect.reason_string self) with
    | Some reason =>
        put_u8 (WrapV5Property.PropertyType_as_u8 V5Property.ReasonString) ;;w
        WrapLib.write_mqtt_string reason ;;w
        wret tt
    | _ =>
        wret tt
    end) ;;w
  for_ (fun '(key, value) (_ : unit) =>
      put_u8 (WrapV5Property.PropertyType_as_u8 V5Property.UserProperty) ;;w
      WrapLib.write_mqtt_string key ;;w
      WrapLib.write_mqtt_string value ;;w
      wret tt)
    (V5Disconnect.user_properties self) tt ;;w
  (
    match (V5Disconnect.server_reference self) with
    | Some reference =>
        put_u8 (WrapV5Property.PropertyType_as_u8 V5Property.ServerReference) ;;w
        WrapLib.write_mqtt_string reference ;;w
        wret tt
    | _ =>
        wret tt
    end) ;;w
  wret tt.

(** src/v5/disconnect.rs:255-260 `Disconnect::new` *)
Definition Disconnect_new : outcome V5Disconnect.Disconnect :=
  run (
    wret (V5Disconnect.mkDisconnect V5Disconnect.NormalDisconnection None)) [].

(** src/v5/disconnect.rs:262-286 `Disconnect::len` *)
Definition Disconnect_len (self : V5Disconnect.Disconnect) : outcome N :=
  run (
    if ((DisconnectReasonCode_as_u8 (V5Disconnect.reason_code self) =? DisconnectReasonCode_as_u8 V5Disconnect.NormalDisconnection) && (is_none (V5Disconnect.properties self))) then (
      wret 2)
    else (
      let length := 0 in
      length <-w (
        match (V5Disconnect.properties self) with
        | Some properties =>
            length <-w lift (usize_add length 1) ;;
            properties_len <-w lift (DisconnectProperties_len properties) ;;
            properties_len_len <-w lift (WrapLib.len_len properties_len) ;;
            t1 <-w lift (usize_add properties_len_len properties_len) ;;
            length <-w lift (usize_add length t1) ;;
            wret length
        | _ =>
            match (V5Disconnect.properties self) with
            | None =>
                if (DisconnectReasonCode_as_u8 (V5Disconnect.reason_code self) =? DisconnectReasonCode_as_u8 V5Disconnect.NormalDisconnection) then (
                  wret length)
                else (
                  match (V5Disconnect.properties self) with
                  | None =>
                      length <-w lift (usize_add length 1) ;;
                      wret length
                  | _ => unreachable
                  end)
            | _ =>
                match (V5Disconnect.properties self) with
                | None =>
                    length <-w lift (usize_add length 1) ;;
                    wret length
                | _ => unreachable
                end
            end
        end) ;;
      wret length)) [].

(** src/v5/disconnect.rs:288-314 `Disconnect::read` *)
Definition Disconnect_read (fuel : nat) (fixed_header : Lib.FixedHeader) (bytes : list N) : outcome V5Disconnect.Disconnect :=
  run (
    packet_type <-w lift (u8_shr (Lib.byte1 fixed_header) 4) ;;
    let flags := (N.land (Lib.byte1 fixed_header) 15) in
    keep (advance (Lib.fixed_header_len fixed_header)) ;;w
    (
      if (negb (packet_type =? (WrapLib.PacketType_as_u8 Base.PT_Disconnect))) then (
        werr (Base.InvalidPacketType packet_type))
      else (
        wret tt)) ;;w
    (
      if (negb (flags =? 0)) then (
        werr Base.MalformedPacket)
      else (
        wret tt)) ;;w
    if ((Lib.remaining_len fixed_header) =? 0) then (
      t1 <-w lift Disconnect_new ;;
      wret t1)
    else (
      reason_code <-w WrapLib.read_u8 ;;
      t2 <-w lift (DisconnectReasonCode_try_from reason_code) ;;
      t3 <-w DisconnectProperties_extract fuel ;;
      let disconnect := (V5Disconnect.mkDisconnect t2 t3) in
      wret disconnect)) bytes.

(** src/v5/disconnect.rs:316-336 `Disconnect::write` *)
Definition Disconnect_write (fuel : nat) (self : V5Disconnect.Disconnect) : writer N :=
  put_u8 224 ;;w
  length <-w lift (Disconnect_len self) ;;
  if (length =? 2) then (
    put_u8 0 ;;w
    wret length)
  else (
    len_len <-w WrapLib.write_remaining_length fuel length ;;
    put_u8 (DisconnectReasonCode_as_u8 (V5Disconnect.reason_code self)) ;;w
    (
      match (V5Disconnect.properties self) with
      | Some properties =>
          DisconnectProperties_write fuel properties ;;w
          wret tt
      | _ =>
          wret tt
      end) ;;w
    t1 <-w lift (usize_add 1 len_len) ;;
    t2 <-w lift (usize_add t1 length) ;;
    wret t2).

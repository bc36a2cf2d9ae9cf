(** SrcDebug.v -- GENERATED by tools/rust2coq.py from the `Debug` and `Display` of /repo/src; do not edit.
    Not translated (no counterpart in the model):
     src/v4/disconnect.rs:4 Disconnect
     src/v4/ping.rs:4 PingReq
     src/v4/ping.rs:13 PingResp
     src/v4/subscribe.rs:123 RetainForwardRule
     src/v5/ping.rs:4 PingReq
     src/v5/ping.rs:13 PingResp
    No proofs in this file. *)
From Coq Require Import String.
From Verif Require Import Base Lib Debug SrcFmt.
From Verif Require V4ConnAck V4Connect V4Mod V4PubAck V4PubComp V4PubRec V4PubRel V4Publish V4SubAck V4Subscribe V4UnsubAck V4Unsubscribe V5ConnAck V5Connect V5Disconnect V5Mod V5Property V5PubAck V5PubComp V5PubRec V5PubRel V5Publish V5SubAck V5Subscribe V5UnsubAck V5Unsubscribe.

(** src/lib.rs:46 derived `Debug` of `PacketType` *)
Definition PacketType_debug (esc : bytes -> bytes) (x : Base.PacketType) : bytes :=
  match x with
  | Base.PT_Connect => txt "Connect"
  | Base.PT_ConnAck => txt "ConnAck"
  | Base.PT_Publish => txt "Publish"
  | Base.PT_PubAck => txt "PubAck"
  | Base.PT_PubRec => txt "PubRec"
  | Base.PT_PubRel => txt "PubRel"
  | Base.PT_PubComp => txt "PubComp"
  | Base.PT_Subscribe => txt "Subscribe"
  | Base.PT_SubAck => txt "SubAck"
  | Base.PT_Unsubscribe => txt "Unsubscribe"
  | Base.PT_UnsubAck => txt "UnsubAck"
  | Base.PT_PingReq => txt "PingReq"
  | Base.PT_PingResp => txt "PingResp"
  | Base.PT_Disconnect => txt "Disconnect"
  end.

(** src/lib.rs:14 derived `Debug` of `Error` *)
Definition Error_debug (esc : bytes -> bytes) (x : Base.Error) : bytes :=
  match x with
  | Base.NotConnect y => fmt_tuple (txt "NotConnect") ((PacketType_debug esc) y)
  | Base.UnexpectedConnect => txt "UnexpectedConnect"
  | Base.InvalidConnectReturnCode y => fmt_tuple (txt "InvalidConnectReturnCode") (dec y)
  | Base.InvalidReason y => fmt_tuple (txt "InvalidReason") (dec y)
  | Base.InvalidProtocol => txt "InvalidProtocol"
  | Base.InvalidProtocolLevel y => fmt_tuple (txt "InvalidProtocolLevel") (dec y)
  | Base.IncorrectPacketFormat => txt "IncorrectPacketFormat"
  | Base.InvalidPacketType y => fmt_tuple (txt "InvalidPacketType") (dec y)
  | Base.InvalidPropertyType y => fmt_tuple (txt "InvalidPropertyType") (dec y)
  | Base.InvalidRetainForwardRule y => fmt_tuple (txt "InvalidRetainForwardRule") (dec y)
  | Base.InvalidQoS y => fmt_tuple (txt "InvalidQoS") (dec y)
  | Base.InvalidSubscribeReasonCode y => fmt_tuple (txt "InvalidSubscribeReasonCode") (dec y)
  | Base.PacketIdZero => txt "PacketIdZero"
  | Base.SubscriptionIdZero => txt "SubscriptionIdZero"
  | Base.PayloadSizeIncorrect => txt "PayloadSizeIncorrect"
  | Base.PayloadTooLong => txt "PayloadTooLong"
  | Base.PayloadSizeLimitExceeded y => fmt_tuple (txt "PayloadSizeLimitExceeded") (dec y)
  | Base.PayloadRequired => txt "PayloadRequired"
  | Base.TopicNotUtf8 => txt "TopicNotUtf8"
  | Base.BoundaryCrossed y => fmt_tuple (txt "BoundaryCrossed") (dec y)
  | Base.MalformedPacket => txt "MalformedPacket"
  | Base.MalformedRemainingLength => txt "MalformedRemainingLength"
  | Base.EmptySubscription => txt "EmptySubscription"
  | Base.InsufficientBytes y => fmt_tuple (txt "InsufficientBytes") (dec y)
  end.

(** src/lib.rs:339-343 `impl Display for Error` *)
Definition Error_display (esc : bytes -> bytes) (x : Base.Error) : bytes :=
  txt "Error = "
  ++ (Error_debug esc) x.

(** src/lib.rs:66 derived `Debug` of `Protocol` *)
Definition Protocol_debug (esc : bytes -> bytes) (x : Base.Protocol) : bytes :=
  match x with
  | Base.V4 => txt "V4"
  | Base.V5 => txt "V5"
  end.

(** src/lib.rs:73 derived `Debug` of `QoS` *)
Definition QoS_debug (esc : bytes -> bytes) (x : Base.QoS) : bytes :=
  match x with
  | Base.AtMostOnce => txt "AtMostOnce"
  | Base.AtLeastOnce => txt "AtLeastOnce"
  | Base.ExactlyOnce => txt "ExactlyOnce"
  end.

(** src/lib.rs:93 derived `Debug` of `FixedHeader` *)
Definition FixedHeader_debug (esc : bytes -> bytes) (x : Lib.FixedHeader) : bytes :=
  fmt_struct (txt "FixedHeader")
    [(txt "byte1", dec (Lib.byte1 x));
     (txt "fixed_header_len", dec (Lib.fixed_header_len x));
     (txt "remaining_len", dec (Lib.remaining_len x))].

(** src/v4/connack.rs:5 derived `Debug` of `ConnectReturnCode` *)
Definition v4_ConnectReturnCode_debug (esc : bytes -> bytes) (x : V4ConnAck.ConnectReturnCode) : bytes :=
  match x with
  | V4ConnAck.Success => txt "Success"
  | V4ConnAck.RefusedProtocolVersion => txt "RefusedProtocolVersion"
  | V4ConnAck.BadClientId => txt "BadClientId"
  | V4ConnAck.ServiceUnavailable => txt "ServiceUnavailable"
  | V4ConnAck.BadUserNamePassword => txt "BadUserNamePassword"
  | V4ConnAck.NotAuthorized => txt "NotAuthorized"
  end.

(** src/v4/connack.rs:17 derived `Debug` of `ConnAck` *)
Definition v4_ConnAck_debug (esc : bytes -> bytes) (x : V4ConnAck.ConnAck) : bytes :=
  fmt_struct (txt "ConnAck")
    [(txt "session_present", show_bool (V4ConnAck.session_present x));
     (txt "code", (v4_ConnectReturnCode_debug esc) (V4ConnAck.code x))].

(** src/v4/connect.rs:140 derived `Debug` of `LastWill` *)
Definition v4_LastWill_debug (esc : bytes -> bytes) (x : V4Connect.LastWill) : bytes :=
  fmt_struct (txt "LastWill")
    [(txt "topic", (fmt_str esc) (V4Connect.lw_topic x));
     (txt "message", fmt_bytes (V4Connect.lw_message x));
     (txt "qos", (QoS_debug esc) (V4Connect.lw_qos x));
     (txt "retain", show_bool (V4Connect.lw_retain x))].

(** src/v4/connect.rs:205 derived `Debug` of `Login` *)
Definition v4_Login_debug (esc : bytes -> bytes) (x : V4Connect.Login) : bytes :=
  fmt_struct (txt "Login")
    [(txt "username", (fmt_str esc) (V4Connect.username x));
     (txt "password", (fmt_str esc) (V4Connect.password x))].

(** src/v4/connect.rs:7 derived `Debug` of `Connect` *)
Definition v4_Connect_debug (esc : bytes -> bytes) (x : V4Connect.Connect) : bytes :=
  fmt_struct (txt "Connect")
    [(txt "protocol", (Protocol_debug esc) (V4Connect.protocol x));
     (txt "keep_alive", dec (V4Connect.keep_alive x));
     (txt "client_id", (fmt_str esc) (V4Connect.client_id x));
     (txt "clean_session", show_bool (V4Connect.clean_session x));
     (txt "last_will", (fmt_option (v4_LastWill_debug esc)) (V4Connect.last_will x));
     (txt "login", (fmt_option (v4_Login_debug esc)) (V4Connect.login x))].

(** src/v4/publish.rs:109-121 `impl Debug for Publish` *)
Definition v4_Publish_debug (esc : bytes -> bytes) (x : V4Publish.Publish) : bytes :=
  txt "Topic = "
  ++ fmt_display_str (V4Publish.topic x)
  ++ txt ", Qos = "
  ++ (QoS_debug esc) (V4Publish.qos x)
  ++ txt ", Retain = "
  ++ show_bool (V4Publish.retain x)
  ++ txt ", Pkid = "
  ++ dec (V4Publish.pkid x)
  ++ txt ", Payload Size = "
  ++ dec (fmt_len (V4Publish.payload x)).

(** src/v4/puback.rs:5 derived `Debug` of `PubAck` *)
Definition v4_PubAck_debug (esc : bytes -> bytes) (x : V4PubAck.PubAck) : bytes :=
  fmt_struct (txt "PubAck")
    [(txt "pkid", dec (V4PubAck.pkid x))].

(** src/v4/pubrec.rs:5 derived `Debug` of `PubRec` *)
Definition v4_PubRec_debug (esc : bytes -> bytes) (x : V4PubRec.PubRec) : bytes :=
  fmt_struct (txt "PubRec")
    [(txt "pkid", dec (V4PubRec.pkid x))].

(** src/v4/pubrel.rs:5 derived `Debug` of `PubRel` *)
Definition v4_PubRel_debug (esc : bytes -> bytes) (x : V4PubRel.PubRel) : bytes :=
  fmt_struct (txt "PubRel")
    [(txt "pkid", dec (V4PubRel.pkid x))].

(** src/v4/pubcomp.rs:5 derived `Debug` of `PubComp` *)
Definition v4_PubComp_debug (esc : bytes -> bytes) (x : V4PubComp.PubComp) : bytes :=
  fmt_struct (txt "PubComp")
    [(txt "pkid", dec (V4PubComp.pkid x))].

(** src/v4/subscribe.rs:140-144 `impl Debug for SubscribeFilter` *)
Definition v4_SubscribeFilter_debug (esc : bytes -> bytes) (x : V4Subscribe.SubscribeFilter) : bytes :=
  txt "Filter = "
  ++ fmt_display_str (V4Subscribe.path x)
  ++ txt ", Qos = "
  ++ (QoS_debug esc) (V4Subscribe.qos x).

(** src/v4/subscribe.rs:130-138 `impl Debug for Subscribe` *)
Definition v4_Subscribe_debug (esc : bytes -> bytes) (x : V4Subscribe.Subscribe) : bytes :=
  txt "Filters = "
  ++ (fmt_vec (v4_SubscribeFilter_debug esc)) (V4Subscribe.filters x)
  ++ txt ", Packet id = "
  ++ dec (V4Subscribe.pkid x).

(** src/v4/suback.rs:61 derived `Debug` of `SubscribeReasonCode` *)
Definition v4_SubscribeReasonCode_debug (esc : bytes -> bytes) (x : V4SubAck.SubscribeReasonCode) : bytes :=
  match x with
  | V4SubAck.Success y => fmt_tuple (txt "Success") ((QoS_debug esc) y)
  | V4SubAck.Failure => txt "Failure"
  end.

(** src/v4/suback.rs:7 derived `Debug` of `SubAck` *)
Definition v4_SubAck_debug (esc : bytes -> bytes) (x : V4SubAck.SubAck) : bytes :=
  fmt_struct (txt "SubAck")
    [(txt "pkid", dec (V4SubAck.pkid x));
     (txt "return_codes", (fmt_vec (v4_SubscribeReasonCode_debug esc)) (V4SubAck.return_codes x))].

(** src/v4/unsubscribe.rs:7 derived `Debug` of `Unsubscribe` *)
Definition v4_Unsubscribe_debug (esc : bytes -> bytes) (x : V4Unsubscribe.Unsubscribe) : bytes :=
  fmt_struct (txt "Unsubscribe")
    [(txt "pkid", dec (V4Unsubscribe.pkid x));
     (txt "topics", (fmt_vec (fmt_str esc)) (V4Unsubscribe.topics x))].

(** src/v4/unsuback.rs:5 derived `Debug` of `UnsubAck` *)
Definition v4_UnsubAck_debug (esc : bytes -> bytes) (x : V4UnsubAck.UnsubAck) : bytes :=
  fmt_struct (txt "UnsubAck")
    [(txt "pkid", dec (V4UnsubAck.pkid x))].

(** src/v4/mod.rs:32 derived `Debug` of `Packet` *)
Definition v4_Packet_debug (esc : bytes -> bytes) (x : V4Mod.Packet) : bytes :=
  match x with
  | V4Mod.Connect y => fmt_tuple (txt "Connect") ((v4_Connect_debug esc) y)
  | V4Mod.ConnAck y => fmt_tuple (txt "ConnAck") ((v4_ConnAck_debug esc) y)
  | V4Mod.Publish y => fmt_tuple (txt "Publish") ((v4_Publish_debug esc) y)
  | V4Mod.PubAck y => fmt_tuple (txt "PubAck") ((v4_PubAck_debug esc) y)
  | V4Mod.PubRec y => fmt_tuple (txt "PubRec") ((v4_PubRec_debug esc) y)
  | V4Mod.PubRel y => fmt_tuple (txt "PubRel") ((v4_PubRel_debug esc) y)
  | V4Mod.PubComp y => fmt_tuple (txt "PubComp") ((v4_PubComp_debug esc) y)
  | V4Mod.Subscribe y => fmt_tuple (txt "Subscribe") ((v4_Subscribe_debug esc) y)
  | V4Mod.SubAck y => fmt_tuple (txt "SubAck") ((v4_SubAck_debug esc) y)
  | V4Mod.Unsubscribe y => fmt_tuple (txt "Unsubscribe") ((v4_Unsubscribe_debug esc) y)
  | V4Mod.UnsubAck y => fmt_tuple (txt "UnsubAck") ((v4_UnsubAck_debug esc) y)
  | V4Mod.PingReq => txt "PingReq"
  | V4Mod.PingResp => txt "PingResp"
  | V4Mod.Disconnect => txt "Disconnect"
  end.

(** src/v5/connack.rs:7 derived `Debug` of `ConnectReturnCode` *)
Definition v5_ConnectReturnCode_debug (esc : bytes -> bytes) (x : V5ConnAck.ConnectReturnCode) : bytes :=
  match x with
  | V5ConnAck.Success => txt "Success"
  | V5ConnAck.UnspecifiedError => txt "UnspecifiedError"
  | V5ConnAck.MalformedPacket => txt "MalformedPacket"
  | V5ConnAck.ProtocolError => txt "ProtocolError"
  | V5ConnAck.ImplementationSpecificError => txt "ImplementationSpecificError"
  | V5ConnAck.UnsupportedProtocolVersion => txt "UnsupportedProtocolVersion"
  | V5ConnAck.ClientIdentifierNotValid => txt "ClientIdentifierNotValid"
  | V5ConnAck.BadUserNamePassword => txt "BadUserNamePassword"
  | V5ConnAck.NotAuthorized => txt "NotAuthorized"
  | V5ConnAck.ServerUnavailable => txt "ServerUnavailable"
  | V5ConnAck.ServerBusy => txt "ServerBusy"
  | V5ConnAck.Banned => txt "Banned"
  | V5ConnAck.BadAuthenticationMethod => txt "BadAuthenticationMethod"
  | V5ConnAck.TopicNameInvalid => txt "TopicNameInvalid"
  | V5ConnAck.PacketTooLarge => txt "PacketTooLarge"
  | V5ConnAck.QuotaExceeded => txt "QuotaExceeded"
  | V5ConnAck.PayloadFormatInvalid => txt "PayloadFormatInvalid"
  | V5ConnAck.RetainNotSupported => txt "RetainNotSupported"
  | V5ConnAck.QoSNotSupported => txt "QoSNotSupported"
  | V5ConnAck.UseAnotherServer => txt "UseAnotherServer"
  | V5ConnAck.ServerMoved => txt "ServerMoved"
  | V5ConnAck.ConnectionRateExceeded => txt "ConnectionRateExceeded"
  end.

(** src/v5/connack.rs:98 derived `Debug` of `ConnAckProperties` *)
Definition v5_ConnAckProperties_debug (esc : bytes -> bytes) (x : V5ConnAck.ConnAckProperties) : bytes :=
  fmt_struct (txt "ConnAckProperties")
    [(txt "session_expiry_interval", (fmt_option dec) (V5ConnAck.session_expiry_interval x));
     (txt "receive_max", (fmt_option dec) (V5ConnAck.receive_max x));
     (txt "max_qos", (fmt_option dec) (V5ConnAck.max_qos x));
     (txt "retain_available", (fmt_option dec) (V5ConnAck.retain_available x));
     (txt "max_packet_size", (fmt_option dec) (V5ConnAck.max_packet_size x));
     (txt "assigned_client_identifier", (fmt_option (fmt_str esc)) (V5ConnAck.assigned_client_identifier x));
     (txt "topic_alias_max", (fmt_option dec) (V5ConnAck.topic_alias_max x));
     (txt "reason_string", (fmt_option (fmt_str esc)) (V5ConnAck.reason_string x));
     (txt "user_properties", (fmt_vec (fmt_pair (fmt_str esc) (fmt_str esc))) (V5ConnAck.user_properties x));
     (txt "wildcard_subscription_available", (fmt_option dec) (V5ConnAck.wildcard_subscription_available x));
     (txt "subscription_identifiers_available", (fmt_option dec) (V5ConnAck.subscription_identifiers_available x));
     (txt "shared_subscription_available", (fmt_option dec) (V5ConnAck.shared_subscription_available x));
     (txt "server_keep_alive", (fmt_option dec) (V5ConnAck.server_keep_alive x));
     (txt "response_information", (fmt_option (fmt_str esc)) (V5ConnAck.response_information x));
     (txt "server_reference", (fmt_option (fmt_str esc)) (V5ConnAck.server_reference x));
     (txt "authentication_method", (fmt_option (fmt_str esc)) (V5ConnAck.authentication_method x));
     (txt "authentication_data", (fmt_option fmt_bytes) (V5ConnAck.authentication_data x))].

(** src/v5/connack.rs:35 derived `Debug` of `ConnAck` *)
Definition v5_ConnAck_debug (esc : bytes -> bytes) (x : V5ConnAck.ConnAck) : bytes :=
  fmt_struct (txt "ConnAck")
    [(txt "session_present", show_bool (V5ConnAck.session_present x));
     (txt "code", (v5_ConnectReturnCode_debug esc) (V5ConnAck.code x));
     (txt "properties", (fmt_option (v5_ConnAckProperties_debug esc)) (V5ConnAck.properties x))].

(** src/v5/connect.rs:261 derived `Debug` of `WillProperties` *)
Definition v5_WillProperties_debug (esc : bytes -> bytes) (x : V5Connect.WillProperties) : bytes :=
  fmt_struct (txt "WillProperties")
    [(txt "delay_interval", (fmt_option dec) (V5Connect.wp_delay_interval x));
     (txt "payload_format_indicator", (fmt_option dec) (V5Connect.wp_payload_format_indicator x));
     (txt "message_expiry_interval", (fmt_option dec) (V5Connect.wp_message_expiry_interval x));
     (txt "content_type", (fmt_option (fmt_str esc)) (V5Connect.wp_content_type x));
     (txt "response_topic", (fmt_option (fmt_str esc)) (V5Connect.wp_response_topic x));
     (txt "correlation_data", (fmt_option fmt_bytes) (V5Connect.wp_correlation_data x));
     (txt "user_properties", (fmt_vec (fmt_pair (fmt_str esc) (fmt_str esc))) (V5Connect.wp_user_properties x))].

(** src/v5/connect.rs:170 derived `Debug` of `LastWill` *)
Definition v5_LastWill_debug (esc : bytes -> bytes) (x : V5Connect.LastWill) : bytes :=
  fmt_struct (txt "LastWill")
    [(txt "topic", (fmt_str esc) (V5Connect.lw_topic x));
     (txt "message", fmt_bytes (V5Connect.lw_message x));
     (txt "qos", (QoS_debug esc) (V5Connect.lw_qos x));
     (txt "retain", show_bool (V5Connect.lw_retain x));
     (txt "properties", (fmt_option (v5_WillProperties_debug esc)) (V5Connect.lw_properties x))].

(** src/v5/connect.rs:421 derived `Debug` of `Login` *)
Definition v5_Login_debug (esc : bytes -> bytes) (x : V5Connect.Login) : bytes :=
  fmt_struct (txt "Login")
    [(txt "username", (fmt_str esc) (V5Connect.username x));
     (txt "password", (fmt_str esc) (V5Connect.password x))].

(** src/v5/connect.rs:483 derived `Debug` of `ConnectProperties` *)
Definition v5_ConnectProperties_debug (esc : bytes -> bytes) (x : V5Connect.ConnectProperties) : bytes :=
  fmt_struct (txt "ConnectProperties")
    [(txt "session_expiry_interval", (fmt_option dec) (V5Connect.cp_session_expiry_interval x));
     (txt "receive_maximum", (fmt_option dec) (V5Connect.cp_receive_maximum x));
     (txt "max_packet_size", (fmt_option dec) (V5Connect.cp_max_packet_size x));
     (txt "topic_alias_max", (fmt_option dec) (V5Connect.cp_topic_alias_max x));
     (txt "request_response_info", (fmt_option dec) (V5Connect.cp_request_response_info x));
     (txt "request_problem_info", (fmt_option dec) (V5Connect.cp_request_problem_info x));
     (txt "user_properties", (fmt_vec (fmt_pair (fmt_str esc) (fmt_str esc))) (V5Connect.cp_user_properties x));
     (txt "authentication_method", (fmt_option (fmt_str esc)) (V5Connect.cp_authentication_method x));
     (txt "authentication_data", (fmt_option fmt_bytes) (V5Connect.cp_authentication_data x))].

(** src/v5/connect.rs:7 derived `Debug` of `Connect` *)
Definition v5_Connect_debug (esc : bytes -> bytes) (x : V5Connect.Connect) : bytes :=
  fmt_struct (txt "Connect")
    [(txt "protocol", (Protocol_debug esc) (V5Connect.protocol x));
     (txt "keep_alive", dec (V5Connect.keep_alive x));
     (txt "client_id", (fmt_str esc) (V5Connect.client_id x));
     (txt "clean_session", show_bool (V5Connect.clean_session x));
     (txt "last_will", (fmt_option (v5_LastWill_debug esc)) (V5Connect.last_will x));
     (txt "login", (fmt_option (v5_Login_debug esc)) (V5Connect.login x));
     (txt "properties", (fmt_option (v5_ConnectProperties_debug esc)) (V5Connect.properties x))].

(** src/v5/disconnect.rs:9 derived `Debug` of `DisconnectReasonCode` *)
Definition v5_DisconnectReasonCode_debug (esc : bytes -> bytes) (x : V5Disconnect.DisconnectReasonCode) : bytes :=
  match x with
  | V5Disconnect.NormalDisconnection => txt "NormalDisconnection"
  | V5Disconnect.DisconnectWithWillMessage => txt "DisconnectWithWillMessage"
  | V5Disconnect.UnspecifiedError => txt "UnspecifiedError"
  | V5Disconnect.MalformedPacket => txt "MalformedPacket"
  | V5Disconnect.ProtocolError => txt "ProtocolError"
  | V5Disconnect.ImplementationSpecificError => txt "ImplementationSpecificError"
  | V5Disconnect.NotAuthorized => txt "NotAuthorized"
  | V5Disconnect.ServerBusy => txt "ServerBusy"
  | V5Disconnect.ServerShuttingDown => txt "ServerShuttingDown"
  | V5Disconnect.KeepAliveTimeout => txt "KeepAliveTimeout"
  | V5Disconnect.SessionTakenOver => txt "SessionTakenOver"
  | V5Disconnect.TopicFilterInvalid => txt "TopicFilterInvalid"
  | V5Disconnect.TopicNameInvalid => txt "TopicNameInvalid"
  | V5Disconnect.ReceiveMaximumExceeded => txt "ReceiveMaximumExceeded"
  | V5Disconnect.TopicAliasInvalid => txt "TopicAliasInvalid"
  | V5Disconnect.PacketTooLarge => txt "PacketTooLarge"
  | V5Disconnect.MessageRateTooHigh => txt "MessageRateTooHigh"
  | V5Disconnect.QuotaExceeded => txt "QuotaExceeded"
  | V5Disconnect.AdministrativeAction => txt "AdministrativeAction"
  | V5Disconnect.PayloadFormatInvalid => txt "PayloadFormatInvalid"
  | V5Disconnect.RetainNotSupported => txt "RetainNotSupported"
  | V5Disconnect.QoSNotSupported => txt "QoSNotSupported"
  | V5Disconnect.UseAnotherServer => txt "UseAnotherServer"
  | V5Disconnect.ServerMoved => txt "ServerMoved"
  | V5Disconnect.SharedSubscriptionNotSupported => txt "SharedSubscriptionNotSupported"
  | V5Disconnect.ConnectionRateExceeded => txt "ConnectionRateExceeded"
  | V5Disconnect.MaximumConnectTime => txt "MaximumConnectTime"
  | V5Disconnect.SubscriptionIdentifiersNotSupported => txt "SubscriptionIdentifiersNotSupported"
  | V5Disconnect.WildcardSubscriptionsNotSupported => txt "WildcardSubscriptionsNotSupported"
  end.

(** src/v5/disconnect.rs:113 derived `Debug` of `DisconnectProperties` *)
Definition v5_DisconnectProperties_debug (esc : bytes -> bytes) (x : V5Disconnect.DisconnectProperties) : bytes :=
  fmt_struct (txt "DisconnectProperties")
    [(txt "session_expiry_interval", (fmt_option dec) (V5Disconnect.session_expiry_interval x));
     (txt "reason_string", (fmt_option (fmt_str esc)) (V5Disconnect.reason_string x));
     (txt "user_properties", (fmt_vec (fmt_pair (fmt_str esc) (fmt_str esc))) (V5Disconnect.user_properties x));
     (txt "server_reference", (fmt_option (fmt_str esc)) (V5Disconnect.server_reference x))].

(** src/v5/disconnect.rs:128 derived `Debug` of `Disconnect` *)
Definition v5_Disconnect_debug (esc : bytes -> bytes) (x : V5Disconnect.Disconnect) : bytes :=
  fmt_struct (txt "Disconnect")
    [(txt "reason_code", (v5_DisconnectReasonCode_debug esc) (V5Disconnect.reason_code x));
     (txt "properties", (fmt_option (v5_DisconnectProperties_debug esc)) (V5Disconnect.properties x))].

(** src/v5/publish.rs:310-322 `impl Debug for Publish` *)
Definition v5_Publish_debug (esc : bytes -> bytes) (x : V5Publish.Publish) : bytes :=
  txt "Topic = "
  ++ fmt_display_str (V5Publish.topic x)
  ++ txt ", Qos = "
  ++ (QoS_debug esc) (V5Publish.qos x)
  ++ txt ", Retain = "
  ++ show_bool (V5Publish.retain x)
  ++ txt ", Pkid = "
  ++ dec (V5Publish.pkid x)
  ++ txt ", Payload Size = "
  ++ dec (fmt_len (V5Publish.payload x)).

(** src/v5/puback.rs:5 derived `Debug` of `PubAckReason` *)
Definition v5_PubAckReason_debug (esc : bytes -> bytes) (x : V5PubAck.PubAckReason) : bytes :=
  match x with
  | V5PubAck.Success => txt "Success"
  | V5PubAck.NoMatchingSubscribers => txt "NoMatchingSubscribers"
  | V5PubAck.UnspecifiedError => txt "UnspecifiedError"
  | V5PubAck.ImplementationSpecificError => txt "ImplementationSpecificError"
  | V5PubAck.NotAuthorized => txt "NotAuthorized"
  | V5PubAck.TopicNameInvalid => txt "TopicNameInvalid"
  | V5PubAck.PacketIdentifierInUse => txt "PacketIdentifierInUse"
  | V5PubAck.QuotaExceeded => txt "QuotaExceeded"
  | V5PubAck.PayloadFormatInvalid => txt "PayloadFormatInvalid"
  end.

(** src/v5/puback.rs:110 derived `Debug` of `PubAckProperties` *)
Definition v5_PubAckProperties_debug (esc : bytes -> bytes) (x : V5PubAck.PubAckProperties) : bytes :=
  fmt_struct (txt "PubAckProperties")
    [(txt "reason_string", (fmt_option (fmt_str esc)) (V5PubAck.reason_string x));
     (txt "user_properties", (fmt_vec (fmt_pair (fmt_str esc) (fmt_str esc))) (V5PubAck.user_properties x))].

(** src/v5/puback.rs:20 derived `Debug` of `PubAck` *)
Definition v5_PubAck_debug (esc : bytes -> bytes) (x : V5PubAck.PubAck) : bytes :=
  fmt_struct (txt "PubAck")
    [(txt "pkid", dec (V5PubAck.pkid x));
     (txt "reason", (v5_PubAckReason_debug esc) (V5PubAck.reason x));
     (txt "properties", (fmt_option (v5_PubAckProperties_debug esc)) (V5PubAck.properties x))].

(** src/v5/pubrec.rs:5 derived `Debug` of `PubRecReason` *)
Definition v5_PubRecReason_debug (esc : bytes -> bytes) (x : V5PubRec.PubRecReason) : bytes :=
  match x with
  | V5PubRec.Success => txt "Success"
  | V5PubRec.NoMatchingSubscribers => txt "NoMatchingSubscribers"
  | V5PubRec.UnspecifiedError => txt "UnspecifiedError"
  | V5PubRec.ImplementationSpecificError => txt "ImplementationSpecificError"
  | V5PubRec.NotAuthorized => txt "NotAuthorized"
  | V5PubRec.TopicNameInvalid => txt "TopicNameInvalid"
  | V5PubRec.PacketIdentifierInUse => txt "PacketIdentifierInUse"
  | V5PubRec.QuotaExceeded => txt "QuotaExceeded"
  | V5PubRec.PayloadFormatInvalid => txt "PayloadFormatInvalid"
  end.

(** src/v5/pubrec.rs:106 derived `Debug` of `PubRecProperties` *)
Definition v5_PubRecProperties_debug (esc : bytes -> bytes) (x : V5PubRec.PubRecProperties) : bytes :=
  fmt_struct (txt "PubRecProperties")
    [(txt "reason_string", (fmt_option (fmt_str esc)) (V5PubRec.reason_string x));
     (txt "user_properties", (fmt_vec (fmt_pair (fmt_str esc) (fmt_str esc))) (V5PubRec.user_properties x))].

(** src/v5/pubrec.rs:20 derived `Debug` of `PubRec` *)
Definition v5_PubRec_debug (esc : bytes -> bytes) (x : V5PubRec.PubRec) : bytes :=
  fmt_struct (txt "PubRec")
    [(txt "pkid", dec (V5PubRec.pkid x));
     (txt "reason", (v5_PubRecReason_debug esc) (V5PubRec.reason x));
     (txt "properties", (fmt_option (v5_PubRecProperties_debug esc)) (V5PubRec.properties x))].

(** src/v5/pubrel.rs:5 derived `Debug` of `PubRelReason` *)
Definition v5_PubRelReason_debug (esc : bytes -> bytes) (x : V5PubRel.PubRelReason) : bytes :=
  match x with
  | V5PubRel.Success => txt "Success"
  | V5PubRel.PacketIdentifierNotFound => txt "PacketIdentifierNotFound"
  end.

(** src/v5/pubrel.rs:97 derived `Debug` of `PubRelProperties` *)
Definition v5_PubRelProperties_debug (esc : bytes -> bytes) (x : V5PubRel.PubRelProperties) : bytes :=
  fmt_struct (txt "PubRelProperties")
    [(txt "reason_string", (fmt_option (fmt_str esc)) (V5PubRel.reason_string x));
     (txt "user_properties", (fmt_vec (fmt_pair (fmt_str esc) (fmt_str esc))) (V5PubRel.user_properties x))].

(** src/v5/pubrel.rs:13 derived `Debug` of `PubRel` *)
Definition v5_PubRel_debug (esc : bytes -> bytes) (x : V5PubRel.PubRel) : bytes :=
  fmt_struct (txt "PubRel")
    [(txt "pkid", dec (V5PubRel.pkid x));
     (txt "reason", (v5_PubRelReason_debug esc) (V5PubRel.reason x));
     (txt "properties", (fmt_option (v5_PubRelProperties_debug esc)) (V5PubRel.properties x))].

(** src/v5/pubcomp.rs:5 derived `Debug` of `PubCompReason` *)
Definition v5_PubCompReason_debug (esc : bytes -> bytes) (x : V5PubComp.PubCompReason) : bytes :=
  match x with
  | V5PubComp.Success => txt "Success"
  | V5PubComp.PacketIdentifierNotFound => txt "PacketIdentifierNotFound"
  end.

(** src/v5/pubcomp.rs:98 derived `Debug` of `PubCompProperties` *)
Definition v5_PubCompProperties_debug (esc : bytes -> bytes) (x : V5PubComp.PubCompProperties) : bytes :=
  fmt_struct (txt "PubCompProperties")
    [(txt "reason_string", (fmt_option (fmt_str esc)) (V5PubComp.reason_string x));
     (txt "user_properties", (fmt_vec (fmt_pair (fmt_str esc) (fmt_str esc))) (V5PubComp.user_properties x))].

(** src/v5/pubcomp.rs:13 derived `Debug` of `PubComp` *)
Definition v5_PubComp_debug (esc : bytes -> bytes) (x : V5PubComp.PubComp) : bytes :=
  fmt_struct (txt "PubComp")
    [(txt "pkid", dec (V5PubComp.pkid x));
     (txt "reason", (v5_PubCompReason_debug esc) (V5PubComp.reason x));
     (txt "properties", (fmt_option (v5_PubCompProperties_debug esc)) (V5PubComp.properties x))].

(** src/v5/subscribe.rs:298 derived `Debug` of `RetainForwardRule` *)
Definition v5_RetainForwardRule_debug (esc : bytes -> bytes) (x : V5Subscribe.RetainForwardRule) : bytes :=
  match x with
  | V5Subscribe.OnEverySubscribe => txt "OnEverySubscribe"
  | V5Subscribe.OnNewSubscribe => txt "OnNewSubscribe"
  | V5Subscribe.Never => txt "Never"
  end.

(** src/v5/subscribe.rs:315-323 `impl Debug for SubscribeFilter` *)
Definition v5_SubscribeFilter_debug (esc : bytes -> bytes) (x : V5Subscribe.SubscribeFilter) : bytes :=
  txt "Filter = "
  ++ fmt_display_str (V5Subscribe.path x)
  ++ txt ", Qos = "
  ++ (QoS_debug esc) (V5Subscribe.qos x)
  ++ txt ", Nolocal = "
  ++ show_bool (V5Subscribe.nolocal x)
  ++ txt ", Preserve retain = "
  ++ show_bool (V5Subscribe.preserve_retain x)
  ++ txt ", Forward rule = "
  ++ (v5_RetainForwardRule_debug esc) (V5Subscribe.retain_forward_rule x).

(** src/v5/subscribe.rs:305-313 `impl Debug for Subscribe` *)
Definition v5_Subscribe_debug (esc : bytes -> bytes) (x : V5Subscribe.Subscribe) : bytes :=
  txt "Filters = "
  ++ (fmt_vec (v5_SubscribeFilter_debug esc)) (V5Subscribe.filters x)
  ++ txt ", Packet id = "
  ++ dec (V5Subscribe.pkid x).

(** src/v5/suback.rs:165 derived `Debug` of `SubscribeReasonCode` *)
Definition v5_SubscribeReasonCode_debug (esc : bytes -> bytes) (x : V5SubAck.SubscribeReasonCode) : bytes :=
  match x with
  | V5SubAck.QoS0 => txt "QoS0"
  | V5SubAck.QoS1 => txt "QoS1"
  | V5SubAck.QoS2 => txt "QoS2"
  | V5SubAck.Unspecified => txt "Unspecified"
  | V5SubAck.ImplementationSpecific => txt "ImplementationSpecific"
  | V5SubAck.NotAuthorized => txt "NotAuthorized"
  | V5SubAck.TopicFilterInvalid => txt "TopicFilterInvalid"
  | V5SubAck.PkidInUse => txt "PkidInUse"
  | V5SubAck.QuotaExceeded => txt "QuotaExceeded"
  | V5SubAck.SharedSubscriptionsNotSupported => txt "SharedSubscriptionsNotSupported"
  | V5SubAck.SubscriptionIdNotSupported => txt "SubscriptionIdNotSupported"
  | V5SubAck.WildcardSubscriptionsNotSupported => txt "WildcardSubscriptionsNotSupported"
  end.

(** src/v5/suback.rs:87 derived `Debug` of `SubAckProperties` *)
Definition v5_SubAckProperties_debug (esc : bytes -> bytes) (x : V5SubAck.SubAckProperties) : bytes :=
  fmt_struct (txt "SubAckProperties")
    [(txt "reason_string", (fmt_option (fmt_str esc)) (V5SubAck.reason_string x));
     (txt "user_properties", (fmt_vec (fmt_pair (fmt_str esc) (fmt_str esc))) (V5SubAck.user_properties x))].

(** src/v5/suback.rs:7 derived `Debug` of `SubAck` *)
Definition v5_SubAck_debug (esc : bytes -> bytes) (x : V5SubAck.SubAck) : bytes :=
  fmt_struct (txt "SubAck")
    [(txt "pkid", dec (V5SubAck.pkid x));
     (txt "return_codes", (fmt_vec (v5_SubscribeReasonCode_debug esc)) (V5SubAck.return_codes x));
     (txt "properties", (fmt_option (v5_SubAckProperties_debug esc)) (V5SubAck.properties x))].

(** src/v5/unsubscribe.rs:88 derived `Debug` of `UnsubscribeProperties` *)
Definition v5_UnsubscribeProperties_debug (esc : bytes -> bytes) (x : V5Unsubscribe.UnsubscribeProperties) : bytes :=
  fmt_struct (txt "UnsubscribeProperties")
    [(txt "user_properties", (fmt_vec (fmt_pair (fmt_str esc) (fmt_str esc))) (V5Unsubscribe.user_properties x))].

(** src/v5/unsubscribe.rs:7 derived `Debug` of `Unsubscribe` *)
Definition v5_Unsubscribe_debug (esc : bytes -> bytes) (x : V5Unsubscribe.Unsubscribe) : bytes :=
  fmt_struct (txt "Unsubscribe")
    [(txt "pkid", dec (V5Unsubscribe.pkid x));
     (txt "filters", (fmt_vec (fmt_str esc)) (V5Unsubscribe.filters x));
     (txt "properties", (fmt_option (v5_UnsubscribeProperties_debug esc)) (V5Unsubscribe.properties x))].

(** src/v5/unsuback.rs:5 derived `Debug` of `UnsubAckReason` *)
Definition v5_UnsubAckReason_debug (esc : bytes -> bytes) (x : V5UnsubAck.UnsubAckReason) : bytes :=
  match x with
  | V5UnsubAck.Success => txt "Success"
  | V5UnsubAck.NoSubscriptionExisted => txt "NoSubscriptionExisted"
  | V5UnsubAck.UnspecifiedError => txt "UnspecifiedError"
  | V5UnsubAck.ImplementationSpecificError => txt "ImplementationSpecificError"
  | V5UnsubAck.NotAuthorized => txt "NotAuthorized"
  | V5UnsubAck.TopicFilterInvalid => txt "TopicFilterInvalid"
  | V5UnsubAck.PacketIdentifierInUse => txt "PacketIdentifierInUse"
  end.

(** src/v5/unsuback.rs:98 derived `Debug` of `UnsubAckProperties` *)
Definition v5_UnsubAckProperties_debug (esc : bytes -> bytes) (x : V5UnsubAck.UnsubAckProperties) : bytes :=
  fmt_struct (txt "UnsubAckProperties")
    [(txt "reason_string", (fmt_option (fmt_str esc)) (V5UnsubAck.reason_string x));
     (txt "user_properties", (fmt_vec (fmt_pair (fmt_str esc) (fmt_str esc))) (V5UnsubAck.user_properties x))].

(** src/v5/unsuback.rs:18 derived `Debug` of `UnsubAck` *)
Definition v5_UnsubAck_debug (esc : bytes -> bytes) (x : V5UnsubAck.UnsubAck) : bytes :=
  fmt_struct (txt "UnsubAck")
    [(txt "pkid", dec (V5UnsubAck.pkid x));
     (txt "reasons", (fmt_vec (v5_UnsubAckReason_debug esc)) (V5UnsubAck.reasons x));
     (txt "properties", (fmt_option (v5_UnsubAckProperties_debug esc)) (V5UnsubAck.properties x))].

(** src/v5/mod.rs:32 derived `Debug` of `Packet` *)
Definition v5_Packet_debug (esc : bytes -> bytes) (x : V5Mod.Packet) : bytes :=
  match x with
  | V5Mod.Connect y => fmt_tuple (txt "Connect") ((v5_Connect_debug esc) y)
  | V5Mod.ConnAck y => fmt_tuple (txt "ConnAck") ((v5_ConnAck_debug esc) y)
  | V5Mod.Publish y => fmt_tuple (txt "Publish") ((v5_Publish_debug esc) y)
  | V5Mod.PubAck y => fmt_tuple (txt "PubAck") ((v5_PubAck_debug esc) y)
  | V5Mod.PubRec y => fmt_tuple (txt "PubRec") ((v5_PubRec_debug esc) y)
  | V5Mod.PubRel y => fmt_tuple (txt "PubRel") ((v5_PubRel_debug esc) y)
  | V5Mod.PubComp y => fmt_tuple (txt "PubComp") ((v5_PubComp_debug esc) y)
  | V5Mod.Subscribe y => fmt_tuple (txt "Subscribe") ((v5_Subscribe_debug esc) y)
  | V5Mod.SubAck y => fmt_tuple (txt "SubAck") ((v5_SubAck_debug esc) y)
  | V5Mod.Unsubscribe y => fmt_tuple (txt "Unsubscribe") ((v5_Unsubscribe_debug esc) y)
  | V5Mod.UnsubAck y => fmt_tuple (txt "UnsubAck") ((v5_UnsubAck_debug esc) y)
  | V5Mod.PingReq => txt "PingReq"
  | V5Mod.PingResp => txt "PingResp"
  | V5Mod.Disconnect y => fmt_tuple (txt "Disconnect") ((v5_Disconnect_debug esc) y)
  end.

(** src/v5/mod.rs:50 derived `Debug` of `PropertyType` *)
Definition v5_PropertyType_debug (esc : bytes -> bytes) (x : V5Property.PropertyType) : bytes :=
  match x with
  | V5Property.PayloadFormatIndicator => txt "PayloadFormatIndicator"
  | V5Property.MessageExpiryInterval => txt "MessageExpiryInterval"
  | V5Property.ContentType => txt "ContentType"
  | V5Property.ResponseTopic => txt "ResponseTopic"
  | V5Property.CorrelationData => txt "CorrelationData"
  | V5Property.SubscriptionIdentifier => txt "SubscriptionIdentifier"
  | V5Property.SessionExpiryInterval => txt "SessionExpiryInterval"
  | V5Property.AssignedClientIdentifier => txt "AssignedClientIdentifier"
  | V5Property.ServerKeepAlive => txt "ServerKeepAlive"
  | V5Property.AuthenticationMethod => txt "AuthenticationMethod"
  | V5Property.AuthenticationData => txt "AuthenticationData"
  | V5Property.RequestProblemInformation => txt "RequestProblemInformation"
  | V5Property.WillDelayInterval => txt "WillDelayInterval"
  | V5Property.RequestResponseInformation => txt "RequestResponseInformation"
  | V5Property.ResponseInformation => txt "ResponseInformation"
  | V5Property.ServerReference => txt "ServerReference"
  | V5Property.ReasonString => txt "ReasonString"
  | V5Property.ReceiveMaximum => txt "ReceiveMaximum"
  | V5Property.TopicAliasMaximum => txt "TopicAliasMaximum"
  | V5Property.TopicAlias => txt "TopicAlias"
  | V5Property.MaximumQos => txt "MaximumQos"
  | V5Property.RetainAvailable => txt "RetainAvailable"
  | V5Property.UserProperty => txt "UserProperty"
  | V5Property.MaximumPacketSize => txt "MaximumPacketSize"
  | V5Property.WildcardSubscriptionAvailable => txt "WildcardSubscriptionAvailable"
  | V5Property.SubscriptionIdentifierAvailable => txt "SubscriptionIdentifierAvailable"
  | V5Property.SharedSubscriptionAvailable => txt "SharedSubscriptionAvailable"
  end.

(** src/v5/publish.rs:132 derived `Debug` of `PublishProperties` *)
Definition v5_PublishProperties_debug (esc : bytes -> bytes) (x : V5Publish.PublishProperties) : bytes :=
  fmt_struct (txt "PublishProperties")
    [(txt "payload_format_indicator", (fmt_option dec) (V5Publish.payload_format_indicator x));
     (txt "message_expiry_interval", (fmt_option dec) (V5Publish.message_expiry_interval x));
     (txt "topic_alias", (fmt_option dec) (V5Publish.topic_alias x));
     (txt "response_topic", (fmt_option (fmt_str esc)) (V5Publish.response_topic x));
     (txt "correlation_data", (fmt_option fmt_bytes) (V5Publish.correlation_data x));
     (txt "user_properties", (fmt_vec (fmt_pair (fmt_str esc) (fmt_str esc))) (V5Publish.user_properties x));
     (txt "subscription_identifiers", (fmt_vec dec) (V5Publish.subscription_identifiers x));
     (txt "content_type", (fmt_option (fmt_str esc)) (V5Publish.content_type x))].

(** src/v5/subscribe.rs:153 derived `Debug` of `SubscribeProperties` *)
Definition v5_SubscribeProperties_debug (esc : bytes -> bytes) (x : V5Subscribe.SubscribeProperties) : bytes :=
  fmt_struct (txt "SubscribeProperties")
    [(txt "id", (fmt_option dec) (V5Subscribe.id x));
     (txt "user_properties", (fmt_vec (fmt_pair (fmt_str esc) (fmt_str esc))) (V5Subscribe.user_properties x))].

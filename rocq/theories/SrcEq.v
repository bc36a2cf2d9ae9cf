(** SrcEq.v -- GENERATED by tools/rust2coq.py from the `PartialEq` and `PartialOrd` of /repo/src; do not edit.
    Not translated (no counterpart in the model):
     src/v4/disconnect.rs:4 Disconnect
     src/v4/ping.rs:4 PingReq
     src/v4/ping.rs:13 PingResp
     src/v4/subscribe.rs:123 RetainForwardRule
     src/v5/ping.rs:4 PingReq
     src/v5/ping.rs:13 PingResp
    No proofs in this file. *)
From Verif Require Import Base Lib SrcCmp.
From Verif Require V4ConnAck V4Connect V4Mod V4PubAck V4PubComp V4PubRec V4PubRel V4Publish V4SubAck V4Subscribe V4UnsubAck V4Unsubscribe V5ConnAck V5Connect V5Disconnect V5Mod V5Property V5PubAck V5PubComp V5PubRec V5PubRel V5Publish V5SubAck V5Subscribe V5UnsubAck V5Unsubscribe.

(** src/lib.rs:46 derived `==` of `PacketType` *)
Definition PacketType_eq (x y : Base.PacketType) : bool :=
  match x, y with
  | Base.PT_Connect, Base.PT_Connect => true
  | Base.PT_ConnAck, Base.PT_ConnAck => true
  | Base.PT_Publish, Base.PT_Publish => true
  | Base.PT_PubAck, Base.PT_PubAck => true
  | Base.PT_PubRec, Base.PT_PubRec => true
  | Base.PT_PubRel, Base.PT_PubRel => true
  | Base.PT_PubComp, Base.PT_PubComp => true
  | Base.PT_Subscribe, Base.PT_Subscribe => true
  | Base.PT_SubAck, Base.PT_SubAck => true
  | Base.PT_Unsubscribe, Base.PT_Unsubscribe => true
  | Base.PT_UnsubAck, Base.PT_UnsubAck => true
  | Base.PT_PingReq, Base.PT_PingReq => true
  | Base.PT_PingResp, Base.PT_PingResp => true
  | Base.PT_Disconnect, Base.PT_Disconnect => true
  | _, _ => false
  end.

(** src/lib.rs:14 derived `==` of `Error` *)
Definition Error_eq (x y : Base.Error) : bool :=
  match x, y with
  | Base.NotConnect a, Base.NotConnect b => PacketType_eq a b
  | Base.UnexpectedConnect, Base.UnexpectedConnect => true
  | Base.InvalidConnectReturnCode a, Base.InvalidConnectReturnCode b => N.eqb a b
  | Base.InvalidReason a, Base.InvalidReason b => N.eqb a b
  | Base.InvalidProtocol, Base.InvalidProtocol => true
  | Base.InvalidProtocolLevel a, Base.InvalidProtocolLevel b => N.eqb a b
  | Base.IncorrectPacketFormat, Base.IncorrectPacketFormat => true
  | Base.InvalidPacketType a, Base.InvalidPacketType b => N.eqb a b
  | Base.InvalidPropertyType a, Base.InvalidPropertyType b => N.eqb a b
  | Base.InvalidRetainForwardRule a, Base.InvalidRetainForwardRule b => N.eqb a b
  | Base.InvalidQoS a, Base.InvalidQoS b => N.eqb a b
  | Base.InvalidSubscribeReasonCode a, Base.InvalidSubscribeReasonCode b => N.eqb a b
  | Base.PacketIdZero, Base.PacketIdZero => true
  | Base.SubscriptionIdZero, Base.SubscriptionIdZero => true
  | Base.PayloadSizeIncorrect, Base.PayloadSizeIncorrect => true
  | Base.PayloadTooLong, Base.PayloadTooLong => true
  | Base.PayloadSizeLimitExceeded a, Base.PayloadSizeLimitExceeded b => N.eqb a b
  | Base.PayloadRequired, Base.PayloadRequired => true
  | Base.TopicNotUtf8, Base.TopicNotUtf8 => true
  | Base.BoundaryCrossed a, Base.BoundaryCrossed b => N.eqb a b
  | Base.MalformedPacket, Base.MalformedPacket => true
  | Base.MalformedRemainingLength, Base.MalformedRemainingLength => true
  | Base.EmptySubscription, Base.EmptySubscription => true
  | Base.InsufficientBytes a, Base.InsufficientBytes b => N.eqb a b
  | _, _ => false
  end.

(** src/lib.rs:66 derived `==` of `Protocol` *)
Definition Protocol_eq (x y : Base.Protocol) : bool :=
  match x, y with
  | Base.V4, Base.V4 => true
  | Base.V5, Base.V5 => true
  | _, _ => false
  end.

(** src/lib.rs:73 derived `==` of `QoS` *)
Definition QoS_eq (x y : Base.QoS) : bool :=
  match x, y with
  | Base.AtMostOnce, Base.AtMostOnce => true
  | Base.AtLeastOnce, Base.AtLeastOnce => true
  | Base.ExactlyOnce, Base.ExactlyOnce => true
  | _, _ => false
  end.

(** src/lib.rs:73 derived `partial_cmp` of `QoS`: by discriminant *)
Definition QoS_cmp (x y : Base.QoS) : comparison :=
  N.compare (match x with Base.AtMostOnce => 0 | Base.AtLeastOnce => 1 | Base.ExactlyOnce => 2 end)
    (match y with Base.AtMostOnce => 0 | Base.AtLeastOnce => 1 | Base.ExactlyOnce => 2 end).

(** src/lib.rs:93 derived `==` of `FixedHeader` *)
Definition FixedHeader_eq (x y : Lib.FixedHeader) : bool :=
  N.eqb (Lib.byte1 x) (Lib.byte1 y)
  && N.eqb (Lib.fixed_header_len x) (Lib.fixed_header_len y)
  && N.eqb (Lib.remaining_len x) (Lib.remaining_len y).

(** src/lib.rs:93 derived `partial_cmp` of `FixedHeader`: field by field *)
Definition FixedHeader_cmp (x y : Lib.FixedHeader) : comparison :=
  N.compare (Lib.byte1 x) (Lib.byte1 y) then_
  N.compare (Lib.fixed_header_len x) (Lib.fixed_header_len y) then_
  N.compare (Lib.remaining_len x) (Lib.remaining_len y).

(** src/v4/connack.rs:5 derived `==` of `ConnectReturnCode` *)
Definition v4_ConnectReturnCode_eq (x y : V4ConnAck.ConnectReturnCode) : bool :=
  match x, y with
  | V4ConnAck.Success, V4ConnAck.Success => true
  | V4ConnAck.RefusedProtocolVersion, V4ConnAck.RefusedProtocolVersion => true
  | V4ConnAck.BadClientId, V4ConnAck.BadClientId => true
  | V4ConnAck.ServiceUnavailable, V4ConnAck.ServiceUnavailable => true
  | V4ConnAck.BadUserNamePassword, V4ConnAck.BadUserNamePassword => true
  | V4ConnAck.NotAuthorized, V4ConnAck.NotAuthorized => true
  | _, _ => false
  end.

(** src/v4/connack.rs:17 derived `==` of `ConnAck` *)
Definition v4_ConnAck_eq (x y : V4ConnAck.ConnAck) : bool :=
  Bool.eqb (V4ConnAck.session_present x) (V4ConnAck.session_present y)
  && v4_ConnectReturnCode_eq (V4ConnAck.code x) (V4ConnAck.code y).

(** src/v4/connect.rs:140 derived `==` of `LastWill` *)
Definition v4_LastWill_eq (x y : V4Connect.LastWill) : bool :=
  eq_bytes (V4Connect.lw_topic x) (V4Connect.lw_topic y)
  && eq_bytes (V4Connect.lw_message x) (V4Connect.lw_message y)
  && QoS_eq (V4Connect.lw_qos x) (V4Connect.lw_qos y)
  && Bool.eqb (V4Connect.lw_retain x) (V4Connect.lw_retain y).

(** src/v4/connect.rs:205 derived `==` of `Login` *)
Definition v4_Login_eq (x y : V4Connect.Login) : bool :=
  eq_bytes (V4Connect.username x) (V4Connect.username y)
  && eq_bytes (V4Connect.password x) (V4Connect.password y).

(** src/v4/connect.rs:7 derived `==` of `Connect` *)
Definition v4_Connect_eq (x y : V4Connect.Connect) : bool :=
  Protocol_eq (V4Connect.protocol x) (V4Connect.protocol y)
  && N.eqb (V4Connect.keep_alive x) (V4Connect.keep_alive y)
  && eq_bytes (V4Connect.client_id x) (V4Connect.client_id y)
  && Bool.eqb (V4Connect.clean_session x) (V4Connect.clean_session y)
  && (eq_option v4_LastWill_eq) (V4Connect.last_will x) (V4Connect.last_will y)
  && (eq_option v4_Login_eq) (V4Connect.login x) (V4Connect.login y).

(** src/v4/publish.rs:8 derived `==` of `Publish` *)
Definition v4_Publish_eq (x y : V4Publish.Publish) : bool :=
  Bool.eqb (V4Publish.dup x) (V4Publish.dup y)
  && QoS_eq (V4Publish.qos x) (V4Publish.qos y)
  && Bool.eqb (V4Publish.retain x) (V4Publish.retain y)
  && eq_bytes (V4Publish.topic x) (V4Publish.topic y)
  && N.eqb (V4Publish.pkid x) (V4Publish.pkid y)
  && eq_bytes (V4Publish.payload x) (V4Publish.payload y).

(** src/v4/puback.rs:5 derived `==` of `PubAck` *)
Definition v4_PubAck_eq (x y : V4PubAck.PubAck) : bool :=
  N.eqb (V4PubAck.pkid x) (V4PubAck.pkid y).

(** src/v4/pubrec.rs:5 derived `==` of `PubRec` *)
Definition v4_PubRec_eq (x y : V4PubRec.PubRec) : bool :=
  N.eqb (V4PubRec.pkid x) (V4PubRec.pkid y).

(** src/v4/pubrel.rs:5 derived `==` of `PubRel` *)
Definition v4_PubRel_eq (x y : V4PubRel.PubRel) : bool :=
  N.eqb (V4PubRel.pkid x) (V4PubRel.pkid y).

(** src/v4/pubcomp.rs:5 derived `==` of `PubComp` *)
Definition v4_PubComp_eq (x y : V4PubComp.PubComp) : bool :=
  N.eqb (V4PubComp.pkid x) (V4PubComp.pkid y).

(** src/v4/subscribe.rs:98 derived `==` of `SubscribeFilter` *)
Definition v4_SubscribeFilter_eq (x y : V4Subscribe.SubscribeFilter) : bool :=
  eq_bytes (V4Subscribe.path x) (V4Subscribe.path y)
  && QoS_eq (V4Subscribe.qos x) (V4Subscribe.qos y).

(** src/v4/subscribe.rs:8 derived `==` of `Subscribe` *)
Definition v4_Subscribe_eq (x y : V4Subscribe.Subscribe) : bool :=
  N.eqb (V4Subscribe.pkid x) (V4Subscribe.pkid y)
  && (eq_vec v4_SubscribeFilter_eq) (V4Subscribe.filters x) (V4Subscribe.filters y).

(** src/v4/suback.rs:61 derived `==` of `SubscribeReasonCode` *)
Definition v4_SubscribeReasonCode_eq (x y : V4SubAck.SubscribeReasonCode) : bool :=
  match x, y with
  | V4SubAck.Success a, V4SubAck.Success b => QoS_eq a b
  | V4SubAck.Failure, V4SubAck.Failure => true
  | _, _ => false
  end.

(** src/v4/suback.rs:7 derived `==` of `SubAck` *)
Definition v4_SubAck_eq (x y : V4SubAck.SubAck) : bool :=
  N.eqb (V4SubAck.pkid x) (V4SubAck.pkid y)
  && (eq_vec v4_SubscribeReasonCode_eq) (V4SubAck.return_codes x) (V4SubAck.return_codes y).

(** src/v4/unsubscribe.rs:7 derived `==` of `Unsubscribe` *)
Definition v4_Unsubscribe_eq (x y : V4Unsubscribe.Unsubscribe) : bool :=
  N.eqb (V4Unsubscribe.pkid x) (V4Unsubscribe.pkid y)
  && (eq_vec eq_bytes) (V4Unsubscribe.topics x) (V4Unsubscribe.topics y).

(** src/v4/unsuback.rs:5 derived `==` of `UnsubAck` *)
Definition v4_UnsubAck_eq (x y : V4UnsubAck.UnsubAck) : bool :=
  N.eqb (V4UnsubAck.pkid x) (V4UnsubAck.pkid y).

(** src/v4/mod.rs:32 derived `==` of `Packet` *)
Definition v4_Packet_eq (x y : V4Mod.Packet) : bool :=
  match x, y with
  | V4Mod.Connect a, V4Mod.Connect b => v4_Connect_eq a b
  | V4Mod.ConnAck a, V4Mod.ConnAck b => v4_ConnAck_eq a b
  | V4Mod.Publish a, V4Mod.Publish b => v4_Publish_eq a b
  | V4Mod.PubAck a, V4Mod.PubAck b => v4_PubAck_eq a b
  | V4Mod.PubRec a, V4Mod.PubRec b => v4_PubRec_eq a b
  | V4Mod.PubRel a, V4Mod.PubRel b => v4_PubRel_eq a b
  | V4Mod.PubComp a, V4Mod.PubComp b => v4_PubComp_eq a b
  | V4Mod.Subscribe a, V4Mod.Subscribe b => v4_Subscribe_eq a b
  | V4Mod.SubAck a, V4Mod.SubAck b => v4_SubAck_eq a b
  | V4Mod.Unsubscribe a, V4Mod.Unsubscribe b => v4_Unsubscribe_eq a b
  | V4Mod.UnsubAck a, V4Mod.UnsubAck b => v4_UnsubAck_eq a b
  | V4Mod.PingReq, V4Mod.PingReq => true
  | V4Mod.PingResp, V4Mod.PingResp => true
  | V4Mod.Disconnect, V4Mod.Disconnect => true
  | _, _ => false
  end.

(** src/v5/connack.rs:7 derived `==` of `ConnectReturnCode` *)
Definition v5_ConnectReturnCode_eq (x y : V5ConnAck.ConnectReturnCode) : bool :=
  match x, y with
  | V5ConnAck.Success, V5ConnAck.Success => true
  | V5ConnAck.UnspecifiedError, V5ConnAck.UnspecifiedError => true
  | V5ConnAck.MalformedPacket, V5ConnAck.MalformedPacket => true
  | V5ConnAck.ProtocolError, V5ConnAck.ProtocolError => true
  | V5ConnAck.ImplementationSpecificError, V5ConnAck.ImplementationSpecificError => true
  | V5ConnAck.UnsupportedProtocolVersion, V5ConnAck.UnsupportedProtocolVersion => true
  | V5ConnAck.ClientIdentifierNotValid, V5ConnAck.ClientIdentifierNotValid => true
  | V5ConnAck.BadUserNamePassword, V5ConnAck.BadUserNamePassword => true
  | V5ConnAck.NotAuthorized, V5ConnAck.NotAuthorized => true
  | V5ConnAck.ServerUnavailable, V5ConnAck.ServerUnavailable => true
  | V5ConnAck.ServerBusy, V5ConnAck.ServerBusy => true
  | V5ConnAck.Banned, V5ConnAck.Banned => true
  | V5ConnAck.BadAuthenticationMethod, V5ConnAck.BadAuthenticationMethod => true
  | V5ConnAck.TopicNameInvalid, V5ConnAck.TopicNameInvalid => true
  | V5ConnAck.PacketTooLarge, V5ConnAck.PacketTooLarge => true
  | V5ConnAck.QuotaExceeded, V5ConnAck.QuotaExceeded => true
  | V5ConnAck.PayloadFormatInvalid, V5ConnAck.PayloadFormatInvalid => true
  | V5ConnAck.RetainNotSupported, V5ConnAck.RetainNotSupported => true
  | V5ConnAck.QoSNotSupported, V5ConnAck.QoSNotSupported => true
  | V5ConnAck.UseAnotherServer, V5ConnAck.UseAnotherServer => true
  | V5ConnAck.ServerMoved, V5ConnAck.ServerMoved => true
  | V5ConnAck.ConnectionRateExceeded, V5ConnAck.ConnectionRateExceeded => true
  | _, _ => false
  end.

(** src/v5/connack.rs:98 derived `==` of `ConnAckProperties` *)
Definition v5_ConnAckProperties_eq (x y : V5ConnAck.ConnAckProperties) : bool :=
  (eq_option N.eqb) (V5ConnAck.session_expiry_interval x) (V5ConnAck.session_expiry_interval y)
  && (eq_option N.eqb) (V5ConnAck.receive_max x) (V5ConnAck.receive_max y)
  && (eq_option N.eqb) (V5ConnAck.max_qos x) (V5ConnAck.max_qos y)
  && (eq_option N.eqb) (V5ConnAck.retain_available x) (V5ConnAck.retain_available y)
  && (eq_option N.eqb) (V5ConnAck.max_packet_size x) (V5ConnAck.max_packet_size y)
  && (eq_option eq_bytes) (V5ConnAck.assigned_client_identifier x) (V5ConnAck.assigned_client_identifier y)
  && (eq_option N.eqb) (V5ConnAck.topic_alias_max x) (V5ConnAck.topic_alias_max y)
  && (eq_option eq_bytes) (V5ConnAck.reason_string x) (V5ConnAck.reason_string y)
  && (eq_vec (eq_pair eq_bytes eq_bytes)) (V5ConnAck.user_properties x) (V5ConnAck.user_properties y)
  && (eq_option N.eqb) (V5ConnAck.wildcard_subscription_available x) (V5ConnAck.wildcard_subscription_available y)
  && (eq_option N.eqb) (V5ConnAck.subscription_identifiers_available x) (V5ConnAck.subscription_identifiers_available y)
  && (eq_option N.eqb) (V5ConnAck.shared_subscription_available x) (V5ConnAck.shared_subscription_available y)
  && (eq_option N.eqb) (V5ConnAck.server_keep_alive x) (V5ConnAck.server_keep_alive y)
  && (eq_option eq_bytes) (V5ConnAck.response_information x) (V5ConnAck.response_information y)
  && (eq_option eq_bytes) (V5ConnAck.server_reference x) (V5ConnAck.server_reference y)
  && (eq_option eq_bytes) (V5ConnAck.authentication_method x) (V5ConnAck.authentication_method y)
  && (eq_option eq_bytes) (V5ConnAck.authentication_data x) (V5ConnAck.authentication_data y).

(** src/v5/connack.rs:35 derived `==` of `ConnAck` *)
Definition v5_ConnAck_eq (x y : V5ConnAck.ConnAck) : bool :=
  Bool.eqb (V5ConnAck.session_present x) (V5ConnAck.session_present y)
  && v5_ConnectReturnCode_eq (V5ConnAck.code x) (V5ConnAck.code y)
  && (eq_option v5_ConnAckProperties_eq) (V5ConnAck.properties x) (V5ConnAck.properties y).

(** src/v5/connect.rs:261 derived `==` of `WillProperties` *)
Definition v5_WillProperties_eq (x y : V5Connect.WillProperties) : bool :=
  (eq_option N.eqb) (V5Connect.wp_delay_interval x) (V5Connect.wp_delay_interval y)
  && (eq_option N.eqb) (V5Connect.wp_payload_format_indicator x) (V5Connect.wp_payload_format_indicator y)
  && (eq_option N.eqb) (V5Connect.wp_message_expiry_interval x) (V5Connect.wp_message_expiry_interval y)
  && (eq_option eq_bytes) (V5Connect.wp_content_type x) (V5Connect.wp_content_type y)
  && (eq_option eq_bytes) (V5Connect.wp_response_topic x) (V5Connect.wp_response_topic y)
  && (eq_option eq_bytes) (V5Connect.wp_correlation_data x) (V5Connect.wp_correlation_data y)
  && (eq_vec (eq_pair eq_bytes eq_bytes)) (V5Connect.wp_user_properties x) (V5Connect.wp_user_properties y).

(** src/v5/connect.rs:170 derived `==` of `LastWill` *)
Definition v5_LastWill_eq (x y : V5Connect.LastWill) : bool :=
  eq_bytes (V5Connect.lw_topic x) (V5Connect.lw_topic y)
  && eq_bytes (V5Connect.lw_message x) (V5Connect.lw_message y)
  && QoS_eq (V5Connect.lw_qos x) (V5Connect.lw_qos y)
  && Bool.eqb (V5Connect.lw_retain x) (V5Connect.lw_retain y)
  && (eq_option v5_WillProperties_eq) (V5Connect.lw_properties x) (V5Connect.lw_properties y).

(** src/v5/connect.rs:421 derived `==` of `Login` *)
Definition v5_Login_eq (x y : V5Connect.Login) : bool :=
  eq_bytes (V5Connect.username x) (V5Connect.username y)
  && eq_bytes (V5Connect.password x) (V5Connect.password y).

(** src/v5/connect.rs:483 derived `==` of `ConnectProperties` *)
Definition v5_ConnectProperties_eq (x y : V5Connect.ConnectProperties) : bool :=
  (eq_option N.eqb) (V5Connect.cp_session_expiry_interval x) (V5Connect.cp_session_expiry_interval y)
  && (eq_option N.eqb) (V5Connect.cp_receive_maximum x) (V5Connect.cp_receive_maximum y)
  && (eq_option N.eqb) (V5Connect.cp_max_packet_size x) (V5Connect.cp_max_packet_size y)
  && (eq_option N.eqb) (V5Connect.cp_topic_alias_max x) (V5Connect.cp_topic_alias_max y)
  && (eq_option N.eqb) (V5Connect.cp_request_response_info x) (V5Connect.cp_request_response_info y)
  && (eq_option N.eqb) (V5Connect.cp_request_problem_info x) (V5Connect.cp_request_problem_info y)
  && (eq_vec (eq_pair eq_bytes eq_bytes)) (V5Connect.cp_user_properties x) (V5Connect.cp_user_properties y)
  && (eq_option eq_bytes) (V5Connect.cp_authentication_method x) (V5Connect.cp_authentication_method y)
  && (eq_option eq_bytes) (V5Connect.cp_authentication_data x) (V5Connect.cp_authentication_data y).

(** src/v5/connect.rs:7 derived `==` of `Connect` *)
Definition v5_Connect_eq (x y : V5Connect.Connect) : bool :=
  Protocol_eq (V5Connect.protocol x) (V5Connect.protocol y)
  && N.eqb (V5Connect.keep_alive x) (V5Connect.keep_alive y)
  && eq_bytes (V5Connect.client_id x) (V5Connect.client_id y)
  && Bool.eqb (V5Connect.clean_session x) (V5Connect.clean_session y)
  && (eq_option v5_LastWill_eq) (V5Connect.last_will x) (V5Connect.last_will y)
  && (eq_option v5_Login_eq) (V5Connect.login x) (V5Connect.login y)
  && (eq_option v5_ConnectProperties_eq) (V5Connect.properties x) (V5Connect.properties y).

(** src/v5/disconnect.rs:9 derived `==` of `DisconnectReasonCode` *)
Definition v5_DisconnectReasonCode_eq (x y : V5Disconnect.DisconnectReasonCode) : bool :=
  match x, y with
  | V5Disconnect.NormalDisconnection, V5Disconnect.NormalDisconnection => true
  | V5Disconnect.DisconnectWithWillMessage, V5Disconnect.DisconnectWithWillMessage => true
  | V5Disconnect.UnspecifiedError, V5Disconnect.UnspecifiedError => true
  | V5Disconnect.MalformedPacket, V5Disconnect.MalformedPacket => true
  | V5Disconnect.ProtocolError, V5Disconnect.ProtocolError => true
  | V5Disconnect.ImplementationSpecificError, V5Disconnect.ImplementationSpecificError => true
  | V5Disconnect.NotAuthorized, V5Disconnect.NotAuthorized => true
  | V5Disconnect.ServerBusy, V5Disconnect.ServerBusy => true
  | V5Disconnect.ServerShuttingDown, V5Disconnect.ServerShuttingDown => true
  | V5Disconnect.KeepAliveTimeout, V5Disconnect.KeepAliveTimeout => true
  | V5Disconnect.SessionTakenOver, V5Disconnect.SessionTakenOver => true
  | V5Disconnect.TopicFilterInvalid, V5Disconnect.TopicFilterInvalid => true
  | V5Disconnect.TopicNameInvalid, V5Disconnect.TopicNameInvalid => true
  | V5Disconnect.ReceiveMaximumExceeded, V5Disconnect.ReceiveMaximumExceeded => true
  | V5Disconnect.TopicAliasInvalid, V5Disconnect.TopicAliasInvalid => true
  | V5Disconnect.PacketTooLarge, V5Disconnect.PacketTooLarge => true
  | V5Disconnect.MessageRateTooHigh, V5Disconnect.MessageRateTooHigh => true
  | V5Disconnect.QuotaExceeded, V5Disconnect.QuotaExceeded => true
  | V5Disconnect.AdministrativeAction, V5Disconnect.AdministrativeAction => true
  | V5Disconnect.PayloadFormatInvalid, V5Disconnect.PayloadFormatInvalid => true
  | V5Disconnect.RetainNotSupported, V5Disconnect.RetainNotSupported => true
  | V5Disconnect.QoSNotSupported, V5Disconnect.QoSNotSupported => true
  | V5Disconnect.UseAnotherServer, V5Disconnect.UseAnotherServer => true
  | V5Disconnect.ServerMoved, V5Disconnect.ServerMoved => true
  | V5Disconnect.SharedSubscriptionNotSupported, V5Disconnect.SharedSubscriptionNotSupported => true
  | V5Disconnect.ConnectionRateExceeded, V5Disconnect.ConnectionRateExceeded => true
  | V5Disconnect.MaximumConnectTime, V5Disconnect.MaximumConnectTime => true
  | V5Disconnect.SubscriptionIdentifiersNotSupported, V5Disconnect.SubscriptionIdentifiersNotSupported => true
  | V5Disconnect.WildcardSubscriptionsNotSupported, V5Disconnect.WildcardSubscriptionsNotSupported => true
  | _, _ => false
  end.

(** src/v5/disconnect.rs:113 derived `==` of `DisconnectProperties` *)
Definition v5_DisconnectProperties_eq (x y : V5Disconnect.DisconnectProperties) : bool :=
  (eq_option N.eqb) (V5Disconnect.session_expiry_interval x) (V5Disconnect.session_expiry_interval y)
  && (eq_option eq_bytes) (V5Disconnect.reason_string x) (V5Disconnect.reason_string y)
  && (eq_vec (eq_pair eq_bytes eq_bytes)) (V5Disconnect.user_properties x) (V5Disconnect.user_properties y)
  && (eq_option eq_bytes) (V5Disconnect.server_reference x) (V5Disconnect.server_reference y).

(** src/v5/disconnect.rs:128 derived `==` of `Disconnect` *)
Definition v5_Disconnect_eq (x y : V5Disconnect.Disconnect) : bool :=
  v5_DisconnectReasonCode_eq (V5Disconnect.reason_code x) (V5Disconnect.reason_code y)
  && (eq_option v5_DisconnectProperties_eq) (V5Disconnect.properties x) (V5Disconnect.properties y).

(** src/v5/publish.rs:132 derived `==` of `PublishProperties` *)
Definition v5_PublishProperties_eq (x y : V5Publish.PublishProperties) : bool :=
  (eq_option N.eqb) (V5Publish.payload_format_indicator x) (V5Publish.payload_format_indicator y)
  && (eq_option N.eqb) (V5Publish.message_expiry_interval x) (V5Publish.message_expiry_interval y)
  && (eq_option N.eqb) (V5Publish.topic_alias x) (V5Publish.topic_alias y)
  && (eq_option eq_bytes) (V5Publish.response_topic x) (V5Publish.response_topic y)
  && (eq_option eq_bytes) (V5Publish.correlation_data x) (V5Publish.correlation_data y)
  && (eq_vec (eq_pair eq_bytes eq_bytes)) (V5Publish.user_properties x) (V5Publish.user_properties y)
  && (eq_vec N.eqb) (V5Publish.subscription_identifiers x) (V5Publish.subscription_identifiers y)
  && (eq_option eq_bytes) (V5Publish.content_type x) (V5Publish.content_type y).

(** src/v5/publish.rs:8 derived `==` of `Publish` *)
Definition v5_Publish_eq (x y : V5Publish.Publish) : bool :=
  Bool.eqb (V5Publish.dup x) (V5Publish.dup y)
  && QoS_eq (V5Publish.qos x) (V5Publish.qos y)
  && Bool.eqb (V5Publish.retain x) (V5Publish.retain y)
  && eq_bytes (V5Publish.topic x) (V5Publish.topic y)
  && N.eqb (V5Publish.pkid x) (V5Publish.pkid y)
  && (eq_option v5_PublishProperties_eq) (V5Publish.properties x) (V5Publish.properties y)
  && eq_bytes (V5Publish.payload x) (V5Publish.payload y).

(** src/v5/puback.rs:5 derived `==` of `PubAckReason` *)
Definition v5_PubAckReason_eq (x y : V5PubAck.PubAckReason) : bool :=
  match x, y with
  | V5PubAck.Success, V5PubAck.Success => true
  | V5PubAck.NoMatchingSubscribers, V5PubAck.NoMatchingSubscribers => true
  | V5PubAck.UnspecifiedError, V5PubAck.UnspecifiedError => true
  | V5PubAck.ImplementationSpecificError, V5PubAck.ImplementationSpecificError => true
  | V5PubAck.NotAuthorized, V5PubAck.NotAuthorized => true
  | V5PubAck.TopicNameInvalid, V5PubAck.TopicNameInvalid => true
  | V5PubAck.PacketIdentifierInUse, V5PubAck.PacketIdentifierInUse => true
  | V5PubAck.QuotaExceeded, V5PubAck.QuotaExceeded => true
  | V5PubAck.PayloadFormatInvalid, V5PubAck.PayloadFormatInvalid => true
  | _, _ => false
  end.

(** src/v5/puback.rs:110 derived `==` of `PubAckProperties` *)
Definition v5_PubAckProperties_eq (x y : V5PubAck.PubAckProperties) : bool :=
  (eq_option eq_bytes) (V5PubAck.reason_string x) (V5PubAck.reason_string y)
  && (eq_vec (eq_pair eq_bytes eq_bytes)) (V5PubAck.user_properties x) (V5PubAck.user_properties y).

(** src/v5/puback.rs:20 derived `==` of `PubAck` *)
Definition v5_PubAck_eq (x y : V5PubAck.PubAck) : bool :=
  N.eqb (V5PubAck.pkid x) (V5PubAck.pkid y)
  && v5_PubAckReason_eq (V5PubAck.reason x) (V5PubAck.reason y)
  && (eq_option v5_PubAckProperties_eq) (V5PubAck.properties x) (V5PubAck.properties y).

(** src/v5/pubrec.rs:5 derived `==` of `PubRecReason` *)
Definition v5_PubRecReason_eq (x y : V5PubRec.PubRecReason) : bool :=
  match x, y with
  | V5PubRec.Success, V5PubRec.Success => true
  | V5PubRec.NoMatchingSubscribers, V5PubRec.NoMatchingSubscribers => true
  | V5PubRec.UnspecifiedError, V5PubRec.UnspecifiedError => true
  | V5PubRec.ImplementationSpecificError, V5PubRec.ImplementationSpecificError => true
  | V5PubRec.NotAuthorized, V5PubRec.NotAuthorized => true
  | V5PubRec.TopicNameInvalid, V5PubRec.TopicNameInvalid => true
  | V5PubRec.PacketIdentifierInUse, V5PubRec.PacketIdentifierInUse => true
  | V5PubRec.QuotaExceeded, V5PubRec.QuotaExceeded => true
  | V5PubRec.PayloadFormatInvalid, V5PubRec.PayloadFormatInvalid => true
  | _, _ => false
  end.

(** src/v5/pubrec.rs:106 derived `==` of `PubRecProperties` *)
Definition v5_PubRecProperties_eq (x y : V5PubRec.PubRecProperties) : bool :=
  (eq_option eq_bytes) (V5PubRec.reason_string x) (V5PubRec.reason_string y)
  && (eq_vec (eq_pair eq_bytes eq_bytes)) (V5PubRec.user_properties x) (V5PubRec.user_properties y).

(** src/v5/pubrec.rs:20 derived `==` of `PubRec` *)
Definition v5_PubRec_eq (x y : V5PubRec.PubRec) : bool :=
  N.eqb (V5PubRec.pkid x) (V5PubRec.pkid y)
  && v5_PubRecReason_eq (V5PubRec.reason x) (V5PubRec.reason y)
  && (eq_option v5_PubRecProperties_eq) (V5PubRec.properties x) (V5PubRec.properties y).

(** src/v5/pubrel.rs:5 derived `==` of `PubRelReason` *)
Definition v5_PubRelReason_eq (x y : V5PubRel.PubRelReason) : bool :=
  match x, y with
  | V5PubRel.Success, V5PubRel.Success => true
  | V5PubRel.PacketIdentifierNotFound, V5PubRel.PacketIdentifierNotFound => true
  | _, _ => false
  end.

(** src/v5/pubrel.rs:97 derived `==` of `PubRelProperties` *)
Definition v5_PubRelProperties_eq (x y : V5PubRel.PubRelProperties) : bool :=
  (eq_option eq_bytes) (V5PubRel.reason_string x) (V5PubRel.reason_string y)
  && (eq_vec (eq_pair eq_bytes eq_bytes)) (V5PubRel.user_properties x) (V5PubRel.user_properties y).

(** src/v5/pubrel.rs:13 derived `==` of `PubRel` *)
Definition v5_PubRel_eq (x y : V5PubRel.PubRel) : bool :=
  N.eqb (V5PubRel.pkid x) (V5PubRel.pkid y)
  && v5_PubRelReason_eq (V5PubRel.reason x) (V5PubRel.reason y)
  && (eq_option v5_PubRelProperties_eq) (V5PubRel.properties x) (V5PubRel.properties y).

(** src/v5/pubcomp.rs:5 derived `==` of `PubCompReason` *)
Definition v5_PubCompReason_eq (x y : V5PubComp.PubCompReason) : bool :=
  match x, y with
  | V5PubComp.Success, V5PubComp.Success => true
  | V5PubComp.PacketIdentifierNotFound, V5PubComp.PacketIdentifierNotFound => true
  | _, _ => false
  end.

(** src/v5/pubcomp.rs:98 derived `==` of `PubCompProperties` *)
Definition v5_PubCompProperties_eq (x y : V5PubComp.PubCompProperties) : bool :=
  (eq_option eq_bytes) (V5PubComp.reason_string x) (V5PubComp.reason_string y)
  && (eq_vec (eq_pair eq_bytes eq_bytes)) (V5PubComp.user_properties x) (V5PubComp.user_properties y).

(** src/v5/pubcomp.rs:13 derived `==` of `PubComp` *)
Definition v5_PubComp_eq (x y : V5PubComp.PubComp) : bool :=
  N.eqb (V5PubComp.pkid x) (V5PubComp.pkid y)
  && v5_PubCompReason_eq (V5PubComp.reason x) (V5PubComp.reason y)
  && (eq_option v5_PubCompProperties_eq) (V5PubComp.properties x) (V5PubComp.properties y).

(** src/v5/subscribe.rs:298 derived `==` of `RetainForwardRule` *)
Definition v5_RetainForwardRule_eq (x y : V5Subscribe.RetainForwardRule) : bool :=
  match x, y with
  | V5Subscribe.OnEverySubscribe, V5Subscribe.OnEverySubscribe => true
  | V5Subscribe.OnNewSubscribe, V5Subscribe.OnNewSubscribe => true
  | V5Subscribe.Never, V5Subscribe.Never => true
  | _, _ => false
  end.

(** src/v5/subscribe.rs:235 derived `==` of `SubscribeFilter` *)
Definition v5_SubscribeFilter_eq (x y : V5Subscribe.SubscribeFilter) : bool :=
  eq_bytes (V5Subscribe.path x) (V5Subscribe.path y)
  && QoS_eq (V5Subscribe.qos x) (V5Subscribe.qos y)
  && Bool.eqb (V5Subscribe.nolocal x) (V5Subscribe.nolocal y)
  && Bool.eqb (V5Subscribe.preserve_retain x) (V5Subscribe.preserve_retain y)
  && v5_RetainForwardRule_eq (V5Subscribe.retain_forward_rule x) (V5Subscribe.retain_forward_rule y).

(** src/v5/subscribe.rs:153 derived `==` of `SubscribeProperties` *)
Definition v5_SubscribeProperties_eq (x y : V5Subscribe.SubscribeProperties) : bool :=
  (eq_option N.eqb) (V5Subscribe.id x) (V5Subscribe.id y)
  && (eq_vec (eq_pair eq_bytes eq_bytes)) (V5Subscribe.user_properties x) (V5Subscribe.user_properties y).

(** src/v5/subscribe.rs:8 derived `==` of `Subscribe` *)
Definition v5_Subscribe_eq (x y : V5Subscribe.Subscribe) : bool :=
  N.eqb (V5Subscribe.pkid x) (V5Subscribe.pkid y)
  && (eq_vec v5_SubscribeFilter_eq) (V5Subscribe.filters x) (V5Subscribe.filters y)
  && (eq_option v5_SubscribeProperties_eq) (V5Subscribe.properties x) (V5Subscribe.properties y).

(** src/v5/suback.rs:165 derived `==` of `SubscribeReasonCode` *)
Definition v5_SubscribeReasonCode_eq (x y : V5SubAck.SubscribeReasonCode) : bool :=
  match x, y with
  | V5SubAck.QoS0, V5SubAck.QoS0 => true
  | V5SubAck.QoS1, V5SubAck.QoS1 => true
  | V5SubAck.QoS2, V5SubAck.QoS2 => true
  | V5SubAck.Unspecified, V5SubAck.Unspecified => true
  | V5SubAck.ImplementationSpecific, V5SubAck.ImplementationSpecific => true
  | V5SubAck.NotAuthorized, V5SubAck.NotAuthorized => true
  | V5SubAck.TopicFilterInvalid, V5SubAck.TopicFilterInvalid => true
  | V5SubAck.PkidInUse, V5SubAck.PkidInUse => true
  | V5SubAck.QuotaExceeded, V5SubAck.QuotaExceeded => true
  | V5SubAck.SharedSubscriptionsNotSupported, V5SubAck.SharedSubscriptionsNotSupported => true
  | V5SubAck.SubscriptionIdNotSupported, V5SubAck.SubscriptionIdNotSupported => true
  | V5SubAck.WildcardSubscriptionsNotSupported, V5SubAck.WildcardSubscriptionsNotSupported => true
  | _, _ => false
  end.

(** src/v5/suback.rs:87 derived `==` of `SubAckProperties` *)
Definition v5_SubAckProperties_eq (x y : V5SubAck.SubAckProperties) : bool :=
  (eq_option eq_bytes) (V5SubAck.reason_string x) (V5SubAck.reason_string y)
  && (eq_vec (eq_pair eq_bytes eq_bytes)) (V5SubAck.user_properties x) (V5SubAck.user_properties y).

(** src/v5/suback.rs:7 derived `==` of `SubAck` *)
Definition v5_SubAck_eq (x y : V5SubAck.SubAck) : bool :=
  N.eqb (V5SubAck.pkid x) (V5SubAck.pkid y)
  && (eq_vec v5_SubscribeReasonCode_eq) (V5SubAck.return_codes x) (V5SubAck.return_codes y)
  && (eq_option v5_SubAckProperties_eq) (V5SubAck.properties x) (V5SubAck.properties y).

(** src/v5/unsubscribe.rs:88 derived `==` of `UnsubscribeProperties` *)
Definition v5_UnsubscribeProperties_eq (x y : V5Unsubscribe.UnsubscribeProperties) : bool :=
  (eq_vec (eq_pair eq_bytes eq_bytes)) (V5Unsubscribe.user_properties x) (V5Unsubscribe.user_properties y).

(** src/v5/unsubscribe.rs:7 derived `==` of `Unsubscribe` *)
Definition v5_Unsubscribe_eq (x y : V5Unsubscribe.Unsubscribe) : bool :=
  N.eqb (V5Unsubscribe.pkid x) (V5Unsubscribe.pkid y)
  && (eq_vec eq_bytes) (V5Unsubscribe.filters x) (V5Unsubscribe.filters y)
  && (eq_option v5_UnsubscribeProperties_eq) (V5Unsubscribe.properties x) (V5Unsubscribe.properties y).

(** src/v5/unsuback.rs:5 derived `==` of `UnsubAckReason` *)
Definition v5_UnsubAckReason_eq (x y : V5UnsubAck.UnsubAckReason) : bool :=
  match x, y with
  | V5UnsubAck.Success, V5UnsubAck.Success => true
  | V5UnsubAck.NoSubscriptionExisted, V5UnsubAck.NoSubscriptionExisted => true
  | V5UnsubAck.UnspecifiedError, V5UnsubAck.UnspecifiedError => true
  | V5UnsubAck.ImplementationSpecificError, V5UnsubAck.ImplementationSpecificError => true
  | V5UnsubAck.NotAuthorized, V5UnsubAck.NotAuthorized => true
  | V5UnsubAck.TopicFilterInvalid, V5UnsubAck.TopicFilterInvalid => true
  | V5UnsubAck.PacketIdentifierInUse, V5UnsubAck.PacketIdentifierInUse => true
  | _, _ => false
  end.

(** src/v5/unsuback.rs:98 derived `==` of `UnsubAckProperties` *)
Definition v5_UnsubAckProperties_eq (x y : V5UnsubAck.UnsubAckProperties) : bool :=
  (eq_option eq_bytes) (V5UnsubAck.reason_string x) (V5UnsubAck.reason_string y)
  && (eq_vec (eq_pair eq_bytes eq_bytes)) (V5UnsubAck.user_properties x) (V5UnsubAck.user_properties y).

(** src/v5/unsuback.rs:18 derived `==` of `UnsubAck` *)
Definition v5_UnsubAck_eq (x y : V5UnsubAck.UnsubAck) : bool :=
  N.eqb (V5UnsubAck.pkid x) (V5UnsubAck.pkid y)
  && (eq_vec v5_UnsubAckReason_eq) (V5UnsubAck.reasons x) (V5UnsubAck.reasons y)
  && (eq_option v5_UnsubAckProperties_eq) (V5UnsubAck.properties x) (V5UnsubAck.properties y).

(** src/v5/mod.rs:32 derived `==` of `Packet` *)
Definition v5_Packet_eq (x y : V5Mod.Packet) : bool :=
  match x, y with
  | V5Mod.Connect a, V5Mod.Connect b => v5_Connect_eq a b
  | V5Mod.ConnAck a, V5Mod.ConnAck b => v5_ConnAck_eq a b
  | V5Mod.Publish a, V5Mod.Publish b => v5_Publish_eq a b
  | V5Mod.PubAck a, V5Mod.PubAck b => v5_PubAck_eq a b
  | V5Mod.PubRec a, V5Mod.PubRec b => v5_PubRec_eq a b
  | V5Mod.PubRel a, V5Mod.PubRel b => v5_PubRel_eq a b
  | V5Mod.PubComp a, V5Mod.PubComp b => v5_PubComp_eq a b
  | V5Mod.Subscribe a, V5Mod.Subscribe b => v5_Subscribe_eq a b
  | V5Mod.SubAck a, V5Mod.SubAck b => v5_SubAck_eq a b
  | V5Mod.Unsubscribe a, V5Mod.Unsubscribe b => v5_Unsubscribe_eq a b
  | V5Mod.UnsubAck a, V5Mod.UnsubAck b => v5_UnsubAck_eq a b
  | V5Mod.PingReq, V5Mod.PingReq => true
  | V5Mod.PingResp, V5Mod.PingResp => true
  | V5Mod.Disconnect a, V5Mod.Disconnect b => v5_Disconnect_eq a b
  | _, _ => false
  end.

(** src/v5/mod.rs:50 derived `==` of `PropertyType` *)
Definition v5_PropertyType_eq (x y : V5Property.PropertyType) : bool :=
  match x, y with
  | V5Property.PayloadFormatIndicator, V5Property.PayloadFormatIndicator => true
  | V5Property.MessageExpiryInterval, V5Property.MessageExpiryInterval => true
  | V5Property.ContentType, V5Property.ContentType => true
  | V5Property.ResponseTopic, V5Property.ResponseTopic => true
  | V5Property.CorrelationData, V5Property.CorrelationData => true
  | V5Property.SubscriptionIdentifier, V5Property.SubscriptionIdentifier => true
  | V5Property.SessionExpiryInterval, V5Property.SessionExpiryInterval => true
  | V5Property.AssignedClientIdentifier, V5Property.AssignedClientIdentifier => true
  | V5Property.ServerKeepAlive, V5Property.ServerKeepAlive => true
  | V5Property.AuthenticationMethod, V5Property.AuthenticationMethod => true
  | V5Property.AuthenticationData, V5Property.AuthenticationData => true
  | V5Property.RequestProblemInformation, V5Property.RequestProblemInformation => true
  | V5Property.WillDelayInterval, V5Property.WillDelayInterval => true
  | V5Property.RequestResponseInformation, V5Property.RequestResponseInformation => true
  | V5Property.ResponseInformation, V5Property.ResponseInformation => true
  | V5Property.ServerReference, V5Property.ServerReference => true
  | V5Property.ReasonString, V5Property.ReasonString => true
  | V5Property.ReceiveMaximum, V5Property.ReceiveMaximum => true
  | V5Property.TopicAliasMaximum, V5Property.TopicAliasMaximum => true
  | V5Property.TopicAlias, V5Property.TopicAlias => true
  | V5Property.MaximumQos, V5Property.MaximumQos => true
  | V5Property.RetainAvailable, V5Property.RetainAvailable => true
  | V5Property.UserProperty, V5Property.UserProperty => true
  | V5Property.MaximumPacketSize, V5Property.MaximumPacketSize => true
  | V5Property.WildcardSubscriptionAvailable, V5Property.WildcardSubscriptionAvailable => true
  | V5Property.SubscriptionIdentifierAvailable, V5Property.SubscriptionIdentifierAvailable => true
  | V5Property.SharedSubscriptionAvailable, V5Property.SharedSubscriptionAvailable => true
  | _, _ => false
  end.

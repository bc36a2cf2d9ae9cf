(** SrcClone.v -- GENERATED by tools/rust2coq.py from the `Clone` of /repo/src; do not edit.
    Not translated (no counterpart in the model):
     src/v4/disconnect.rs:4 Disconnect
     src/v4/ping.rs:4 PingReq
     src/v4/ping.rs:13 PingResp
     src/v4/subscribe.rs:123 RetainForwardRule
     src/v5/ping.rs:4 PingReq
     src/v5/ping.rs:13 PingResp
    No proofs in this file. *)
From Verif Require Import Base Lib SrcCmp.
From Verif Require V4ConnAck V4Connect V4Mod V4PubAck V4PubComp V4PubRec V4PubRel V4Publish V4SubAck V4Subscribe V4UnsubAck V4Unsubscribe V5ConnAck V5Connect V5Disconnect V5Mod V5Property V5PubAck V5PubComp V5PubRec V5PubRel V5Publish V5SubAck V5Subscribe V5UnsubAck V5Unsubscribe.

(** src/lib.rs:46 derived `clone` of `PacketType` *)
Definition PacketType_clone (x : Base.PacketType) : Base.PacketType :=
  match x with
  | Base.PT_Connect => Base.PT_Connect
  | Base.PT_ConnAck => Base.PT_ConnAck
  | Base.PT_Publish => Base.PT_Publish
  | Base.PT_PubAck => Base.PT_PubAck
  | Base.PT_PubRec => Base.PT_PubRec
  | Base.PT_PubRel => Base.PT_PubRel
  | Base.PT_PubComp => Base.PT_PubComp
  | Base.PT_Subscribe => Base.PT_Subscribe
  | Base.PT_SubAck => Base.PT_SubAck
  | Base.PT_Unsubscribe => Base.PT_Unsubscribe
  | Base.PT_UnsubAck => Base.PT_UnsubAck
  | Base.PT_PingReq => Base.PT_PingReq
  | Base.PT_PingResp => Base.PT_PingResp
  | Base.PT_Disconnect => Base.PT_Disconnect
  end.

(** src/lib.rs:14 derived `clone` of `Error` *)
Definition Error_clone (x : Base.Error) : Base.Error :=
  match x with
  | Base.NotConnect a => Base.NotConnect (PacketType_clone a)
  | Base.UnexpectedConnect => Base.UnexpectedConnect
  | Base.InvalidConnectReturnCode a => Base.InvalidConnectReturnCode (clone_scalar a)
  | Base.InvalidReason a => Base.InvalidReason (clone_scalar a)
  | Base.InvalidProtocol => Base.InvalidProtocol
  | Base.InvalidProtocolLevel a => Base.InvalidProtocolLevel (clone_scalar a)
  | Base.IncorrectPacketFormat => Base.IncorrectPacketFormat
  | Base.InvalidPacketType a => Base.InvalidPacketType (clone_scalar a)
  | Base.InvalidPropertyType a => Base.InvalidPropertyType (clone_scalar a)
  | Base.InvalidRetainForwardRule a => Base.InvalidRetainForwardRule (clone_scalar a)
  | Base.InvalidQoS a => Base.InvalidQoS (clone_scalar a)
  | Base.InvalidSubscribeReasonCode a => Base.InvalidSubscribeReasonCode (clone_scalar a)
  | Base.PacketIdZero => Base.PacketIdZero
  | Base.SubscriptionIdZero => Base.SubscriptionIdZero
  | Base.PayloadSizeIncorrect => Base.PayloadSizeIncorrect
  | Base.PayloadTooLong => Base.PayloadTooLong
  | Base.PayloadSizeLimitExceeded a => Base.PayloadSizeLimitExceeded (clone_scalar a)
  | Base.PayloadRequired => Base.PayloadRequired
  | Base.TopicNotUtf8 => Base.TopicNotUtf8
  | Base.BoundaryCrossed a => Base.BoundaryCrossed (clone_scalar a)
  | Base.MalformedPacket => Base.MalformedPacket
  | Base.MalformedRemainingLength => Base.MalformedRemainingLength
  | Base.EmptySubscription => Base.EmptySubscription
  | Base.InsufficientBytes a => Base.InsufficientBytes (clone_scalar a)
  end.

(** src/lib.rs:66 derived `clone` of `Protocol` *)
Definition Protocol_clone (x : Base.Protocol) : Base.Protocol :=
  match x with
  | Base.V4 => Base.V4
  | Base.V5 => Base.V5
  end.

(** src/lib.rs:73 derived `clone` of `QoS` *)
Definition QoS_clone (x : Base.QoS) : Base.QoS :=
  match x with
  | Base.AtMostOnce => Base.AtMostOnce
  | Base.AtLeastOnce => Base.AtLeastOnce
  | Base.ExactlyOnce => Base.ExactlyOnce
  end.

(** src/lib.rs:93 derived `clone` of `FixedHeader` *)
Definition FixedHeader_clone (x : Lib.FixedHeader) : Lib.FixedHeader :=
  Lib.mkFixedHeader
    (clone_scalar (Lib.byte1 x))
    (clone_scalar (Lib.fixed_header_len x))
    (clone_scalar (Lib.remaining_len x)).

(** src/v4/connack.rs:5 derived `clone` of `ConnectReturnCode` *)
Definition v4_ConnectReturnCode_clone (x : V4ConnAck.ConnectReturnCode) : V4ConnAck.ConnectReturnCode :=
  match x with
  | V4ConnAck.Success => V4ConnAck.Success
  | V4ConnAck.RefusedProtocolVersion => V4ConnAck.RefusedProtocolVersion
  | V4ConnAck.BadClientId => V4ConnAck.BadClientId
  | V4ConnAck.ServiceUnavailable => V4ConnAck.ServiceUnavailable
  | V4ConnAck.BadUserNamePassword => V4ConnAck.BadUserNamePassword
  | V4ConnAck.NotAuthorized => V4ConnAck.NotAuthorized
  end.

(** src/v4/connack.rs:17 derived `clone` of `ConnAck` *)
Definition v4_ConnAck_clone (x : V4ConnAck.ConnAck) : V4ConnAck.ConnAck :=
  V4ConnAck.mkConnAck
    (clone_scalar (V4ConnAck.session_present x))
    (v4_ConnectReturnCode_clone (V4ConnAck.code x)).

(** src/v4/connect.rs:140 derived `clone` of `LastWill` *)
Definition v4_LastWill_clone (x : V4Connect.LastWill) : V4Connect.LastWill :=
  V4Connect.mkLastWill
    (clone_bytes (V4Connect.lw_topic x))
    (clone_bytes (V4Connect.lw_message x))
    (QoS_clone (V4Connect.lw_qos x))
    (clone_scalar (V4Connect.lw_retain x)).

(** src/v4/connect.rs:205 derived `clone` of `Login` *)
Definition v4_Login_clone (x : V4Connect.Login) : V4Connect.Login :=
  V4Connect.mkLogin
    (clone_bytes (V4Connect.username x))
    (clone_bytes (V4Connect.password x)).

(** src/v4/connect.rs:7 derived `clone` of `Connect` *)
Definition v4_Connect_clone (x : V4Connect.Connect) : V4Connect.Connect :=
  V4Connect.mkConnect
    (Protocol_clone (V4Connect.protocol x))
    (clone_scalar (V4Connect.keep_alive x))
    (clone_bytes (V4Connect.client_id x))
    (clone_scalar (V4Connect.clean_session x))
    ((clone_option v4_LastWill_clone) (V4Connect.last_will x))
    ((clone_option v4_Login_clone) (V4Connect.login x)).

(** src/v4/publish.rs:8 derived `clone` of `Publish` *)
Definition v4_Publish_clone (x : V4Publish.Publish) : V4Publish.Publish :=
  V4Publish.mkPublish
    (clone_scalar (V4Publish.dup x))
    (QoS_clone (V4Publish.qos x))
    (clone_scalar (V4Publish.retain x))
    (clone_bytes (V4Publish.topic x))
    (clone_scalar (V4Publish.pkid x))
    (clone_bytes (V4Publish.payload x)).

(** src/v4/puback.rs:5 derived `clone` of `PubAck` *)
Definition v4_PubAck_clone (x : V4PubAck.PubAck) : V4PubAck.PubAck :=
  V4PubAck.mkPubAck
    (clone_scalar (V4PubAck.pkid x)).

(** src/v4/pubrec.rs:5 derived `clone` of `PubRec` *)
Definition v4_PubRec_clone (x : V4PubRec.PubRec) : V4PubRec.PubRec :=
  V4PubRec.mkPubRec
    (clone_scalar (V4PubRec.pkid x)).

(** src/v4/pubrel.rs:5 derived `clone` of `PubRel` *)
Definition v4_PubRel_clone (x : V4PubRel.PubRel) : V4PubRel.PubRel :=
  V4PubRel.mkPubRel
    (clone_scalar (V4PubRel.pkid x)).

(** src/v4/pubcomp.rs:5 derived `clone` of `PubComp` *)
Definition v4_PubComp_clone (x : V4PubComp.PubComp) : V4PubComp.PubComp :=
  V4PubComp.mkPubComp
    (clone_scalar (V4PubComp.pkid x)).

(** src/v4/subscribe.rs:98 derived `clone` of `SubscribeFilter` *)
Definition v4_SubscribeFilter_clone (x : V4Subscribe.SubscribeFilter) : V4Subscribe.SubscribeFilter :=
  V4Subscribe.mkSubscribeFilter
    (clone_bytes (V4Subscribe.path x))
    (QoS_clone (V4Subscribe.qos x)).

(** src/v4/subscribe.rs:8 derived `clone` of `Subscribe` *)
Definition v4_Subscribe_clone (x : V4Subscribe.Subscribe) : V4Subscribe.Subscribe :=
  V4Subscribe.mkSubscribe
    (clone_scalar (V4Subscribe.pkid x))
    ((clone_vec v4_SubscribeFilter_clone) (V4Subscribe.filters x)).

(** src/v4/suback.rs:61 derived `clone` of `SubscribeReasonCode` *)
Definition v4_SubscribeReasonCode_clone (x : V4SubAck.SubscribeReasonCode) : V4SubAck.SubscribeReasonCode :=
  match x with
  | V4SubAck.Success a => V4SubAck.Success (QoS_clone a)
  | V4SubAck.Failure => V4SubAck.Failure
  end.

(** src/v4/suback.rs:7 derived `clone` of `SubAck` *)
Definition v4_SubAck_clone (x : V4SubAck.SubAck) : V4SubAck.SubAck :=
  V4SubAck.mkSubAck
    (clone_scalar (V4SubAck.pkid x))
    ((clone_vec v4_SubscribeReasonCode_clone) (V4SubAck.return_codes x)).

(** src/v4/unsubscribe.rs:7 derived `clone` of `Unsubscribe` *)
Definition v4_Unsubscribe_clone (x : V4Unsubscribe.Unsubscribe) : V4Unsubscribe.Unsubscribe :=
  V4Unsubscribe.mkUnsubscribe
    (clone_scalar (V4Unsubscribe.pkid x))
    ((clone_vec clone_bytes) (V4Unsubscribe.topics x)).

(** src/v4/unsuback.rs:5 derived `clone` of `UnsubAck` *)
Definition v4_UnsubAck_clone (x : V4UnsubAck.UnsubAck) : V4UnsubAck.UnsubAck :=
  V4UnsubAck.mkUnsubAck
    (clone_scalar (V4UnsubAck.pkid x)).

(** src/v4/mod.rs:32 derived `clone` of `Packet` *)
Definition v4_Packet_clone (x : V4Mod.Packet) : V4Mod.Packet :=
  match x with
  | V4Mod.Connect a => V4Mod.Connect (v4_Connect_clone a)
  | V4Mod.ConnAck a => V4Mod.ConnAck (v4_ConnAck_clone a)
  | V4Mod.Publish a => V4Mod.Publish (v4_Publish_clone a)
  | V4Mod.PubAck a => V4Mod.PubAck (v4_PubAck_clone a)
  | V4Mod.PubRec a => V4Mod.PubRec (v4_PubRec_clone a)
  | V4Mod.PubRel a => V4Mod.PubRel (v4_PubRel_clone a)
  | V4Mod.PubComp a => V4Mod.PubComp (v4_PubComp_clone a)
  | V4Mod.Subscribe a => V4Mod.Subscribe (v4_Subscribe_clone a)
  | V4Mod.SubAck a => V4Mod.SubAck (v4_SubAck_clone a)
  | V4Mod.Unsubscribe a => V4Mod.Unsubscribe (v4_Unsubscribe_clone a)
  | V4Mod.UnsubAck a => V4Mod.UnsubAck (v4_UnsubAck_clone a)
  | V4Mod.PingReq => V4Mod.PingReq
  | V4Mod.PingResp => V4Mod.PingResp
  | V4Mod.Disconnect => V4Mod.Disconnect
  end.

(** src/v5/connack.rs:7 derived `clone` of `ConnectReturnCode` *)
Definition v5_ConnectReturnCode_clone (x : V5ConnAck.ConnectReturnCode) : V5ConnAck.ConnectReturnCode :=
  match x with
  | V5ConnAck.Success => V5ConnAck.Success
  | V5ConnAck.UnspecifiedError => V5ConnAck.UnspecifiedError
  | V5ConnAck.MalformedPacket => V5ConnAck.MalformedPacket
  | V5ConnAck.ProtocolError => V5ConnAck.ProtocolError
  | V5ConnAck.ImplementationSpecificError => V5ConnAck.ImplementationSpecificError
  | V5ConnAck.UnsupportedProtocolVersion => V5ConnAck.UnsupportedProtocolVersion
  | V5ConnAck.ClientIdentifierNotValid => V5ConnAck.ClientIdentifierNotValid
  | V5ConnAck.BadUserNamePassword => V5ConnAck.BadUserNamePassword
  | V5ConnAck.NotAuthorized => V5ConnAck.NotAuthorized
  | V5ConnAck.ServerUnavailable => V5ConnAck.ServerUnavailable
  | V5ConnAck.ServerBusy => V5ConnAck.ServerBusy
  | V5ConnAck.Banned => V5ConnAck.Banned
  | V5ConnAck.BadAuthenticationMethod => V5ConnAck.BadAuthenticationMethod
  | V5ConnAck.TopicNameInvalid => V5ConnAck.TopicNameInvalid
  | V5ConnAck.PacketTooLarge => V5ConnAck.PacketTooLarge
  | V5ConnAck.QuotaExceeded => V5ConnAck.QuotaExceeded
  | V5ConnAck.PayloadFormatInvalid => V5ConnAck.PayloadFormatInvalid
  | V5ConnAck.RetainNotSupported => V5ConnAck.RetainNotSupported
  | V5ConnAck.QoSNotSupported => V5ConnAck.QoSNotSupported
  | V5ConnAck.UseAnotherServer => V5ConnAck.UseAnotherServer
  | V5ConnAck.ServerMoved => V5ConnAck.ServerMoved
  | V5ConnAck.ConnectionRateExceeded => V5ConnAck.ConnectionRateExceeded
  end.

(** src/v5/connack.rs:98 derived `clone` of `ConnAckProperties` *)
Definition v5_ConnAckProperties_clone (x : V5ConnAck.ConnAckProperties) : V5ConnAck.ConnAckProperties :=
  V5ConnAck.mkConnAckProperties
    ((clone_option clone_scalar) (V5ConnAck.session_expiry_interval x))
    ((clone_option clone_scalar) (V5ConnAck.receive_max x))
    ((clone_option clone_scalar) (V5ConnAck.max_qos x))
    ((clone_option clone_scalar) (V5ConnAck.retain_available x))
    ((clone_option clone_scalar) (V5ConnAck.max_packet_size x))
    ((clone_option clone_bytes) (V5ConnAck.assigned_client_identifier x))
    ((clone_option clone_scalar) (V5ConnAck.topic_alias_max x))
    ((clone_option clone_bytes) (V5ConnAck.reason_string x))
    ((clone_vec (clone_pair clone_bytes clone_bytes)) (V5ConnAck.user_properties x))
    ((clone_option clone_scalar) (V5ConnAck.wildcard_subscription_available x))
    ((clone_option clone_scalar) (V5ConnAck.subscription_identifiers_available x))
    ((clone_option clone_scalar) (V5ConnAck.shared_subscription_available x))
    ((clone_option clone_scalar) (V5ConnAck.server_keep_alive x))
    ((clone_option clone_bytes) (V5ConnAck.response_information x))
    ((clone_option clone_bytes) (V5ConnAck.server_reference x))
    ((clone_option clone_bytes) (V5ConnAck.authentication_method x))
    ((clone_option clone_bytes) (V5ConnAck.authentication_data x)).

(** src/v5/connack.rs:35 derived `clone` of `ConnAck` *)
Definition v5_ConnAck_clone (x : V5ConnAck.ConnAck) : V5ConnAck.ConnAck :=
  V5ConnAck.mkConnAck
    (clone_scalar (V5ConnAck.session_present x))
    (v5_ConnectReturnCode_clone (V5ConnAck.code x))
    ((clone_option v5_ConnAckProperties_clone) (V5ConnAck.properties x)).

(** src/v5/connect.rs:261 derived `clone` of `WillProperties` *)
Definition v5_WillProperties_clone (x : V5Connect.WillProperties) : V5Connect.WillProperties :=
  V5Connect.mkWillProperties
    ((clone_option clone_scalar) (V5Connect.wp_delay_interval x))
    ((clone_option clone_scalar) (V5Connect.wp_payload_format_indicator x))
    ((clone_option clone_scalar) (V5Connect.wp_message_expiry_interval x))
    ((clone_option clone_bytes) (V5Connect.wp_content_type x))
    ((clone_option clone_bytes) (V5Connect.wp_response_topic x))
    ((clone_option clone_bytes) (V5Connect.wp_correlation_data x))
    ((clone_vec (clone_pair clone_bytes clone_bytes)) (V5Connect.wp_user_properties x)).

(** src/v5/connect.rs:170 derived `clone` of `LastWill` *)
Definition v5_LastWill_clone (x : V5Connect.LastWill) : V5Connect.LastWill :=
  V5Connect.mkLastWill
    (clone_bytes (V5Connect.lw_topic x))
    (clone_bytes (V5Connect.lw_message x))
    (QoS_clone (V5Connect.lw_qos x))
    (clone_scalar (V5Connect.lw_retain x))
    ((clone_option v5_WillProperties_clone) (V5Connect.lw_properties x)).

(** src/v5/connect.rs:421 derived `clone` of `Login` *)
Definition v5_Login_clone (x : V5Connect.Login) : V5Connect.Login :=
  V5Connect.mkLogin
    (clone_bytes (V5Connect.username x))
    (clone_bytes (V5Connect.password x)).

(** src/v5/connect.rs:483 derived `clone` of `ConnectProperties` *)
Definition v5_ConnectProperties_clone (x : V5Connect.ConnectProperties) : V5Connect.ConnectProperties :=
  V5Connect.mkConnectProperties
    ((clone_option clone_scalar) (V5Connect.cp_session_expiry_interval x))
    ((clone_option clone_scalar) (V5Connect.cp_receive_maximum x))
    ((clone_option clone_scalar) (V5Connect.cp_max_packet_size x))
    ((clone_option clone_scalar) (V5Connect.cp_topic_alias_max x))
    ((clone_option clone_scalar) (V5Connect.cp_request_response_info x))
    ((clone_option clone_scalar) (V5Connect.cp_request_problem_info x))
    ((clone_vec (clone_pair clone_bytes clone_bytes)) (V5Connect.cp_user_properties x))
    ((clone_option clone_bytes) (V5Connect.cp_authentication_method x))
    ((clone_option clone_bytes) (V5Connect.cp_authentication_data x)).

(** src/v5/connect.rs:7 derived `clone` of `Connect` *)
Definition v5_Connect_clone (x : V5Connect.Connect) : V5Connect.Connect :=
  V5Connect.mkConnect
    (Protocol_clone (V5Connect.protocol x))
    (clone_scalar (V5Connect.keep_alive x))
    (clone_bytes (V5Connect.client_id x))
    (clone_scalar (V5Connect.clean_session x))
    ((clone_option v5_LastWill_clone) (V5Connect.last_will x))
    ((clone_option v5_Login_clone) (V5Connect.login x))
    ((clone_option v5_ConnectProperties_clone) (V5Connect.properties x)).

(** src/v5/disconnect.rs:9 derived `clone` of `DisconnectReasonCode` *)
Definition v5_DisconnectReasonCode_clone (x : V5Disconnect.DisconnectReasonCode) : V5Disconnect.DisconnectReasonCode :=
  match x with
  | V5Disconnect.NormalDisconnection => V5Disconnect.NormalDisconnection
  | V5Disconnect.DisconnectWithWillMessage => V5Disconnect.DisconnectWithWillMessage
  | V5Disconnect.UnspecifiedError => V5Disconnect.UnspecifiedError
  | V5Disconnect.MalformedPacket => V5Disconnect.MalformedPacket
  | V5Disconnect.ProtocolError => V5Disconnect.ProtocolError
  | V5Disconnect.ImplementationSpecificError => V5Disconnect.ImplementationSpecificError
  | V5Disconnect.NotAuthorized => V5Disconnect.NotAuthorized
  | V5Disconnect.ServerBusy => V5Disconnect.ServerBusy
  | V5Disconnect.ServerShuttingDown => V5Disconnect.ServerShuttingDown
  | V5Disconnect.KeepAliveTimeout => V5Disconnect.KeepAliveTimeout
  | V5Disconnect.SessionTakenOver => V5Disconnect.SessionTakenOver
  | V5Disconnect.TopicFilterInvalid => V5Disconnect.TopicFilterInvalid
  | V5Disconnect.TopicNameInvalid => V5Disconnect.TopicNameInvalid
  | V5Disconnect.ReceiveMaximumExceeded => V5Disconnect.ReceiveMaximumExceeded
  | V5Disconnect.TopicAliasInvalid => V5Disconnect.TopicAliasInvalid
  | V5Disconnect.PacketTooLarge => V5Disconnect.PacketTooLarge
  | V5Disconnect.MessageRateTooHigh => V5Disconnect.MessageRateTooHigh
  | V5Disconnect.QuotaExceeded => V5Disconnect.QuotaExceeded
  | V5Disconnect.AdministrativeAction => V5Disconnect.AdministrativeAction
  | V5Disconnect.PayloadFormatInvalid => V5Disconnect.PayloadFormatInvalid
  | V5Disconnect.RetainNotSupported => V5Disconnect.RetainNotSupported
  | V5Disconnect.QoSNotSupported => V5Disconnect.QoSNotSupported
  | V5Disconnect.UseAnotherServer => V5Disconnect.UseAnotherServer
  | V5Disconnect.ServerMoved => V5Disconnect.ServerMoved
  | V5Disconnect.SharedSubscriptionNotSupported => V5Disconnect.SharedSubscriptionNotSupported
  | V5Disconnect.ConnectionRateExceeded => V5Disconnect.ConnectionRateExceeded
  | V5Disconnect.MaximumConnectTime => V5Disconnect.MaximumConnectTime
  | V5Disconnect.SubscriptionIdentifiersNotSupported => V5Disconnect.SubscriptionIdentifiersNotSupported
  | V5Disconnect.WildcardSubscriptionsNotSupported => V5Disconnect.WildcardSubscriptionsNotSupported
  end.

(** src/v5/disconnect.rs:113 derived `clone` of `DisconnectProperties` *)
Definition v5_DisconnectProperties_clone (x : V5Disconnect.DisconnectProperties) : V5Disconnect.DisconnectProperties :=
  V5Disconnect.mkDisconnectProperties
    ((clone_option clone_scalar) (V5Disconnect.session_expiry_interval x))
    ((clone_option clone_bytes) (V5Disconnect.reason_string x))
    ((clone_vec (clone_pair clone_bytes clone_bytes)) (V5Disconnect.user_properties x))
    ((clone_option clone_bytes) (V5Disconnect.server_reference x)).

(** src/v5/disconnect.rs:128 derived `clone` of `Disconnect` *)
Definition v5_Disconnect_clone (x : V5Disconnect.Disconnect) : V5Disconnect.Disconnect :=
  V5Disconnect.mkDisconnect
    (v5_DisconnectReasonCode_clone (V5Disconnect.reason_code x))
    ((clone_option v5_DisconnectProperties_clone) (V5Disconnect.properties x)).

(** src/v5/publish.rs:132 derived `clone` of `PublishProperties` *)
Definition v5_PublishProperties_clone (x : V5Publish.PublishProperties) : V5Publish.PublishProperties :=
  V5Publish.mkPublishProperties
    ((clone_option clone_scalar) (V5Publish.payload_format_indicator x))
    ((clone_option clone_scalar) (V5Publish.message_expiry_interval x))
    ((clone_option clone_scalar) (V5Publish.topic_alias x))
    ((clone_option clone_bytes) (V5Publish.response_topic x))
    ((clone_option clone_bytes) (V5Publish.correlation_data x))
    ((clone_vec (clone_pair clone_bytes clone_bytes)) (V5Publish.user_properties x))
    ((clone_vec clone_scalar) (V5Publish.subscription_identifiers x))
    ((clone_option clone_bytes) (V5Publish.content_type x)).

(** src/v5/publish.rs:8 derived `clone` of `Publish` *)
Definition v5_Publish_clone (x : V5Publish.Publish) : V5Publish.Publish :=
  V5Publish.mkPublish
    (clone_scalar (V5Publish.dup x))
    (QoS_clone (V5Publish.qos x))
    (clone_scalar (V5Publish.retain x))
    (clone_bytes (V5Publish.topic x))
    (clone_scalar (V5Publish.pkid x))
    ((clone_option v5_PublishProperties_clone) (V5Publish.properties x))
    (clone_bytes (V5Publish.payload x)).

(** src/v5/puback.rs:5 derived `clone` of `PubAckReason` *)
Definition v5_PubAckReason_clone (x : V5PubAck.PubAckReason) : V5PubAck.PubAckReason :=
  match x with
  | V5PubAck.Success => V5PubAck.Success
  | V5PubAck.NoMatchingSubscribers => V5PubAck.NoMatchingSubscribers
  | V5PubAck.UnspecifiedError => V5PubAck.UnspecifiedError
  | V5PubAck.ImplementationSpecificError => V5PubAck.ImplementationSpecificError
  | V5PubAck.NotAuthorized => V5PubAck.NotAuthorized
  | V5PubAck.TopicNameInvalid => V5PubAck.TopicNameInvalid
  | V5PubAck.PacketIdentifierInUse => V5PubAck.PacketIdentifierInUse
  | V5PubAck.QuotaExceeded => V5PubAck.QuotaExceeded
  | V5PubAck.PayloadFormatInvalid => V5PubAck.PayloadFormatInvalid
  end.

(** src/v5/puback.rs:110 derived `clone` of `PubAckProperties` *)
Definition v5_PubAckProperties_clone (x : V5PubAck.PubAckProperties) : V5PubAck.PubAckProperties :=
  V5PubAck.mkPubAckProperties
    ((clone_option clone_bytes) (V5PubAck.reason_string x))
    ((clone_vec (clone_pair clone_bytes clone_bytes)) (V5PubAck.user_properties x)).

(** src/v5/puback.rs:20 derived `clone` of `PubAck` *)
Definition v5_PubAck_clone (x : V5PubAck.PubAck) : V5PubAck.PubAck :=
  V5PubAck.mkPubAck
    (clone_scalar (V5PubAck.pkid x))
    (v5_PubAckReason_clone (V5PubAck.reason x))
    ((clone_option v5_PubAckProperties_clone) (V5PubAck.properties x)).

(** src/v5/pubrec.rs:5 derived `clone` of `PubRecReason` *)
Definition v5_PubRecReason_clone (x : V5PubRec.PubRecReason) : V5PubRec.PubRecReason :=
  match x with
  | V5PubRec.Success => V5PubRec.Success
  | V5PubRec.NoMatchingSubscribers => V5PubRec.NoMatchingSubscribers
  | V5PubRec.UnspecifiedError => V5PubRec.UnspecifiedError
  | V5PubRec.ImplementationSpecificError => V5PubRec.ImplementationSpecificError
  | V5PubRec.NotAuthorized => V5PubRec.NotAuthorized
  | V5PubRec.TopicNameInvalid => V5PubRec.TopicNameInvalid
  | V5PubRec.PacketIdentifierInUse => V5PubRec.PacketIdentifierInUse
  | V5PubRec.QuotaExceeded => V5PubRec.QuotaExceeded
  | V5PubRec.PayloadFormatInvalid => V5PubRec.PayloadFormatInvalid
  end.

(** src/v5/pubrec.rs:106 derived `clone` of `PubRecProperties` *)
Definition v5_PubRecProperties_clone (x : V5PubRec.PubRecProperties) : V5PubRec.PubRecProperties :=
  V5PubRec.mkPubRecProperties
    ((clone_option clone_bytes) (V5PubRec.reason_string x))
    ((clone_vec (clone_pair clone_bytes clone_bytes)) (V5PubRec.user_properties x)).

(** src/v5/pubrec.rs:20 derived `clone` of `PubRec` *)
Definition v5_PubRec_clone (x : V5PubRec.PubRec) : V5PubRec.PubRec :=
  V5PubRec.mkPubRec
    (clone_scalar (V5PubRec.pkid x))
    (v5_PubRecReason_clone (V5PubRec.reason x))
    ((clone_option v5_PubRecProperties_clone) (V5PubRec.properties x)).

(** src/v5/pubrel.rs:5 derived `clone` of `PubRelReason` *)
Definition v5_PubRelReason_clone (x : V5PubRel.PubRelReason) : V5PubRel.PubRelReason :=
  match x with
  | V5PubRel.Success => V5PubRel.Success
  | V5PubRel.PacketIdentifierNotFound => V5PubRel.PacketIdentifierNotFound
  end.

(** src/v5/pubrel.rs:97 derived `clone` of `PubRelProperties` *)
Definition v5_PubRelProperties_clone (x : V5PubRel.PubRelProperties) : V5PubRel.PubRelProperties :=
  V5PubRel.mkPubRelProperties
    ((clone_option clone_bytes) (V5PubRel.reason_string x))
    ((clone_vec (clone_pair clone_bytes clone_bytes)) (V5PubRel.user_properties x)).

(** src/v5/pubrel.rs:13 derived `clone` of `PubRel` *)
Definition v5_PubRel_clone (x : V5PubRel.PubRel) : V5PubRel.PubRel :=
  V5PubRel.mkPubRel
    (clone_scalar (V5PubRel.pkid x))
    (v5_PubRelReason_clone (V5PubRel.reason x))
    ((clone_option v5_PubRelProperties_clone) (V5PubRel.properties x)).

(** src/v5/pubcomp.rs:5 derived `clone` of `PubCompReason` *)
Definition v5_PubCompReason_clone (x : V5PubComp.PubCompReason) : V5PubComp.PubCompReason :=
  match x with
  | V5PubComp.Success => V5PubComp.Success
  | V5PubComp.PacketIdentifierNotFound => V5PubComp.PacketIdentifierNotFound
  end.

(** src/v5/pubcomp.rs:98 derived `clone` of `PubCompProperties` *)
Definition v5_PubCompProperties_clone (x : V5PubComp.PubCompProperties) : V5PubComp.PubCompProperties :=
  V5PubComp.mkPubCompProperties
    ((clone_option clone_bytes) (V5PubComp.reason_string x))
    ((clone_vec (clone_pair clone_bytes clone_bytes)) (V5PubComp.user_properties x)).

(** src/v5/pubcomp.rs:13 derived `clone` of `PubComp` *)
Definition v5_PubComp_clone (x : V5PubComp.PubComp) : V5PubComp.PubComp :=
  V5PubComp.mkPubComp
    (clone_scalar (V5PubComp.pkid x))
    (v5_PubCompReason_clone (V5PubComp.reason x))
    ((clone_option v5_PubCompProperties_clone) (V5PubComp.properties x)).

(** src/v5/subscribe.rs:298 derived `clone` of `RetainForwardRule` *)
Definition v5_RetainForwardRule_clone (x : V5Subscribe.RetainForwardRule) : V5Subscribe.RetainForwardRule :=
  match x with
  | V5Subscribe.OnEverySubscribe => V5Subscribe.OnEverySubscribe
  | V5Subscribe.OnNewSubscribe => V5Subscribe.OnNewSubscribe
  | V5Subscribe.Never => V5Subscribe.Never
  end.

(** src/v5/subscribe.rs:235 derived `clone` of `SubscribeFilter` *)
Definition v5_SubscribeFilter_clone (x : V5Subscribe.SubscribeFilter) : V5Subscribe.SubscribeFilter :=
  V5Subscribe.mkSubscribeFilter
    (clone_bytes (V5Subscribe.path x))
    (QoS_clone (V5Subscribe.qos x))
    (clone_scalar (V5Subscribe.nolocal x))
    (clone_scalar (V5Subscribe.preserve_retain x))
    (v5_RetainForwardRule_clone (V5Subscribe.retain_forward_rule x)).

(** src/v5/subscribe.rs:153 derived `clone` of `SubscribeProperties` *)
Definition v5_SubscribeProperties_clone (x : V5Subscribe.SubscribeProperties) : V5Subscribe.SubscribeProperties :=
  V5Subscribe.mkSubscribeProperties
    ((clone_option clone_scalar) (V5Subscribe.id x))
    ((clone_vec (clone_pair clone_bytes clone_bytes)) (V5Subscribe.user_properties x)).

(** src/v5/subscribe.rs:8 derived `clone` of `Subscribe` *)
Definition v5_Subscribe_clone (x : V5Subscribe.Subscribe) : V5Subscribe.Subscribe :=
  V5Subscribe.mkSubscribe
    (clone_scalar (V5Subscribe.pkid x))
    ((clone_vec v5_SubscribeFilter_clone) (V5Subscribe.filters x))
    ((clone_option v5_SubscribeProperties_clone) (V5Subscribe.properties x)).

(** src/v5/suback.rs:165 derived `clone` of `SubscribeReasonCode` *)
Definition v5_SubscribeReasonCode_clone (x : V5SubAck.SubscribeReasonCode) : V5SubAck.SubscribeReasonCode :=
  match x with
  | V5SubAck.QoS0 => V5SubAck.QoS0
  | V5SubAck.QoS1 => V5SubAck.QoS1
  | V5SubAck.QoS2 => V5SubAck.QoS2
  | V5SubAck.Unspecified => V5SubAck.Unspecified
  | V5SubAck.ImplementationSpecific => V5SubAck.ImplementationSpecific
  | V5SubAck.NotAuthorized => V5SubAck.NotAuthorized
  | V5SubAck.TopicFilterInvalid => V5SubAck.TopicFilterInvalid
  | V5SubAck.PkidInUse => V5SubAck.PkidInUse
  | V5SubAck.QuotaExceeded => V5SubAck.QuotaExceeded
  | V5SubAck.SharedSubscriptionsNotSupported => V5SubAck.SharedSubscriptionsNotSupported
  | V5SubAck.SubscriptionIdNotSupported => V5SubAck.SubscriptionIdNotSupported
  | V5SubAck.WildcardSubscriptionsNotSupported => V5SubAck.WildcardSubscriptionsNotSupported
  end.

(** src/v5/suback.rs:87 derived `clone` of `SubAckProperties` *)
Definition v5_SubAckProperties_clone (x : V5SubAck.SubAckProperties) : V5SubAck.SubAckProperties :=
  V5SubAck.mkSubAckProperties
    ((clone_option clone_bytes) (V5SubAck.reason_string x))
    ((clone_vec (clone_pair clone_bytes clone_bytes)) (V5SubAck.user_properties x)).

(** src/v5/suback.rs:7 derived `clone` of `SubAck` *)
Definition v5_SubAck_clone (x : V5SubAck.SubAck) : V5SubAck.SubAck :=
  V5SubAck.mkSubAck
    (clone_scalar (V5SubAck.pkid x))
    ((clone_vec v5_SubscribeReasonCode_clone) (V5SubAck.return_codes x))
    ((clone_option v5_SubAckProperties_clone) (V5SubAck.properties x)).

(** src/v5/unsubscribe.rs:88 derived `clone` of `UnsubscribeProperties` *)
Definition v5_UnsubscribeProperties_clone (x : V5Unsubscribe.UnsubscribeProperties) : V5Unsubscribe.UnsubscribeProperties :=
  V5Unsubscribe.mkUnsubscribeProperties
    ((clone_vec (clone_pair clone_bytes clone_bytes)) (V5Unsubscribe.user_properties x)).

(** src/v5/unsubscribe.rs:7 derived `clone` of `Unsubscribe` *)
Definition v5_Unsubscribe_clone (x : V5Unsubscribe.Unsubscribe) : V5Unsubscribe.Unsubscribe :=
  V5Unsubscribe.mkUnsubscribe
    (clone_scalar (V5Unsubscribe.pkid x))
    ((clone_vec clone_bytes) (V5Unsubscribe.filters x))
    ((clone_option v5_UnsubscribeProperties_clone) (V5Unsubscribe.properties x)).

(** src/v5/unsuback.rs:5 derived `clone` of `UnsubAckReason` *)
Definition v5_UnsubAckReason_clone (x : V5UnsubAck.UnsubAckReason) : V5UnsubAck.UnsubAckReason :=
  match x with
  | V5UnsubAck.Success => V5UnsubAck.Success
  | V5UnsubAck.NoSubscriptionExisted => V5UnsubAck.NoSubscriptionExisted
  | V5UnsubAck.UnspecifiedError => V5UnsubAck.UnspecifiedError
  | V5UnsubAck.ImplementationSpecificError => V5UnsubAck.ImplementationSpecificError
  | V5UnsubAck.NotAuthorized => V5UnsubAck.NotAuthorized
  | V5UnsubAck.TopicFilterInvalid => V5UnsubAck.TopicFilterInvalid
  | V5UnsubAck.PacketIdentifierInUse => V5UnsubAck.PacketIdentifierInUse
  end.

(** src/v5/unsuback.rs:98 derived `clone` of `UnsubAckProperties` *)
Definition v5_UnsubAckProperties_clone (x : V5UnsubAck.UnsubAckProperties) : V5UnsubAck.UnsubAckProperties :=
  V5UnsubAck.mkUnsubAckProperties
    ((clone_option clone_bytes) (V5UnsubAck.reason_string x))
    ((clone_vec (clone_pair clone_bytes clone_bytes)) (V5UnsubAck.user_properties x)).

(** src/v5/unsuback.rs:18 derived `clone` of `UnsubAck` *)
Definition v5_UnsubAck_clone (x : V5UnsubAck.UnsubAck) : V5UnsubAck.UnsubAck :=
  V5UnsubAck.mkUnsubAck
    (clone_scalar (V5UnsubAck.pkid x))
    ((clone_vec v5_UnsubAckReason_clone) (V5UnsubAck.reasons x))
    ((clone_option v5_UnsubAckProperties_clone) (V5UnsubAck.properties x)).

(** src/v5/mod.rs:32 derived `clone` of `Packet` *)
Definition v5_Packet_clone (x : V5Mod.Packet) : V5Mod.Packet :=
  match x with
  | V5Mod.Connect a => V5Mod.Connect (v5_Connect_clone a)
  | V5Mod.ConnAck a => V5Mod.ConnAck (v5_ConnAck_clone a)
  | V5Mod.Publish a => V5Mod.Publish (v5_Publish_clone a)
  | V5Mod.PubAck a => V5Mod.PubAck (v5_PubAck_clone a)
  | V5Mod.PubRec a => V5Mod.PubRec (v5_PubRec_clone a)
  | V5Mod.PubRel a => V5Mod.PubRel (v5_PubRel_clone a)
  | V5Mod.PubComp a => V5Mod.PubComp (v5_PubComp_clone a)
  | V5Mod.Subscribe a => V5Mod.Subscribe (v5_Subscribe_clone a)
  | V5Mod.SubAck a => V5Mod.SubAck (v5_SubAck_clone a)
  | V5Mod.Unsubscribe a => V5Mod.Unsubscribe (v5_Unsubscribe_clone a)
  | V5Mod.UnsubAck a => V5Mod.UnsubAck (v5_UnsubAck_clone a)
  | V5Mod.PingReq => V5Mod.PingReq
  | V5Mod.PingResp => V5Mod.PingResp
  | V5Mod.Disconnect a => V5Mod.Disconnect (v5_Disconnect_clone a)
  end.

(** src/v5/mod.rs:50 derived `clone` of `PropertyType` *)
Definition v5_PropertyType_clone (x : V5Property.PropertyType) : V5Property.PropertyType :=
  match x with
  | V5Property.PayloadFormatIndicator => V5Property.PayloadFormatIndicator
  | V5Property.MessageExpiryInterval => V5Property.MessageExpiryInterval
  | V5Property.ContentType => V5Property.ContentType
  | V5Property.ResponseTopic => V5Property.ResponseTopic
  | V5Property.CorrelationData => V5Property.CorrelationData
  | V5Property.SubscriptionIdentifier => V5Property.SubscriptionIdentifier
  | V5Property.SessionExpiryInterval => V5Property.SessionExpiryInterval
  | V5Property.AssignedClientIdentifier => V5Property.AssignedClientIdentifier
  | V5Property.ServerKeepAlive => V5Property.ServerKeepAlive
  | V5Property.AuthenticationMethod => V5Property.AuthenticationMethod
  | V5Property.AuthenticationData => V5Property.AuthenticationData
  | V5Property.RequestProblemInformation => V5Property.RequestProblemInformation
  | V5Property.WillDelayInterval => V5Property.WillDelayInterval
  | V5Property.RequestResponseInformation => V5Property.RequestResponseInformation
  | V5Property.ResponseInformation => V5Property.ResponseInformation
  | V5Property.ServerReference => V5Property.ServerReference
  | V5Property.ReasonString => V5Property.ReasonString
  | V5Property.ReceiveMaximum => V5Property.ReceiveMaximum
  | V5Property.TopicAliasMaximum => V5Property.TopicAliasMaximum
  | V5Property.TopicAlias => V5Property.TopicAlias
  | V5Property.MaximumQos => V5Property.MaximumQos
  | V5Property.RetainAvailable => V5Property.RetainAvailable
  | V5Property.UserProperty => V5Property.UserProperty
  | V5Property.MaximumPacketSize => V5Property.MaximumPacketSize
  | V5Property.WildcardSubscriptionAvailable => V5Property.WildcardSubscriptionAvailable
  | V5Property.SubscriptionIdentifierAvailable => V5Property.SubscriptionIdentifierAvailable
  | V5Property.SharedSubscriptionAvailable => V5Property.SharedSubscriptionAvailable
  end.

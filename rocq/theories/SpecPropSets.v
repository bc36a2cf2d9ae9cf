(** SpecPropSets.v -- generated by tools/gen_v5_props.py.  For each property record of
    the v5 module: the record a property sequence stands for (`X_record`) and the
    properties of a record in the order in which they are written (`X_items`). *)
From Verif Require Import Base SpecWire SpecProps.
From Verif Require V5Connect V5ConnAck V5Publish V5PubAck V5PubRec V5PubRel V5PubComp
  V5Subscribe V5SubAck V5Unsubscribe V5UnsubAck V5Disconnect.

(** `ConnectProperties` *)
Definition connect_record (its : list item) : V5Connect.ConnectProperties :=
  V5Connect.mkConnectProperties (last_num 17 its)
    (last_num 33 its)
    (last_num 39 its)
    (last_num 34 its)
    (last_num 25 its)
    (last_num 23 its)
    (all_pairs its)
    (last_bytes 21 its)
    (last_bytes 22 its).
Definition connect_items (p : V5Connect.ConnectProperties) : list item :=
  one 17 VFour (V5Connect.cp_session_expiry_interval p)
  ++ one 33 VTwo (V5Connect.cp_receive_maximum p)
  ++ one 39 VFour (V5Connect.cp_max_packet_size p)
  ++ one 34 VTwo (V5Connect.cp_topic_alias_max p)
  ++ one 25 VByte (V5Connect.cp_request_response_info p)
  ++ one 23 VByte (V5Connect.cp_request_problem_info p)
  ++ pair_items (V5Connect.cp_user_properties p)
  ++ one 21 VStr (V5Connect.cp_authentication_method p)
  ++ one 22 VBin (V5Connect.cp_authentication_data p).

(** `WillProperties` *)
Definition will_record (its : list item) : V5Connect.WillProperties :=
  V5Connect.mkWillProperties (last_num 24 its)
    (last_num 1 its)
    (last_num 2 its)
    (last_bytes 3 its)
    (last_bytes 8 its)
    (last_bytes 9 its)
    (all_pairs its).
Definition will_items (p : V5Connect.WillProperties) : list item :=
  one 24 VFour (V5Connect.wp_delay_interval p)
  ++ one 1 VByte (V5Connect.wp_payload_format_indicator p)
  ++ one 2 VFour (V5Connect.wp_message_expiry_interval p)
  ++ one 3 VStr (V5Connect.wp_content_type p)
  ++ one 8 VStr (V5Connect.wp_response_topic p)
  ++ one 9 VBin (V5Connect.wp_correlation_data p)
  ++ pair_items (V5Connect.wp_user_properties p).

(** `ConnAckProperties` *)
Definition connack_record (its : list item) : V5ConnAck.ConnAckProperties :=
  V5ConnAck.mkConnAckProperties (last_num 17 its)
    (last_num 33 its)
    (last_num 36 its)
    (last_num 37 its)
    (last_num 39 its)
    (last_bytes 18 its)
    (last_num 34 its)
    (last_bytes 31 its)
    (all_pairs its)
    (last_num 40 its)
    (last_num 41 its)
    (last_num 42 its)
    (last_num 19 its)
    (last_bytes 26 its)
    (last_bytes 28 its)
    (last_bytes 21 its)
    (last_bytes 22 its).
Definition connack_items (p : V5ConnAck.ConnAckProperties) : list item :=
  one 17 VFour (V5ConnAck.session_expiry_interval p)
  ++ one 33 VTwo (V5ConnAck.receive_max p)
  ++ one 36 VByte (V5ConnAck.max_qos p)
  ++ one 37 VByte (V5ConnAck.retain_available p)
  ++ one 39 VFour (V5ConnAck.max_packet_size p)
  ++ one 18 VStr (V5ConnAck.assigned_client_identifier p)
  ++ one 34 VTwo (V5ConnAck.topic_alias_max p)
  ++ one 31 VStr (V5ConnAck.reason_string p)
  ++ pair_items (V5ConnAck.user_properties p)
  ++ one 40 VByte (V5ConnAck.wildcard_subscription_available p)
  ++ one 41 VByte (V5ConnAck.subscription_identifiers_available p)
  ++ one 42 VByte (V5ConnAck.shared_subscription_available p)
  ++ one 19 VTwo (V5ConnAck.server_keep_alive p)
  ++ one 26 VStr (V5ConnAck.response_information p)
  ++ one 28 VStr (V5ConnAck.server_reference p)
  ++ one 21 VStr (V5ConnAck.authentication_method p)
  ++ one 22 VBin (V5ConnAck.authentication_data p).

(** `PublishProperties` *)
Definition publish_record (its : list item) : V5Publish.PublishProperties :=
  V5Publish.mkPublishProperties (last_num 1 its)
    (last_num 2 its)
    (last_num 35 its)
    (last_bytes 8 its)
    (last_bytes 9 its)
    (all_pairs its)
    (all_ids its)
    (last_bytes 3 its).
Definition publish_items (p : V5Publish.PublishProperties) : list item :=
  one 1 VByte (V5Publish.payload_format_indicator p)
  ++ one 2 VFour (V5Publish.message_expiry_interval p)
  ++ one 35 VTwo (V5Publish.topic_alias p)
  ++ one 8 VStr (V5Publish.response_topic p)
  ++ one 9 VBin (V5Publish.correlation_data p)
  ++ pair_items (V5Publish.user_properties p)
  ++ id_items (V5Publish.subscription_identifiers p)
  ++ one 3 VStr (V5Publish.content_type p).

(** `PubAckProperties` *)
Definition puback_record (its : list item) : V5PubAck.PubAckProperties :=
  V5PubAck.mkPubAckProperties (last_bytes 31 its)
    (all_pairs its).
Definition puback_items (p : V5PubAck.PubAckProperties) : list item :=
  one 31 VStr (V5PubAck.reason_string p)
  ++ pair_items (V5PubAck.user_properties p).

(** `PubRecProperties` *)
Definition pubrec_record (its : list item) : V5PubRec.PubRecProperties :=
  V5PubRec.mkPubRecProperties (last_bytes 31 its)
    (all_pairs its).
Definition pubrec_items (p : V5PubRec.PubRecProperties) : list item :=
  one 31 VStr (V5PubRec.reason_string p)
  ++ pair_items (V5PubRec.user_properties p).

(** `PubRelProperties` *)
Definition pubrel_record (its : list item) : V5PubRel.PubRelProperties :=
  V5PubRel.mkPubRelProperties (last_bytes 31 its)
    (all_pairs its).
Definition pubrel_items (p : V5PubRel.PubRelProperties) : list item :=
  one 31 VStr (V5PubRel.reason_string p)
  ++ pair_items (V5PubRel.user_properties p).

(** `PubCompProperties` *)
Definition pubcomp_record (its : list item) : V5PubComp.PubCompProperties :=
  V5PubComp.mkPubCompProperties (last_bytes 31 its)
    (all_pairs its).
Definition pubcomp_items (p : V5PubComp.PubCompProperties) : list item :=
  one 31 VStr (V5PubComp.reason_string p)
  ++ pair_items (V5PubComp.user_properties p).

(** `SubscribeProperties` *)
Definition subscribe_record (its : list item) : V5Subscribe.SubscribeProperties :=
  V5Subscribe.mkSubscribeProperties (last_num 11 its)
    (all_pairs its).
Definition subscribe_items (p : V5Subscribe.SubscribeProperties) : list item :=
  one 11 VVar (V5Subscribe.id p)
  ++ pair_items (V5Subscribe.user_properties p).

(** `SubAckProperties` *)
Definition suback_record (its : list item) : V5SubAck.SubAckProperties :=
  V5SubAck.mkSubAckProperties (last_bytes 31 its)
    (all_pairs its).
Definition suback_items (p : V5SubAck.SubAckProperties) : list item :=
  one 31 VStr (V5SubAck.reason_string p)
  ++ pair_items (V5SubAck.user_properties p).

(** `UnsubscribeProperties` *)
Definition unsubscribe_record (its : list item) : V5Unsubscribe.UnsubscribeProperties :=
  V5Unsubscribe.mkUnsubscribeProperties (all_pairs its).
Definition unsubscribe_items (p : V5Unsubscribe.UnsubscribeProperties) : list item :=
  pair_items (V5Unsubscribe.user_properties p).

(** `UnsubAckProperties` *)
Definition unsuback_record (its : list item) : V5UnsubAck.UnsubAckProperties :=
  V5UnsubAck.mkUnsubAckProperties (last_bytes 31 its)
    (all_pairs its).
Definition unsuback_items (p : V5UnsubAck.UnsubAckProperties) : list item :=
  one 31 VStr (V5UnsubAck.reason_string p)
  ++ pair_items (V5UnsubAck.user_properties p).

(** `DisconnectProperties` *)
Definition disconnect_record (its : list item) : V5Disconnect.DisconnectProperties :=
  V5Disconnect.mkDisconnectProperties (last_num 17 its)
    (last_bytes 31 its)
    (all_pairs its)
    (last_bytes 28 its).
Definition disconnect_items (p : V5Disconnect.DisconnectProperties) : list item :=
  one 17 VFour (V5Disconnect.session_expiry_interval p)
  ++ one 31 VStr (V5Disconnect.reason_string p)
  ++ pair_items (V5Disconnect.user_properties p)
  ++ one 28 VStr (V5Disconnect.server_reference p).

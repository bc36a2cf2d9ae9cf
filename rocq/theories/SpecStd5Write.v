(** SpecStd5Write.v -- the packet values whose encoding is a message of the MQTT 5
    standard. *)
From Verif Require Import Base SpecWire SpecTopic SpecProps SpecPropSets SpecV5 SpecStd5.
From Verif Require V5Connect V5ConnAck V5Publish V5PubAck V5PubRec V5PubRel V5PubComp
  V5Subscribe V5SubAck V5Unsubscribe V5UnsubAck V5Disconnect.

Definition standard_fields (p : Packet) : Prop :=
  match p with
  | Connect c =>
      V5Connect.protocol c = V5 /\ text (V5Connect.client_id c) /\
      on_some (fun w => topic_name (V5Connect.lw_topic w)) (V5Connect.last_will c) /\
      on_some (fun l => text (V5Connect.username l)) (V5Connect.login c) /\
      on_some (fun r => V5Connect.cp_authentication_data r <> None ->
                 V5Connect.cp_authentication_method r <> None) (V5Connect.properties c)
  | ConnAck c =>
      (V5ConnAck.code c <> V5ConnAck.Success -> V5ConnAck.session_present c = false) /\
      exists r, V5ConnAck.properties c = Some r /\
        (V5ConnAck.authentication_data r <> None -> V5ConnAck.authentication_method r <> None)
  | Publish q =>
      text (V5Publish.topic q) /\ ~ In PLUS (V5Publish.topic q) /\ ~ In HASH (V5Publish.topic q) /\
      (V5Publish.topic q = [] -> exists r, V5Publish.properties q = Some r /\ V5Publish.topic_alias r <> None) /\
      (V5Publish.qos q = AtMostOnce -> V5Publish.dup q = false)
  | PubAck p => V5PubAck.pkid p <> 0
  | PubRec p => V5PubRec.pkid p <> 0
  | PubRel p => V5PubRel.pkid p <> 0
  | PubComp p => V5PubComp.pkid p <> 0
  | Subscribe s => V5Subscribe.pkid s <> 0 /\ V5Subscribe.filters s <> [] /\
      Forall (fun f => topic_filter (V5Subscribe.path f)) (V5Subscribe.filters s)
  | SubAck s => V5SubAck.pkid s <> 0 /\ V5SubAck.return_codes s <> []
  | Unsubscribe u => V5Unsubscribe.pkid u <> 0 /\ V5Unsubscribe.filters u <> [] /\
      Forall topic_filter (V5Unsubscribe.filters u)
  | UnsubAck u => V5UnsubAck.pkid u <> 0 /\ V5UnsubAck.reasons u <> []
  | PingReq | PingResp => True
  | Disconnect d =>             (* not a set of properties without any property, unless the disconnection is normal *)
      forall r, V5Disconnect.properties d = Some r -> disconnect_items r = [] ->
        V5Disconnect.reason_code d = V5Disconnect.NormalDisconnection
  end.
(** ... and every property has a legal value *)
Definition standard_value (p : Packet) : Prop :=
  standard_fields p /\ Forall value_rule (packet_items p).

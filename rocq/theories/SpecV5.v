(** SpecV5.v -- specification of the MQTT 5 packets of the crate: which values exist,
    what their encoding is according to the standard, where the crate departs from it,
    and which frames decode to which packet.  Only the API data types (records, enums)
    are taken from the model. *)
From Verif Require Import Base SpecWire SpecProps SpecPropSets.
From Verif Require V5Connect V5ConnAck V5Publish V5PubAck V5PubRec V5PubRel V5PubComp
  V5Subscribe V5SubAck V5Unsubscribe V5UnsubAck V5Disconnect.
From Verif Require Export V5Mod.

(** ** Reason codes (MQTT 5, sections 2.4, 3.2.2.2, 3.4.2.1, 3.5.2.1, 3.6.2.1, 3.7.2.1,
    3.9.3, 3.11.3, 3.14.2.1) *)
Definition connack_code (c : V5ConnAck.ConnectReturnCode) : N :=
  match c with
  | V5ConnAck.Success => 0x00
  | V5ConnAck.UnspecifiedError => 0x80
  | V5ConnAck.MalformedPacket => 0x81
  | V5ConnAck.ProtocolError => 0x82
  | V5ConnAck.ImplementationSpecificError => 0x83
  | V5ConnAck.UnsupportedProtocolVersion => 0x84
  | V5ConnAck.ClientIdentifierNotValid => 0x85
  | V5ConnAck.BadUserNamePassword => 0x86
  | V5ConnAck.NotAuthorized => 0x87
  | V5ConnAck.ServerUnavailable => 0x88
  | V5ConnAck.ServerBusy => 0x89
  | V5ConnAck.Banned => 0x8A
  | V5ConnAck.BadAuthenticationMethod => 0x8C
  | V5ConnAck.TopicNameInvalid => 0x90
  | V5ConnAck.PacketTooLarge => 0x95
  | V5ConnAck.QuotaExceeded => 0x97
  | V5ConnAck.PayloadFormatInvalid => 0x99
  | V5ConnAck.RetainNotSupported => 0x9A
  | V5ConnAck.QoSNotSupported => 0x9B
  | V5ConnAck.UseAnotherServer => 0x9C
  | V5ConnAck.ServerMoved => 0x9D
  | V5ConnAck.ConnectionRateExceeded => 0x9F
  end.
Definition puback_code (c : V5PubAck.PubAckReason) : N :=
  match c with
  | V5PubAck.Success => 0x00
  | V5PubAck.NoMatchingSubscribers => 0x10
  | V5PubAck.UnspecifiedError => 0x80
  | V5PubAck.ImplementationSpecificError => 0x83
  | V5PubAck.NotAuthorized => 0x87
  | V5PubAck.TopicNameInvalid => 0x90
  | V5PubAck.PacketIdentifierInUse => 0x91
  | V5PubAck.QuotaExceeded => 0x97
  | V5PubAck.PayloadFormatInvalid => 0x99
  end.
Definition pubrec_code (c : V5PubRec.PubRecReason) : N :=
  match c with
  | V5PubRec.Success => 0x00
  | V5PubRec.NoMatchingSubscribers => 0x10
  | V5PubRec.UnspecifiedError => 0x80
  | V5PubRec.ImplementationSpecificError => 0x83
  | V5PubRec.NotAuthorized => 0x87
  | V5PubRec.TopicNameInvalid => 0x90
  | V5PubRec.PacketIdentifierInUse => 0x91
  | V5PubRec.QuotaExceeded => 0x97
  | V5PubRec.PayloadFormatInvalid => 0x99
  end.
Definition pubrel_code (c : V5PubRel.PubRelReason) : N :=
  match c with V5PubRel.Success => 0x00 | V5PubRel.PacketIdentifierNotFound => 0x92 end.
Definition pubcomp_code (c : V5PubComp.PubCompReason) : N :=
  match c with V5PubComp.Success => 0x00 | V5PubComp.PacketIdentifierNotFound => 0x92 end.
Definition suback_code (c : V5SubAck.SubscribeReasonCode) : N :=
  match c with
  | V5SubAck.QoS0 => 0x00
  | V5SubAck.QoS1 => 0x01
  | V5SubAck.QoS2 => 0x02
  | V5SubAck.Unspecified => 0x80
  | V5SubAck.ImplementationSpecific => 0x83
  | V5SubAck.NotAuthorized => 0x87
  | V5SubAck.TopicFilterInvalid => 0x8F
  | V5SubAck.PkidInUse => 0x91
  | V5SubAck.QuotaExceeded => 0x97
  | V5SubAck.SharedSubscriptionsNotSupported => 0x9E
  | V5SubAck.SubscriptionIdNotSupported => 0xA1
  | V5SubAck.WildcardSubscriptionsNotSupported => 0xA2
  end.
Definition unsuback_code (c : V5UnsubAck.UnsubAckReason) : N :=
  match c with
  | V5UnsubAck.Success => 0x00
  | V5UnsubAck.NoSubscriptionExisted => 0x11
  | V5UnsubAck.UnspecifiedError => 0x80
  | V5UnsubAck.ImplementationSpecificError => 0x83
  | V5UnsubAck.NotAuthorized => 0x87
  | V5UnsubAck.TopicFilterInvalid => 0x8F
  | V5UnsubAck.PacketIdentifierInUse => 0x91
  end.
Definition disconnect_code (c : V5Disconnect.DisconnectReasonCode) : N :=
  match c with
  | V5Disconnect.NormalDisconnection => 0x00
  | V5Disconnect.DisconnectWithWillMessage => 0x04
  | V5Disconnect.UnspecifiedError => 0x80
  | V5Disconnect.MalformedPacket => 0x81
  | V5Disconnect.ProtocolError => 0x82
  | V5Disconnect.ImplementationSpecificError => 0x83
  | V5Disconnect.NotAuthorized => 0x87
  | V5Disconnect.ServerBusy => 0x89
  | V5Disconnect.ServerShuttingDown => 0x8B
  | V5Disconnect.KeepAliveTimeout => 0x8D
  | V5Disconnect.SessionTakenOver => 0x8E
  | V5Disconnect.TopicFilterInvalid => 0x8F
  | V5Disconnect.TopicNameInvalid => 0x90
  | V5Disconnect.ReceiveMaximumExceeded => 0x93
  | V5Disconnect.TopicAliasInvalid => 0x94
  | V5Disconnect.PacketTooLarge => 0x95
  | V5Disconnect.MessageRateTooHigh => 0x96
  | V5Disconnect.QuotaExceeded => 0x97
  | V5Disconnect.AdministrativeAction => 0x98
  | V5Disconnect.PayloadFormatInvalid => 0x99
  | V5Disconnect.RetainNotSupported => 0x9A
  | V5Disconnect.QoSNotSupported => 0x9B
  | V5Disconnect.UseAnotherServer => 0x9C
  | V5Disconnect.ServerMoved => 0x9D
  | V5Disconnect.SharedSubscriptionNotSupported => 0x9E
  | V5Disconnect.ConnectionRateExceeded => 0x9F
  | V5Disconnect.MaximumConnectTime => 0xA0
  | V5Disconnect.SubscriptionIdentifiersNotSupported => 0xA1
  | V5Disconnect.WildcardSubscriptionsNotSupported => 0xA2
  end.
(** retain handling (MQTT 5, 3.8.3.1) *)
Definition rule_num (r : V5Subscribe.RetainForwardRule) : N :=
  match r with
  | V5Subscribe.OnEverySubscribe => 0 | V5Subscribe.OnNewSubscribe => 1 | V5Subscribe.Never => 2
  end.

(** ** The properties of a packet *)
Definition opt_items {R} (items : R -> list item) (o : option R) : list item :=
  match o with Some r => items r | None => [] end.
Definition will_props (c : V5Connect.Connect) : list item :=
  match V5Connect.last_will c with
  | Some w => opt_items will_items (V5Connect.lw_properties w)
  | None => []
  end.
(** all of them, in the order in which they are written *)
Definition packet_items (p : Packet) : list item :=
  match p with
  | Connect c => opt_items connect_items (V5Connect.properties c) ++ will_props c
  | ConnAck c => opt_items connack_items (V5ConnAck.properties c)
  | Publish p => opt_items publish_items (V5Publish.properties p)
  | PubAck p => opt_items puback_items (V5PubAck.properties p)
  | PubRec p => opt_items pubrec_items (V5PubRec.properties p)
  | PubRel p => opt_items pubrel_items (V5PubRel.properties p)
  | PubComp p => opt_items pubcomp_items (V5PubComp.properties p)
  | Subscribe s => opt_items subscribe_items (V5Subscribe.properties s)
  | SubAck s => opt_items suback_items (V5SubAck.properties s)
  | Unsubscribe u => opt_items unsubscribe_items (V5Unsubscribe.properties u)
  | UnsubAck u => opt_items unsuback_items (V5UnsubAck.properties u)
  | PingReq | PingResp => []
  | Disconnect d => opt_items disconnect_items (V5Disconnect.properties d)
  end.

(** ** The values of the Rust types *)
Definition typed_will (w : V5Connect.LastWill) : Prop :=
  is_string (V5Connect.lw_topic w) /\ bytes_ok (V5Connect.lw_message w).
Definition typed_login (l : V5Connect.Login) : Prop :=
  is_string (V5Connect.username l) /\ is_string (V5Connect.password l).

Definition typed_fields (p : Packet) : Prop :=
  match p with
  | Connect c =>
      u16 (V5Connect.keep_alive c) /\ is_string (V5Connect.client_id c) /\
      on_some typed_will (V5Connect.last_will c) /\ on_some typed_login (V5Connect.login c)
  | ConnAck _ => True
  | Publish p =>
      is_string (V5Publish.topic p) /\ u16 (V5Publish.pkid p) /\ bytes_ok (V5Publish.payload p)
  | PubAck p => u16 (V5PubAck.pkid p)
  | PubRec p => u16 (V5PubRec.pkid p)
  | PubRel p => u16 (V5PubRel.pkid p)
  | PubComp p => u16 (V5PubComp.pkid p)
  | Subscribe s =>
      u16 (V5Subscribe.pkid s) /\
      Forall (fun f => is_string (V5Subscribe.path f)) (V5Subscribe.filters s)
  | SubAck s => u16 (V5SubAck.pkid s)
  | Unsubscribe u => u16 (V5Unsubscribe.pkid u) /\ Forall is_string (V5Unsubscribe.filters u)
  | UnsubAck u => u16 (V5UnsubAck.pkid u)
  | PingReq | PingResp | Disconnect _ => True
  end.
(** every value a Rust program can hold in a variable of type `Packet` *)
Definition typed (p : Packet) : Prop :=
  typed_fields p /\ Forall item_typed (packet_items p).

(** ** Wire encoding (MQTT 5, chapters 2 and 3) *)
Definition connect_flags (c : V5Connect.Connect) : N :=
  2 * bit (V5Connect.clean_session c)
  + match V5Connect.last_will c with
    | Some w => 4 + 8 * qos_num (V5Connect.lw_qos w) + 32 * bit (V5Connect.lw_retain w)
    | None => 0
    end
  + match V5Connect.login c with
    | Some l => 64 * bit (nonempty (V5Connect.password l)) + 128 * bit (nonempty (V5Connect.username l))
    | None => 0
    end.
Definition login_bytes (l : V5Connect.Login) : bytes :=
  (if nonempty (V5Connect.username l) then field (V5Connect.username l) else [])
  ++ (if nonempty (V5Connect.password l) then field (V5Connect.password l) else []).
(** will properties, topic, message *)
Definition will_bytes (w : V5Connect.LastWill) : bytes :=
  section_bytes (opt_items will_items (V5Connect.lw_properties w))
  ++ field (V5Connect.lw_topic w) ++ field (V5Connect.lw_message w).
(** the will of a 3.1.1 CONNECT has no properties *)
Definition will_bytes_311 (w : V5Connect.LastWill) : bytes :=
  field (V5Connect.lw_topic w) ++ field (V5Connect.lw_message w).

(** PUBACK, PUBREC, PUBREL, PUBCOMP: identifier; reason code unless it is Success and
    there are no properties; property section *)
Definition ack_body {R} (items : R -> list item) (id code : N) (o : option R) : bytes :=
  be16 id ++ match o with
             | Some r => code :: section_bytes (items r)
             | None => if code =? 0 then [] else [code]
             end.

(** subscription options (MQTT 5, 3.8.3.1) *)
Definition options (f : V5Subscribe.SubscribeFilter) : N :=
  qos_num (V5Subscribe.qos f) + 4 * bit (V5Subscribe.nolocal f)
  + 8 * bit (V5Subscribe.preserve_retain f) + 16 * rule_num (V5Subscribe.retain_forward_rule f).

Definition first_byte (p : Packet) : N :=
  match p with
  | Connect _ => 0x10
  | ConnAck _ => 0x20
  | Publish p => 0x30 + 8 * bit (V5Publish.dup p) + 2 * qos_num (V5Publish.qos p)
                 + bit (V5Publish.retain p)
  | PubAck _ => 0x40
  | PubRec _ => 0x50
  | PubRel _ => 0x62
  | PubComp _ => 0x70
  | Subscribe _ => 0x82
  | SubAck _ => 0x90
  | Unsubscribe _ => 0xA2
  | UnsubAck _ => 0xB0
  | PingReq => 0xC0
  | PingResp => 0xD0
  | Disconnect _ => 0xE0
  end.

(** variable header and payload.  A CONNECT with level 4 is a 3.1.1 packet, which has
    no property sections. *)
Definition body (p : Packet) : bytes :=
  match p with
  | Connect c =>
      field MQTT ++ [level (V5Connect.protocol c); connect_flags c]
      ++ be16 (V5Connect.keep_alive c)
      ++ match V5Connect.protocol c with
         | V5 => section_bytes (opt_items connect_items (V5Connect.properties c))
                 ++ field (V5Connect.client_id c) ++ opt will_bytes (V5Connect.last_will c)
         | V4 => field (V5Connect.client_id c) ++ opt will_bytes_311 (V5Connect.last_will c)
         end
      ++ opt login_bytes (V5Connect.login c)
  | ConnAck c =>
      [bit (V5ConnAck.session_present c); connack_code (V5ConnAck.code c)]
      ++ section_bytes (opt_items connack_items (V5ConnAck.properties c))
  | Publish p =>
      field (V5Publish.topic p)
      ++ (if positive_qos (V5Publish.qos p) then be16 (V5Publish.pkid p) else [])
      ++ section_bytes (opt_items publish_items (V5Publish.properties p))
      ++ V5Publish.payload p
  | PubAck p => ack_body puback_items (V5PubAck.pkid p) (puback_code (V5PubAck.reason p)) (V5PubAck.properties p)
  | PubRec p => ack_body pubrec_items (V5PubRec.pkid p) (pubrec_code (V5PubRec.reason p)) (V5PubRec.properties p)
  | PubRel p => ack_body pubrel_items (V5PubRel.pkid p) (pubrel_code (V5PubRel.reason p)) (V5PubRel.properties p)
  | PubComp p => ack_body pubcomp_items (V5PubComp.pkid p) (pubcomp_code (V5PubComp.reason p)) (V5PubComp.properties p)
  | Subscribe s =>
      be16 (V5Subscribe.pkid s)
      ++ section_bytes (opt_items subscribe_items (V5Subscribe.properties s))
      ++ flat_map (fun f => field (V5Subscribe.path f) ++ [options f]) (V5Subscribe.filters s)
  | SubAck s =>
      be16 (V5SubAck.pkid s)
      ++ section_bytes (opt_items suback_items (V5SubAck.properties s))
      ++ map suback_code (V5SubAck.return_codes s)
  | Unsubscribe u =>
      be16 (V5Unsubscribe.pkid u)
      ++ section_bytes (opt_items unsubscribe_items (V5Unsubscribe.properties u))
      ++ flat_map field (V5Unsubscribe.filters u)
  | UnsubAck u =>
      be16 (V5UnsubAck.pkid u)
      ++ section_bytes (opt_items unsuback_items (V5UnsubAck.properties u))
      ++ map unsuback_code (V5UnsubAck.reasons u)
  | PingReq | PingResp => []
  | Disconnect d =>
      match opt_items disconnect_items (V5Disconnect.properties d) with
      | [] => if disconnect_code (V5Disconnect.reason_code d) =? 0 then []
              else [disconnect_code (V5Disconnect.reason_code d)]
      | its => disconnect_code (V5Disconnect.reason_code d) :: section_bytes its
      end
  end.
(** the whole packet on the wire, according to the standard *)
Definition wire (p : Packet) : bytes := frame (first_byte p) (body p).

(** ** Where the crate writes something else *)
Definition deviates (p : Packet) : Prop :=
  match p with
  | Connect c => V5Connect.protocol c = V4
  | ConnAck c => V5ConnAck.properties c = None
  | Disconnect d =>
      exists r, V5Disconnect.properties d = Some r /\ disconnect_items r = [] /\
        V5Disconnect.reason_code d <> V5Disconnect.NormalDisconnection
  | _ => False
  end.
(** ... and what it writes *)
Definition written (p : Packet) : bytes :=
  match p with
  | Connect c =>                (* property sections also at level 4 *)
      field MQTT ++ [level (V5Connect.protocol c); connect_flags c]
      ++ be16 (V5Connect.keep_alive c)
      ++ section_bytes (opt_items connect_items (V5Connect.properties c))
      ++ field (V5Connect.client_id c) ++ opt will_bytes (V5Connect.last_will c)
      ++ opt login_bytes (V5Connect.login c)
  | ConnAck c =>                (* no property length without properties *)
      [bit (V5ConnAck.session_present c); connack_code (V5ConnAck.code c)]
      ++ match V5ConnAck.properties c with
         | Some r => section_bytes (connack_items r)
         | None => []
         end
  | Disconnect d =>             (* an empty property set loses the reason code *)
      match V5Disconnect.properties d with
      | Some r => match disconnect_items r with [] => [] | _ => body p end
      | None => body p
      end
  | _ => body p
  end.
Definition written_wire (p : Packet) : bytes := frame (first_byte p) (written p).

(** ** What the caller has to respect for the encoding to be meaningful *)
(** strings and binary fields fit their two-byte length *)
Definition short_fields (p : Packet) : Prop :=
  match p with
  | Connect c =>
      short (V5Connect.client_id c) /\
      on_some (fun w => short (V5Connect.lw_topic w) /\ short (V5Connect.lw_message w))
        (V5Connect.last_will c) /\
      on_some (fun l => short (V5Connect.username l) /\ short (V5Connect.password l))
        (V5Connect.login c)
  | Publish p => short (V5Publish.topic p)
  | Subscribe s => Forall (fun f => short (V5Subscribe.path f)) (V5Subscribe.filters s)
  | Unsubscribe u => Forall short (V5Unsubscribe.filters u)
  | _ => True
  end /\ Forall (fun it => value_short (snd it)) (packet_items p).
(** subscription identifiers are at most 268435455 *)
Definition small_ids (p : Packet) : Prop :=
  Forall (fun it => value_small (snd it)) (packet_items p).
(** a QoS 1/2 publish carries a packet identifier *)
Definition has_id (p : Packet) : Prop :=
  match p with
  | Publish p => positive_qos (V5Publish.qos p) = true -> V5Publish.pkid p <> 0
  | _ => True
  end.
Definition fits (p : Packet) : Prop :=
  typed p /\ short_fields p /\ small_ids p /\ has_id p /\ blen (written p) <= max_len.

(** ** What is lost in a round trip *)
Definition canon_login (l : option V5Connect.Login) : option V5Connect.Login :=
  match l with
  | Some l => if nonempty (V5Connect.username l) || nonempty (V5Connect.password l)
              then Some l else None
  | None => None
  end.
(** an empty property set becomes none *)
Definition canon_props {R} (items : R -> list item) (o : option R) : option R :=
  match o with
  | Some r => if nonempty (items r) then Some r else None
  | None => None
  end.
Definition canon_will (w : V5Connect.LastWill) : V5Connect.LastWill :=
  V5Connect.mkLastWill (V5Connect.lw_topic w) (V5Connect.lw_message w) (V5Connect.lw_qos w)
    (V5Connect.lw_retain w) (canon_props will_items (V5Connect.lw_properties w)).
Definition canon (p : Packet) : Packet :=
  match p with
  | Connect c =>
      Connect (V5Connect.mkConnect (V5Connect.protocol c) (V5Connect.keep_alive c)
        (V5Connect.client_id c) (V5Connect.clean_session c)
        (option_map canon_will (V5Connect.last_will c))
        (canon_login (V5Connect.login c)) (canon_props connect_items (V5Connect.properties c)))
  | ConnAck c =>
      ConnAck (V5ConnAck.mkConnAck (V5ConnAck.session_present c) (V5ConnAck.code c)
        (canon_props connack_items (V5ConnAck.properties c)))
  | Publish p =>
      Publish (V5Publish.mkPublish (V5Publish.dup p) (V5Publish.qos p) (V5Publish.retain p)
        (V5Publish.topic p) (if positive_qos (V5Publish.qos p) then V5Publish.pkid p else 0)
        (canon_props publish_items (V5Publish.properties p)) (V5Publish.payload p))
  | PubAck p =>
      PubAck (V5PubAck.mkPubAck (V5PubAck.pkid p) (V5PubAck.reason p)
        (canon_props puback_items (V5PubAck.properties p)))
  | PubRec p =>
      PubRec (V5PubRec.mkPubRec (V5PubRec.pkid p) (V5PubRec.reason p)
        (canon_props pubrec_items (V5PubRec.properties p)))
  | PubRel p =>
      PubRel (V5PubRel.mkPubRel (V5PubRel.pkid p) (V5PubRel.reason p)
        (canon_props pubrel_items (V5PubRel.properties p)))
  | PubComp p =>
      PubComp (V5PubComp.mkPubComp (V5PubComp.pkid p) (V5PubComp.reason p)
        (canon_props pubcomp_items (V5PubComp.properties p)))
  | Subscribe s =>
      Subscribe (V5Subscribe.mkSubscribe (V5Subscribe.pkid s) (V5Subscribe.filters s)
        (canon_props subscribe_items (V5Subscribe.properties s)))
  | SubAck s =>
      SubAck (V5SubAck.mkSubAck (V5SubAck.pkid s) (V5SubAck.return_codes s)
        (canon_props suback_items (V5SubAck.properties s)))
  | Unsubscribe u =>
      Unsubscribe (V5Unsubscribe.mkUnsubscribe (V5Unsubscribe.pkid u) (V5Unsubscribe.filters u)
        (canon_props unsubscribe_items (V5Unsubscribe.properties u)))
  | UnsubAck u =>
      UnsubAck (V5UnsubAck.mkUnsubAck (V5UnsubAck.pkid u) (V5UnsubAck.reasons u)
        (canon_props unsuback_items (V5UnsubAck.properties u)))
  | PingReq => PingReq
  | PingResp => PingResp
  | Disconnect d =>
      Disconnect (V5Disconnect.mkDisconnect (V5Disconnect.reason_code d)
        (canon_props disconnect_items (V5Disconnect.properties d)))
  end.
(** values that carry no redundant information *)
Definition canonical (p : Packet) : Prop := canon p = p.

(** The reader counts every subscription identifier of a PUBLISH one byte too long.
    The section is still read completely as long as there are few enough of them: fewer
    than the encoded size of the content type that follows them; without content type,
    at most the encoded size of the last one. *)
Definition ids_fit (p : V5Publish.Publish) : Prop :=
  match V5Publish.properties p with
  | None => True
  | Some r =>
      match V5Publish.content_type r with
      | Some ct => blen (V5Publish.subscription_identifiers r) < 3 + blen ct
      | None =>
          match rev (V5Publish.subscription_identifiers r) with
          | [] => True
          | last :: _ => blen (V5Publish.subscription_identifiers r) <= 1 + blen (varint last)
          end
      end
  end.
(** the packets whose encoding can be read back *)
Definition readable (p : Packet) : Prop :=
  match p with
  | Connect c => V5Connect.protocol c = V5
  | ConnAck c => V5ConnAck.properties c <> None
  | Publish p => ids_fit p
  | SubAck s => V5SubAck.return_codes s <> []
  | UnsubAck u => V5UnsubAck.reasons u <> []
  | Disconnect d =>
      exists r, V5Disconnect.properties d = Some r /\ disconnect_items r <> []
  | _ => True
  end.

(** ... and the CONNECT at level 4 of which nothing is lost: no properties, every string
    empty *)
Definition blank_311 (p : Packet) : Prop :=
  match p with
  | Connect c =>
      V5Connect.protocol c = V4 /\ V5Connect.client_id c = [] /\
      opt_items connect_items (V5Connect.properties c) = [] /\
      on_some (fun w => V5Connect.lw_topic w = [] /\ V5Connect.lw_message w = [] /\
                 opt_items will_items (V5Connect.lw_properties w) = []) (V5Connect.last_will c) /\
      on_some (fun l => V5Connect.username l = [] /\ V5Connect.password l = []) (V5Connect.login c)
  | _ => False
  end.

(** ** Failing writes *)
(** the remaining length `write` announces: the length of the body, where a QoS 1/2
    publish with packet id 0 is counted without the identifier *)
Definition declared_len (p : Packet) : N :=
  match p with
  | Publish q =>
      if positive_qos (V5Publish.qos q) && (V5Publish.pkid q =? 0)
      then blen (field (V5Publish.topic q)
                 ++ section_bytes (opt_items publish_items (V5Publish.properties q))
                 ++ V5Publish.payload q)
      else blen (body p)
  | _ => blen (written p)
  end.
(** the bytes a publish without the required identifier leaves behind *)
Definition id_zero_output (p : Packet) : bytes :=
  match p with
  | Publish q => first_byte p :: varint (declared_len p) ++ field (V5Publish.topic q)
  | _ => []
  end.
(** the properties before the first subscription identifier that is too large *)
Fixpoint before_big (its : list item) : list item :=
  match its with
  | (id, VVar n) :: its => if n <=? max_len then (id, VVar n) :: before_big its else []
  | it :: its => it :: before_big its
  | [] => []
  end.
(** the bytes in front of the property section (PUBLISH, SUBSCRIBE) *)
Definition before_section (p : Packet) : bytes :=
  match p with
  | Publish p =>
      field (V5Publish.topic p)
      ++ (if positive_qos (V5Publish.qos p) then be16 (V5Publish.pkid p) else [])
  | Subscribe s => be16 (V5Subscribe.pkid s)
  | _ => []
  end.
(** the bytes a packet with a too large subscription identifier leaves behind: up to
    and including that property's identifier byte (11) *)
Definition big_id_output (p : Packet) : bytes :=
  first_byte p :: varint (declared_len p) ++ before_section p
  ++ varint (blen (items_bytes (packet_items p))) ++ items_bytes (before_big (packet_items p)) ++ [11].

(** CONNECT with another value in the flags byte *)
Definition connect_body_with (flags : N) (c : V5Connect.Connect) : bytes :=
  field MQTT ++ [level (V5Connect.protocol c); flags]
  ++ be16 (V5Connect.keep_alive c)
  ++ section_bytes (opt_items connect_items (V5Connect.properties c))
  ++ field (V5Connect.client_id c) ++ opt will_bytes (V5Connect.last_will c)
  ++ opt login_bytes (V5Connect.login c).

(** ** Which bodies decode to which packet.  [b1] is the first byte of the frame.
    [junk] stands for trailing bytes the decoder does not look at. *)
Definition decodes_will (flags : N) (o : option V5Connect.LastWill) (bs : bytes) : Prop :=
  match o with
  | None => bs = [] /\ bit_at 2 flags = false /\ flags / 8 mod 8 = 0
  | Some w =>
      bit_at 2 flags = true /\ flags / 8 mod 4 = qos_num (V5Connect.lw_qos w) /\
      bit_at 5 flags = V5Connect.lw_retain w /\
      is_string (V5Connect.lw_topic w) /\ short (V5Connect.lw_topic w) /\
      short (V5Connect.lw_message w) /\
      exists sec, bs = sec ++ field (V5Connect.lw_topic w) ++ field (V5Connect.lw_message w) /\
        decodes_props (allowed_at InWill) will_record (V5Connect.lw_properties w) sec
  end.
(** PUBACK, PUBREC, PUBREL, PUBCOMP *)
Definition decodes_ack {C R} (allowed : list N) (record_of : list item -> R) (num : C -> N)
    (bd : bytes) (id : N) (c : C) (o : option R) : Prop :=
  u16 id /\
  (   bd = be16 id /\ num c = 0 /\ o = None
   \/ bd = be16 id ++ [num c] /\ o = None
   \/ exists sec junk, bd = be16 id ++ num c :: sec ++ junk /\ decodes_props allowed record_of o sec).

Definition decodes_body (b1 : N) (bd : bytes) (p : Packet) : Prop :=
  match p with
  | Connect c =>
      b1 / 16 = 1 /\
      exists flags sec wbs ubs pbs u pw junk,
        u8 flags /\
        bd = field MQTT ++ [level (V5Connect.protocol c); flags]
             ++ be16 (V5Connect.keep_alive c) ++ sec ++ field (V5Connect.client_id c)
             ++ wbs ++ ubs ++ pbs ++ junk /\
        u16 (V5Connect.keep_alive c) /\
        is_string (V5Connect.client_id c) /\ short (V5Connect.client_id c) /\
        V5Connect.clean_session c = bit_at 1 flags /\
        (match V5Connect.protocol c with
         | V5 => decodes_props (allowed_at InConnect) connect_record (V5Connect.properties c) sec
         | V4 => sec = [] /\ V5Connect.properties c = None
         end) /\
        decodes_will flags (V5Connect.last_will c) wbs /\
        decodes_opt_string (bit_at 7 flags) u ubs /\
        decodes_opt_string (bit_at 6 flags) pw pbs /\
        V5Connect.login c = canon_login (Some (V5Connect.mkLogin u pw))
  | ConnAck c =>
      b1 / 16 = 2 /\
      exists flags sec junk,
        bd = flags :: connack_code (V5ConnAck.code c) :: sec ++ junk /\
        V5ConnAck.session_present c = bit_at 0 flags /\
        decodes_props (allowed_at InConnAck) connack_record (V5ConnAck.properties c) sec
  | Publish p =>
      b1 / 16 = 3 /\
      V5Publish.dup p = bit_at 3 b1 /\ b1 / 2 mod 4 = qos_num (V5Publish.qos p) /\
      V5Publish.retain p = bit_at 0 b1 /\
      is_string (V5Publish.topic p) /\ short (V5Publish.topic p) /\
      (if positive_qos (V5Publish.qos p) then 0 < V5Publish.pkid p /\ u16 (V5Publish.pkid p)
       else V5Publish.pkid p = 0) /\
      exists sec,
        bd = field (V5Publish.topic p)
             ++ (if positive_qos (V5Publish.qos p) then be16 (V5Publish.pkid p) else [])
             ++ sec ++ V5Publish.payload p /\
        decodes_props (allowed_at InPublish) publish_record (V5Publish.properties p) sec
  | PubAck p => b1 / 16 = 4 /\
      decodes_ack (allowed_at InPubAck) puback_record puback_code bd
        (V5PubAck.pkid p) (V5PubAck.reason p) (V5PubAck.properties p)
  | PubRec p => b1 / 16 = 5 /\
      decodes_ack (allowed_at InPubRec) pubrec_record pubrec_code bd
        (V5PubRec.pkid p) (V5PubRec.reason p) (V5PubRec.properties p)
  | PubRel p => b1 / 16 = 6 /\
      decodes_ack (allowed_at InPubRel) pubrel_record pubrel_code bd
        (V5PubRel.pkid p) (V5PubRel.reason p) (V5PubRel.properties p)
  | PubComp p => b1 / 16 = 7 /\
      decodes_ack (allowed_at InPubComp) pubcomp_record pubcomp_code bd
        (V5PubComp.pkid p) (V5PubComp.reason p) (V5PubComp.properties p)
  | Subscribe s =>
      b1 / 16 = 8 /\ u16 (V5Subscribe.pkid s) /\
      exists sec opts,
        decodes_props (allowed_at InSubscribe) subscribe_record (V5Subscribe.properties s) sec /\
        Forall2 (fun f o =>
            o mod 4 = qos_num (V5Subscribe.qos f) /\
            V5Subscribe.nolocal f = bit_at 2 o /\ V5Subscribe.preserve_retain f = bit_at 3 o /\
            o / 16 mod 4 = rule_num (V5Subscribe.retain_forward_rule f) /\
            is_string (V5Subscribe.path f) /\ short (V5Subscribe.path f))
          (V5Subscribe.filters s) opts /\
        bd = be16 (V5Subscribe.pkid s) ++ sec
             ++ flat_map (fun fo => field (V5Subscribe.path (fst fo)) ++ [snd fo])
                  (combine (V5Subscribe.filters s) opts)
  | SubAck s =>
      b1 / 16 = 9 /\ u16 (V5SubAck.pkid s) /\ V5SubAck.return_codes s <> [] /\
      exists sec,
        decodes_props (allowed_at InSubAck) suback_record (V5SubAck.properties s) sec /\
        bd = be16 (V5SubAck.pkid s) ++ sec ++ map suback_code (V5SubAck.return_codes s)
  | Unsubscribe u =>
      b1 / 16 = 10 /\ u16 (V5Unsubscribe.pkid u) /\
      Forall (fun t => is_string t /\ short t) (V5Unsubscribe.filters u) /\
      exists sec,
        decodes_props (allowed_at InUnsubscribe) unsubscribe_record (V5Unsubscribe.properties u) sec /\
        bd = be16 (V5Unsubscribe.pkid u) ++ sec ++ flat_map field (V5Unsubscribe.filters u)
  | UnsubAck u =>
      b1 / 16 = 11 /\ u16 (V5UnsubAck.pkid u) /\ V5UnsubAck.reasons u <> [] /\
      exists sec,
        decodes_props (allowed_at InUnsubAck) unsuback_record (V5UnsubAck.properties u) sec /\
        bd = be16 (V5UnsubAck.pkid u) ++ sec ++ map unsuback_code (V5UnsubAck.reasons u)
  | PingReq => b1 / 16 = 12
  | PingResp => b1 / 16 = 13
  | Disconnect d =>             (* reserved bits must be 0; the body is not empty *)
      b1 = 0xE0 /\
      exists sec junk,
        bd = disconnect_code (V5Disconnect.reason_code d) :: sec ++ junk /\
        decodes_props (allowed_at InDisconnect) disconnect_record (V5Disconnect.properties d) sec
  end.

(** the packet type number in the high nibble of the first byte *)
Definition kind (p : Packet) : N :=
  match p with
  | Connect _ => 1 | ConnAck _ => 2 | Publish _ => 3 | PubAck _ => 4 | PubRec _ => 5
  | PubRel _ => 6 | PubComp _ => 7 | Subscribe _ => 8 | SubAck _ => 9 | Unsubscribe _ => 10
  | UnsubAck _ => 11 | PingReq => 12 | PingResp => 13 | Disconnect _ => 14
  end.
Definition is_connect (p : Packet) : Prop := match p with Connect _ => True | _ => False end.

(** what a zero-length frame decodes to *)
Definition zero_length_result (b1 : N) : outcome Packet :=
  match b1 / 16 with
  | 0 | 15 => Err (InvalidPacketType (b1 / 16))
  | 12 => Ok PingReq
  | 13 => Ok PingResp
  | _ => Err PayloadRequired
  end.

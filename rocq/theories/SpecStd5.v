(** SpecStd5.v -- the messages of the OASIS standard MQTT 5 and their encoding, as the
    standard has them: nothing here is taken from the crate except the enumerations of
    reason codes and the type of a decoded packet.  Properties are those of SpecProps
    (tables 2-4 and 2.2.2).  Not part of this grammar: the rules for shared subscriptions
    (section 4.8.2), and that a payload marked as UTF-8 is UTF-8 (a receiver may check it). *)
From Verif Require Export SpecStd.
From Verif Require Import Base SpecWire SpecTopic SpecProps SpecPropSets SpecV5.
From Verif Require V5Connect V5ConnAck V5Publish V5PubAck V5PubRec V5PubRel V5PubComp
  V5Subscribe V5SubAck V5Unsubscribe V5UnsubAck V5Disconnect.

(** ** Properties *)
(** value restrictions (sections 3.1.2.11, 3.1.3.2, 3.2.2.3, 3.3.2.3, 3.8.2.1) *)
Definition value_rule (it : item) : Prop :=
  match snd it with
  | VByte n => n <= 1                     (* payload format, maximum QoS, all flags *)
  | VTwo n => fst it = 33 \/ fst it = 35 -> n <> 0        (* receive maximum, topic alias *)
  | VFour n => fst it = 39 -> n <> 0                      (* maximum packet size *)
  | VVar n => n <> 0                                      (* subscription identifier *)
  | VStr s => text s /\ (fst it = 8 -> topic_name s)      (* response topic *)
  | VBin s => short s
  | VPair k v => text k /\ text v
  end.
Definition occurs (id : N) (its : list item) : Prop := In id (map fst its).
(** a property section: allowed properties of the right type with legal values, each at most
    once except those in [repeatable]; authentication data needs an authentication method *)
Definition rules (allowed repeatable : list N) (its : list item) : Prop :=
  Forall (fun it => In (fst it) allowed /\ item_ok it /\ value_rule it) its /\
  (forall id a b c, map fst its = a ++ id :: b ++ id :: c -> In id repeatable) /\
  (occurs 22 its -> occurs 21 its).
(** user properties may be repeated everywhere, subscription identifiers in a PUBLISH *)
Definition rules_at (pl : place) : list item -> Prop :=
  rules (allowed_at pl) (match pl with InPublish => [38; 11] | _ => [38] end).

Record Will := mkWill { w_props : list item; w_topic : bytes; w_message : bytes; w_qos : QoS; w_retain : bool }.
(** reason code and properties of PUBACK, PUBREC, PUBREL, PUBCOMP, DISCONNECT, AUTH, where
    the end may be left out (sections 3.4.2.1, 3.14.2.1, 3.15.2.1) *)
Inductive ending (C : Type) :=
| Nothing
| CodeOnly (c : C)
| CodeProps (c : C) (props : list item).
Arguments Nothing {C}.
Arguments CodeOnly {C} c.
Arguments CodeProps {C} c props.

(** ** The control packets (chapter 3) *)
Inductive Message :=
| M_CONNECT (clean : bool) (keep_alive : N) (props : list item) (client : bytes)
    (will : option Will) (user password : option bytes)
| M_CONNACK (session_present : bool) (code : V5ConnAck.ConnectReturnCode) (props : list item)
| M_PUBLISH0 (retain : bool) (topic : bytes) (props : list item) (payload : bytes)   (* QoS 0 *)
| M_PUBLISH (twice : bool) (dup retain : bool) (topic : bytes) (id : N) (props : list item)
    (payload : bytes)                             (* QoS 2 if [twice], else QoS 1 *)
| M_PUBACK (id : N) (e : ending V5PubAck.PubAckReason)
| M_PUBREC (id : N) (e : ending V5PubRec.PubRecReason)
| M_PUBREL (id : N) (e : ending V5PubRel.PubRelReason)
| M_PUBCOMP (id : N) (e : ending V5PubComp.PubCompReason)
| M_SUBSCRIBE (id : N) (props : list item) (filters : list V5Subscribe.SubscribeFilter)
| M_SUBACK (id : N) (props : list item) (codes : list V5SubAck.SubscribeReasonCode)
| M_UNSUBSCRIBE (id : N) (props : list item) (filters : list bytes)
| M_UNSUBACK (id : N) (props : list item) (codes : list V5UnsubAck.UnsubAckReason)
| M_PINGREQ | M_PINGRESP
| M_DISCONNECT (e : ending V5Disconnect.DisconnectReasonCode)
| M_AUTH (e : ending N).

(** what the standard demands of the fields *)
Definition ending_ok {C} (P : list item -> Prop) (e : ending C) : Prop :=
  match e with CodeProps _ props => P props | _ => True end.
(** the topic name of a PUBLISH may be empty if there is a topic alias (3.3.2.1) *)
Definition publish_topic (topic : bytes) (props : list item) : Prop :=
  text topic /\ ~ In PLUS topic /\ ~ In HASH topic /\ (topic = [] -> occurs 35 props).
Definition conforms (m : Message) : Prop :=
  match m with
  | M_CONNECT clean ka props client will user pw =>
      u16 ka /\ rules_at InConnect props /\ text client /\
      on_some (fun w => rules_at InWill (w_props w) /\ topic_name (w_topic w) /\ binary (w_message w)) will /\
      on_some text user /\ on_some binary pw
  | M_CONNACK sp code props =>
      (code <> V5ConnAck.Success -> sp = false) /\ rules_at InConnAck props
  | M_PUBLISH0 _ topic props payload =>
      publish_topic topic props /\ rules_at InPublish props /\ bytes_ok payload
  | M_PUBLISH _ _ _ topic id props payload =>
      publish_topic topic props /\ identifier id /\ rules_at InPublish props /\ bytes_ok payload
  | M_PUBACK id e => identifier id /\ ending_ok (rules_at InPubAck) e
  | M_PUBREC id e => identifier id /\ ending_ok (rules_at InPubRec) e
  | M_PUBREL id e => identifier id /\ ending_ok (rules_at InPubRel) e
  | M_PUBCOMP id e => identifier id /\ ending_ok (rules_at InPubComp) e
  | M_SUBSCRIBE id props fs =>
      identifier id /\ rules_at InSubscribe props /\ fs <> [] /\
      Forall (fun f => topic_filter (V5Subscribe.path f)) fs
  | M_SUBACK id props codes => identifier id /\ rules_at InSubAck props /\ codes <> []
  | M_UNSUBSCRIBE id props fs =>
      identifier id /\ rules_at InUnsubscribe props /\ fs <> [] /\ Forall topic_filter fs
  | M_UNSUBACK id props codes => identifier id /\ rules_at InUnsubAck props /\ codes <> []
  | M_PINGREQ | M_PINGRESP => True
  | M_DISCONNECT e => ending_ok (rules_at InDisconnect) e
  | M_AUTH e =>
      match e with CodeOnly c | CodeProps c _ => In c [0x00; 0x18; 0x19] | Nothing => True end /\
      ending_ok (rules [21; 22; 31; 38] [38]) e
  end.

(** first byte of the fixed header *)
Definition header_byte (m : Message) : N :=
  match m with
  | M_CONNECT _ _ _ _ _ _ _ => 0x10
  | M_CONNACK _ _ _ => 0x20
  | M_PUBLISH0 retain _ _ _ => 0x30 + bit retain
  | M_PUBLISH twice dup retain _ _ _ _ => 0x30 + 8 * bit dup + (if twice then 4 else 2) + bit retain
  | M_PUBACK _ _ => 0x40
  | M_PUBREC _ _ => 0x50
  | M_PUBREL _ _ => 0x62
  | M_PUBCOMP _ _ => 0x70
  | M_SUBSCRIBE _ _ _ => 0x82
  | M_SUBACK _ _ _ => 0x90
  | M_UNSUBSCRIBE _ _ _ => 0xA2
  | M_UNSUBACK _ _ _ => 0xB0
  | M_PINGREQ => 0xC0
  | M_PINGRESP => 0xD0
  | M_DISCONNECT _ => 0xE0
  | M_AUTH _ => 0xF0
  end.

(** connect flags (figure 3-4) *)
Definition flags_byte (clean : bool) (will : option Will) (user password : option bytes) : N :=
  128 * bit (present user) + 64 * bit (present password)
  + match will with
    | Some w => 32 * bit (w_retain w) + 8 * qos_num (w_qos w) + 4
    | None => 0
    end
  + 2 * bit clean.

(** a left-out reason code is 0, left-out properties are none *)
Definition ending_bytes {C} (num : C -> N) (e : ending C) : bytes :=
  match e with
  | Nothing => []
  | CodeOnly c => [num c]
  | CodeProps c props => num c :: section_bytes props
  end.
(** variable header and payload *)
Definition content (m : Message) : bytes :=
  match m with
  | M_CONNECT clean ka props client will user pw =>
      [0; 4; 77; 81; 84; 84; 5; flags_byte clean will user pw] ++ be16 ka ++ section_bytes props
      ++ field client
      ++ opt (fun w => section_bytes (w_props w) ++ field (w_topic w) ++ field (w_message w)) will
      ++ opt field user ++ opt field pw
  | M_CONNACK sp code props => [bit sp; connack_code code] ++ section_bytes props
  | M_PUBLISH0 _ topic props payload => field topic ++ section_bytes props ++ payload
  | M_PUBLISH _ _ _ topic id props payload => field topic ++ be16 id ++ section_bytes props ++ payload
  | M_PUBACK id e => be16 id ++ ending_bytes puback_code e
  | M_PUBREC id e => be16 id ++ ending_bytes pubrec_code e
  | M_PUBREL id e => be16 id ++ ending_bytes pubrel_code e
  | M_PUBCOMP id e => be16 id ++ ending_bytes pubcomp_code e
  | M_SUBSCRIBE id props fs =>
      be16 id ++ section_bytes props ++ flat_map (fun f => field (V5Subscribe.path f) ++ [options f]) fs
  | M_SUBACK id props codes => be16 id ++ section_bytes props ++ map suback_code codes
  | M_UNSUBSCRIBE id props fs => be16 id ++ section_bytes props ++ flat_map field fs
  | M_UNSUBACK id props codes => be16 id ++ section_bytes props ++ map unsuback_code codes
  | M_PINGREQ | M_PINGRESP => []
  | M_DISCONNECT e => ending_bytes disconnect_code e
  | M_AUTH e => ending_bytes (fun c => c) e
  end.

(** ** What a message becomes as a value of the crate *)
Definition props_of {R} (record_of : list item -> R) (its : list item) : option R :=
  match its with [] => None | _ => Some (record_of its) end.
Definition login_of (user password : option bytes) : option V5Connect.Login :=
  match or_empty user, or_empty password with
  | [], [] => None
  | u, p => Some (V5Connect.mkLogin u p)
  end.
Definition code_of {C} (zero : C) (e : ending C) : C :=
  match e with Nothing => zero | CodeOnly c | CodeProps c _ => c end.
Definition props_in {C} (e : ending C) : list item :=
  match e with CodeProps _ props => props | _ => [] end.
(** AUTH has none *)
Definition as_packet (m : Message) : option Packet :=
  match m with
  | M_CONNECT clean ka props client will user pw =>
      Some (Connect (V5Connect.mkConnect V5 ka client clean
        match will with
        | Some w => Some (V5Connect.mkLastWill (w_topic w) (w_message w) (w_qos w) (w_retain w)
                            (props_of will_record (w_props w)))
        | None => None
        end (login_of user pw) (props_of connect_record props)))
  | M_CONNACK sp code props => Some (ConnAck (V5ConnAck.mkConnAck sp code (props_of connack_record props)))
  | M_PUBLISH0 retain topic props payload =>
      Some (Publish (V5Publish.mkPublish false AtMostOnce retain topic 0 (props_of publish_record props) payload))
  | M_PUBLISH twice dup retain topic id props payload =>
      Some (Publish (V5Publish.mkPublish dup (if twice then ExactlyOnce else AtLeastOnce) retain topic id
        (props_of publish_record props) payload))
  | M_PUBACK id e => Some (PubAck (V5PubAck.mkPubAck id (code_of V5PubAck.Success e) (props_of puback_record (props_in e))))
  | M_PUBREC id e => Some (PubRec (V5PubRec.mkPubRec id (code_of V5PubRec.Success e) (props_of pubrec_record (props_in e))))
  | M_PUBREL id e => Some (PubRel (V5PubRel.mkPubRel id (code_of V5PubRel.Success e) (props_of pubrel_record (props_in e))))
  | M_PUBCOMP id e => Some (PubComp (V5PubComp.mkPubComp id (code_of V5PubComp.Success e) (props_of pubcomp_record (props_in e))))
  | M_SUBSCRIBE id props fs => Some (Subscribe (V5Subscribe.mkSubscribe id fs (props_of subscribe_record props)))
  | M_SUBACK id props codes => Some (SubAck (V5SubAck.mkSubAck id codes (props_of suback_record props)))
  | M_UNSUBSCRIBE id props fs => Some (Unsubscribe (V5Unsubscribe.mkUnsubscribe id fs (props_of unsubscribe_record props)))
  | M_UNSUBACK id props codes => Some (UnsubAck (V5UnsubAck.mkUnsubAck id codes (props_of unsuback_record props)))
  | M_PINGREQ => Some PingReq
  | M_PINGRESP => Some PingResp
  | M_DISCONNECT e =>
      Some (Disconnect (V5Disconnect.mkDisconnect (code_of V5Disconnect.NormalDisconnection e)
        (props_of disconnect_record (props_in e))))
  | M_AUTH _ => None
  end.

(** ** Standard messages the crate does not read *)
(** number of subscription identifiers *)
Definition identifiers (its : list item) : N := blen (filter (fun it => fst it =? 11) its).
Definition message_props (m : Message) : list item :=
  match m with M_PUBLISH0 _ _ props _ | M_PUBLISH _ _ _ _ _ props _ => props | _ => [] end.
Inductive unsupported : Message -> Error -> Prop :=
| us_password cl ka ps id w u pw : ~ is_string pw -> unsupported (M_CONNECT cl ka ps id w u (Some pw)) TopicNotUtf8
| us_disconnect : unsupported (M_DISCONNECT Nothing) PayloadRequired
| us_disconnect_code c : unsupported (M_DISCONNECT (CodeOnly c)) (InsufficientBytes 1)
| us_auth e : unsupported (M_AUTH e) (InvalidPacketType 15).
(** PUBLISH: as many subscription identifiers in front of the last property as that property
    has bytes *)
Definition misread (m : Message) : Prop :=
  exists pre x, message_props m = pre ++ [x] /\ blen (item_bytes x) <= identifiers pre.
(** what becomes of such a PUBLISH: the properties [a] in front are read, the bytes of the
    others are taken for the beginning of the payload *)
Definition cut (m : Message) (a b : list item) : Message :=
  match m with
  | M_PUBLISH0 retain topic _ payload => M_PUBLISH0 retain topic a (items_bytes b ++ payload)
  | M_PUBLISH twice dup retain topic id _ payload =>
      M_PUBLISH twice dup retain topic id a (items_bytes b ++ payload)
  | m => m
  end.

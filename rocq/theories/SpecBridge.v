(** SpecBridge.v -- the same message in both versions of the protocol, as a bridge between a 3.1.1 and an MQTT 5
    connection needs it.  Nothing here models code of the crate: the crate has no conversion, a program that uses it
    copies the fields it got from one module into a packet of the other.  [None]: the other version has no such message. *)
From Verif Require Import Base.
From Verif Require V4Mod V5Mod.

(** reason codes *)
Definition up_connack (c : V4ConnAck.ConnectReturnCode) : V5ConnAck.ConnectReturnCode :=
  match c with
  | V4ConnAck.Success => V5ConnAck.Success
  | V4ConnAck.RefusedProtocolVersion => V5ConnAck.UnsupportedProtocolVersion
  | V4ConnAck.BadClientId => V5ConnAck.ClientIdentifierNotValid
  | V4ConnAck.ServiceUnavailable => V5ConnAck.ServerUnavailable
  | V4ConnAck.BadUserNamePassword => V5ConnAck.BadUserNamePassword
  | V4ConnAck.NotAuthorized => V5ConnAck.NotAuthorized
  end.
Definition down_connack (c : V5ConnAck.ConnectReturnCode) : option V4ConnAck.ConnectReturnCode :=
  match c with
  | V5ConnAck.Success => Some V4ConnAck.Success
  | V5ConnAck.UnsupportedProtocolVersion => Some V4ConnAck.RefusedProtocolVersion
  | V5ConnAck.ClientIdentifierNotValid => Some V4ConnAck.BadClientId
  | V5ConnAck.ServerUnavailable => Some V4ConnAck.ServiceUnavailable
  | V5ConnAck.BadUserNamePassword => Some V4ConnAck.BadUserNamePassword
  | V5ConnAck.NotAuthorized => Some V4ConnAck.NotAuthorized
  | _ => None
  end.
Definition up_suback (c : V4SubAck.SubscribeReasonCode) : V5SubAck.SubscribeReasonCode :=
  match c with
  | V4SubAck.Success AtMostOnce => V5SubAck.QoS0
  | V4SubAck.Success AtLeastOnce => V5SubAck.QoS1
  | V4SubAck.Success ExactlyOnce => V5SubAck.QoS2
  | V4SubAck.Failure => V5SubAck.Unspecified
  end.
Definition down_suback (c : V5SubAck.SubscribeReasonCode) : V4SubAck.SubscribeReasonCode :=
  match c with
  | V5SubAck.QoS0 => V4SubAck.Success AtMostOnce
  | V5SubAck.QoS1 => V4SubAck.Success AtLeastOnce
  | V5SubAck.QoS2 => V4SubAck.Success ExactlyOnce
  | _ => V4SubAck.Failure
  end.

(** ** A 3.1.1 message as an MQTT 5 message: the same fields, no properties.
    A CONNACK gets an empty property set, because this crate writes one without properties in a way nobody can read (C39).
    There is no translation of UNSUBACK, which says in MQTT 5 what became of every filter, and none of DISCONNECT, of which
    this crate reads no form without properties (C39). *)
Definition up_will (w : V4Connect.LastWill) : V5Connect.LastWill :=
  V5Connect.mkLastWill (V4Connect.lw_topic w) (V4Connect.lw_message w) (V4Connect.lw_qos w) (V4Connect.lw_retain w) None.
Definition up_login (l : V4Connect.Login) : V5Connect.Login :=
  V5Connect.mkLogin (V4Connect.username l) (V4Connect.password l).
Definition up_filter (f : V4Subscribe.SubscribeFilter) : V5Subscribe.SubscribeFilter :=
  V5Subscribe.mkSubscribeFilter (V4Subscribe.path f) (V4Subscribe.qos f) false false V5Subscribe.OnEverySubscribe.
Definition no_connack_properties : V5ConnAck.ConnAckProperties :=
  V5ConnAck.mkConnAckProperties None None None None None None None None [] None None None None None None None None.

Definition up (p : V4Mod.Packet) : option V5Mod.Packet :=
  match p with
  | V4Mod.Connect c =>
      Some (V5Mod.Connect (V5Connect.mkConnect V5 (V4Connect.keep_alive c) (V4Connect.client_id c)
        (V4Connect.clean_session c) (option_map up_will (V4Connect.last_will c))
        (option_map up_login (V4Connect.login c)) None))
  | V4Mod.ConnAck c =>
      Some (V5Mod.ConnAck (V5ConnAck.mkConnAck (V4ConnAck.session_present c) (up_connack (V4ConnAck.code c))
        (Some no_connack_properties)))
  | V4Mod.Publish p =>
      match V4Publish.topic p with
      | [] => None          (* no message of the standard *)
      | _ => Some (V5Mod.Publish (V5Publish.mkPublish (V4Publish.dup p) (V4Publish.qos p) (V4Publish.retain p)
               (V4Publish.topic p) (V4Publish.pkid p) None (V4Publish.payload p)))
      end
  | V4Mod.PubAck p => Some (V5Mod.PubAck (V5PubAck.mkPubAck (V4PubAck.pkid p) V5PubAck.Success None))
  | V4Mod.PubRec p => Some (V5Mod.PubRec (V5PubRec.mkPubRec (V4PubRec.pkid p) V5PubRec.Success None))
  | V4Mod.PubRel p => Some (V5Mod.PubRel (V5PubRel.mkPubRel (V4PubRel.pkid p) V5PubRel.Success None))
  | V4Mod.PubComp p => Some (V5Mod.PubComp (V5PubComp.mkPubComp (V4PubComp.pkid p) V5PubComp.Success None))
  | V4Mod.Subscribe s =>
      Some (V5Mod.Subscribe (V5Subscribe.mkSubscribe (V4Subscribe.pkid s) (map up_filter (V4Subscribe.filters s)) None))
  | V4Mod.SubAck s =>
      Some (V5Mod.SubAck (V5SubAck.mkSubAck (V4SubAck.pkid s) (map up_suback (V4SubAck.return_codes s)) None))
  | V4Mod.Unsubscribe u =>
      Some (V5Mod.Unsubscribe (V5Unsubscribe.mkUnsubscribe (V4Unsubscribe.pkid u) (V4Unsubscribe.topics u) None))
  | V4Mod.UnsubAck _ => None
  | V4Mod.PingReq => Some V5Mod.PingReq
  | V4Mod.PingResp => Some V5Mod.PingResp
  | V4Mod.Disconnect => None
  end.
(** as it comes out of the other end: an empty property set arrives as none *)
Definition received (q : V5Mod.Packet) : V5Mod.Packet :=
  match q with
  | V5Mod.ConnAck c => V5Mod.ConnAck (V5ConnAck.mkConnAck (V5ConnAck.session_present c) (V5ConnAck.code c) None)
  | q => q
  end.

(** ** An MQTT 5 message as a 3.1.1 message: the properties, the subscription options and the reasons of acknowledgements
    have no place in it.  Not translated: a CONNACK with a code 3.1.1 does not have, a PUBLISH whose topic is left to a topic
    alias, a SUBSCRIBE without filters. *)
Definition down_will (w : V5Connect.LastWill) : V4Connect.LastWill :=
  V4Connect.mkLastWill (V5Connect.lw_topic w) (V5Connect.lw_message w) (V5Connect.lw_qos w) (V5Connect.lw_retain w).
Definition down_login (l : V5Connect.Login) : V4Connect.Login :=
  V4Connect.mkLogin (V5Connect.username l) (V5Connect.password l).
Definition down_filter (f : V5Subscribe.SubscribeFilter) : V4Subscribe.SubscribeFilter :=
  V4Subscribe.mkSubscribeFilter (V5Subscribe.path f) (V5Subscribe.qos f).

Definition down (q : V5Mod.Packet) : option V4Mod.Packet :=
  match q with
  | V5Mod.Connect c =>
      Some (V4Mod.Connect (V4Connect.mkConnect V4 (V5Connect.keep_alive c) (V5Connect.client_id c)
        (V5Connect.clean_session c) (option_map down_will (V5Connect.last_will c))
        (option_map down_login (V5Connect.login c))))
  | V5Mod.ConnAck c =>
      match down_connack (V5ConnAck.code c) with
      | Some code => Some (V4Mod.ConnAck (V4ConnAck.mkConnAck (V5ConnAck.session_present c) code))
      | None => None
      end
  | V5Mod.Publish p =>
      match V5Publish.topic p with
      | [] => None
      | _ => Some (V4Mod.Publish (V4Publish.mkPublish (V5Publish.dup p) (V5Publish.qos p) (V5Publish.retain p)
               (V5Publish.topic p) (V5Publish.pkid p) (V5Publish.payload p)))
      end
  | V5Mod.PubAck p => Some (V4Mod.PubAck (V4PubAck.mkPubAck (V5PubAck.pkid p)))
  | V5Mod.PubRec p => Some (V4Mod.PubRec (V4PubRec.mkPubRec (V5PubRec.pkid p)))
  | V5Mod.PubRel p => Some (V4Mod.PubRel (V4PubRel.mkPubRel (V5PubRel.pkid p)))
  | V5Mod.PubComp p => Some (V4Mod.PubComp (V4PubComp.mkPubComp (V5PubComp.pkid p)))
  | V5Mod.Subscribe s =>
      match V5Subscribe.filters s with
      | [] => None
      | fs => Some (V4Mod.Subscribe (V4Subscribe.mkSubscribe (V5Subscribe.pkid s) (map down_filter fs)))
      end
  | V5Mod.SubAck s => Some (V4Mod.SubAck (V4SubAck.mkSubAck (V5SubAck.pkid s) (map down_suback (V5SubAck.return_codes s))))
  | V5Mod.Unsubscribe u => Some (V4Mod.Unsubscribe (V4Unsubscribe.mkUnsubscribe (V5Unsubscribe.pkid u) (V5Unsubscribe.filters u)))
  | V5Mod.UnsubAck u => Some (V4Mod.UnsubAck (V4UnsubAck.mkUnsubAck (V5UnsubAck.pkid u)))
  | V5Mod.PingReq => Some V4Mod.PingReq
  | V5Mod.PingResp => Some V4Mod.PingResp
  | V5Mod.Disconnect _ => Some V4Mod.Disconnect
  end.
(** a CONNECT of 3.1.1 says that it is one *)
Definition at_311 (p : V4Mod.Packet) : V4Mod.Packet :=
  match p with
  | V4Mod.Connect c =>
      V4Mod.Connect (V4Connect.mkConnect V4 (V4Connect.keep_alive c) (V4Connect.client_id c)
        (V4Connect.clean_session c) (V4Connect.last_will c) (V4Connect.login c))
  | p => p
  end.

(** the packets read one by one off a stream, at one limit, until nothing is left of it *)
Inductive read_off {P} (rd : bytes -> N -> outcome P * bytes) (max : N) : bytes -> list P -> Prop :=
| read_off_nil : read_off rd max [] []
| read_off_cons s p t ps : rd s max = (Ok p, t) -> read_off rd max t ps -> read_off rd max s (p :: ps).

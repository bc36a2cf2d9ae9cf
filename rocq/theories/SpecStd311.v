(** SpecStd311.v -- the messages of the OASIS standard MQTT 3.1.1 and their encoding, as
    the standard has them: nothing here is taken from the crate except the enumerations
    of CONNACK and SUBACK codes and the type of a decoded packet. *)
From Verif Require Export SpecStd.
From Verif Require Import Base SpecWire SpecTopic SpecV4.
From Verif Require V4Connect V4ConnAck V4Publish V4PubAck V4PubRec V4PubRel V4PubComp
  V4Subscribe V4SubAck V4Unsubscribe V4UnsubAck.

Record Will := mkWill { w_topic : bytes; w_message : bytes; w_qos : QoS; w_retain : bool }.

(** ** The control packets (chapter 3) *)
Inductive Message :=
| M_CONNECT (clean : bool) (keep_alive : N) (client : bytes) (will : option Will)
    (user password : option bytes)
| M_CONNACK (session_present : bool) (code : V4ConnAck.ConnectReturnCode)
| M_PUBLISH0 (retain : bool) (topic payload : bytes)                     (* QoS 0 *)
| M_PUBLISH (twice : bool) (dup retain : bool) (topic : bytes) (id : N) (payload : bytes)
    (* QoS 2 if [twice], else QoS 1 *)
| M_PUBACK (id : N) | M_PUBREC (id : N) | M_PUBREL (id : N) | M_PUBCOMP (id : N)
| M_SUBSCRIBE (id : N) (filters : list (bytes * QoS))
| M_SUBACK (id : N) (codes : list V4SubAck.SubscribeReasonCode)
| M_UNSUBSCRIBE (id : N) (filters : list bytes)
| M_UNSUBACK (id : N)
| M_PINGREQ | M_PINGRESP | M_DISCONNECT.

(** what the standard demands of the fields *)
Definition conforms (m : Message) : Prop :=
  match m with
  | M_CONNECT clean ka client will user pw =>
      u16 ka /\ text client /\
      (client = [] -> clean = true) /\                         (* MQTT-3.1.3-7 *)
      on_some (fun w => topic_name (w_topic w) /\ binary (w_message w)) will /\
      on_some text user /\ on_some binary pw /\
      (user = None -> pw = None)                               (* MQTT-3.1.2-22 *)
  | M_CONNACK sp code => code <> V4ConnAck.Success -> sp = false   (* MQTT-3.2.2-4 *)
  | M_PUBLISH0 _ topic payload => topic_name topic /\ bytes_ok payload
  | M_PUBLISH _ _ _ topic id payload => topic_name topic /\ identifier id /\ bytes_ok payload
  | M_PUBACK id | M_PUBREC id | M_PUBREL id | M_PUBCOMP id | M_UNSUBACK id => identifier id
  | M_SUBSCRIBE id fs =>
      identifier id /\ fs <> [] /\ Forall (fun f => topic_filter (fst f)) fs   (* MQTT-3.8.3-3 *)
  | M_SUBACK id codes => identifier id /\ codes <> []
  | M_UNSUBSCRIBE id fs => identifier id /\ fs <> [] /\ Forall topic_filter fs  (* MQTT-3.10.3-2 *)
  | M_PINGREQ | M_PINGRESP | M_DISCONNECT => True
  end.

(** first byte of the fixed header (figure 2.2, table 2.2) *)
Definition header_byte (m : Message) : N :=
  match m with
  | M_CONNECT _ _ _ _ _ _ => 0x10
  | M_CONNACK _ _ => 0x20
  | M_PUBLISH0 retain _ _ => 0x30 + bit retain
  | M_PUBLISH twice dup retain _ _ _ => 0x30 + 8 * bit dup + (if twice then 4 else 2) + bit retain
  | M_PUBACK _ => 0x40
  | M_PUBREC _ => 0x50
  | M_PUBREL _ => 0x62
  | M_PUBCOMP _ => 0x70
  | M_SUBSCRIBE _ _ => 0x82
  | M_SUBACK _ _ => 0x90
  | M_UNSUBSCRIBE _ _ => 0xA2
  | M_UNSUBACK _ => 0xB0
  | M_PINGREQ => 0xC0
  | M_PINGRESP => 0xD0
  | M_DISCONNECT => 0xE0
  end.

(** connect flags (figure 3.4) *)
Definition flags_byte (clean : bool) (will : option Will) (user password : option bytes) : N :=
  128 * bit (present user) + 64 * bit (present password)
  + match will with
    | Some w => 32 * bit (w_retain w) + 8 * qos_num (w_qos w) + 4
    | None => 0
    end
  + 2 * bit clean.

(** variable header and payload *)
Definition content (m : Message) : bytes :=
  match m with
  | M_CONNECT clean ka client will user pw =>
      [0; 4; 77; 81; 84; 84; 4; flags_byte clean will user pw] ++ be16 ka ++ field client
      ++ opt (fun w => field (w_topic w) ++ field (w_message w)) will
      ++ opt field user ++ opt field pw
  | M_CONNACK sp code => [bit sp; connack_code code]
  | M_PUBLISH0 _ topic payload => field topic ++ payload
  | M_PUBLISH _ _ _ topic id payload => field topic ++ be16 id ++ payload
  | M_PUBACK id | M_PUBREC id | M_PUBREL id | M_PUBCOMP id | M_UNSUBACK id => be16 id
  | M_SUBSCRIBE id fs => be16 id ++ flat_map (fun f => field (fst f) ++ [qos_num (snd f)]) fs
  | M_SUBACK id codes => be16 id ++ map suback_code codes
  | M_UNSUBSCRIBE id fs => be16 id ++ flat_map field fs
  | M_PINGREQ | M_PINGRESP | M_DISCONNECT => []
  end.

(** ** What a message becomes as a value of the crate *)
(** a login of which the crate sees anything *)
Definition login_of (user password : option bytes) : option V4Connect.Login :=
  match or_empty user, or_empty password with
  | [], [] => None
  | u, p => Some (V4Connect.mkLogin u p)
  end.
Definition as_packet (m : Message) : Packet :=
  match m with
  | M_CONNECT clean ka client will user pw =>
      Connect (V4Connect.mkConnect V4 ka client clean
        match will with
        | Some w => Some (V4Connect.mkLastWill (w_topic w) (w_message w) (w_qos w) (w_retain w))
        | None => None
        end (login_of user pw))
  | M_CONNACK sp code => ConnAck (V4ConnAck.mkConnAck sp code)
  | M_PUBLISH0 retain topic payload =>
      Publish (V4Publish.mkPublish false AtMostOnce retain topic 0 payload)
  | M_PUBLISH twice dup retain topic id payload =>
      Publish (V4Publish.mkPublish dup (if twice then ExactlyOnce else AtLeastOnce) retain topic id payload)
  | M_PUBACK id => PubAck (V4PubAck.mkPubAck id)
  | M_PUBREC id => PubRec (V4PubRec.mkPubRec id)
  | M_PUBREL id => PubRel (V4PubRel.mkPubRel id)
  | M_PUBCOMP id => PubComp (V4PubComp.mkPubComp id)
  | M_SUBSCRIBE id fs =>
      Subscribe (V4Subscribe.mkSubscribe id
        (map (fun f => V4Subscribe.mkSubscribeFilter (fst f) (snd f)) fs))
  | M_SUBACK id codes => SubAck (V4SubAck.mkSubAck id codes)
  | M_UNSUBSCRIBE id fs => Unsubscribe (V4Unsubscribe.mkUnsubscribe id fs)
  | M_UNSUBACK id => UnsubAck (V4UnsubAck.mkUnsubAck id)
  | M_PINGREQ => PingReq
  | M_PINGRESP => PingResp
  | M_DISCONNECT => Disconnect
  end.

(** the frame is a message of the standard *)
Definition standard_frame (b1 : N) (bd : bytes) : Prop :=
  exists m, conforms m /\ b1 = header_byte m /\ bd = content m.

(** ** Deviations from the standard that a receiver can see in a frame with first byte
    [b1] and body [bd] that it has decoded to a packet *)
Definition packet_id (p : Packet) : option N :=
  match p with
  | PubAck q => Some (V4PubAck.pkid q) | PubRec q => Some (V4PubRec.pkid q)
  | PubRel q => Some (V4PubRel.pkid q) | PubComp q => Some (V4PubComp.pkid q)
  | Subscribe q => Some (V4Subscribe.pkid q) | SubAck q => Some (V4SubAck.pkid q)
  | Unsubscribe q => Some (V4Unsubscribe.pkid q) | UnsubAck q => Some (V4UnsubAck.pkid q)
  | _ => None
  end.
Definition topics_in (p : Packet) : list bytes :=
  match p with
  | Connect c => match V4Connect.last_will c with Some w => [V4Connect.lw_topic w] | None => [] end
  | Publish q => [V4Publish.topic q]
  | _ => []
  end.
Definition filters_in (p : Packet) : list bytes :=
  match p with
  | Subscribe s => map V4Subscribe.path (V4Subscribe.filters s)
  | Unsubscribe u => V4Unsubscribe.topics u
  | _ => []
  end.
Definition user_of (c : V4Connect.Connect) : bytes :=
  match V4Connect.login c with Some l => V4Connect.username l | None => [] end.
Definition password_of (c : V4Connect.Connect) : bytes :=
  match V4Connect.login c with Some l => V4Connect.password l | None => [] end.
(** all character strings of a packet that are text in the standard *)
Definition strings_in (p : Packet) : list bytes :=
  topics_in p ++ filters_in p ++
  match p with Connect c => [V4Connect.client_id c; user_of c] | _ => [] end.

(** bytes of the body that belong to the packet *)
Definition meaningful (bd : bytes) (p : Packet) : N :=
  match p with
  | Connect c =>
      12 + blen (V4Connect.client_id c)
      + match V4Connect.last_will c with
        | Some w => 4 + blen (V4Connect.lw_topic w) + blen (V4Connect.lw_message w)
        | None => 0
        end
      + (if bit_at 7 (byte_at 7 bd) then 2 + blen (user_of c) else 0)
      + (if bit_at 6 (byte_at 7 bd) then 2 + blen (password_of c) else 0)
  | ConnAck _ | PubAck _ | PubRec _ | PubRel _ | PubComp _ => 2
  | PingReq | PingResp | Disconnect => 0
  | _ => blen bd
  end.

Inductive deviates (b1 : N) (bd : bytes) : Packet -> Prop :=
(* reserved bits of the fixed header *)
| dv_header p : (forall q, p <> Publish q) ->
    b1 mod 16 <> (if (kind p =? 6) || (kind p =? 8) || (kind p =? 10) then 2 else 0) ->
    deviates b1 bd p
(* DUP with QoS 0 *)
| dv_dup q : V4Publish.dup q = true -> V4Publish.qos q = AtMostOnce -> deviates b1 bd (Publish q)
(* packet identifier zero *)
| dv_id p : packet_id p = Some 0 -> deviates b1 bd p
(* U+0000 in a string *)
| dv_null p s : In s (strings_in p) -> In 0 s -> deviates b1 bd p
(* a topic name that is empty or contains a wildcard *)
| dv_topic p s : In s (topics_in p) -> s = [] \/ In PLUS s \/ In HASH s -> deviates b1 bd p
(* a topic filter that is empty or misuses a wildcard *)
| dv_filter p s : In s (filters_in p) -> s = [] \/ ~ hash_only_last s \/ ~ plus_whole_level s ->
    deviates b1 bd p
(* UNSUBSCRIBE without topic filter *)
| dv_no_filter u : V4Unsubscribe.topics u = [] -> deviates b1 bd (Unsubscribe u)
(* SUBSCRIBE with reserved bits in a requested QoS byte *)
| dv_options s : bd <> body (Subscribe s) -> deviates b1 bd (Subscribe s)
(* CONNECT: level 5, reserved flag, password without user name, empty client identifier
   without clean session *)
| dv_level c : V4Connect.protocol c = V5 -> deviates b1 bd (Connect c)
| dv_reserved c : bit_at 0 (byte_at 7 bd) = true -> deviates b1 bd (Connect c)
| dv_password c : bit_at 6 (byte_at 7 bd) = true -> bit_at 7 (byte_at 7 bd) = false ->
    deviates b1 bd (Connect c)
| dv_client c : V4Connect.client_id c = [] -> V4Connect.clean_session c = false ->
    deviates b1 bd (Connect c)
(* CONNACK: reserved flags, session present in a refusal *)
| dv_ack_flags c : 2 <= byte_at 0 bd -> deviates b1 bd (ConnAck c)
| dv_session c : V4ConnAck.session_present c = true -> V4ConnAck.code c <> V4ConnAck.Success ->
    deviates b1 bd (ConnAck c)
(* bytes behind the end of the packet *)
| dv_trailing p : meaningful bd p < blen bd -> deviates b1 bd p.

(** ** Packets whose encoding is a message of the standard *)
Definition standard_value (p : Packet) : Prop :=
  match p with
  | Connect c =>
      V4Connect.protocol c = V4 /\ text (V4Connect.client_id c) /\
      (V4Connect.client_id c = [] -> V4Connect.clean_session c = true) /\
      on_some (fun w => topic_name (V4Connect.lw_topic w) /\ short (V4Connect.lw_message w))
        (V4Connect.last_will c) /\
      text (user_of c) /\ (password_of c <> [] -> user_of c <> [])
  | ConnAck c => V4ConnAck.code c <> V4ConnAck.Success -> V4ConnAck.session_present c = false
  | Publish q => topic_name (V4Publish.topic q) /\
      (V4Publish.qos q = AtMostOnce -> V4Publish.dup q = false)
  | PubAck _ | PubRec _ | PubRel _ | PubComp _ | UnsubAck _ => packet_id p <> Some 0
  | Subscribe s => packet_id p <> Some 0 /\ V4Subscribe.filters s <> [] /\
      Forall (fun f => topic_filter (V4Subscribe.path f)) (V4Subscribe.filters s)
  | SubAck s => packet_id p <> Some 0 /\ V4SubAck.return_codes s <> []
  | Unsubscribe u => packet_id p <> Some 0 /\ V4Unsubscribe.topics u <> [] /\
      Forall topic_filter (V4Unsubscribe.topics u)
  | PingReq | PingResp | Disconnect => True
  end.

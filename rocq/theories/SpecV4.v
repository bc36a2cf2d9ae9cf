(** SpecV4.v -- specification of the MQTT 3.1.1 packets of the crate: which values
    exist, what their encoding is, and which frames decode to which packet.  Only
    the API data types (records, enums) are taken from the model. *)
From Verif Require Import Base SpecWire.
From Verif Require V4Connect V4ConnAck V4Publish V4PubAck V4PubRec V4PubRel V4PubComp
  V4Subscribe V4SubAck V4Unsubscribe V4UnsubAck.
From Verif Require Export V4Mod.

(** ** The values of the Rust types *)
Definition typed_will (w : V4Connect.LastWill) : Prop :=
  is_string (V4Connect.lw_topic w) /\ bytes_ok (V4Connect.lw_message w).
Definition typed_login (l : V4Connect.Login) : Prop :=
  is_string (V4Connect.username l) /\ is_string (V4Connect.password l).

(** every value a Rust program can hold in a variable of type `Packet` *)
Definition typed (p : Packet) : Prop :=
  match p with
  | Connect c =>
      u16 (V4Connect.keep_alive c) /\ is_string (V4Connect.client_id c) /\
      on_some typed_will (V4Connect.last_will c) /\ on_some typed_login (V4Connect.login c)
  | ConnAck _ => True
  | Publish p =>
      is_string (V4Publish.topic p) /\ u16 (V4Publish.pkid p) /\ bytes_ok (V4Publish.payload p)
  | PubAck p => u16 (V4PubAck.pkid p)
  | PubRec p => u16 (V4PubRec.pkid p)
  | PubRel p => u16 (V4PubRel.pkid p)
  | PubComp p => u16 (V4PubComp.pkid p)
  | Subscribe s =>
      u16 (V4Subscribe.pkid s) /\
      Forall (fun f => is_string (V4Subscribe.path f)) (V4Subscribe.filters s)
  | SubAck s => u16 (V4SubAck.pkid s)
  | Unsubscribe u => u16 (V4Unsubscribe.pkid u) /\ Forall is_string (V4Unsubscribe.topics u)
  | UnsubAck u => u16 (V4UnsubAck.pkid u)
  | PingReq | PingResp | Disconnect => True
  end.

(** ** Wire encoding (MQTT 3.1.1, chapters 2 and 3) *)
(** MQTT 3.1.1 section 3.1.2.3: connect flags *)
Definition connect_flags (c : V4Connect.Connect) : N :=
  2 * bit (V4Connect.clean_session c)
  + match V4Connect.last_will c with
    | Some w => 4 + 8 * qos_num (V4Connect.lw_qos w) + 32 * bit (V4Connect.lw_retain w)
    | None => 0
    end
  + match V4Connect.login c with
    | Some l => 64 * bit (nonempty (V4Connect.password l)) + 128 * bit (nonempty (V4Connect.username l))
    | None => 0
    end.
Definition will_bytes (w : V4Connect.LastWill) : bytes :=
  field (V4Connect.lw_topic w) ++ field (V4Connect.lw_message w).
Definition login_bytes (l : V4Connect.Login) : bytes :=
  (if nonempty (V4Connect.username l) then field (V4Connect.username l) else [])
  ++ (if nonempty (V4Connect.password l) then field (V4Connect.password l) else []).

Definition connack_code (c : V4ConnAck.ConnectReturnCode) : N :=
  match c with
  | V4ConnAck.Success => 0 | V4ConnAck.RefusedProtocolVersion => 1 | V4ConnAck.BadClientId => 2
  | V4ConnAck.ServiceUnavailable => 3 | V4ConnAck.BadUserNamePassword => 4
  | V4ConnAck.NotAuthorized => 5
  end.
Definition suback_code (c : V4SubAck.SubscribeReasonCode) : N :=
  match c with V4SubAck.Success q => qos_num q | V4SubAck.Failure => 128 end.

Definition first_byte (p : Packet) : N :=
  match p with
  | Connect _ => 0x10
  | ConnAck _ => 0x20
  | Publish p => 0x30 + 8 * bit (V4Publish.dup p) + 2 * qos_num (V4Publish.qos p)
                 + bit (V4Publish.retain p)
  | PubAck _ => 0x40
  | PubRec _ => 0x50
  | PubRel _ => 0x62
  | PubComp _ => 0x70
  | Subscribe _ => 0x82
  | SubAck _ => 0x90
  | Unsubscribe _ => 0xA2
  | UnsubAck _ => 0xB0
  | PingReq => 0xC0
  | PingResp => 0xD0
  | Disconnect => 0xE0
  end.

(** variable header and payload *)
Definition body (p : Packet) : bytes :=
  match p with
  | Connect c =>
      field MQTT ++ [level (V4Connect.protocol c); connect_flags c]
      ++ be16 (V4Connect.keep_alive c) ++ field (V4Connect.client_id c)
      ++ opt will_bytes (V4Connect.last_will c) ++ opt login_bytes (V4Connect.login c)
  | ConnAck c => [bit (V4ConnAck.session_present c); connack_code (V4ConnAck.code c)]
  | Publish p =>
      field (V4Publish.topic p)
      ++ (if positive_qos (V4Publish.qos p) then be16 (V4Publish.pkid p) else [])
      ++ V4Publish.payload p
  | PubAck p => be16 (V4PubAck.pkid p)
  | PubRec p => be16 (V4PubRec.pkid p)
  | PubRel p => be16 (V4PubRel.pkid p)
  | PubComp p => be16 (V4PubComp.pkid p)
  | Subscribe s =>
      be16 (V4Subscribe.pkid s)
      ++ flat_map (fun f => field (V4Subscribe.path f) ++ [qos_num (V4Subscribe.qos f)])
           (V4Subscribe.filters s)
  | SubAck s => be16 (V4SubAck.pkid s) ++ map suback_code (V4SubAck.return_codes s)
  | Unsubscribe u => be16 (V4Unsubscribe.pkid u) ++ flat_map field (V4Unsubscribe.topics u)
  | UnsubAck u => be16 (V4UnsubAck.pkid u)
  | PingReq | PingResp | Disconnect => []
  end.

(** the whole packet on the wire *)
Definition wire (p : Packet) : bytes := frame (first_byte p) (body p).

(** ** What the caller has to respect for the encoding to be meaningful *)
(** strings and binary fields fit their two-byte length *)
Definition short_fields (p : Packet) : Prop :=
  match p with
  | Connect c =>
      short (V4Connect.client_id c) /\
      on_some (fun w => short (V4Connect.lw_topic w) /\ short (V4Connect.lw_message w))
        (V4Connect.last_will c) /\
      on_some (fun l => short (V4Connect.username l) /\ short (V4Connect.password l))
        (V4Connect.login c)
  | Publish p => short (V4Publish.topic p)
  | Subscribe s => Forall (fun f => short (V4Subscribe.path f)) (V4Subscribe.filters s)
  | Unsubscribe u => Forall short (V4Unsubscribe.topics u)
  | _ => True
  end.
(** a QoS 1/2 publish carries a packet identifier *)
Definition has_id (p : Packet) : Prop :=
  match p with
  | Publish p => positive_qos (V4Publish.qos p) = true -> V4Publish.pkid p <> 0
  | _ => True
  end.
Definition fits (p : Packet) : Prop :=
  typed p /\ short_fields p /\ has_id p /\ blen (body p) <= max_len.

(** SUBSCRIBE/SUBACK need a non-empty payload (MQTT-3.8.3-3, 3.9.3) *)
Definition has_payload (p : Packet) : Prop :=
  match p with
  | Subscribe s => V4Subscribe.filters s <> []
  | SubAck s => V4SubAck.return_codes s <> []
  | _ => True
  end.

(** the values that carry no redundant information: the identifier of a QoS 0
    publish is 0, and a login has a user name or a password *)
Definition canonical (p : Packet) : Prop :=
  match p with
  | Publish p => positive_qos (V4Publish.qos p) = false -> V4Publish.pkid p = 0
  | Connect c =>
      on_some (fun l => nonempty (V4Connect.username l) || nonempty (V4Connect.password l) = true)
        (V4Connect.login c)
  | _ => True
  end.
(** drop the redundant information *)
Definition canon_login (l : option V4Connect.Login) : option V4Connect.Login :=
  match l with
  | Some l => if nonempty (V4Connect.username l) || nonempty (V4Connect.password l)
              then Some l else None
  | None => None
  end.
Definition canon (p : Packet) : Packet :=
  match p with
  | Publish p =>
      Publish (V4Publish.mkPublish (V4Publish.dup p) (V4Publish.qos p) (V4Publish.retain p)
        (V4Publish.topic p) (if positive_qos (V4Publish.qos p) then V4Publish.pkid p else 0)
        (V4Publish.payload p))
  | Connect c =>
      Connect (V4Connect.mkConnect (V4Connect.protocol c) (V4Connect.keep_alive c)
        (V4Connect.client_id c) (V4Connect.clean_session c) (V4Connect.last_will c)
        (canon_login (V4Connect.login c)))
  | p => p
  end.

(** ** Failing writes *)
(** the remaining length `write` announces: the length of the body, where a QoS 1/2
    publish with packet id 0 is counted without the identifier *)
Definition declared_len (p : Packet) : N :=
  match p with
  | Publish q =>
      if positive_qos (V4Publish.qos q) && (V4Publish.pkid q =? 0)
      then blen (field (V4Publish.topic q) ++ V4Publish.payload q)
      else blen (body p)
  | _ => blen (body p)
  end.
(** the bytes a publish without the required identifier leaves behind *)
Definition id_zero_output (p : Packet) : bytes :=
  match p with
  | Publish q => first_byte p :: varint (declared_len p) ++ field (V4Publish.topic q)
  | _ => []
  end.

(** CONNECT with another value in the flags byte *)
Definition connect_body_with (flags : N) (c : V4Connect.Connect) : bytes :=
  field MQTT ++ [level (V4Connect.protocol c); flags]
  ++ be16 (V4Connect.keep_alive c) ++ field (V4Connect.client_id c)
  ++ opt will_bytes (V4Connect.last_will c) ++ opt login_bytes (V4Connect.login c).

(** ** Which bodies decode to which packet.  [b1] is the first byte of the frame.
    [junk] stands for trailing bytes the decoder does not look at. *)
Definition decodes_will (flags : N) (o : option V4Connect.LastWill) (bs : bytes) : Prop :=
  match o with
  | None => bs = [] /\ bit_at 2 flags = false /\ flags / 8 mod 8 = 0
  | Some w =>
      bit_at 2 flags = true /\ flags / 8 mod 4 = qos_num (V4Connect.lw_qos w) /\
      bit_at 5 flags = V4Connect.lw_retain w /\
      bs = field (V4Connect.lw_topic w) ++ field (V4Connect.lw_message w) /\
      is_string (V4Connect.lw_topic w) /\ short (V4Connect.lw_topic w) /\
      short (V4Connect.lw_message w)
  end.

Definition decodes_body (b1 : N) (bd : bytes) (p : Packet) : Prop :=
  match p with
  | Connect c =>
      b1 / 16 = 1 /\
      exists flags wbs ubs pbs u pw junk,
        u8 flags /\
        bd = field MQTT ++ [level (V4Connect.protocol c); flags]
             ++ be16 (V4Connect.keep_alive c) ++ field (V4Connect.client_id c)
             ++ wbs ++ ubs ++ pbs ++ junk /\
        u16 (V4Connect.keep_alive c) /\
        is_string (V4Connect.client_id c) /\ short (V4Connect.client_id c) /\
        V4Connect.clean_session c = bit_at 1 flags /\
        decodes_will flags (V4Connect.last_will c) wbs /\
        decodes_opt_string (bit_at 7 flags) u ubs /\
        decodes_opt_string (bit_at 6 flags) pw pbs /\
        V4Connect.login c = canon_login (Some (V4Connect.mkLogin u pw))
  | ConnAck c =>
      b1 / 16 = 2 /\
      exists flags junk,
        bd = flags :: connack_code (V4ConnAck.code c) :: junk /\
        V4ConnAck.session_present c = bit_at 0 flags
  | Publish p =>
      b1 / 16 = 3 /\
      V4Publish.dup p = bit_at 3 b1 /\ b1 / 2 mod 4 = qos_num (V4Publish.qos p) /\
      V4Publish.retain p = bit_at 0 b1 /\
      bd = field (V4Publish.topic p)
           ++ (if positive_qos (V4Publish.qos p) then be16 (V4Publish.pkid p) else [])
           ++ V4Publish.payload p /\
      is_string (V4Publish.topic p) /\ short (V4Publish.topic p) /\
      (if positive_qos (V4Publish.qos p) then 0 < V4Publish.pkid p /\ u16 (V4Publish.pkid p)
       else V4Publish.pkid p = 0)
  | PubAck p => b1 / 16 = 4 /\ u16 (V4PubAck.pkid p) /\ exists junk, bd = be16 (V4PubAck.pkid p) ++ junk
  | PubRec p => b1 / 16 = 5 /\ u16 (V4PubRec.pkid p) /\ exists junk, bd = be16 (V4PubRec.pkid p) ++ junk
  | PubRel p => b1 / 16 = 6 /\ u16 (V4PubRel.pkid p) /\ exists junk, bd = be16 (V4PubRel.pkid p) ++ junk
  | PubComp p => b1 / 16 = 7 /\ u16 (V4PubComp.pkid p) /\ exists junk, bd = be16 (V4PubComp.pkid p) ++ junk
  | Subscribe s =>
      b1 / 16 = 8 /\ u16 (V4Subscribe.pkid s) /\ V4Subscribe.filters s <> [] /\
      exists options,
        Forall2 (fun f o => o mod 4 = qos_num (V4Subscribe.qos f) /\
                   is_string (V4Subscribe.path f) /\ short (V4Subscribe.path f))
          (V4Subscribe.filters s) options /\
        bd = be16 (V4Subscribe.pkid s)
             ++ flat_map (fun fo => field (V4Subscribe.path (fst fo)) ++ [snd fo])
                  (combine (V4Subscribe.filters s) options)
  | SubAck s =>
      b1 / 16 = 9 /\ u16 (V4SubAck.pkid s) /\ V4SubAck.return_codes s <> [] /\
      bd = be16 (V4SubAck.pkid s) ++ map suback_code (V4SubAck.return_codes s)
  | Unsubscribe u =>
      b1 / 16 = 10 /\ u16 (V4Unsubscribe.pkid u) /\
      Forall (fun t => is_string t /\ short t) (V4Unsubscribe.topics u) /\
      bd = be16 (V4Unsubscribe.pkid u) ++ flat_map field (V4Unsubscribe.topics u)
  | UnsubAck u => b1 / 16 = 11 /\ u16 (V4UnsubAck.pkid u) /\ bd = be16 (V4UnsubAck.pkid u)
  | PingReq => b1 / 16 = 12
  | PingResp => b1 / 16 = 13
  | Disconnect => b1 / 16 = 14
  end.


(** the packet type number in the high nibble of the first byte *)
Definition kind (p : Packet) : N :=
  match p with
  | Connect _ => 1 | ConnAck _ => 2 | Publish _ => 3 | PubAck _ => 4 | PubRec _ => 5
  | PubRel _ => 6 | PubComp _ => 7 | Subscribe _ => 8 | SubAck _ => 9 | Unsubscribe _ => 10
  | UnsubAck _ => 11 | PingReq => 12 | PingResp => 13 | Disconnect => 14
  end.
(** "is a CONNECT" *)
Definition is_connect (p : Packet) : Prop := match p with Connect _ => True | _ => False end.

(** what a zero-length frame decodes to *)
Definition zero_length_result (b1 : N) : outcome Packet :=
  match b1 / 16 with
  | 0 | 15 => Err (InvalidPacketType (b1 / 16))
  | 12 => Ok PingReq
  | 13 => Ok PingResp
  | 14 => Ok Disconnect
  | _ => Err PayloadRequired
  end.

(** SpecStd5Dev.v -- frames that are no messages of MQTT 5 but accepted by the reader: the
    list of deviations. *)
From Verif Require Import Base SpecWire SpecTopic SpecProps SpecPropSets SpecV5 SpecPlaces SpecErrorsV5 SpecStd5.
From Verif Require V5Connect V5ConnAck V5Publish V5PubAck V5PubRec V5PubRel V5PubComp
  V5Subscribe V5SubAck V5Unsubscribe V5UnsubAck V5Disconnect.

Definition packet_id (p : Packet) : option N :=
  match p with
  | PubAck p => Some (V5PubAck.pkid p)
  | PubRec p => Some (V5PubRec.pkid p)
  | PubRel p => Some (V5PubRel.pkid p)
  | PubComp p => Some (V5PubComp.pkid p)
  | Subscribe s => Some (V5Subscribe.pkid s)
  | SubAck s => Some (V5SubAck.pkid s)
  | Unsubscribe u => Some (V5Unsubscribe.pkid u)
  | UnsubAck u => Some (V5UnsubAck.pkid u)
  | _ => None
  end.
Definition user_of (c : V5Connect.Connect) : bytes :=
  match V5Connect.login c with Some l => V5Connect.username l | None => [] end.
Definition password_of (c : V5Connect.Connect) : bytes :=
  match V5Connect.login c with Some l => V5Connect.password l | None => [] end.
Definition will_topics (c : V5Connect.Connect) : list bytes :=
  match V5Connect.last_will c with Some w => [V5Connect.lw_topic w] | None => [] end.
Definition filters_in (p : Packet) : list bytes :=
  match p with
  | Subscribe s => map V5Subscribe.path (V5Subscribe.filters s)
  | Unsubscribe u => V5Unsubscribe.filters u
  | _ => []
  end.
(** the strings outside of the property sections (the password is not one of them) *)
Definition strings_in (p : Packet) : list bytes :=
  match p with
  | Connect c => V5Connect.client_id c :: user_of c :: will_topics c
  | Publish q => [V5Publish.topic q]
  | _ => filters_in p
  end.

(** a property section the reader accepts -- length field [f], declared length [plen],
    properties [its] encoded as [bs] -- but the standard does not know *)
Inductive odd_section (pl : place) : bytes -> Prop :=
| odd f plen its bs : lenfield f plen -> blen f <= 4 -> section (allowed_at pl) plen its bs ->
    (   f <> varint plen                     (* length field longer than needed *)
     \/ blen bs <> plen                      (* the last property runs over the end; or the
                                                reader stops too early *)
     \/ bs <> items_bytes its                (* subscription identifier longer than needed *)
     \/ Exists (fun it => ~ value_rule it) its                     (* illegal value *)
     \/ (exists id a b c, map fst its = a ++ id :: b ++ id :: c /\ id <> 38 /\
           ~ (pl = InPublish /\ id = 11))                          (* repeated property *)
     \/ (occurs 22 its /\ ~ occurs 21 its)) -> (* authentication data without method *)
    odd_section pl (f ++ bs).
(** packets that end with a property section *)
Definition ends_with_section (pl : place) : Prop :=
  In pl [InConnAck; InPubAck; InPubRec; InPubRel; InPubComp; InDisconnect].

(** [deviates b1 bd p]: the frame with first byte [b1] and body [bd], read as [p], is no
    message of the standard because ... *)
Inductive deviates (b1 : N) (bd : bytes) : Packet -> Prop :=
(* reserved bits of the fixed header *)
| dv_header p : (forall q, p <> Publish q) ->
    b1 mod 16 <> (if (kind p =? 6) || (kind p =? 8) || (kind p =? 10) then 2 else 0) ->
    deviates b1 bd p
(* DUP with QoS 0 *)
| dv_dup q : V5Publish.dup q = true -> V5Publish.qos q = AtMostOnce -> deviates b1 bd (Publish q)
(* packet identifier zero *)
| dv_id p : packet_id p = Some 0 -> deviates b1 bd p
(* U+0000 in a string *)
| dv_null p s : In s (strings_in p) -> In 0 s -> deviates b1 bd p
(* a will topic that is empty or contains a wildcard *)
| dv_will_topic c s : In s (will_topics c) -> s = [] \/ In PLUS s \/ In HASH s -> deviates b1 bd (Connect c)
(* a topic name with a wildcard, or empty without topic alias *)
| dv_topic q : In PLUS (V5Publish.topic q) \/ In HASH (V5Publish.topic q) \/
    (V5Publish.topic q = [] /\
     match V5Publish.properties q with Some r => V5Publish.topic_alias r = None | None => True end) ->
    deviates b1 bd (Publish q)
(* a topic filter that is empty or misuses a wildcard *)
| dv_filter p s : In s (filters_in p) -> s = [] \/ ~ hash_only_last s \/ ~ plus_whole_level s ->
    deviates b1 bd p
(* SUBSCRIBE, UNSUBSCRIBE without topic filter *)
| dv_no_filter p : kind p = 8 \/ kind p = 10 -> filters_in p = [] -> deviates b1 bd p
(* SUBSCRIBE with reserved bits in an options byte *)
| dv_options s sec opts : good_section InSubscribe sec -> List.length opts = List.length (V5Subscribe.filters s) ->
    bd = be16 (V5Subscribe.pkid s) ++ sec
         ++ flat_map (fun fo => field (V5Subscribe.path (fst fo)) ++ [snd fo])
              (combine (V5Subscribe.filters s) opts) ->
    Exists (fun o => 64 <= o) opts -> deviates b1 bd (Subscribe s)
(* CONNECT: level 4, reserved flag *)
| dv_level c : V5Connect.protocol c = V4 -> deviates b1 bd (Connect c)
| dv_reserved c : bit_at 0 (byte_at 7 bd) = true -> deviates b1 bd (Connect c)
(* CONNACK: reserved flags, session present in a refusal *)
| dv_ack_flags c : 2 <= byte_at 0 bd -> deviates b1 bd (ConnAck c)
| dv_session c : V5ConnAck.session_present c = true -> V5ConnAck.code c <> V5ConnAck.Success ->
    deviates b1 bd (ConnAck c)
(* a property section that is not standard *)
| dv_section p pl pre sec rest : leads_to pl b1 pre -> bd = pre ++ sec ++ rest -> odd_section pl sec ->
    deviates b1 bd p
(* bytes behind the end of the packet *)
| dv_trailing p pl pre sec junk : ends_with_section pl -> leads_to pl b1 pre -> good_section pl sec ->
    bd = pre ++ sec ++ junk -> junk <> [] -> deviates b1 bd p
| dv_trailing_ping p : p = PingReq \/ p = PingResp -> bd <> [] -> deviates b1 bd p
| dv_trailing_connect c bd' junk : decodes_body b1 bd' (Connect c) -> bd = bd' ++ junk -> junk <> [] ->
    deviates b1 bd (Connect c).

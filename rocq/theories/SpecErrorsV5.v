(** SpecErrorsV5.v -- which MQTT 5 frame bodies are refused, and with which error: a table
    of the positions of a body at which a decoder can stop. *)
From Verif Require Import Base SpecWire SpecProps SpecPropSets SpecErrors SpecV5 SpecPlaces.

Definition good_string (s : bytes) : Prop := is_string s /\ short s.
(** a well-formed property section *)
Definition good_section (pl : place) (sec : bytes) : Prop :=
  exists o, decodes_props (allowed_at pl) (fun its => its) o sec.
(** a CONNECT has properties only at level 5 *)
Definition connect_section (pr : Protocol) (sec : bytes) : Prop :=
  match pr with V5 => good_section InConnect sec | V4 => sec = [] end.
(** the variable header of a CONNECT up to and including the client identifier *)
Definition connect_head (pr : Protocol) (flags ka : N) (sec cid : bytes) : bytes :=
  field MQTT ++ [level pr; flags] ++ be16 ka ++ sec ++ field cid.
Definition good_head (pr : Protocol) (ka : N) (sec cid : bytes) : Prop :=
  u16 ka /\ connect_section pr sec /\ good_string cid.
(** topic filters of a SUBSCRIBE with their options bytes *)
Definition filters_bytes (l : list (bytes * N)) : bytes :=
  flat_map (fun po => field (fst po) ++ [snd po]) l.
Definition good_filter (po : bytes * N) : Prop :=
  good_string (fst po) /\ snd po mod 4 <> 3 /\ snd po / 16 mod 4 <> 3.

(** [expects b1 pre w]: in a frame with first byte [b1], behind the bytes [pre] of the
    body the field [w] must follow *)
Inductive expects (b1 : N) : bytes -> want -> Prop :=
(* CONNECT: protocol name, level, flags, keep alive, (properties,) client id, (will
   properties,) will topic and message, login *)
| ex_name : b1 / 16 = 1 -> expects b1 [] WString
| ex_level name : b1 / 16 = 1 -> good_string name -> expects b1 (field name) WByte
| ex_flags pr : b1 / 16 = 1 -> expects b1 (field MQTT ++ [level pr]) WByte
| ex_keep_alive pr flags : b1 / 16 = 1 -> expects b1 (field MQTT ++ [level pr; flags]) WTwo
| ex_client_id pr flags ka sec : b1 / 16 = 1 -> u16 ka -> connect_section pr sec ->
    expects b1 (field MQTT ++ [level pr; flags] ++ be16 ka ++ sec) WString
| ex_will_topic pr flags ka sec cid wsec : b1 / 16 = 1 -> good_head pr ka sec cid ->
    bit_at 2 flags = true -> good_section InWill wsec ->
    expects b1 (connect_head pr flags ka sec cid ++ wsec) WString
| ex_will_message pr flags ka sec cid wsec t : b1 / 16 = 1 -> good_head pr ka sec cid ->
    bit_at 2 flags = true -> good_section InWill wsec -> good_string t ->
    expects b1 (connect_head pr flags ka sec cid ++ wsec ++ field t) WBytes
| ex_user pr flags ka sec cid w wbs : b1 / 16 = 1 -> good_head pr ka sec cid ->
    decodes_will flags w wbs -> bit_at 7 flags = true ->
    expects b1 (connect_head pr flags ka sec cid ++ wbs) WString
| ex_password pr flags ka sec cid w wbs u ubs : b1 / 16 = 1 -> good_head pr ka sec cid ->
    decodes_will flags w wbs -> decodes_opt_string (bit_at 7 flags) u ubs ->
    bit_at 6 flags = true ->
    expects b1 (connect_head pr flags ka sec cid ++ wbs ++ ubs) WString
(* CONNACK: flags, reason code *)
| ex_ack_flags : b1 / 16 = 2 -> expects b1 [] WByte
| ex_ack_code flags : b1 / 16 = 2 -> expects b1 [flags] WByte
(* PUBLISH: topic, packet identifier *)
| ex_topic : b1 / 16 = 3 -> b1 / 2 mod 4 <> 3 -> expects b1 [] WString
| ex_topic_id t : b1 / 16 = 3 -> 1 <= b1 / 2 mod 4 <= 2 -> good_string t ->
    expects b1 (field t) WTwo
(* PUBACK, PUBREC, PUBREL, PUBCOMP, SUBSCRIBE, SUBACK, UNSUBSCRIBE, UNSUBACK: packet
   identifier *)
| ex_id : 4 <= b1 / 16 <= 11 -> expects b1 [] WTwo
(* SUBSCRIBE: the options behind a topic filter *)
| ex_options id sec l p : b1 / 16 = 8 -> u16 id -> good_section InSubscribe sec ->
    Forall good_filter l -> good_string p ->
    expects b1 (be16 id ++ sec ++ filters_bytes l ++ field p) WByte.

(** [continues b1 pre w]: if the body does not end behind [pre], the field [w] must follow *)
Inductive continues (b1 : N) : bytes -> want -> Prop :=
(* SUBSCRIBE, UNSUBSCRIBE: another topic filter *)
| co_filter id sec l : b1 / 16 = 8 -> u16 id -> good_section InSubscribe sec ->
    Forall good_filter l -> continues b1 (be16 id ++ sec ++ filters_bytes l) WString
| co_topic id sec l : b1 / 16 = 10 -> u16 id -> good_section InUnsubscribe sec ->
    Forall good_string l -> continues b1 (be16 id ++ sec ++ flat_map field l) WString.

(** [rejects b1 pre e]: the bytes [pre] at the start of the body are well-formed fields, but
    the last one has a value for which the error is [e] *)
Inductive rejects (b1 : N) : bytes -> Error -> Prop :=
(* CONNECT *)
| rj_name name lv : b1 / 16 = 1 -> good_string name -> name <> MQTT ->
    rejects b1 (field name ++ [lv]) InvalidProtocol
| rj_level lv : b1 / 16 = 1 -> lv <> 4 -> lv <> 5 ->
    rejects b1 (field MQTT ++ [lv]) (InvalidProtocolLevel lv)
(* will QoS or will retain without a will *)
| rj_no_will pr flags ka sec cid : b1 / 16 = 1 -> good_head pr ka sec cid ->
    bit_at 2 flags = false -> flags / 8 mod 8 <> 0 ->
    rejects b1 (connect_head pr flags ka sec cid) IncorrectPacketFormat
| rj_will_qos pr flags ka sec cid wsec t m : b1 / 16 = 1 -> good_head pr ka sec cid ->
    bit_at 2 flags = true -> good_section InWill wsec -> good_string t -> short m ->
    flags / 8 mod 4 = 3 ->
    rejects b1 (connect_head pr flags ka sec cid ++ wsec ++ field t ++ field m) (InvalidQoS 3)
(* a reason code that does not exist *)
| rj_connack flags n : b1 / 16 = 2 -> (forall c, n <> connack_code c) ->
    rejects b1 [flags; n] (InvalidConnectReturnCode n)
| rj_puback id n : b1 / 16 = 4 -> u16 id -> (forall c, n <> puback_code c) ->
    rejects b1 (be16 id ++ [n]) (InvalidConnectReturnCode n)
| rj_pubrec id n : b1 / 16 = 5 -> u16 id -> (forall c, n <> pubrec_code c) ->
    rejects b1 (be16 id ++ [n]) (InvalidConnectReturnCode n)
| rj_pubrel id n : b1 / 16 = 6 -> u16 id -> (forall c, n <> pubrel_code c) ->
    rejects b1 (be16 id ++ [n]) (InvalidConnectReturnCode n)
| rj_pubcomp id n : b1 / 16 = 7 -> u16 id -> (forall c, n <> pubcomp_code c) ->
    rejects b1 (be16 id ++ [n]) (InvalidConnectReturnCode n)
| rj_suback id sec l n : b1 / 16 = 9 -> u16 id -> good_section InSubAck sec ->
    (forall c, n <> suback_code c) ->
    rejects b1 (be16 id ++ sec ++ map suback_code l ++ [n]) (InvalidSubscribeReasonCode n)
| rj_unsuback id sec l n : b1 / 16 = 11 -> u16 id -> good_section InUnsubAck sec ->
    (forall c, n <> unsuback_code c) ->
    rejects b1 (be16 id ++ sec ++ map unsuback_code l ++ [n]) (InvalidSubscribeReasonCode n)
| rj_disconnect n : b1 = 0xE0 -> (forall c, n <> disconnect_code c) ->
    rejects b1 [n] (InvalidConnectReturnCode n)
(* DISCONNECT with reserved bits *)
| rj_reserved : b1 / 16 = 14 -> b1 <> 0xE0 -> rejects b1 [] MalformedPacket
(* PUBLISH *)
| rj_qos : b1 / 16 = 3 -> b1 / 2 mod 4 = 3 -> rejects b1 [] (InvalidQoS 3)
| rj_id_zero t : b1 / 16 = 3 -> 1 <= b1 / 2 mod 4 <= 2 -> good_string t ->
    rejects b1 (field t ++ be16 0) PacketIdZero
(* SUBSCRIBE: retain handling 3, maximum QoS 3 *)
| rj_rule id sec l p o : b1 / 16 = 8 -> u16 id -> good_section InSubscribe sec ->
    Forall good_filter l -> good_string p -> o / 16 mod 4 = 3 ->
    rejects b1 (be16 id ++ sec ++ filters_bytes l ++ field p ++ [o]) (InvalidRetainForwardRule 3)
| rj_options id sec l p o : b1 / 16 = 8 -> u16 id -> good_section InSubscribe sec ->
    Forall good_filter l -> good_string p -> o / 16 mod 4 <> 3 -> o mod 4 = 3 ->
    rejects b1 (be16 id ++ sec ++ filters_bytes l ++ field p ++ [o]) (InvalidQoS 3).

(** [rejects_whole b1 bd e]: a complete body refused as a whole *)
Inductive rejects_whole (b1 : N) : bytes -> Error -> Prop :=
| rw_type bd : b1 / 16 = 0 \/ b1 / 16 = 15 -> rejects_whole b1 bd (InvalidPacketType (b1 / 16))
| rw_empty : 1 <= b1 / 16 <= 11 \/ b1 / 16 = 14 -> rejects_whole b1 [] PayloadRequired
(* SUBACK, UNSUBACK without a reason code *)
| rw_no_code id sec : b1 / 16 = 9 -> u16 id -> good_section InSubAck sec ->
    rejects_whole b1 (be16 id ++ sec) MalformedPacket
| rw_no_reason id sec : b1 / 16 = 11 -> u16 id -> good_section InUnsubAck sec ->
    rejects_whole b1 (be16 id ++ sec) MalformedPacket.

(** behind the reason code of PUBACK, PUBREC, PUBREL and PUBCOMP the packet may end *)
Definition optional_section (pl : place) : bool :=
  match pl with InPubAck | InPubRec | InPubRel | InPubComp => true | _ => false end.

(** [fails b1 bd e]: the body [bd] of a frame with first byte [b1] is refused with [e] *)
Inductive fails (b1 : N) (bd : bytes) (e : Error) : Prop :=
| f_missing pre s w : bd <> [] -> bd = pre ++ s -> expects b1 pre w -> lacks w s e -> fails b1 bd e
| f_more pre s w : bd = pre ++ s -> s <> [] -> continues b1 pre w -> lacks w s e -> fails b1 bd e
| f_section pl pre s : bd = pre ++ s -> leads_to pl b1 pre ->
    (optional_section pl = true -> s <> []) -> section_fails (allowed_at pl) s e -> fails b1 bd e
| f_value pre s : bd <> [] -> bd = pre ++ s -> rejects b1 pre e -> fails b1 bd e
| f_whole : rejects_whole b1 bd e -> fails b1 bd e.

(** SpecErrorsV4.v -- which MQTT 3.1.1 frame bodies are refused, and with which error: a
    table of the positions of a body at which a decoder can stop. *)
From Verif Require Import Base SpecWire SpecErrors SpecV4.

(** the variable header of a CONNECT up to and including the client identifier *)
Definition connect_head (pr : Protocol) (flags ka : N) (cid : bytes) : bytes :=
  field MQTT ++ [level pr; flags] ++ be16 ka ++ field cid.
Definition good_string (s : bytes) : Prop := is_string s /\ short s.
(** topic filters of a SUBSCRIBE with their options bytes *)
Definition filters_bytes (l : list (bytes * N)) : bytes :=
  flat_map (fun po => field (fst po) ++ [snd po]) l.
Definition good_filter (po : bytes * N) : Prop := good_string (fst po) /\ snd po mod 4 <> 3.

(** [expects b1 pre w]: in a frame with first byte [b1], behind the bytes [pre] of the
    body the field [w] must follow *)
Inductive expects (b1 : N) : bytes -> want -> Prop :=
(* CONNECT: protocol name, level, flags, keep alive, client id, will, login *)
| ex_name : b1 / 16 = 1 -> expects b1 [] WString
| ex_level name : b1 / 16 = 1 -> good_string name -> expects b1 (field name) WByte
| ex_flags pr : b1 / 16 = 1 -> expects b1 (field MQTT ++ [level pr]) WByte
| ex_keep_alive pr flags : b1 / 16 = 1 -> expects b1 (field MQTT ++ [level pr; flags]) WTwo
| ex_client_id pr flags ka : b1 / 16 = 1 -> u16 ka ->
    expects b1 (field MQTT ++ [level pr; flags] ++ be16 ka) WString
| ex_will_topic pr flags ka cid : b1 / 16 = 1 -> u16 ka -> good_string cid ->
    bit_at 2 flags = true ->
    expects b1 (connect_head pr flags ka cid) WString
| ex_will_message pr flags ka cid t : b1 / 16 = 1 -> u16 ka -> good_string cid ->
    bit_at 2 flags = true -> good_string t ->
    expects b1 (connect_head pr flags ka cid ++ field t) WBytes
| ex_user pr flags ka cid w wbs : b1 / 16 = 1 -> u16 ka -> good_string cid ->
    decodes_will flags w wbs -> bit_at 7 flags = true ->
    expects b1 (connect_head pr flags ka cid ++ wbs) WString
| ex_password pr flags ka cid w wbs u ubs : b1 / 16 = 1 -> u16 ka -> good_string cid ->
    decodes_will flags w wbs -> decodes_opt_string (bit_at 7 flags) u ubs ->
    bit_at 6 flags = true ->
    expects b1 (connect_head pr flags ka cid ++ wbs ++ ubs) WString
(* CONNACK: flags, return code *)
| ex_ack_flags : b1 / 16 = 2 -> expects b1 [] WByte
| ex_ack_code flags : b1 / 16 = 2 -> expects b1 [flags] WByte
(* PUBLISH: topic, packet identifier *)
| ex_topic : b1 / 16 = 3 -> b1 / 2 mod 4 <> 3 -> expects b1 [] WString
| ex_topic_id t : b1 / 16 = 3 -> 1 <= b1 / 2 mod 4 <= 2 -> good_string t ->
    expects b1 (field t) WTwo
(* PUBACK, PUBREC, PUBREL, PUBCOMP, SUBSCRIBE, SUBACK, UNSUBSCRIBE: packet identifier *)
| ex_id : 4 <= b1 / 16 <= 10 -> expects b1 [] WTwo
(* SUBSCRIBE: the options behind a topic filter *)
| ex_options id l p : b1 / 16 = 8 -> u16 id -> Forall good_filter l -> good_string p ->
    expects b1 (be16 id ++ filters_bytes l ++ field p) WByte.

(** [continues b1 pre w]: if the body does not end behind [pre], the field [w] must follow *)
Inductive continues (b1 : N) : bytes -> want -> Prop :=
(* SUBSCRIBE, UNSUBSCRIBE: another topic filter *)
| co_filter id l : b1 / 16 = 8 -> u16 id -> Forall good_filter l ->
    continues b1 (be16 id ++ filters_bytes l) WString
| co_topic id l : b1 / 16 = 10 -> u16 id -> Forall good_string l ->
    continues b1 (be16 id ++ flat_map field l) WString.

(** [rejects b1 pre e]: the bytes [pre] at the start of the body are well-formed fields, but
    the last one has a value for which the error is [e] *)
Inductive rejects (b1 : N) : bytes -> Error -> Prop :=
(* CONNECT *)
| rj_name name lv : b1 / 16 = 1 -> good_string name -> name <> MQTT ->
    rejects b1 (field name ++ [lv]) InvalidProtocol
| rj_level lv : b1 / 16 = 1 -> lv <> 4 -> lv <> 5 ->
    rejects b1 (field MQTT ++ [lv]) (InvalidProtocolLevel lv)
(* will QoS or will retain without a will *)
| rj_no_will pr flags ka cid : b1 / 16 = 1 -> u16 ka -> good_string cid ->
    bit_at 2 flags = false -> flags / 8 mod 8 <> 0 ->
    rejects b1 (connect_head pr flags ka cid) IncorrectPacketFormat
| rj_will_qos pr flags ka cid t m : b1 / 16 = 1 -> u16 ka -> good_string cid ->
    bit_at 2 flags = true -> good_string t -> short m -> flags / 8 mod 4 = 3 ->
    rejects b1 (connect_head pr flags ka cid ++ field t ++ field m) (InvalidQoS 3)
(* CONNACK *)
| rj_ack_code flags c : b1 / 16 = 2 -> 5 < c -> rejects b1 [flags; c] (InvalidConnectReturnCode c)
(* PUBLISH *)
| rj_qos : b1 / 16 = 3 -> b1 / 2 mod 4 = 3 -> rejects b1 [] (InvalidQoS 3)
| rj_id_zero t : b1 / 16 = 3 -> 1 <= b1 / 2 mod 4 <= 2 -> good_string t ->
    rejects b1 (field t ++ be16 0) PacketIdZero
(* SUBSCRIBE *)
| rj_options id l p o : b1 / 16 = 8 -> u16 id -> Forall good_filter l -> good_string p ->
    o mod 4 = 3 ->
    rejects b1 (be16 id ++ filters_bytes l ++ field p ++ [o]) (InvalidQoS 3)
(* SUBACK *)
| rj_reason id l c : b1 / 16 = 9 -> u16 id -> 2 < c -> c <> 128 ->
    rejects b1 (be16 id ++ map suback_code l ++ [c]) (InvalidSubscribeReasonCode c).

(** [rejects_whole b1 bd e]: a complete body refused as a whole *)
Inductive rejects_whole (b1 : N) : bytes -> Error -> Prop :=
| rw_type bd : b1 / 16 = 0 \/ b1 / 16 = 15 -> rejects_whole b1 bd (InvalidPacketType (b1 / 16))
| rw_empty : 1 <= b1 / 16 <= 11 -> rejects_whole b1 [] PayloadRequired
| rw_no_filter id : b1 / 16 = 8 -> u16 id -> rejects_whole b1 (be16 id) EmptySubscription
| rw_no_code id : b1 / 16 = 9 -> u16 id -> rejects_whole b1 (be16 id) MalformedPacket
| rw_size bd : b1 / 16 = 11 -> bd <> [] -> blen bd <> 2 -> rejects_whole b1 bd PayloadSizeIncorrect.

(** [fails b1 bd e]: the body [bd] of a frame with first byte [b1] is refused with [e] *)
Inductive fails (b1 : N) (bd : bytes) (e : Error) : Prop :=
| f_missing pre s w : bd <> [] -> bd = pre ++ s -> expects b1 pre w -> lacks w s e -> fails b1 bd e
| f_more pre s w : bd = pre ++ s -> s <> [] -> continues b1 pre w -> lacks w s e -> fails b1 bd e
| f_value pre s : bd <> [] -> bd = pre ++ s -> rejects b1 pre e -> fails b1 bd e
| f_whole : rejects_whole b1 bd e -> fails b1 bd e.

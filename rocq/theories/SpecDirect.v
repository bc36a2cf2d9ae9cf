(** SpecDirect.v -- vocabulary for calling the decoders of the packet structs directly
    (`PubAck::read(header, bytes)` and so on are public), without `read` on a stream. *)
From Verif Require Import Base SpecWire SpecErrors SpecCodes Lib.
From Verif Require V4Mod V5Mod.

(** the public decoders, each with the packet type it is for (the result is put into
    the module's `Packet` so that they have one type) *)
Definition v4_readers : list (PacketType * (FixedHeader -> bytes -> outcome V4Mod.Packet)) :=
  [(PT_Connect, fun h b => V4Mod.wrap V4Mod.Connect (V4Connect.read h b));
   (PT_ConnAck, fun h b => V4Mod.wrap V4Mod.ConnAck (V4ConnAck.read h b));
   (PT_Publish, fun h b => V4Mod.wrap V4Mod.Publish (V4Publish.read h b));
   (PT_PubAck, fun h b => V4Mod.wrap V4Mod.PubAck (V4PubAck.read h b));
   (PT_PubRec, fun h b => V4Mod.wrap V4Mod.PubRec (V4PubRec.read h b));
   (PT_PubRel, fun h b => V4Mod.wrap V4Mod.PubRel (V4PubRel.read h b));
   (PT_PubComp, fun h b => V4Mod.wrap V4Mod.PubComp (V4PubComp.read h b));
   (PT_Subscribe, fun h b => V4Mod.wrap V4Mod.Subscribe (V4Subscribe.read h b));
   (PT_SubAck, fun h b => V4Mod.wrap V4Mod.SubAck (V4SubAck.read h b));
   (PT_Unsubscribe, fun h b => V4Mod.wrap V4Mod.Unsubscribe (V4Unsubscribe.read h b));
   (PT_UnsubAck, fun h b => V4Mod.wrap V4Mod.UnsubAck (V4UnsubAck.read h b))].

Definition v5_readers : list (PacketType * (FixedHeader -> bytes -> outcome V5Mod.Packet)) :=
  [(PT_Connect, fun h b => V5Mod.wrap V5Mod.Connect (V5Connect.read h b));
   (PT_ConnAck, fun h b => V5Mod.wrap V5Mod.ConnAck (V5ConnAck.read h b));
   (PT_Publish, fun h b => V5Mod.wrap V5Mod.Publish (V5Publish.read h b));
   (PT_PubAck, fun h b => V5Mod.wrap V5Mod.PubAck (V5PubAck.read h b));
   (PT_PubRec, fun h b => V5Mod.wrap V5Mod.PubRec (V5PubRec.read h b));
   (PT_PubRel, fun h b => V5Mod.wrap V5Mod.PubRel (V5PubRel.read h b));
   (PT_PubComp, fun h b => V5Mod.wrap V5Mod.PubComp (V5PubComp.read h b));
   (PT_Subscribe, fun h b => V5Mod.wrap V5Mod.Subscribe (V5Subscribe.read h b));
   (PT_SubAck, fun h b => V5Mod.wrap V5Mod.SubAck (V5SubAck.read h b));
   (PT_Unsubscribe, fun h b => V5Mod.wrap V5Mod.Unsubscribe (V5Unsubscribe.read h b));
   (PT_UnsubAck, fun h b => V5Mod.wrap V5Mod.UnsubAck (V5UnsubAck.read h b));
   (PT_Disconnect, fun h b => V5Mod.wrap V5Mod.Disconnect (V5Disconnect.read h b))].

(** the MQTT 5 acknowledgements that may be sent without reason and properties, with
    what the short form stands for *)
Definition v5_acks : list (PacketType * (N -> V5Mod.Packet)) :=
  [(PT_PubAck, fun id => V5Mod.PubAck (V5PubAck.new id));
   (PT_PubRec, fun id => V5Mod.PubRec (V5PubRec.new id));
   (PT_PubRel, fun id => V5Mod.PubRel (V5PubRel.new id));
   (PT_PubComp, fun id => V5Mod.PubComp (V5PubComp.new id))].

(** the frame of type [t] with these flags (low nibble) and this body *)
Definition frame_with (t : PacketType) (flags : N) (bd : bytes) : bytes :=
  16 * type_code t + flags :: varint (blen bd) ++ bd.

(** the QoS bits of a first byte *)
Definition qos_bits (b : N) : N := b / 2 mod 4.

(** what v4 `Unsubscribe::read` must answer for the bytes [bd] behind the header when the
    header announces [rl] bytes (not necessarily [blen bd]) *)
Inductive unsubscribe_answer (rl : N) : bytes -> outcome V4Mod.Packet -> Prop :=
| ua_no_id bd : blen bd < 2 -> unsubscribe_answer rl bd (Err MalformedPacket)
(* less announced than the identifier takes: arithmetic underflow *)
| ua_announced_short id r : id < 65536 -> rl < 2 -> unsubscribe_answer rl (be16 id ++ r) Panic
(* the announced bytes are exactly these filters *)
| ua_ok id ts r : id < 65536 -> Forall (fun t => is_utf8 t /\ short t) ts ->
    rl = 2 + blen (flat_map field ts) ->
    unsubscribe_answer rl (be16 id ++ flat_map field ts ++ r)
      (Ok (V4Mod.Unsubscribe (V4Unsubscribe.mkUnsubscribe id ts)))
(* more is announced, but no filter is there *)
| ua_bad id ts s e : id < 65536 -> Forall (fun t => is_utf8 t /\ short t) ts ->
    2 + blen (flat_map field ts) < rl -> lacks WString s e ->
    unsubscribe_answer rl (be16 id ++ flat_map field ts ++ s) (Err e)
(* a filter that runs over the announced end: arithmetic underflow *)
| ua_over id ts t r : id < 65536 -> Forall (fun t => is_utf8 t /\ short t) (ts ++ [t]) ->
    2 + blen (flat_map field ts) < rl -> rl < 2 + blen (flat_map field (ts ++ [t])) ->
    unsubscribe_answer rl (be16 id ++ flat_map field (ts ++ [t]) ++ r) Panic.

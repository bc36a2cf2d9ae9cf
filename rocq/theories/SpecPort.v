(** SpecPort.v -- the public functions on an arbitrary target: the same tables as in SpecSource.v, over the
    translation with the arithmetic of that target (Port*.v, PortBase.v). *)
From Verif Require Import Base SrcBase SpecWire SpecProps SpecPropSets SpecSource.
From Verif Require SpecV4 SpecV5 PortBase.
From Verif Require V4Mod V5Mod PortLib PortTopic PortV4Mod PortV5Mod.
From Verif Require PortV4Connect PortV4ConnAck PortV4Publish PortV4PubAck PortV4PubRec PortV4PubRel PortV4PubComp PortV4Subscribe PortV4SubAck PortV4Unsubscribe PortV4UnsubAck PortV4Ping PortV4Disconnect PortV5Connect PortV5ConnAck PortV5Publish PortV5PubAck PortV5PubRec PortV5PubRel PortV5PubComp PortV5Subscribe PortV5SubAck PortV5Unsubscribe PortV5UnsubAck PortV5Disconnect PortV5Ping.

Section Tables.
Context {target : PortBase.Target}.

(** the `write` method of the packet's type *)
Definition port_v4_write (fuel : nat) (p : V4Mod.Packet) : writer N :=
  match p with
  | V4Mod.Connect x => PortV4Connect.Connect_write fuel x
  | V4Mod.ConnAck x => PortV4ConnAck.ConnAck_write fuel x
  | V4Mod.Publish x => PortV4Publish.Publish_write fuel x
  | V4Mod.PubAck x => PortV4PubAck.PubAck_write fuel x
  | V4Mod.PubRec x => PortV4PubRec.PubRec_write fuel x
  | V4Mod.PubRel x => PortV4PubRel.PubRel_write fuel x
  | V4Mod.PubComp x => PortV4PubComp.PubComp_write fuel x
  | V4Mod.Subscribe x => PortV4Subscribe.Subscribe_write fuel x
  | V4Mod.SubAck x => PortV4SubAck.SubAck_write fuel x
  | V4Mod.Unsubscribe x => PortV4Unsubscribe.Unsubscribe_write fuel x
  | V4Mod.UnsubAck x => PortV4UnsubAck.UnsubAck_write x
  | V4Mod.PingReq => PortV4Ping.PingReq_write
  | V4Mod.PingResp => PortV4Ping.PingResp_write
  | V4Mod.Disconnect => PortV4Disconnect.Disconnect_write
  end.
Definition port_v5_write (fuel : nat) (p : V5Mod.Packet) : writer N :=
  match p with
  | V5Mod.Connect x => PortV5Connect.Connect_write fuel x
  | V5Mod.ConnAck x => PortV5ConnAck.ConnAck_write fuel x
  | V5Mod.Publish x => PortV5Publish.Publish_write fuel x
  | V5Mod.PubAck x => PortV5PubAck.PubAck_write fuel x
  | V5Mod.PubRec x => PortV5PubRec.PubRec_write fuel x
  | V5Mod.PubRel x => PortV5PubRel.PubRel_write fuel x
  | V5Mod.PubComp x => PortV5PubComp.PubComp_write fuel x
  | V5Mod.Subscribe x => PortV5Subscribe.Subscribe_write fuel x
  | V5Mod.SubAck x => PortV5SubAck.SubAck_write fuel x
  | V5Mod.Unsubscribe x => PortV5Unsubscribe.Unsubscribe_write fuel x
  | V5Mod.UnsubAck x => PortV5UnsubAck.UnsubAck_write fuel x
  | V5Mod.Disconnect x => PortV5Disconnect.Disconnect_write fuel x
  | V5Mod.PingReq => PortV5Ping.PingReq_write
  | V5Mod.PingResp => PortV5Ping.PingResp_write
  end.

(** the public `len` methods of a packet, its property set and its filters: what the Rust text
    computes, and the number of bytes it stands for *)
Definition port_v4_lens (p : V4Mod.Packet) : list (outcome N * N) :=
  match p with
  | V4Mod.Connect x => [(PortV4Connect.Connect_len x, SpecV4.declared_len p)]
  | V4Mod.Publish x => [(PortV4Publish.Publish_len x, SpecV4.declared_len p)]
  | V4Mod.SubAck x => [(PortV4SubAck.SubAck_len x, SpecV4.declared_len p)]
  | V4Mod.Subscribe x =>
      (PortV4Subscribe.Subscribe_len x, SpecV4.declared_len p)
      :: map (fun f => (PortV4Subscribe.SubscribeFilter_len f, blen (field (V4Subscribe.path f)) + 1)) (V4Subscribe.filters x)
  | _ => []
  end.
Definition port_v5_lens (p : V5Mod.Packet) : list (outcome N * N) :=
  match p with
  | V5Mod.Connect x => [(PortV5Connect.Connect_len x, SpecV5.declared_len p)]
  | V5Mod.Publish x => [(PortV5Publish.Publish_len x, SpecV5.declared_len p)]
  | V5Mod.Subscribe x =>
      (PortV5Subscribe.Subscribe_len x, SpecV5.declared_len p)
      :: set_len PortV5Subscribe.SubscribeProperties_len subscribe_items (V5Subscribe.properties x)
      ++ map (fun f => (PortV5Subscribe.SubscribeFilter_len f, blen (field (V5Subscribe.path f)) + 1)) (V5Subscribe.filters x)
  | V5Mod.SubAck x =>
      (PortV5SubAck.SubAck_len x, SpecV5.declared_len p)
      :: set_len PortV5SubAck.SubAckProperties_len suback_items (V5SubAck.properties x)
  | V5Mod.Unsubscribe x => [(PortV5Unsubscribe.Unsubscribe_len x, SpecV5.declared_len p)]
  | V5Mod.UnsubAck x =>
      (PortV5UnsubAck.UnsubAck_len x, SpecV5.declared_len p)
      :: set_len PortV5UnsubAck.UnsubAckProperties_len unsuback_items (V5UnsubAck.properties x)
  | V5Mod.ConnAck x => set_len PortV5ConnAck.ConnAckProperties_len connack_items (V5ConnAck.properties x)
  | V5Mod.PubAck x => set_len PortV5PubAck.PubAckProperties_len puback_items (V5PubAck.properties x)
  | V5Mod.PubRec x => set_len PortV5PubRec.PubRecProperties_len pubrec_items (V5PubRec.properties x)
  | V5Mod.PubRel x => set_len PortV5PubRel.PubRelProperties_len pubrel_items (V5PubRel.properties x)
  | V5Mod.PubComp x => set_len PortV5PubComp.PubCompProperties_len pubcomp_items (V5PubComp.properties x)
  | V5Mod.PingReq | V5Mod.PingResp | V5Mod.Disconnect _ => []
  end.

(** `read` as a function of the stream alone: more rounds for the loops than the stream has bytes *)
Definition port_v4_reads (s : bytes) (max : N) : outcome V4Mod.Packet * bytes := PortV4Mod.read (S (List.length s)) max s.
Definition port_v5_reads (s : bytes) (max : N) : outcome V5Mod.Packet * bytes := PortV5Mod.read (S (List.length s)) max s.

(** the public decoders of the packet types, called directly, each with the type it is for *)
Definition port_v4_direct : list (PacketType * (nat -> Lib.FixedHeader -> bytes -> outcome V4Mod.Packet)) :=
  [(PT_Connect, fun fuel h b => wrapped V4Mod.Connect (PortV4Connect.Connect_read h b));
   (PT_ConnAck, fun fuel h b => wrapped V4Mod.ConnAck (PortV4ConnAck.ConnAck_read h b));
   (PT_Publish, fun fuel h b => wrapped V4Mod.Publish (PortV4Publish.Publish_read h b));
   (PT_PubAck, fun fuel h b => wrapped V4Mod.PubAck (PortV4PubAck.PubAck_read h b));
   (PT_PubRec, fun fuel h b => wrapped V4Mod.PubRec (PortV4PubRec.PubRec_read h b));
   (PT_PubRel, fun fuel h b => wrapped V4Mod.PubRel (PortV4PubRel.PubRel_read h b));
   (PT_PubComp, fun fuel h b => wrapped V4Mod.PubComp (PortV4PubComp.PubComp_read h b));
   (PT_Subscribe, fun fuel h b => wrapped V4Mod.Subscribe (PortV4Subscribe.Subscribe_read fuel h b));
   (PT_SubAck, fun fuel h b => wrapped V4Mod.SubAck (PortV4SubAck.SubAck_read fuel h b));
   (PT_Unsubscribe, fun fuel h b => wrapped V4Mod.Unsubscribe (PortV4Unsubscribe.Unsubscribe_read fuel h b));
   (PT_UnsubAck, fun fuel h b => wrapped V4Mod.UnsubAck (PortV4UnsubAck.UnsubAck_read h b))].
Definition port_v5_direct : list (PacketType * (nat -> Lib.FixedHeader -> bytes -> outcome V5Mod.Packet)) :=
  [(PT_Connect, fun fuel h b => wrapped V5Mod.Connect (PortV5Connect.Connect_read fuel h b));
   (PT_ConnAck, fun fuel h b => wrapped V5Mod.ConnAck (PortV5ConnAck.ConnAck_read fuel h b));
   (PT_Publish, fun fuel h b => wrapped V5Mod.Publish (PortV5Publish.Publish_read fuel h b));
   (PT_PubAck, fun fuel h b => wrapped V5Mod.PubAck (PortV5PubAck.PubAck_read fuel h b));
   (PT_PubRec, fun fuel h b => wrapped V5Mod.PubRec (PortV5PubRec.PubRec_read fuel h b));
   (PT_PubRel, fun fuel h b => wrapped V5Mod.PubRel (PortV5PubRel.PubRel_read fuel h b));
   (PT_PubComp, fun fuel h b => wrapped V5Mod.PubComp (PortV5PubComp.PubComp_read fuel h b));
   (PT_Subscribe, fun fuel h b => wrapped V5Mod.Subscribe (PortV5Subscribe.Subscribe_read fuel h b));
   (PT_SubAck, fun fuel h b => wrapped V5Mod.SubAck (PortV5SubAck.SubAck_read fuel h b));
   (PT_Unsubscribe, fun fuel h b => wrapped V5Mod.Unsubscribe (PortV5Unsubscribe.Unsubscribe_read fuel h b));
   (PT_UnsubAck, fun fuel h b => wrapped V5Mod.UnsubAck (PortV5UnsubAck.UnsubAck_read fuel h b));
   (PT_Disconnect, fun fuel h b => wrapped V5Mod.Disconnect (PortV5Disconnect.Disconnect_read fuel h b))].

End Tables.

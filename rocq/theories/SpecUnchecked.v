(** SpecUnchecked.v -- the public functions in a build without overflow checks: the same tables as
    in SpecSource.v, over the translation with wrapping arithmetic (Wrap*.v, WrapBase.v). *)
From Verif Require Import Base SrcBase SpecWire SpecProps SpecPropSets SpecSource.
From Verif Require SpecV4 SpecV5.
From Verif Require V4Mod V5Mod WrapLib WrapTopic WrapV4Mod WrapV5Mod.
From Verif Require WrapV4Connect WrapV4ConnAck WrapV4Publish WrapV4PubAck WrapV4PubRec WrapV4PubRel WrapV4PubComp WrapV4Subscribe WrapV4SubAck WrapV4Unsubscribe WrapV4UnsubAck WrapV4Ping WrapV4Disconnect WrapV5Connect WrapV5ConnAck WrapV5Publish WrapV5PubAck WrapV5PubRec WrapV5PubRel WrapV5PubComp WrapV5Subscribe WrapV5SubAck WrapV5Unsubscribe WrapV5UnsubAck WrapV5Disconnect WrapV5Ping.

(** the `write` method of the packet's type *)
Definition un_v4_write (fuel : nat) (p : V4Mod.Packet) : writer N :=
  match p with
  | V4Mod.Connect x => WrapV4Connect.Connect_write fuel x
  | V4Mod.ConnAck x => WrapV4ConnAck.ConnAck_write fuel x
  | V4Mod.Publish x => WrapV4Publish.Publish_write fuel x
  | V4Mod.PubAck x => WrapV4PubAck.PubAck_write fuel x
  | V4Mod.PubRec x => WrapV4PubRec.PubRec_write fuel x
  | V4Mod.PubRel x => WrapV4PubRel.PubRel_write fuel x
  | V4Mod.PubComp x => WrapV4PubComp.PubComp_write fuel x
  | V4Mod.Subscribe x => WrapV4Subscribe.Subscribe_write fuel x
  | V4Mod.SubAck x => WrapV4SubAck.SubAck_write fuel x
  | V4Mod.Unsubscribe x => WrapV4Unsubscribe.Unsubscribe_write fuel x
  | V4Mod.UnsubAck x => WrapV4UnsubAck.UnsubAck_write x
  | V4Mod.PingReq => WrapV4Ping.PingReq_write
  | V4Mod.PingResp => WrapV4Ping.PingResp_write
  | V4Mod.Disconnect => WrapV4Disconnect.Disconnect_write
  end.
Definition un_v5_write (fuel : nat) (p : V5Mod.Packet) : writer N :=
  match p with
  | V5Mod.Connect x => WrapV5Connect.Connect_write fuel x
  | V5Mod.ConnAck x => WrapV5ConnAck.ConnAck_write fuel x
  | V5Mod.Publish x => WrapV5Publish.Publish_write fuel x
  | V5Mod.PubAck x => WrapV5PubAck.PubAck_write fuel x
  | V5Mod.PubRec x => WrapV5PubRec.PubRec_write fuel x
  | V5Mod.PubRel x => WrapV5PubRel.PubRel_write fuel x
  | V5Mod.PubComp x => WrapV5PubComp.PubComp_write fuel x
  | V5Mod.Subscribe x => WrapV5Subscribe.Subscribe_write fuel x
  | V5Mod.SubAck x => WrapV5SubAck.SubAck_write fuel x
  | V5Mod.Unsubscribe x => WrapV5Unsubscribe.Unsubscribe_write fuel x
  | V5Mod.UnsubAck x => WrapV5UnsubAck.UnsubAck_write fuel x
  | V5Mod.Disconnect x => WrapV5Disconnect.Disconnect_write fuel x
  | V5Mod.PingReq => WrapV5Ping.PingReq_write
  | V5Mod.PingResp => WrapV5Ping.PingResp_write
  end.

(** the public `len` methods of a packet, its property set and its filters: what the Rust text
    computes, and the number of bytes it stands for *)
Definition un_v4_lens (p : V4Mod.Packet) : list (outcome N * N) :=
  match p with
  | V4Mod.Connect x => [(WrapV4Connect.Connect_len x, SpecV4.declared_len p)]
  | V4Mod.Publish x => [(WrapV4Publish.Publish_len x, SpecV4.declared_len p)]
  | V4Mod.SubAck x => [(WrapV4SubAck.SubAck_len x, SpecV4.declared_len p)]
  | V4Mod.Subscribe x =>
      (WrapV4Subscribe.Subscribe_len x, SpecV4.declared_len p)
      :: map (fun f => (WrapV4Subscribe.SubscribeFilter_len f, blen (field (V4Subscribe.path f)) + 1)) (V4Subscribe.filters x)
  | _ => []
  end.
Definition un_v5_lens (p : V5Mod.Packet) : list (outcome N * N) :=
  match p with
  | V5Mod.Connect x => [(WrapV5Connect.Connect_len x, SpecV5.declared_len p)]
  | V5Mod.Publish x => [(WrapV5Publish.Publish_len x, SpecV5.declared_len p)]
  | V5Mod.Subscribe x =>
      (WrapV5Subscribe.Subscribe_len x, SpecV5.declared_len p)
      :: set_len WrapV5Subscribe.SubscribeProperties_len subscribe_items (V5Subscribe.properties x)
      ++ map (fun f => (WrapV5Subscribe.SubscribeFilter_len f, blen (field (V5Subscribe.path f)) + 1)) (V5Subscribe.filters x)
  | V5Mod.SubAck x =>
      (WrapV5SubAck.SubAck_len x, SpecV5.declared_len p)
      :: set_len WrapV5SubAck.SubAckProperties_len suback_items (V5SubAck.properties x)
  | V5Mod.Unsubscribe x => [(WrapV5Unsubscribe.Unsubscribe_len x, SpecV5.declared_len p)]
  | V5Mod.UnsubAck x =>
      (WrapV5UnsubAck.UnsubAck_len x, SpecV5.declared_len p)
      :: set_len WrapV5UnsubAck.UnsubAckProperties_len unsuback_items (V5UnsubAck.properties x)
  | V5Mod.ConnAck x => set_len WrapV5ConnAck.ConnAckProperties_len connack_items (V5ConnAck.properties x)
  | V5Mod.PubAck x => set_len WrapV5PubAck.PubAckProperties_len puback_items (V5PubAck.properties x)
  | V5Mod.PubRec x => set_len WrapV5PubRec.PubRecProperties_len pubrec_items (V5PubRec.properties x)
  | V5Mod.PubRel x => set_len WrapV5PubRel.PubRelProperties_len pubrel_items (V5PubRel.properties x)
  | V5Mod.PubComp x => set_len WrapV5PubComp.PubCompProperties_len pubcomp_items (V5PubComp.properties x)
  | V5Mod.PingReq | V5Mod.PingResp | V5Mod.Disconnect _ => []
  end.

(** `read` as a function of the stream alone: more rounds for the loops than the stream has bytes *)
Definition un_v4_reads (s : bytes) (max : N) : outcome V4Mod.Packet * bytes := WrapV4Mod.read (S (List.length s)) max s.
Definition un_v5_reads (s : bytes) (max : N) : outcome V5Mod.Packet * bytes := WrapV5Mod.read (S (List.length s)) max s.

(** the public decoders of the packet types, called directly, each with the type it is for *)
Definition un_v4_direct : list (PacketType * (nat -> Lib.FixedHeader -> bytes -> outcome V4Mod.Packet)) :=
  [(PT_Connect, fun fuel h b => wrapped V4Mod.Connect (WrapV4Connect.Connect_read h b));
   (PT_ConnAck, fun fuel h b => wrapped V4Mod.ConnAck (WrapV4ConnAck.ConnAck_read h b));
   (PT_Publish, fun fuel h b => wrapped V4Mod.Publish (WrapV4Publish.Publish_read h b));
   (PT_PubAck, fun fuel h b => wrapped V4Mod.PubAck (WrapV4PubAck.PubAck_read h b));
   (PT_PubRec, fun fuel h b => wrapped V4Mod.PubRec (WrapV4PubRec.PubRec_read h b));
   (PT_PubRel, fun fuel h b => wrapped V4Mod.PubRel (WrapV4PubRel.PubRel_read h b));
   (PT_PubComp, fun fuel h b => wrapped V4Mod.PubComp (WrapV4PubComp.PubComp_read h b));
   (PT_Subscribe, fun fuel h b => wrapped V4Mod.Subscribe (WrapV4Subscribe.Subscribe_read fuel h b));
   (PT_SubAck, fun fuel h b => wrapped V4Mod.SubAck (WrapV4SubAck.SubAck_read fuel h b));
   (PT_Unsubscribe, fun fuel h b => wrapped V4Mod.Unsubscribe (WrapV4Unsubscribe.Unsubscribe_read fuel h b));
   (PT_UnsubAck, fun fuel h b => wrapped V4Mod.UnsubAck (WrapV4UnsubAck.UnsubAck_read h b))].
Definition un_v5_direct : list (PacketType * (nat -> Lib.FixedHeader -> bytes -> outcome V5Mod.Packet)) :=
  [(PT_Connect, fun fuel h b => wrapped V5Mod.Connect (WrapV5Connect.Connect_read fuel h b));
   (PT_ConnAck, fun fuel h b => wrapped V5Mod.ConnAck (WrapV5ConnAck.ConnAck_read fuel h b));
   (PT_Publish, fun fuel h b => wrapped V5Mod.Publish (WrapV5Publish.Publish_read fuel h b));
   (PT_PubAck, fun fuel h b => wrapped V5Mod.PubAck (WrapV5PubAck.PubAck_read fuel h b));
   (PT_PubRec, fun fuel h b => wrapped V5Mod.PubRec (WrapV5PubRec.PubRec_read fuel h b));
   (PT_PubRel, fun fuel h b => wrapped V5Mod.PubRel (WrapV5PubRel.PubRel_read fuel h b));
   (PT_PubComp, fun fuel h b => wrapped V5Mod.PubComp (WrapV5PubComp.PubComp_read fuel h b));
   (PT_Subscribe, fun fuel h b => wrapped V5Mod.Subscribe (WrapV5Subscribe.Subscribe_read fuel h b));
   (PT_SubAck, fun fuel h b => wrapped V5Mod.SubAck (WrapV5SubAck.SubAck_read fuel h b));
   (PT_Unsubscribe, fun fuel h b => wrapped V5Mod.Unsubscribe (WrapV5Unsubscribe.Unsubscribe_read fuel h b));
   (PT_UnsubAck, fun fuel h b => wrapped V5Mod.UnsubAck (WrapV5UnsubAck.UnsubAck_read fuel h b));
   (PT_Disconnect, fun fuel h b => wrapped V5Mod.Disconnect (WrapV5Disconnect.Disconnect_read fuel h b))].

(** SpecSource.v -- the public functions as the Rust text has them: names for the functions of the
    mechanical translation (Src*.v), by packet type.  [fuel] bounds the iterations of the `while`
    loops; the theorems hold for all large values, so it drops out. *)
From Verif Require Import Base SrcBase SpecWire SpecProps SpecPropSets.
From Verif Require SpecV4 SpecV5.
From Verif Require V4Mod V5Mod SrcLib SrcTopic SrcV4Mod SrcV5Mod.
From Verif Require SrcV4Connect SrcV4ConnAck SrcV4Publish SrcV4PubAck SrcV4PubRec SrcV4PubRel SrcV4PubComp SrcV4Subscribe SrcV4SubAck SrcV4Unsubscribe SrcV4UnsubAck SrcV4Ping SrcV4Disconnect SrcV5Connect SrcV5ConnAck SrcV5Publish SrcV5PubAck SrcV5PubRec SrcV5PubRel SrcV5PubComp SrcV5Subscribe SrcV5SubAck SrcV5Unsubscribe SrcV5UnsubAck SrcV5Disconnect SrcV5Ping.

(** the `write` method of the packet's type *)
Definition v4_write (fuel : nat) (p : V4Mod.Packet) : writer N :=
  match p with
  | V4Mod.Connect x => SrcV4Connect.Connect_write fuel x
  | V4Mod.ConnAck x => SrcV4ConnAck.ConnAck_write fuel x
  | V4Mod.Publish x => SrcV4Publish.Publish_write fuel x
  | V4Mod.PubAck x => SrcV4PubAck.PubAck_write fuel x
  | V4Mod.PubRec x => SrcV4PubRec.PubRec_write fuel x
  | V4Mod.PubRel x => SrcV4PubRel.PubRel_write fuel x
  | V4Mod.PubComp x => SrcV4PubComp.PubComp_write fuel x
  | V4Mod.Subscribe x => SrcV4Subscribe.Subscribe_write fuel x
  | V4Mod.SubAck x => SrcV4SubAck.SubAck_write fuel x
  | V4Mod.Unsubscribe x => SrcV4Unsubscribe.Unsubscribe_write fuel x
  | V4Mod.UnsubAck x => SrcV4UnsubAck.UnsubAck_write x
  | V4Mod.PingReq => SrcV4Ping.PingReq_write
  | V4Mod.PingResp => SrcV4Ping.PingResp_write
  | V4Mod.Disconnect => SrcV4Disconnect.Disconnect_write
  end.
Definition v5_write (fuel : nat) (p : V5Mod.Packet) : writer N :=
  match p with
  | V5Mod.Connect x => SrcV5Connect.Connect_write fuel x
  | V5Mod.ConnAck x => SrcV5ConnAck.ConnAck_write fuel x
  | V5Mod.Publish x => SrcV5Publish.Publish_write fuel x
  | V5Mod.PubAck x => SrcV5PubAck.PubAck_write fuel x
  | V5Mod.PubRec x => SrcV5PubRec.PubRec_write fuel x
  | V5Mod.PubRel x => SrcV5PubRel.PubRel_write fuel x
  | V5Mod.PubComp x => SrcV5PubComp.PubComp_write fuel x
  | V5Mod.Subscribe x => SrcV5Subscribe.Subscribe_write fuel x
  | V5Mod.SubAck x => SrcV5SubAck.SubAck_write fuel x
  | V5Mod.Unsubscribe x => SrcV5Unsubscribe.Unsubscribe_write fuel x
  | V5Mod.UnsubAck x => SrcV5UnsubAck.UnsubAck_write fuel x
  | V5Mod.Disconnect x => SrcV5Disconnect.Disconnect_write fuel x
  | V5Mod.PingReq => SrcV5Ping.PingReq_write
  | V5Mod.PingResp => SrcV5Ping.PingResp_write
  end.

(** the public `len` methods of a packet, its property set and its filters: what the Rust text
    computes, and the number of bytes it stands for *)
Definition v4_lens (p : V4Mod.Packet) : list (outcome N * N) :=
  match p with
  | V4Mod.Connect x => [(SrcV4Connect.Connect_len x, SpecV4.declared_len p)]
  | V4Mod.Publish x => [(SrcV4Publish.Publish_len x, SpecV4.declared_len p)]
  | V4Mod.SubAck x => [(SrcV4SubAck.SubAck_len x, SpecV4.declared_len p)]
  | V4Mod.Subscribe x =>
      (SrcV4Subscribe.Subscribe_len x, SpecV4.declared_len p)
      :: map (fun f => (SrcV4Subscribe.SubscribeFilter_len f, blen (field (V4Subscribe.path f)) + 1)) (V4Subscribe.filters x)
  | _ => []
  end.
Definition set_len {R} (len : R -> outcome N) (items : R -> list item) (o : option R) : list (outcome N * N) :=
  match o with Some r => [(len r, blen (items_bytes (items r)))] | None => [] end.
Definition v5_lens (p : V5Mod.Packet) : list (outcome N * N) :=
  match p with
  | V5Mod.Connect x => [(SrcV5Connect.Connect_len x, SpecV5.declared_len p)]
  | V5Mod.Publish x => [(SrcV5Publish.Publish_len x, SpecV5.declared_len p)]
  | V5Mod.Subscribe x =>
      (SrcV5Subscribe.Subscribe_len x, SpecV5.declared_len p)
      :: set_len SrcV5Subscribe.SubscribeProperties_len subscribe_items (V5Subscribe.properties x)
      ++ map (fun f => (SrcV5Subscribe.SubscribeFilter_len f, blen (field (V5Subscribe.path f)) + 1)) (V5Subscribe.filters x)
  | V5Mod.SubAck x =>
      (SrcV5SubAck.SubAck_len x, SpecV5.declared_len p)
      :: set_len SrcV5SubAck.SubAckProperties_len suback_items (V5SubAck.properties x)
  | V5Mod.Unsubscribe x => [(SrcV5Unsubscribe.Unsubscribe_len x, SpecV5.declared_len p)]
  | V5Mod.UnsubAck x =>
      (SrcV5UnsubAck.UnsubAck_len x, SpecV5.declared_len p)
      :: set_len SrcV5UnsubAck.UnsubAckProperties_len unsuback_items (V5UnsubAck.properties x)
  | V5Mod.ConnAck x => set_len SrcV5ConnAck.ConnAckProperties_len connack_items (V5ConnAck.properties x)
  | V5Mod.PubAck x => set_len SrcV5PubAck.PubAckProperties_len puback_items (V5PubAck.properties x)
  | V5Mod.PubRec x => set_len SrcV5PubRec.PubRecProperties_len pubrec_items (V5PubRec.properties x)
  | V5Mod.PubRel x => set_len SrcV5PubRel.PubRelProperties_len pubrel_items (V5PubRel.properties x)
  | V5Mod.PubComp x => set_len SrcV5PubComp.PubCompProperties_len pubcomp_items (V5PubComp.properties x)
  | V5Mod.PingReq | V5Mod.PingResp | V5Mod.Disconnect _ => []
  end.

(** `read` as a function of the stream alone: more rounds for the loops than the stream has bytes *)
Definition v4_reads (s : bytes) (max : N) : outcome V4Mod.Packet * bytes := SrcV4Mod.read (S (List.length s)) max s.
Definition v5_reads (s : bytes) (max : N) : outcome V5Mod.Packet * bytes := SrcV5Mod.read (S (List.length s)) max s.

(** the public decoders of the packet types, called directly, each with the type it is for *)
Definition wrapped {A P} (c : A -> P) (o : outcome A) : outcome P :=
  match o with Ok a => Ok (c a) | Err e => Err e | Panic => Panic | Diverge => Diverge end.
Definition v4_direct : list (PacketType * (nat -> Lib.FixedHeader -> bytes -> outcome V4Mod.Packet)) :=
  [(PT_Connect, fun fuel h b => wrapped V4Mod.Connect (SrcV4Connect.Connect_read h b));
   (PT_ConnAck, fun fuel h b => wrapped V4Mod.ConnAck (SrcV4ConnAck.ConnAck_read h b));
   (PT_Publish, fun fuel h b => wrapped V4Mod.Publish (SrcV4Publish.Publish_read h b));
   (PT_PubAck, fun fuel h b => wrapped V4Mod.PubAck (SrcV4PubAck.PubAck_read h b));
   (PT_PubRec, fun fuel h b => wrapped V4Mod.PubRec (SrcV4PubRec.PubRec_read h b));
   (PT_PubRel, fun fuel h b => wrapped V4Mod.PubRel (SrcV4PubRel.PubRel_read h b));
   (PT_PubComp, fun fuel h b => wrapped V4Mod.PubComp (SrcV4PubComp.PubComp_read h b));
   (PT_Subscribe, fun fuel h b => wrapped V4Mod.Subscribe (SrcV4Subscribe.Subscribe_read fuel h b));
   (PT_SubAck, fun fuel h b => wrapped V4Mod.SubAck (SrcV4SubAck.SubAck_read fuel h b));
   (PT_Unsubscribe, fun fuel h b => wrapped V4Mod.Unsubscribe (SrcV4Unsubscribe.Unsubscribe_read fuel h b));
   (PT_UnsubAck, fun fuel h b => wrapped V4Mod.UnsubAck (SrcV4UnsubAck.UnsubAck_read h b))].
Definition v5_direct : list (PacketType * (nat -> Lib.FixedHeader -> bytes -> outcome V5Mod.Packet)) :=
  [(PT_Connect, fun fuel h b => wrapped V5Mod.Connect (SrcV5Connect.Connect_read fuel h b));
   (PT_ConnAck, fun fuel h b => wrapped V5Mod.ConnAck (SrcV5ConnAck.ConnAck_read fuel h b));
   (PT_Publish, fun fuel h b => wrapped V5Mod.Publish (SrcV5Publish.Publish_read fuel h b));
   (PT_PubAck, fun fuel h b => wrapped V5Mod.PubAck (SrcV5PubAck.PubAck_read fuel h b));
   (PT_PubRec, fun fuel h b => wrapped V5Mod.PubRec (SrcV5PubRec.PubRec_read fuel h b));
   (PT_PubRel, fun fuel h b => wrapped V5Mod.PubRel (SrcV5PubRel.PubRel_read fuel h b));
   (PT_PubComp, fun fuel h b => wrapped V5Mod.PubComp (SrcV5PubComp.PubComp_read fuel h b));
   (PT_Subscribe, fun fuel h b => wrapped V5Mod.Subscribe (SrcV5Subscribe.Subscribe_read fuel h b));
   (PT_SubAck, fun fuel h b => wrapped V5Mod.SubAck (SrcV5SubAck.SubAck_read fuel h b));
   (PT_Unsubscribe, fun fuel h b => wrapped V5Mod.Unsubscribe (SrcV5Unsubscribe.Unsubscribe_read fuel h b));
   (PT_UnsubAck, fun fuel h b => wrapped V5Mod.UnsubAck (SrcV5UnsubAck.UnsubAck_read fuel h b));
   (PT_Disconnect, fun fuel h b => wrapped V5Mod.Disconnect (SrcV5Disconnect.Disconnect_read fuel h b))].

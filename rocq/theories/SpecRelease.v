(** SpecRelease.v -- vocabulary for C64 and C65: how much memory the contents of a packet
    take, and the public functions in a build without overflow checks. *)
From Verif Require Import Base SpecWire SpecProps SpecPropSets Lib.
From Verif Require V4Mod V5Mod SpecV5 SpecDirect Release RelV4Mod RelV5Mod.

Definition total {A} (f : A -> N) (l : list A) : N := fold_right (fun x n => f x + n) 0 l.
Definition of_option {A} (f : A -> N) (o : option A) : N := match o with Some a => f a | None => 0 end.

(** what a property takes as a field of its struct or an element of its vector, in bytes:
    `Option<u8>`, `Option<u16>`, `Option<u32>`, an element of `Vec<usize>`, `Option<String>`,
    `Option<Bytes>`, an element of `Vec<(String, String)>`, the latter three with their contents *)
Definition property_memory (it : item) : N :=
  match snd it with
  | VByte _ => 2 | VTwo _ => 4 | VFour _ => 8 | VVar _ => 8
  | VStr s => 24 + blen s | VBin s => 32 + blen s | VPair k v => 48 + blen k + blen v
  end.

(** the bytes behind the strings, vectors and property fields of a packet *)
Definition v4_memory (p : V4Mod.Packet) : N :=
  match p with
  | V4Mod.Connect c =>
      blen (V4Connect.client_id c)
      + of_option (fun w => blen (V4Connect.lw_topic w) + blen (V4Connect.lw_message w)) (V4Connect.last_will c)
      + of_option (fun l => blen (V4Connect.username l) + blen (V4Connect.password l)) (V4Connect.login c)
  | V4Mod.Publish q => blen (V4Publish.topic q) + blen (V4Publish.payload q)
  | V4Mod.Subscribe s => total (fun f => 32 + blen (V4Subscribe.path f)) (V4Subscribe.filters s)
  | V4Mod.SubAck s => total (fun _ => 1) (V4SubAck.return_codes s)
  | V4Mod.Unsubscribe u => total (fun t => 24 + blen t) (V4Unsubscribe.topics u)
  | _ => 0
  end.
Definition v5_memory (p : V5Mod.Packet) : N :=
  total property_memory (SpecV5.packet_items p) +
  match p with
  | V5Mod.Connect c =>
      blen (V5Connect.client_id c)
      + of_option (fun w => blen (V5Connect.lw_topic w) + blen (V5Connect.lw_message w)) (V5Connect.last_will c)
      + of_option (fun l => blen (V5Connect.username l) + blen (V5Connect.password l)) (V5Connect.login c)
  | V5Mod.Publish q => blen (V5Publish.topic q) + blen (V5Publish.payload q)
  | V5Mod.Subscribe s => total (fun f => 32 + blen (V5Subscribe.path f)) (V5Subscribe.filters s)
  | V5Mod.SubAck s => total (fun _ => 1) (V5SubAck.return_codes s)
  | V5Mod.Unsubscribe u => total (fun t => 24 + blen t) (V5Unsubscribe.filters u)
  | V5Mod.UnsubAck u => total (fun _ => 1) (V5UnsubAck.reasons u)
  | _ => 0
  end.

(** the public decoders again (SpecDirect.v), without overflow checks *)
Definition v4_readers_in (build : Release.Build)
  : list (PacketType * (FixedHeader -> bytes -> outcome V4Mod.Packet)) :=
  [(PT_Connect, fun h b => V4Mod.wrap V4Mod.Connect (V4Connect.read h b));
   (PT_ConnAck, fun h b => V4Mod.wrap V4Mod.ConnAck (V4ConnAck.read h b));
   (PT_Publish, fun h b => V4Mod.wrap V4Mod.Publish (V4Publish.read h b));
   (PT_PubAck, fun h b => V4Mod.wrap V4Mod.PubAck (V4PubAck.read h b));
   (PT_PubRec, fun h b => V4Mod.wrap V4Mod.PubRec (V4PubRec.read h b));
   (PT_PubRel, fun h b => V4Mod.wrap V4Mod.PubRel (V4PubRel.read h b));
   (PT_PubComp, fun h b => V4Mod.wrap V4Mod.PubComp (V4PubComp.read h b));
   (PT_Subscribe, fun h b => V4Mod.wrap V4Mod.Subscribe (V4Subscribe.read h b));
   (PT_SubAck, fun h b => V4Mod.wrap V4Mod.SubAck (V4SubAck.read h b));
   (PT_Unsubscribe, fun h b => V4Mod.wrap V4Mod.Unsubscribe (@RelV4Unsubscribe.read build h b));
   (PT_UnsubAck, fun h b => V4Mod.wrap V4Mod.UnsubAck (V4UnsubAck.read h b))].
Definition v5_readers_in (build : Release.Build)
  : list (PacketType * (FixedHeader -> bytes -> outcome V5Mod.Packet)) :=
  [(PT_Connect, fun h b => V5Mod.wrap V5Mod.Connect (@RelV5Connect.read build h b));
   (PT_ConnAck, fun h b => V5Mod.wrap V5Mod.ConnAck (@RelV5ConnAck.read build h b));
   (PT_Publish, fun h b => V5Mod.wrap V5Mod.Publish (@RelV5Publish.read build h b));
   (PT_PubAck, fun h b => V5Mod.wrap V5Mod.PubAck (@RelV5PubAck.read build h b));
   (PT_PubRec, fun h b => V5Mod.wrap V5Mod.PubRec (@RelV5PubRec.read build h b));
   (PT_PubRel, fun h b => V5Mod.wrap V5Mod.PubRel (@RelV5PubRel.read build h b));
   (PT_PubComp, fun h b => V5Mod.wrap V5Mod.PubComp (@RelV5PubComp.read build h b));
   (PT_Subscribe, fun h b => V5Mod.wrap V5Mod.Subscribe (@RelV5Subscribe.read build h b));
   (PT_SubAck, fun h b => V5Mod.wrap V5Mod.SubAck (@RelV5SubAck.read build h b));
   (PT_Unsubscribe, fun h b => V5Mod.wrap V5Mod.Unsubscribe (@RelV5Unsubscribe.read build h b));
   (PT_UnsubAck, fun h b => V5Mod.wrap V5Mod.UnsubAck (@RelV5UnsubAck.read build h b));
   (PT_Disconnect, fun h b => V5Mod.wrap V5Mod.Disconnect (@RelV5Disconnect.read build h b))].

(** the public `len` methods: without overflow checks, and the exact sum *)
Definition v4_lens (build : Release.Build) (p : V4Mod.Packet) : list (N * N) :=
  match p with
  | V4Mod.Connect c => [(@RelV4Connect.len build c, V4Connect.len c)]
  | V4Mod.ConnAck c => [(@RelV4ConnAck.len build c, V4ConnAck.len c)]
  | V4Mod.Publish c => [(@RelV4Publish.len build c, V4Publish.len c)]
  | V4Mod.Subscribe c => [(@RelV4Subscribe.len build c, V4Subscribe.len c)]
  | V4Mod.SubAck c => [(@RelV4SubAck.len build c, V4SubAck.len c)]
  | _ => []
  end.
Definition set_lens {R} (l1 l2 : R -> N) (o : option R) : list (N * N) :=
  match o with Some r => [(l1 r, l2 r)] | None => [] end.
Definition v5_lens (build : Release.Build) (p : V5Mod.Packet) : list (N * N) :=
  match p with
  | V5Mod.Connect c =>
      (@RelV5Connect.len build c, V5Connect.len c)
      :: set_lens (@RelV5Connect.cp_props_len build) V5Connect.cp_props_len (V5Connect.properties c)
      ++ set_lens (@RelV5Connect.lw_len build) V5Connect.lw_len (V5Connect.last_will c)
      ++ set_lens (@RelV5Connect.login_len build) V5Connect.login_len (V5Connect.login c)
  | V5Mod.ConnAck c => (@RelV5ConnAck.len build c, V5ConnAck.len c)
      :: set_lens (@RelV5ConnAck.props_len build) V5ConnAck.props_len (V5ConnAck.properties c)
  | V5Mod.Publish c => (@RelV5Publish.len build c, V5Publish.len c)
      :: set_lens (@RelV5Publish.props_len build) V5Publish.props_len (V5Publish.properties c)
  | V5Mod.PubAck c => (@RelV5PubAck.len build c, V5PubAck.len c)
      :: set_lens (@RelV5PubAck.props_len build) V5PubAck.props_len (V5PubAck.properties c)
  | V5Mod.PubRec c => (@RelV5PubRec.len build c, V5PubRec.len c)
      :: set_lens (@RelV5PubRec.props_len build) V5PubRec.props_len (V5PubRec.properties c)
  | V5Mod.PubRel c => (@RelV5PubRel.len build c, V5PubRel.len c)
      :: set_lens (@RelV5PubRel.props_len build) V5PubRel.props_len (V5PubRel.properties c)
  | V5Mod.PubComp c => (@RelV5PubComp.len build c, V5PubComp.len c)
      :: set_lens (@RelV5PubComp.props_len build) V5PubComp.props_len (V5PubComp.properties c)
  | V5Mod.Subscribe c => (@RelV5Subscribe.len build c, V5Subscribe.len c)
      :: set_lens (@RelV5Subscribe.props_len build) V5Subscribe.props_len (V5Subscribe.properties c)
  | V5Mod.SubAck c => (@RelV5SubAck.len build c, V5SubAck.len c)
      :: set_lens (@RelV5SubAck.props_len build) V5SubAck.props_len (V5SubAck.properties c)
  | V5Mod.Unsubscribe c => (@RelV5Unsubscribe.len build c, V5Unsubscribe.len c)
      :: set_lens (@RelV5Unsubscribe.props_len build) V5Unsubscribe.props_len (V5Unsubscribe.properties c)
  | V5Mod.UnsubAck c => (@RelV5UnsubAck.len build c, V5UnsubAck.len c)
      :: set_lens (@RelV5UnsubAck.props_len build) V5UnsubAck.props_len (V5UnsubAck.properties c)
  | V5Mod.PingReq | V5Mod.PingResp => []
  | V5Mod.Disconnect c => (@RelV5Disconnect.len build c, V5Disconnect.len c)
      :: set_lens (@RelV5Disconnect.props_len build) V5Disconnect.props_len (V5Disconnect.properties c)
  end.

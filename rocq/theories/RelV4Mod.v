(** RelV4Mod.v -- generated by tools/gen_release.py from V4Mod.v: its definitions that use
    machine integers, without overflow checks (Release.v).  No proofs in this file. *)
From Verif Require Import Base Utf8 Lib V4Mod Release RelLib.
From Verif Require V4Connect V4ConnAck V4Publish V4PubAck V4PubRec V4PubRel V4PubComp V4Subscribe V4SubAck V4Unsubscribe V4UnsubAck V4Ping.
From Verif Require RelV4Connect RelV4ConnAck RelV4Publish RelV4PubAck RelV4PubRec RelV4PubRel RelV4PubComp RelV4Subscribe RelV4SubAck RelV4Unsubscribe.

Section WithBuild.
Context {build : Build}.

(** src/v4/mod.rs:56-86: what happens with a split-off frame. *)
Definition read_frame (fixed_header : FixedHeader) (packet : bytes) : outcome Packet :=
  packet_type <-? packet_type fixed_header ;;
  if remaining_len fixed_header =? 0 then
    match packet_type with
    | PT_PingReq => Ok PingReq
    | PT_PingResp => Ok PingResp
    | PT_Disconnect => Ok Disconnect
    | _ => Err PayloadRequired
    end
  else
    match packet_type with
    | PT_Connect => wrap Connect (V4Connect.read fixed_header packet)
    | PT_ConnAck => wrap ConnAck (V4ConnAck.read fixed_header packet)
    | PT_Publish => wrap Publish (V4Publish.read fixed_header packet)
    | PT_PubAck => wrap PubAck (V4PubAck.read fixed_header packet)
    | PT_PubRec => wrap PubRec (V4PubRec.read fixed_header packet)
    | PT_PubRel => wrap PubRel (V4PubRel.read fixed_header packet)
    | PT_PubComp => wrap PubComp (V4PubComp.read fixed_header packet)
    | PT_Subscribe => wrap Subscribe (V4Subscribe.read fixed_header packet)
    | PT_SubAck => wrap SubAck (V4SubAck.read fixed_header packet)
    | PT_Unsubscribe => wrap Unsubscribe (RelV4Unsubscribe.read fixed_header packet)
    | PT_UnsubAck => wrap UnsubAck (V4UnsubAck.read fixed_header packet)
    | PT_PingReq => Ok PingReq
    | PT_PingResp => Ok PingResp
    | PT_Disconnect => Ok Disconnect
    end.

(** src/v4/mod.rs:51-87 `read`.  Returns the result and the caller's stream after
    the call. *)
Definition read (stream : bytes) (max_size : N) : outcome Packet * bytes :=
  match check stream max_size with
  | Ok fixed_header =>
      match (n <-? frame_length fixed_header ;; split_to n stream) with
      | Ok (packet, stream) => (read_frame fixed_header packet, stream)
      | _ => (Panic, stream)                   (* `split_to` past the end panics *)
      end
  | Err e => (Err e, stream)
  | Panic => (Panic, stream)
  | Diverge => (Diverge, stream)
  end.

(** Not a function of the crate: the `write` method of the packet's own struct
    (v4 `Packet` has no `write`; the unit variants use the unit structs of
    ping.rs/disconnect.rs).  Used to state properties for all packet kinds
    (e.g. src/v4/connect.rs:103-136). *)
Definition write (p : Packet) : writer N :=
  match p with
  | Connect c => RelV4Connect.write c
  | ConnAck c => RelV4ConnAck.write c
  | Publish p => RelV4Publish.write p
  | PubAck p => RelV4PubAck.write p
  | PubRec p => RelV4PubRec.write p
  | PubRel p => RelV4PubRel.write p
  | PubComp p => RelV4PubComp.write p
  | Subscribe s => RelV4Subscribe.write s
  | SubAck s => RelV4SubAck.write s
  | Unsubscribe u => RelV4Unsubscribe.write u
  | UnsubAck u => V4UnsubAck.write u
  | PingReq => V4Ping.pingreq_write
  | PingResp => V4Ping.pingresp_write
  | Disconnect => V4Ping.disconnect_write
  end.

End WithBuild.

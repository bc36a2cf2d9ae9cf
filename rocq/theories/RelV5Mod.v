(** RelV5Mod.v -- generated by tools/gen_release.py from V5Mod.v: its definitions that use
    machine integers, without overflow checks (Release.v).  No proofs in this file. *)
From Verif Require Import Base Utf8 Lib V5Mod Release RelLib.
From Verif Require V5Connect V5ConnAck V5Publish V5PubAck V5PubRec V5PubRel V5PubComp V5Subscribe V5SubAck V5Unsubscribe V5UnsubAck V5Ping V5Disconnect.
From Verif Require RelV5Connect RelV5ConnAck RelV5Publish RelV5PubAck RelV5PubRec RelV5PubRel RelV5PubComp RelV5Subscribe RelV5SubAck RelV5Unsubscribe RelV5UnsubAck RelV5Disconnect.

Section WithBuild.
Context {build : Build}.

(** src/v5/mod.rs:123-152: what happens with a split-off frame. *)
Definition read_frame (fixed_header : FixedHeader) (packet : bytes) : outcome Packet :=
  packet_type <-? packet_type fixed_header ;;
  if remaining_len fixed_header =? 0 then
    match packet_type with
    | PT_PingReq => Ok PingReq
    | PT_PingResp => Ok PingResp
    | _ => Err PayloadRequired
    end
  else
    match packet_type with
    | PT_Connect => wrap Connect (RelV5Connect.read fixed_header packet)
    | PT_ConnAck => wrap ConnAck (RelV5ConnAck.read fixed_header packet)
    | PT_Publish => wrap Publish (RelV5Publish.read fixed_header packet)
    | PT_PubAck => wrap PubAck (RelV5PubAck.read fixed_header packet)
    | PT_PubRec => wrap PubRec (RelV5PubRec.read fixed_header packet)
    | PT_PubRel => wrap PubRel (RelV5PubRel.read fixed_header packet)
    | PT_PubComp => wrap PubComp (RelV5PubComp.read fixed_header packet)
    | PT_Subscribe => wrap Subscribe (RelV5Subscribe.read fixed_header packet)
    | PT_SubAck => wrap SubAck (RelV5SubAck.read fixed_header packet)
    | PT_Unsubscribe => wrap Unsubscribe (RelV5Unsubscribe.read fixed_header packet)
    | PT_UnsubAck => wrap UnsubAck (RelV5UnsubAck.read fixed_header packet)
    | PT_PingReq => Ok PingReq
    | PT_PingResp => Ok PingResp
    | PT_Disconnect => wrap Disconnect (RelV5Disconnect.read fixed_header packet)
    end.

(** src/v5/mod.rs:118-153 `read`.  Returns the result and the caller's stream after
    the call. *)
Definition read (stream : bytes) (max_size : N) : outcome Packet * bytes :=
  match check stream max_size with
  | Ok fixed_header =>
      match (n <-? frame_length fixed_header ;; split_to n stream) with
      | Ok (packet, stream) => (read_frame fixed_header packet, stream)
      | _ => (Panic, stream)                   (* `split_to` past the end panics *)
      end
  | Err e => (Err e, stream)
  | Panic => (Panic, stream)
  | Diverge => (Diverge, stream)
  end.

(** Not a function of the crate: the `write` method of the packet's own struct.
    Used to state properties for all packet kinds (e.g. src/v5/connect.rs:125-166). *)
Definition write (p : Packet) : writer N :=
  match p with
  | Connect p => RelV5Connect.write p
  | ConnAck p => RelV5ConnAck.write p
  | Publish p => RelV5Publish.write p
  | PubAck p => RelV5PubAck.write p
  | PubRec p => RelV5PubRec.write p
  | PubRel p => RelV5PubRel.write p
  | PubComp p => RelV5PubComp.write p
  | Subscribe p => RelV5Subscribe.write p
  | SubAck p => RelV5SubAck.write p
  | Unsubscribe p => RelV5Unsubscribe.write p
  | UnsubAck p => RelV5UnsubAck.write p
  | PingReq => V5Ping.pingreq_write
  | PingResp => V5Ping.pingresp_write
  | Disconnect p => RelV5Disconnect.write p
  end.

End WithBuild.

(** V4Mod.v -- model of src/v4/mod.rs.  No proofs in this file. *)
From Verif Require Import Base Utf8 Lib.
From Verif Require V4Connect V4ConnAck V4Publish V4PubAck V4PubRec V4PubRel V4PubComp
  V4Subscribe V4SubAck V4Unsubscribe V4UnsubAck V4Ping.

(** src/v4/mod.rs:33-48 `Packet` *)
Inductive Packet :=
| Connect (c : V4Connect.Connect)
| ConnAck (c : V4ConnAck.ConnAck)
| Publish (p : V4Publish.Publish)
| PubAck (p : V4PubAck.PubAck)
| PubRec (p : V4PubRec.PubRec)
| PubRel (p : V4PubRel.PubRel)
| PubComp (p : V4PubComp.PubComp)
| Subscribe (s : V4Subscribe.Subscribe)
| SubAck (s : V4SubAck.SubAck)
| Unsubscribe (u : V4Unsubscribe.Unsubscribe)
| UnsubAck (u : V4UnsubAck.UnsubAck)
| PingReq
| PingResp
| Disconnect.

(** `Packet::X(X::read(fixed_header, packet)?)`: the decoder runs on the frame;
    what it leaves of the frame is dropped (src/v4/mod.rs:70-80). *)
Definition wrap {A} (f : A -> Packet) (r : outcome (A * bytes)) : outcome Packet :=
  match r with
  | Ok (a, _) => Ok (f a)
  | Err e => Err e
  | Panic => Panic
  | Diverge => Diverge
  end.

(** src/v4/mod.rs:56-86: what happens with a split-off frame. *)
Definition read_frame (fixed_header : FixedHeader) (packet : bytes) : outcome Packet :=
  packet_type <-? packet_type fixed_header ;;
  if remaining_len fixed_header =? 0 then
    match packet_type with
    | PT_PingReq => Ok PingReq
    | PT_PingResp => Ok PingResp
    | PT_Disconnect => Ok Disconnect
    | _ => Err PayloadRequired
    end
  else
    match packet_type with
    | PT_Connect => wrap Connect (V4Connect.read fixed_header packet)
    | PT_ConnAck => wrap ConnAck (V4ConnAck.read fixed_header packet)
    | PT_Publish => wrap Publish (V4Publish.read fixed_header packet)
    | PT_PubAck => wrap PubAck (V4PubAck.read fixed_header packet)
    | PT_PubRec => wrap PubRec (V4PubRec.read fixed_header packet)
    | PT_PubRel => wrap PubRel (V4PubRel.read fixed_header packet)
    | PT_PubComp => wrap PubComp (V4PubComp.read fixed_header packet)
    | PT_Subscribe => wrap Subscribe (V4Subscribe.read fixed_header packet)
    | PT_SubAck => wrap SubAck (V4SubAck.read fixed_header packet)
    | PT_Unsubscribe => wrap Unsubscribe (V4Unsubscribe.read fixed_header packet)
    | PT_UnsubAck => wrap UnsubAck (V4UnsubAck.read fixed_header packet)
    | PT_PingReq => Ok PingReq
    | PT_PingResp => Ok PingResp
    | PT_Disconnect => Ok Disconnect
    end.

(** src/v4/mod.rs:51-87 `read`.  Returns the result and the caller's stream after
    the call. *)
Definition read (stream : bytes) (max_size : N) : outcome Packet * bytes :=
  match check stream max_size with
  | Ok fixed_header =>
      match (n <-? frame_length fixed_header ;; split_to n stream) with
      | Ok (packet, stream) => (read_frame fixed_header packet, stream)
      | _ => (Panic, stream)                   (* `split_to` past the end panics *)
      end
  | Err e => (Err e, stream)
  | Panic => (Panic, stream)
  | Diverge => (Diverge, stream)
  end.

(** Not a function of the crate: the `write` method of the packet's own struct
    (v4 `Packet` has no `write`; the unit variants use the unit structs of
    ping.rs/disconnect.rs).  Used to state properties for all packet kinds
    (e.g. src/v4/connect.rs:103-136). *)
Definition write (p : Packet) : writer N :=
  match p with
  | Connect c => V4Connect.write c
  | ConnAck c => V4ConnAck.write c
  | Publish p => V4Publish.write p
  | PubAck p => V4PubAck.write p
  | PubRec p => V4PubRec.write p
  | PubRel p => V4PubRel.write p
  | PubComp p => V4PubComp.write p
  | Subscribe s => V4Subscribe.write s
  | SubAck s => V4SubAck.write s
  | Unsubscribe u => V4Unsubscribe.write u
  | UnsubAck u => V4UnsubAck.write u
  | PingReq => V4Ping.pingreq_write
  | PingResp => V4Ping.pingresp_write
  | Disconnect => V4Ping.disconnect_write
  end.

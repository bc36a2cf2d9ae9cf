(** V5Mod.v -- model of src/v5/mod.rs (`Packet` and `read`).  No proofs in this file. *)
From Verif Require Import Base Utf8 Lib.
From Verif Require V5Connect V5ConnAck V5Publish V5PubAck V5PubRec V5PubRel V5PubComp
  V5Subscribe V5SubAck V5Unsubscribe V5UnsubAck V5Ping V5Disconnect.

(** src/v5/mod.rs:33-48 `Packet` *)
Inductive Packet :=
| Connect (p : V5Connect.Connect)
| ConnAck (p : V5ConnAck.ConnAck)
| Publish (p : V5Publish.Publish)
| PubAck (p : V5PubAck.PubAck)
| PubRec (p : V5PubRec.PubRec)
| PubRel (p : V5PubRel.PubRel)
| PubComp (p : V5PubComp.PubComp)
| Subscribe (p : V5Subscribe.Subscribe)
| SubAck (p : V5SubAck.SubAck)
| Unsubscribe (p : V5Unsubscribe.Unsubscribe)
| UnsubAck (p : V5UnsubAck.UnsubAck)
| PingReq
| PingResp
| Disconnect (p : V5Disconnect.Disconnect).

(** `Packet::X(X::read(fixed_header, packet)?)`: the decoder runs on the frame;
    what it leaves of the frame is dropped (src/v5/mod.rs:136-149). *)
Definition wrap {A} (f : A -> Packet) (r : outcome (A * bytes)) : outcome Packet :=
  match r with
  | Ok (a, _) => Ok (f a)
  | Err e => Err e
  | Panic => Panic
  | Diverge => Diverge
  end.

(** src/v5/mod.rs:123-152: what happens with a split-off frame. *)
Definition read_frame (fixed_header : FixedHeader) (packet : bytes) : outcome Packet :=
  packet_type <-? packet_type fixed_header ;;
  if remaining_len fixed_header =? 0 then
    match packet_type with
    | PT_PingReq => Ok PingReq
    | PT_PingResp => Ok PingResp
    | _ => Err PayloadRequired
    end
  else
    match packet_type with
    | PT_Connect => wrap Connect (V5Connect.read fixed_header packet)
    | PT_ConnAck => wrap ConnAck (V5ConnAck.read fixed_header packet)
    | PT_Publish => wrap Publish (V5Publish.read fixed_header packet)
    | PT_PubAck => wrap PubAck (V5PubAck.read fixed_header packet)
    | PT_PubRec => wrap PubRec (V5PubRec.read fixed_header packet)
    | PT_PubRel => wrap PubRel (V5PubRel.read fixed_header packet)
    | PT_PubComp => wrap PubComp (V5PubComp.read fixed_header packet)
    | PT_Subscribe => wrap Subscribe (V5Subscribe.read fixed_header packet)
    | PT_SubAck => wrap SubAck (V5SubAck.read fixed_header packet)
    | PT_Unsubscribe => wrap Unsubscribe (V5Unsubscribe.read fixed_header packet)
    | PT_UnsubAck => wrap UnsubAck (V5UnsubAck.read fixed_header packet)
    | PT_PingReq => Ok PingReq
    | PT_PingResp => Ok PingResp
    | PT_Disconnect => wrap Disconnect (V5Disconnect.read fixed_header packet)
    end.

(** src/v5/mod.rs:118-153 `read`.  Returns the result and the caller's stream after
    the call. *)
Definition read (stream : bytes) (max_size : N) : outcome Packet * bytes :=
  match check stream max_size with
  | Ok fixed_header =>
      match (n <-? frame_length fixed_header ;; split_to n stream) with
      | Ok (packet, stream) => (read_frame fixed_header packet, stream)
      | _ => (Panic, stream)                   (* `split_to` past the end panics *)
      end
  | Err e => (Err e, stream)
  | Panic => (Panic, stream)
  | Diverge => (Diverge, stream)
  end.

(** Not a function of the crate: the `write` method of the packet's own struct.
    Used to state properties for all packet kinds (e.g. src/v5/connect.rs:125-166). *)
Definition write (p : Packet) : writer N :=
  match p with
  | Connect p => V5Connect.write p
  | ConnAck p => V5ConnAck.write p
  | Publish p => V5Publish.write p
  | PubAck p => V5PubAck.write p
  | PubRec p => V5PubRec.write p
  | PubRel p => V5PubRel.write p
  | PubComp p => V5PubComp.write p
  | Subscribe p => V5Subscribe.write p
  | SubAck p => V5SubAck.write p
  | Unsubscribe p => V5Unsubscribe.write p
  | UnsubAck p => V5UnsubAck.write p
  | PingReq => V5Ping.pingreq_write
  | PingResp => V5Ping.pingresp_write
  | Disconnect p => V5Disconnect.write p
  end.

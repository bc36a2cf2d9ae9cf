(** PortV4Mod.v -- GENERATED by tools/rust2coq.py from src/v4/mod.rs; do not edit.
    No proofs in this file. *)
From Verif Require Import Base Lib SrcBase PortBase.
From Verif Require V4Mod.
From Verif Require PortLib PortV4ConnAck PortV4Connect PortV4PubAck PortV4PubComp PortV4PubRec PortV4PubRel PortV4Publish PortV4SubAck PortV4Subscribe PortV4UnsubAck PortV4Unsubscribe.

Section Port.
Context {target : Target}.

(** src/v4/mod.rs:51-87 `read` *)
Definition read (fuel : nat) (max_size : N) : writer V4Mod.Packet :=
  t1 <-w get ;;
  fixed_header <-w lift (PortLib.check t1 max_size) ;;
  t2 <-w lift (PortLib.FixedHeader_frame_length fixed_header) ;;
  packet <-w keep (split_to t2) ;;
  packet_type <-w lift (PortLib.FixedHeader_packet_type fixed_header) ;;
  if ((Lib.remaining_len fixed_header) =? 0) then (
    match packet_type with
    | Base.PT_PingReq =>
        wret V4Mod.PingReq
    | Base.PT_PingResp =>
        wret V4Mod.PingResp
    | Base.PT_Disconnect =>
        wret V4Mod.Disconnect
    | _ =>
        werr Base.PayloadRequired
    end)
  else (
    packet <-w (
      match packet_type with
      | Base.PT_Connect =>
          t3 <-w lift (PortV4Connect.Connect_read fixed_header packet) ;;
          wret (V4Mod.Connect t3)
      | Base.PT_ConnAck =>
          t4 <-w lift (PortV4ConnAck.ConnAck_read fixed_header packet) ;;
          wret (V4Mod.ConnAck t4)
      | Base.PT_Publish =>
          t5 <-w lift (PortV4Publish.Publish_read fixed_header packet) ;;
          wret (V4Mod.Publish t5)
      | Base.PT_PubAck =>
          t6 <-w lift (PortV4PubAck.PubAck_read fixed_header packet) ;;
          wret (V4Mod.PubAck t6)
      | Base.PT_PubRec =>
          t7 <-w lift (PortV4PubRec.PubRec_read fixed_header packet) ;;
          wret (V4Mod.PubRec t7)
      | Base.PT_PubRel =>
          t8 <-w lift (PortV4PubRel.PubRel_read fixed_header packet) ;;
          wret (V4Mod.PubRel t8)
      | Base.PT_PubComp =>
          t9 <-w lift (PortV4PubComp.PubComp_read fixed_header packet) ;;
          wret (V4Mod.PubComp t9)
      | Base.PT_Subscribe =>
          t10 <-w lift (PortV4Subscribe.Subscribe_read fuel fixed_header packet) ;;
          wret (V4Mod.Subscribe t10)
      | Base.PT_SubAck =>
          t11 <-w lift (PortV4SubAck.SubAck_read fuel fixed_header packet) ;;
          wret (V4Mod.SubAck t11)
      | Base.PT_Unsubscribe =>
          t12 <-w lift (PortV4Unsubscribe.Unsubscribe_read fuel fixed_header packet) ;;
          wret (V4Mod.Unsubscribe t12)
      | Base.PT_UnsubAck =>
          t13 <-w lift (PortV4UnsubAck.UnsubAck_read fixed_header packet) ;;
          wret (V4Mod.UnsubAck t13)
      | Base.PT_PingReq =>
          wret V4Mod.PingReq
      | Base.PT_PingResp =>
          wret V4Mod.PingResp
      | Base.PT_Disconnect =>
          wret V4Mod.Disconnect
      end) ;;
    wret packet).

End Port.

(** SrcV4Mod.v -- GENERATED by tools/rust2coq.py from src/v4/mod.rs; do not edit.
    No proofs in this file. *)
From Verif Require Import Base Lib SrcBase.
From Verif Require V4Mod.
From Verif Require SrcLib SrcV4ConnAck SrcV4Connect SrcV4PubAck SrcV4PubComp SrcV4PubRec SrcV4PubRel SrcV4Publish SrcV4SubAck SrcV4Subscribe SrcV4UnsubAck SrcV4Unsubscribe.

(** src/v4/mod.rs:51-87 `read` *)
Definition read (fuel : nat) (max_size : N) : writer V4Mod.Packet :=
  t1 <-w get ;;
  fixed_header <-w lift (SrcLib.check t1 max_size) ;;
  t2 <-w lift (SrcLib.FixedHeader_frame_length fixed_header) ;;
  packet <-w keep (split_to t2) ;;
  packet_type <-w lift (SrcLib.FixedHeader_packet_type fixed_header) ;;
  if ((Lib.remaining_len fixed_header) =? 0) then (
    match packet_type with
    | Base.PT_PingReq =>
        wret V4Mod.PingReq
    | Base.PT_PingResp =>
        wret V4Mod.PingResp
    | Base.PT_Disconnect =>
        wret V4Mod.Disconnect
    | _ =>
        werr Base.PayloadRequired
    end)
  else (
    packet <-w (
      match packet_type with
      | Base.PT_Connect =>
          t3 <-w lift (SrcV4Connect.Connect_read fixed_header packet) ;;
          wret (V4Mod.Connect t3)
      | Base.PT_ConnAck =>
          t4 <-w lift (SrcV4ConnAck.ConnAck_read fixed_header packet) ;;
          wret (V4Mod.ConnAck t4)
      | Base.PT_Publish =>
          t5 <-w lift (SrcV4Publish.Publish_read fixed_header packet) ;;
          wret (V4Mod.Publish t5)
      | Base.PT_PubAck =>
          t6 <-w lift (SrcV4PubAck.PubAck_read fixed_header packet) ;;
          wret (V4Mod.PubAck t6)
      | Base.PT_PubRec =>
          t7 <-w lift (SrcV4PubRec.PubRec_read fixed_header packet) ;;
          wret (V4Mod.PubRec t7)
      | Base.PT_PubRel =>
          t8 <-w lift (SrcV4PubRel.PubRel_read fixed_header packet) ;;
          wret (V4Mod.PubRel t8)
      | Base.PT_PubComp =>
          t9 <-w lift (SrcV4PubComp.PubComp_read fixed_header packet) ;;
          wret (V4Mod.PubComp t9)
      | Base.PT_Subscribe =>
          t10 <-w lift (SrcV4Subscribe.Subscribe_read fuel fixed_header packet) ;;
          wret (V4Mod.Subscribe t10)
      | Base.PT_SubAck =>
          t11 <-w lift (SrcV4SubAck.SubAck_read fuel fixed_header packet) ;;
          wret (V4Mod.SubAck t11)
      | Base.PT_Unsubscribe =>
          t12 <-w lift (SrcV4Unsubscribe.Unsubscribe_read fuel fixed_header packet) ;;
          wret (V4Mod.Unsubscribe t12)
      | Base.PT_UnsubAck =>
          t13 <-w lift (SrcV4UnsubAck.UnsubAck_read fixed_header packet) ;;
          wret (V4Mod.UnsubAck t13)
      | Base.PT_PingReq =>
          wret V4Mod.PingReq
      | Base.PT_PingResp =>
          wret V4Mod.PingResp
      | Base.PT_Disconnect =>
          wret V4Mod.Disconnect
      end) ;;
    wret packet).

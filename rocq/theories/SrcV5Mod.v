(** SrcV5Mod.v -- GENERATED by tools/rust2coq.py from src/v5/mod.rs; do not edit.
    No proofs in this file. *)
From Verif Require Import Base Lib SrcBase.
From Verif Require V5Mod.
From Verif Require SrcLib SrcV5ConnAck SrcV5Connect SrcV5Disconnect SrcV5PubAck SrcV5PubComp SrcV5PubRec SrcV5PubRel SrcV5Publish SrcV5SubAck SrcV5Subscribe SrcV5UnsubAck SrcV5Unsubscribe.

(** src/v5/mod.rs:118-153 `read` *)
Definition read (fuel : nat) (max_size : N) : writer V5Mod.Packet :=
  t1 <-w get ;;
  fixed_header <-w lift (SrcLib.check t1 max_size) ;;
  t2 <-w lift (SrcLib.FixedHeader_frame_length fixed_header) ;;
  packet <-w keep (split_to t2) ;;
  packet_type <-w lift (SrcLib.FixedHeader_packet_type fixed_header) ;;
  if ((Lib.remaining_len fixed_header) =? 0) then (
    match packet_type with
    | Base.PT_PingReq =>
        wret V5Mod.PingReq
    | Base.PT_PingResp =>
        wret V5Mod.PingResp
    | _ =>
        werr Base.PayloadRequired
    end)
  else (
    packet <-w (
      match packet_type with
      | Base.PT_Connect =>
          t3 <-w lift (SrcV5Connect.Connect_read fuel fixed_header packet) ;;
          wret (V5Mod.Connect t3)
      | Base.PT_ConnAck =>
          t4 <-w lift (SrcV5ConnAck.ConnAck_read fuel fixed_header packet) ;;
          wret (V5Mod.ConnAck t4)
      | Base.PT_Publish =>
          t5 <-w lift (SrcV5Publish.Publish_read fuel fixed_header packet) ;;
          wret (V5Mod.Publish t5)
      | Base.PT_PubAck =>
          t6 <-w lift (SrcV5PubAck.PubAck_read fuel fixed_header packet) ;;
          wret (V5Mod.PubAck t6)
      | Base.PT_PubRec =>
          t7 <-w lift (SrcV5PubRec.PubRec_read fuel fixed_header packet) ;;
          wret (V5Mod.PubRec t7)
      | Base.PT_PubRel =>
          t8 <-w lift (SrcV5PubRel.PubRel_read fuel fixed_header packet) ;;
          wret (V5Mod.PubRel t8)
      | Base.PT_PubComp =>
          t9 <-w lift (SrcV5PubComp.PubComp_read fuel fixed_header packet) ;;
          wret (V5Mod.PubComp t9)
      | Base.PT_Subscribe =>
          t10 <-w lift (SrcV5Subscribe.Subscribe_read fuel fixed_header packet) ;;
          wret (V5Mod.Subscribe t10)
      | Base.PT_SubAck =>
          t11 <-w lift (SrcV5SubAck.SubAck_read fuel fixed_header packet) ;;
          wret (V5Mod.SubAck t11)
      | Base.PT_Unsubscribe =>
          t12 <-w lift (SrcV5Unsubscribe.Unsubscribe_read fuel fixed_header packet) ;;
          wret (V5Mod.Unsubscribe t12)
      | Base.PT_UnsubAck =>
          t13 <-w lift (SrcV5UnsubAck.UnsubAck_read fuel fixed_header packet) ;;
          wret (V5Mod.UnsubAck t13)
      | Base.PT_PingReq =>
          wret V5Mod.PingReq
      | Base.PT_PingResp =>
          wret V5Mod.PingResp
      | Base.PT_Disconnect =>
          t14 <-w lift (SrcV5Disconnect.Disconnect_read fuel fixed_header packet) ;;
          wret (V5Mod.Disconnect t14)
      end) ;;
    wret packet).

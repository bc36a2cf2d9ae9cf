(** PropClone.v -- C73: copies made with `clone` (or by `Copy`); about the translation of the derived
    `Clone` implementations (SrcClone.v, generated). *)
From Verif Require Import Base Lib SpecWire ProofBase SrcCmp SrcEq SrcClone ProofSrcEq ProofSrcClone SpecSource.
From Verif Require V4Mod V5Mod SampleV4 SampleV5.

(** the copy is the value it was made from *)
Definition copies {A} (clone : A -> A) : Prop := forall x, clone x = x.

Theorem C73_common :
  copies PacketType_clone /\ copies Error_clone /\ copies Protocol_clone /\ copies QoS_clone /\
  copies FixedHeader_clone.
Proof. unfold copies. repeat match goal with |- _ /\ _ => split end; intros x; apply faithful_clone. Qed.
Theorem C73_v4 :
  copies v4_ConnectReturnCode_clone /\ copies v4_ConnAck_clone /\ copies v4_LastWill_clone /\ copies v4_Login_clone /\
  copies v4_Connect_clone /\ copies v4_Publish_clone /\ copies v4_PubAck_clone /\ copies v4_PubRec_clone /\
  copies v4_PubRel_clone /\ copies v4_PubComp_clone /\ copies v4_SubscribeFilter_clone /\ copies v4_Subscribe_clone /\
  copies v4_SubscribeReasonCode_clone /\ copies v4_SubAck_clone /\ copies v4_Unsubscribe_clone /\
  copies v4_UnsubAck_clone /\ copies v4_Packet_clone.
Proof. unfold copies. repeat match goal with |- _ /\ _ => split end; intros x; apply faithful_clone. Qed.
Theorem C73_v5 :
  copies v5_ConnectReturnCode_clone /\ copies v5_ConnAckProperties_clone /\ copies v5_ConnAck_clone /\
  copies v5_WillProperties_clone /\ copies v5_LastWill_clone /\ copies v5_Login_clone /\
  copies v5_ConnectProperties_clone /\ copies v5_Connect_clone /\ copies v5_DisconnectReasonCode_clone /\
  copies v5_DisconnectProperties_clone /\ copies v5_Disconnect_clone /\ copies v5_PublishProperties_clone /\
  copies v5_Publish_clone /\ copies v5_PubAckReason_clone /\ copies v5_PubAckProperties_clone /\
  copies v5_PubAck_clone /\ copies v5_PubRecReason_clone /\ copies v5_PubRecProperties_clone /\
  copies v5_PubRec_clone /\ copies v5_PubRelReason_clone /\ copies v5_PubRelProperties_clone /\
  copies v5_PubRel_clone /\ copies v5_PubCompReason_clone /\ copies v5_PubCompProperties_clone /\
  copies v5_PubComp_clone /\ copies v5_RetainForwardRule_clone /\ copies v5_SubscribeFilter_clone /\
  copies v5_SubscribeProperties_clone /\ copies v5_Subscribe_clone /\ copies v5_SubscribeReasonCode_clone /\
  copies v5_SubAckProperties_clone /\ copies v5_SubAck_clone /\ copies v5_UnsubscribeProperties_clone /\
  copies v5_Unsubscribe_clone /\ copies v5_UnsubAckReason_clone /\ copies v5_UnsubAckProperties_clone /\
  copies v5_UnsubAck_clone /\ copies v5_Packet_clone /\ copies v5_PropertyType_clone.
Proof. unfold copies. repeat match goal with |- _ /\ _ => split end; intros x; apply faithful_clone. Qed.

(** what follows for a caller: the copy compares equal to the original, and nothing else does; writing the
    copy gives the same result and the same bytes, into every buffer *)
Theorem C73_v4_copy_same : forall p q fuel buf,
  (v4_Packet_eq (v4_Packet_clone p) q = true <-> p = q) /\ v4_write fuel (v4_Packet_clone p) buf = v4_write fuel p buf.
Proof. intros p q fuel buf. rewrite (faithful_clone p). split; [apply exact_eq|reflexivity]. Qed.
Theorem C73_v5_copy_same : forall p q fuel buf,
  (v5_Packet_eq (v5_Packet_clone p) q = true <-> p = q) /\ v5_write fuel (v5_Packet_clone p) buf = v5_write fuel p buf.
Proof. intros p q fuel buf. rewrite (faithful_clone p). split; [apply exact_eq|reflexivity]. Qed.

Example C73_case :
  v4_Packet_clone SampleV4.ex_connect = SampleV4.ex_connect /\ v5_Packet_clone SampleV5.ex_publish5 = SampleV5.ex_publish5 /\
  v5_Packet_eq (v5_Packet_clone SampleV5.ex_publish5) SampleV5.ex_publish5 = true /\
  v4_Packet_eq (v4_Packet_clone SampleV4.ex_connect) V4Mod.PingReq = false /\
  fst (v4_write 5 (v4_Packet_clone SampleV4.ex_connect) []) = fst (v4_write 5 SampleV4.ex_connect []) /\
  (exists n out, v5_write 5 (v5_Packet_clone SampleV5.ex_publish5) [7] = (Ok n, 7 :: out) /\ out <> []).
(** C73_common, C73_v4, C73_v5, C73_v4_copy_same, C73_v5_copy_same have no hypotheses *)
Proof. vm_compute. repeat split; auto. eexists. eexists. split; [reflexivity|discriminate]. Qed.
Print Assumptions C73_common.
Print Assumptions C73_v4.
Print Assumptions C73_v5.
Print Assumptions C73_v4_copy_same.
Print Assumptions C73_v5_copy_same.

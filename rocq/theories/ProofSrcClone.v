(** ProofSrcClone.v -- every `clone` of the translated source returns the value it is given. *)
From Verif Require Import ProofBase Lib SrcCmp SrcClone.
From Verif Require V4Mod V5Mod.

Class Faithful {A} (clone : A -> A) := faithful_clone : forall x, clone x = x.
Global Instance faithful_scalar {A} : Faithful (clone_scalar (A := A)). Proof. intros x. reflexivity. Qed.
Global Instance faithful_bytes : Faithful clone_bytes.
Proof. intros x. induction x as [|a x IH]; cbn [clone_bytes]; [reflexivity|rewrite IH; reflexivity]. Qed.
Global Instance faithful_vec {A} (f : A -> A) {H : Faithful f} : Faithful (clone_vec f).
Proof. intros x. induction x as [|a x IH]; cbn [clone_vec]; [reflexivity|rewrite IH, (faithful_clone a); reflexivity]. Qed.
Global Instance faithful_option {A} (f : A -> A) {H : Faithful f} : Faithful (clone_option f).
Proof. intros [a|]; cbn [clone_option]; [rewrite (faithful_clone a)|]; reflexivity. Qed.
Global Instance faithful_pair {A B} (f : A -> A) (g : B -> B) {Hf : Faithful f} {Hg : Faithful g} : Faithful (clone_pair f g).
Proof. intros [a b]. unfold clone_pair. cbn [fst snd]. rewrite (faithful_clone a), (faithful_clone b). reflexivity. Qed.
Local Opaque clone_bytes clone_scalar clone_vec clone_option clone_pair.
Ltac faithful :=
  let x := fresh "x" in intros x; match goal with |- ?f _ = _ => unfold f end;
  repeat match goal with |- context [?c (?p x)] => rewrite (faithful_clone (clone := c) (p x)) end;
  destruct x;
  lazymatch goal with
  | |- ?k (?c ?a) = ?k ?a => exact (f_equal k (faithful_clone (clone := c) a))
  | _ => reflexivity
  end.
Global Instance faithful_PacketType : Faithful PacketType_clone. Proof. faithful. Qed. Local Opaque PacketType_clone.
Global Instance faithful_Error : Faithful Error_clone. Proof. faithful. Qed. Local Opaque Error_clone.
Global Instance faithful_Protocol : Faithful Protocol_clone. Proof. faithful. Qed. Local Opaque Protocol_clone.
Global Instance faithful_QoS : Faithful QoS_clone. Proof. faithful. Qed. Local Opaque QoS_clone.
Global Instance faithful_FixedHeader : Faithful FixedHeader_clone. Proof. faithful. Qed. Local Opaque FixedHeader_clone.
Global Instance faithful_v4_ConnectReturnCode : Faithful v4_ConnectReturnCode_clone. Proof. faithful. Qed. Local Opaque v4_ConnectReturnCode_clone.
Global Instance faithful_v4_ConnAck : Faithful v4_ConnAck_clone. Proof. faithful. Qed. Local Opaque v4_ConnAck_clone.
Global Instance faithful_v4_LastWill : Faithful v4_LastWill_clone. Proof. faithful. Qed. Local Opaque v4_LastWill_clone.
Global Instance faithful_v4_Login : Faithful v4_Login_clone. Proof. faithful. Qed. Local Opaque v4_Login_clone.
Global Instance faithful_v4_Connect : Faithful v4_Connect_clone. Proof. faithful. Qed. Local Opaque v4_Connect_clone.
Global Instance faithful_v4_Publish : Faithful v4_Publish_clone. Proof. faithful. Qed. Local Opaque v4_Publish_clone.
Global Instance faithful_v4_PubAck : Faithful v4_PubAck_clone. Proof. faithful. Qed. Local Opaque v4_PubAck_clone.
Global Instance faithful_v4_PubRec : Faithful v4_PubRec_clone. Proof. faithful. Qed. Local Opaque v4_PubRec_clone.
Global Instance faithful_v4_PubRel : Faithful v4_PubRel_clone. Proof. faithful. Qed. Local Opaque v4_PubRel_clone.
Global Instance faithful_v4_PubComp : Faithful v4_PubComp_clone. Proof. faithful. Qed. Local Opaque v4_PubComp_clone.
Global Instance faithful_v4_SubscribeFilter : Faithful v4_SubscribeFilter_clone. Proof. faithful. Qed. Local Opaque v4_SubscribeFilter_clone.
Global Instance faithful_v4_Subscribe : Faithful v4_Subscribe_clone. Proof. faithful. Qed. Local Opaque v4_Subscribe_clone.
Global Instance faithful_v4_SubscribeReasonCode : Faithful v4_SubscribeReasonCode_clone. Proof. faithful. Qed. Local Opaque v4_SubscribeReasonCode_clone.
Global Instance faithful_v4_SubAck : Faithful v4_SubAck_clone. Proof. faithful. Qed. Local Opaque v4_SubAck_clone.
Global Instance faithful_v4_Unsubscribe : Faithful v4_Unsubscribe_clone. Proof. faithful. Qed. Local Opaque v4_Unsubscribe_clone.
Global Instance faithful_v4_UnsubAck : Faithful v4_UnsubAck_clone. Proof. faithful. Qed. Local Opaque v4_UnsubAck_clone.
Global Instance faithful_v4_Packet : Faithful v4_Packet_clone. Proof. faithful. Qed. Local Opaque v4_Packet_clone.
Global Instance faithful_v5_ConnectReturnCode : Faithful v5_ConnectReturnCode_clone. Proof. faithful. Qed. Local Opaque v5_ConnectReturnCode_clone.
Global Instance faithful_v5_ConnAckProperties : Faithful v5_ConnAckProperties_clone. Proof. faithful. Qed. Local Opaque v5_ConnAckProperties_clone.
Global Instance faithful_v5_ConnAck : Faithful v5_ConnAck_clone. Proof. faithful. Qed. Local Opaque v5_ConnAck_clone.
Global Instance faithful_v5_WillProperties : Faithful v5_WillProperties_clone. Proof. faithful. Qed. Local Opaque v5_WillProperties_clone.
Global Instance faithful_v5_LastWill : Faithful v5_LastWill_clone. Proof. faithful. Qed. Local Opaque v5_LastWill_clone.
Global Instance faithful_v5_Login : Faithful v5_Login_clone. Proof. faithful. Qed. Local Opaque v5_Login_clone.
Global Instance faithful_v5_ConnectProperties : Faithful v5_ConnectProperties_clone. Proof. faithful. Qed. Local Opaque v5_ConnectProperties_clone.
Global Instance faithful_v5_Connect : Faithful v5_Connect_clone. Proof. faithful. Qed. Local Opaque v5_Connect_clone.
Global Instance faithful_v5_DisconnectReasonCode : Faithful v5_DisconnectReasonCode_clone. Proof. faithful. Qed. Local Opaque v5_DisconnectReasonCode_clone.
Global Instance faithful_v5_DisconnectProperties : Faithful v5_DisconnectProperties_clone. Proof. faithful. Qed. Local Opaque v5_DisconnectProperties_clone.
Global Instance faithful_v5_Disconnect : Faithful v5_Disconnect_clone. Proof. faithful. Qed. Local Opaque v5_Disconnect_clone.
Global Instance faithful_v5_PublishProperties : Faithful v5_PublishProperties_clone. Proof. faithful. Qed. Local Opaque v5_PublishProperties_clone.
Global Instance faithful_v5_Publish : Faithful v5_Publish_clone. Proof. faithful. Qed. Local Opaque v5_Publish_clone.
Global Instance faithful_v5_PubAckReason : Faithful v5_PubAckReason_clone. Proof. faithful. Qed. Local Opaque v5_PubAckReason_clone.
Global Instance faithful_v5_PubAckProperties : Faithful v5_PubAckProperties_clone. Proof. faithful. Qed. Local Opaque v5_PubAckProperties_clone.
Global Instance faithful_v5_PubAck : Faithful v5_PubAck_clone. Proof. faithful. Qed. Local Opaque v5_PubAck_clone.
Global Instance faithful_v5_PubRecReason : Faithful v5_PubRecReason_clone. Proof. faithful. Qed. Local Opaque v5_PubRecReason_clone.
Global Instance faithful_v5_PubRecProperties : Faithful v5_PubRecProperties_clone. Proof. faithful. Qed. Local Opaque v5_PubRecProperties_clone.
Global Instance faithful_v5_PubRec : Faithful v5_PubRec_clone. Proof. faithful. Qed. Local Opaque v5_PubRec_clone.
Global Instance faithful_v5_PubRelReason : Faithful v5_PubRelReason_clone. Proof. faithful. Qed. Local Opaque v5_PubRelReason_clone.
Global Instance faithful_v5_PubRelProperties : Faithful v5_PubRelProperties_clone. Proof. faithful. Qed. Local Opaque v5_PubRelProperties_clone.
Global Instance faithful_v5_PubRel : Faithful v5_PubRel_clone. Proof. faithful. Qed. Local Opaque v5_PubRel_clone.
Global Instance faithful_v5_PubCompReason : Faithful v5_PubCompReason_clone. Proof. faithful. Qed. Local Opaque v5_PubCompReason_clone.
Global Instance faithful_v5_PubCompProperties : Faithful v5_PubCompProperties_clone. Proof. faithful. Qed. Local Opaque v5_PubCompProperties_clone.
Global Instance faithful_v5_PubComp : Faithful v5_PubComp_clone. Proof. faithful. Qed. Local Opaque v5_PubComp_clone.
Global Instance faithful_v5_RetainForwardRule : Faithful v5_RetainForwardRule_clone. Proof. faithful. Qed. Local Opaque v5_RetainForwardRule_clone.
Global Instance faithful_v5_SubscribeFilter : Faithful v5_SubscribeFilter_clone. Proof. faithful. Qed. Local Opaque v5_SubscribeFilter_clone.
Global Instance faithful_v5_SubscribeProperties : Faithful v5_SubscribeProperties_clone. Proof. faithful. Qed. Local Opaque v5_SubscribeProperties_clone.
Global Instance faithful_v5_Subscribe : Faithful v5_Subscribe_clone. Proof. faithful. Qed. Local Opaque v5_Subscribe_clone.
Global Instance faithful_v5_SubscribeReasonCode : Faithful v5_SubscribeReasonCode_clone. Proof. faithful. Qed. Local Opaque v5_SubscribeReasonCode_clone.
Global Instance faithful_v5_SubAckProperties : Faithful v5_SubAckProperties_clone. Proof. faithful. Qed. Local Opaque v5_SubAckProperties_clone.
Global Instance faithful_v5_SubAck : Faithful v5_SubAck_clone. Proof. faithful. Qed. Local Opaque v5_SubAck_clone.
Global Instance faithful_v5_UnsubscribeProperties : Faithful v5_UnsubscribeProperties_clone. Proof. faithful. Qed. Local Opaque v5_UnsubscribeProperties_clone.
Global Instance faithful_v5_Unsubscribe : Faithful v5_Unsubscribe_clone. Proof. faithful. Qed. Local Opaque v5_Unsubscribe_clone.
Global Instance faithful_v5_UnsubAckReason : Faithful v5_UnsubAckReason_clone. Proof. faithful. Qed. Local Opaque v5_UnsubAckReason_clone.
Global Instance faithful_v5_UnsubAckProperties : Faithful v5_UnsubAckProperties_clone. Proof. faithful. Qed. Local Opaque v5_UnsubAckProperties_clone.
Global Instance faithful_v5_UnsubAck : Faithful v5_UnsubAck_clone. Proof. faithful. Qed. Local Opaque v5_UnsubAck_clone.
Global Instance faithful_v5_Packet : Faithful v5_Packet_clone. Proof. faithful. Qed. Local Opaque v5_Packet_clone.
Global Instance faithful_v5_PropertyType : Faithful v5_PropertyType_clone. Proof. faithful. Qed. Local Opaque v5_PropertyType_clone.

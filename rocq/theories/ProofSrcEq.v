(** ProofSrcEq.v -- every `==` of the translated source is exact: true for equal values only. *)
From Verif Require Import ProofBase Lib SrcCmp SrcEq.
From Verif Require V4Mod V5Mod.

Class Exact {A} (eq : A -> A -> bool) := exact_eq : forall x y, eq x y = true <-> x = y.
Global Instance exact_N : Exact N.eqb. Proof. intros x y. apply N.eqb_eq. Qed.
Global Instance exact_bool : Exact Bool.eqb. Proof. intros x y. apply Bool.eqb_true_iff. Qed.
Global Instance exact_bytes : Exact eq_bytes.
Proof.
  intros x. induction x as [|a x IH]; intros [|b y]; cbn [eq_bytes]; try (split; (reflexivity || discriminate)).
  rewrite andb_true_iff, N.eqb_eq, IH. split; [intros [-> ->]; reflexivity|intros H; injection H as -> ->; auto].
Qed.
Global Instance exact_vec {A} (eq : A -> A -> bool) {H : Exact eq} : Exact (eq_vec eq).
Proof.
  intros x. induction x as [|a x IH]; intros [|b y]; cbn [eq_vec]; try (split; (reflexivity || discriminate)).
  rewrite andb_true_iff, (exact_eq a b), IH. split; [intros [-> ->]; reflexivity|intros E; injection E as -> ->; auto].
Qed.
Global Instance exact_option {A} (eq : A -> A -> bool) {H : Exact eq} : Exact (eq_option eq).
Proof.
  intros [a|] [b|]; cbn [eq_option]; try (split; (reflexivity || discriminate)).
  rewrite (exact_eq a b). split; [intros ->; reflexivity|intros E; injection E as ->; reflexivity].
Qed.
Global Instance exact_pair {A B} (f : A -> A -> bool) (g : B -> B -> bool) {Hf : Exact f} {Hg : Exact g} : Exact (eq_pair f g).
Proof.
  intros [a b] [c d]. unfold eq_pair. cbn [fst snd]. rewrite andb_true_iff, (exact_eq a c), (exact_eq b d).
  split; [intros [-> ->]; reflexivity|intros E; injection E as -> ->; auto].
Qed.

Ltac struct_exact :=
  intros x y; match goal with |- ?f _ _ = true <-> _ => unfold f end; split;
  [ destruct x, y; cbn; intros H; repeat (apply andb_true_iff in H as [H ?]);
    repeat match goal with E : ?f ?a ?b = true |- _ => apply (exact_eq (eq := f) a b) in E end; subst; reflexivity
  | intros ->; rewrite ?andb_true_iff; repeat split; apply exact_eq; reflexivity ].
Ltac enum_exact :=
  intros x y; match goal with |- ?f _ _ = true <-> _ => unfold f end;
  split; [|intros ->; destruct y; try reflexivity; apply exact_eq; reflexivity];
  destruct x, y; intros H; try discriminate H; try reflexivity;
  match type of H with ?f ?a ?b = true => apply (exact_eq (eq := f) a b) in H end; subst; reflexivity.
Global Instance exact_PacketType : Exact PacketType_eq. Proof. enum_exact. Qed.
Global Instance exact_Error : Exact Error_eq. Proof. enum_exact. Qed.
Global Instance exact_Protocol : Exact Protocol_eq. Proof. enum_exact. Qed.
Global Instance exact_QoS : Exact QoS_eq. Proof. enum_exact. Qed.
Global Instance exact_FixedHeader : Exact FixedHeader_eq. Proof. struct_exact. Qed.
Global Instance exact_v4_ConnectReturnCode : Exact v4_ConnectReturnCode_eq. Proof. enum_exact. Qed.
Global Instance exact_v4_ConnAck : Exact v4_ConnAck_eq. Proof. struct_exact. Qed.
Global Instance exact_v4_LastWill : Exact v4_LastWill_eq. Proof. struct_exact. Qed.
Global Instance exact_v4_Login : Exact v4_Login_eq. Proof. struct_exact. Qed.
Global Instance exact_v4_Connect : Exact v4_Connect_eq. Proof. struct_exact. Qed.
Global Instance exact_v4_Publish : Exact v4_Publish_eq. Proof. struct_exact. Qed.
Global Instance exact_v4_PubAck : Exact v4_PubAck_eq. Proof. struct_exact. Qed.
Global Instance exact_v4_PubRec : Exact v4_PubRec_eq. Proof. struct_exact. Qed.
Global Instance exact_v4_PubRel : Exact v4_PubRel_eq. Proof. struct_exact. Qed.
Global Instance exact_v4_PubComp : Exact v4_PubComp_eq. Proof. struct_exact. Qed.
Global Instance exact_v4_SubscribeFilter : Exact v4_SubscribeFilter_eq. Proof. struct_exact. Qed.
Global Instance exact_v4_Subscribe : Exact v4_Subscribe_eq. Proof. struct_exact. Qed.
Global Instance exact_v4_SubscribeReasonCode : Exact v4_SubscribeReasonCode_eq. Proof. enum_exact. Qed.
Global Instance exact_v4_SubAck : Exact v4_SubAck_eq. Proof. struct_exact. Qed.
Global Instance exact_v4_Unsubscribe : Exact v4_Unsubscribe_eq. Proof. struct_exact. Qed.
Global Instance exact_v4_UnsubAck : Exact v4_UnsubAck_eq. Proof. struct_exact. Qed.
Global Instance exact_v4_Packet : Exact v4_Packet_eq. Proof. enum_exact. Qed.
Global Instance exact_v5_ConnectReturnCode : Exact v5_ConnectReturnCode_eq. Proof. enum_exact. Qed.
Global Instance exact_v5_ConnAckProperties : Exact v5_ConnAckProperties_eq. Proof. struct_exact. Qed.
Global Instance exact_v5_ConnAck : Exact v5_ConnAck_eq. Proof. struct_exact. Qed.
Global Instance exact_v5_WillProperties : Exact v5_WillProperties_eq. Proof. struct_exact. Qed.
Global Instance exact_v5_LastWill : Exact v5_LastWill_eq. Proof. struct_exact. Qed.
Global Instance exact_v5_Login : Exact v5_Login_eq. Proof. struct_exact. Qed.
Global Instance exact_v5_ConnectProperties : Exact v5_ConnectProperties_eq. Proof. struct_exact. Qed.
Global Instance exact_v5_Connect : Exact v5_Connect_eq. Proof. struct_exact. Qed.
Global Instance exact_v5_DisconnectReasonCode : Exact v5_DisconnectReasonCode_eq. Proof. enum_exact. Qed.
Global Instance exact_v5_DisconnectProperties : Exact v5_DisconnectProperties_eq. Proof. struct_exact. Qed.
Global Instance exact_v5_Disconnect : Exact v5_Disconnect_eq. Proof. struct_exact. Qed.
Global Instance exact_v5_PublishProperties : Exact v5_PublishProperties_eq. Proof. struct_exact. Qed.
Global Instance exact_v5_Publish : Exact v5_Publish_eq. Proof. struct_exact. Qed.
Global Instance exact_v5_PubAckReason : Exact v5_PubAckReason_eq. Proof. enum_exact. Qed.
Global Instance exact_v5_PubAckProperties : Exact v5_PubAckProperties_eq. Proof. struct_exact. Qed.
Global Instance exact_v5_PubAck : Exact v5_PubAck_eq. Proof. struct_exact. Qed.
Global Instance exact_v5_PubRecReason : Exact v5_PubRecReason_eq. Proof. enum_exact. Qed.
Global Instance exact_v5_PubRecProperties : Exact v5_PubRecProperties_eq. Proof. struct_exact. Qed.
Global Instance exact_v5_PubRec : Exact v5_PubRec_eq. Proof. struct_exact. Qed.
Global Instance exact_v5_PubRelReason : Exact v5_PubRelReason_eq. Proof. enum_exact. Qed.
Global Instance exact_v5_PubRelProperties : Exact v5_PubRelProperties_eq. Proof. struct_exact. Qed.
Global Instance exact_v5_PubRel : Exact v5_PubRel_eq. Proof. struct_exact. Qed.
Global Instance exact_v5_PubCompReason : Exact v5_PubCompReason_eq. Proof. enum_exact. Qed.
Global Instance exact_v5_PubCompProperties : Exact v5_PubCompProperties_eq. Proof. struct_exact. Qed.
Global Instance exact_v5_PubComp : Exact v5_PubComp_eq. Proof. struct_exact. Qed.
Global Instance exact_v5_RetainForwardRule : Exact v5_RetainForwardRule_eq. Proof. enum_exact. Qed.
Global Instance exact_v5_SubscribeFilter : Exact v5_SubscribeFilter_eq. Proof. struct_exact. Qed.
Global Instance exact_v5_SubscribeProperties : Exact v5_SubscribeProperties_eq. Proof. struct_exact. Qed.
Global Instance exact_v5_Subscribe : Exact v5_Subscribe_eq. Proof. struct_exact. Qed.
Global Instance exact_v5_SubscribeReasonCode : Exact v5_SubscribeReasonCode_eq. Proof. enum_exact. Qed.
Global Instance exact_v5_SubAckProperties : Exact v5_SubAckProperties_eq. Proof. struct_exact. Qed.
Global Instance exact_v5_SubAck : Exact v5_SubAck_eq. Proof. struct_exact. Qed.
Global Instance exact_v5_UnsubscribeProperties : Exact v5_UnsubscribeProperties_eq. Proof. struct_exact. Qed.
Global Instance exact_v5_Unsubscribe : Exact v5_Unsubscribe_eq. Proof. struct_exact. Qed.
Global Instance exact_v5_UnsubAckReason : Exact v5_UnsubAckReason_eq. Proof. enum_exact. Qed.
Global Instance exact_v5_UnsubAckProperties : Exact v5_UnsubAckProperties_eq. Proof. struct_exact. Qed.
Global Instance exact_v5_UnsubAck : Exact v5_UnsubAck_eq. Proof. struct_exact. Qed.
Global Instance exact_v5_Packet : Exact v5_Packet_eq. Proof. enum_exact. Qed.
Global Instance exact_v5_PropertyType : Exact v5_PropertyType_eq. Proof. enum_exact. Qed.

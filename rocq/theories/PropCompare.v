(** PropCompare.v -- C71: comparing packets, errors, headers and codes with `==`, `<`, ...; about the
    translation of the `PartialEq` and `PartialOrd` implementations (SrcEq.v, generated). *)
From Verif Require Import Base Lib SpecWire SpecRelease ProofBase SrcCmp SrcEq ProofSrcEq SpecSource PropSourceStream.
From Verif Require V4Mod V5Mod SpecV4 SpecV5 SrcLib PropV4 PropV5 PropSource PropSourceV4 PropSourceV5 SampleV4 SampleV5 ProofSrcFits ProofLib ProofV4 ProofV5 ProofSrcBase.

(** `a == b` says whether a and b are the same value *)
Definition decides {A} (eq : A -> A -> bool) : Prop := forall x y, eq x y = true <-> x = y.

Theorem C71_v4_packet : decides v4_Packet_eq.
Proof. exact exact_v4_Packet. Qed.
Theorem C71_v5_packet : decides v5_Packet_eq.
Proof. exact exact_v5_Packet. Qed.
Theorem C71_common : decides Error_eq /\ decides FixedHeader_eq /\ decides PacketType_eq /\ decides QoS_eq /\ decides Protocol_eq.
Proof. repeat split; first [apply exact_Error|apply exact_FixedHeader|apply exact_PacketType|apply exact_QoS|apply exact_Protocol]. Qed.
Theorem C71_v4_parts :
  (decides v4_Connect_eq /\ decides v4_ConnAck_eq /\ decides v4_Publish_eq /\ decides v4_PubAck_eq /\ decides v4_PubRec_eq /\
   decides v4_PubRel_eq /\ decides v4_PubComp_eq /\ decides v4_Subscribe_eq /\ decides v4_SubAck_eq /\ decides v4_Unsubscribe_eq /\
   decides v4_UnsubAck_eq) /\
  decides v4_LastWill_eq /\ decides v4_Login_eq /\ decides v4_SubscribeFilter_eq /\ decides v4_SubscribeReasonCode_eq /\
  decides v4_ConnectReturnCode_eq.
Proof. unfold decides. repeat match goal with |- _ /\ _ => split end; intros x y; apply exact_eq. Qed.
Theorem C71_v5_parts :
  (decides v5_Connect_eq /\ decides v5_ConnAck_eq /\ decides v5_Publish_eq /\ decides v5_PubAck_eq /\ decides v5_PubRec_eq /\
   decides v5_PubRel_eq /\ decides v5_PubComp_eq /\ decides v5_Subscribe_eq /\ decides v5_SubAck_eq /\ decides v5_Unsubscribe_eq /\
   decides v5_UnsubAck_eq /\ decides v5_Disconnect_eq) /\
  (decides v5_ConnectProperties_eq /\ decides v5_WillProperties_eq /\ decides v5_ConnAckProperties_eq /\ decides v5_PublishProperties_eq /\
   decides v5_PubAckProperties_eq /\ decides v5_PubRecProperties_eq /\ decides v5_PubRelProperties_eq /\ decides v5_PubCompProperties_eq /\
   decides v5_SubscribeProperties_eq /\ decides v5_SubAckProperties_eq /\ decides v5_UnsubscribeProperties_eq /\
   decides v5_UnsubAckProperties_eq /\ decides v5_DisconnectProperties_eq) /\
  (decides v5_ConnectReturnCode_eq /\ decides v5_PubAckReason_eq /\ decides v5_PubRecReason_eq /\ decides v5_PubRelReason_eq /\
   decides v5_PubCompReason_eq /\ decides v5_SubscribeReasonCode_eq /\ decides v5_UnsubAckReason_eq /\ decides v5_DisconnectReasonCode_eq /\
   decides v5_RetainForwardRule_eq) /\
  decides v5_LastWill_eq /\ decides v5_Login_eq /\ decides v5_SubscribeFilter_eq.
Proof. unfold decides. repeat match goal with |- _ /\ _ => split end; intros x y; apply exact_eq. Qed.

(** equal packets write the same bytes, and packets written as the same bytes are equal *)
Theorem C71_v4_bytes : forall p q n m out out',
  SpecV4.fits p -> SpecV4.fits q -> SpecV4.has_payload p -> SpecV4.has_payload q -> SpecV4.canonical p -> SpecV4.canonical q ->
  v4_write 5 p [] = (Ok n, out) -> v4_write 5 q [] = (Ok m, out') ->
  (v4_Packet_eq p q = true <-> out = out').
Proof.
  intros p q n m out out' F1 F2 P1 P2 C1 C2 W1 W2. rewrite (exact_eq p q). split.
  - intros ->. rewrite W1 in W2. injection W2 as _ <-. reflexivity.
  - intros <-. eapply (PropSourceV4.C20_source_v4_prefix_free p q [] []); eauto; constructor.
Qed.
Theorem C71_v5_bytes : forall p q n m out out',
  SpecV5.fits p -> SpecV5.fits q -> SpecV5.readable p -> SpecV5.readable q -> SpecV5.canonical p -> SpecV5.canonical q ->
  v5_write 5 p [] = (Ok n, out) -> v5_write 5 q [] = (Ok m, out') ->
  (v5_Packet_eq p q = true <-> out = out').
Proof.
  intros p q n m out out' F1 F2 P1 P2 C1 C2 W1 W2. rewrite (exact_eq p q). split.
  - intros ->. rewrite W1 in W2. injection W2 as _ <-. reflexivity.
  - intros <-. eapply (PropSourceV5.C21_source_v5_prefix_free p q [] []); eauto; constructor.
Qed.

(** the comparison every round-trip test makes: what is read back from what was written `==` the packet
    exactly for canonical packets (with a payload, or readable) *)
Theorem C71_v4_round_trip : forall p rest max,
  SpecV4.fits p -> bytes_ok rest -> blen (SpecV4.body p) <= max -> blen rest < 2 ^ 62 ->
  exists n out, v4_write 5 p [] = (Ok n, out) /\
    ((exists q, v4_reads (out ++ rest) max = (Ok q, rest) /\ v4_Packet_eq q p = true) <->
     SpecV4.has_payload p /\ SpecV4.canonical p).
Proof.
  intros p rest max Hp Hr Hm Hl.
  assert (D : SpecV4.has_payload p \/ ~ SpecV4.has_payload p).
  { destruct p as [c|c|q|x|x|x|x|s|s|u|u| | |]; cbn [SpecV4.has_payload]; auto.
    - destruct (V4Subscribe.filters s); [right; auto|left; discriminate].
    - destruct (V4SubAck.return_codes s); [right; auto|left; discriminate]. }
  destruct D as [D|D].
  - destruct (PropSourceV4.C18_source_v4_canonical p rest max Hp D Hr Hm Hl) as (n & out & H1 & H2). exists n, out. split; [exact H1|].
    split.
    + intros (q & E & Q). apply (exact_eq q p) in Q. subst q. split; [exact D|]. rewrite H2 in E. injection E as E.
      rewrite <- E. apply ProofV4.canon_canonical.
    + intros [_ C]. rewrite (ProofV4.canonical_canon p C) in H2. exists p. split; [exact H2|]. apply (exact_eq p p). reflexivity.
  - destruct (PropSourceV4.C18_source_v4_empty_payload p rest max Hp D Hr Hm Hl) as (n & out & e & H1 & H2 & _). exists n, out. split; [exact H1|].
    split; [|intros [H _]; contradiction]. intros (q & E & _). rewrite H2 in E. discriminate E.
Qed.
Theorem C71_v5_round_trip : forall p rest max,
  SpecV5.fits p -> bytes_ok rest -> blen (SpecV5.written p) <= max -> blen rest < 2 ^ 62 ->
  exists n out, v5_write 5 p [] = (Ok n, out) /\
    ((exists q, v5_reads (out ++ rest) max = (Ok q, rest) /\ v5_Packet_eq q p = true) <->
     SpecV5.canonical p /\ (SpecV5.readable p \/ SpecV5.blank_311 p)).
Proof.
  intros p rest max Hp Hr Hm Hl.
  destruct (PropSourceV5.C19_source_v5_exact p rest max Hp Hr Hm Hl) as (n & out & H1 & H2). exists n, out. split; [exact H1|].
  assert (W := PropSourceV5.written_is p n out Hp H1). assert (S := PropSourceV5.wire_small p rest Hp Hl). rewrite <- W in S.
  split.
  - intros (q & E & Q). apply (exact_eq q p) in Q. subst q.
    assert (C : SpecV5.canonical p).
    { apply (PropSourceV5.C26_source_v5_well_formed (out ++ rest) max p rest); [|exact S|exact E].
      apply bytes_ok_app. split; [|exact Hr]. rewrite W. apply ProofV5.wire_bytes, Hp. }
    split; [exact C|]. apply H2. rewrite C. exact E.
  - intros [C R]. exists p. split; [|apply (exact_eq p p); reflexivity]. apply H2 in R. rewrite C in R. exact R.
Qed.

(** ordering: QoS levels are ordered by their number on the wire; headers by first byte, then header
    length, then remaining length; both orders are total and agree with `==` *)
Theorem C71_qos_order : forall n m x y, SrcLib.qos n = Ok x -> SrcLib.qos m = Ok y -> QoS_cmp x y = (n ?= m).
Proof.
  assert (Q : forall n x, SrcLib.qos n = Ok x -> n = match x with AtMostOnce => 0 | AtLeastOnce => 1 | ExactlyOnce => 2 end).
  { intros n x H. rewrite ProofSrcBase.qos_eq in H. unfold qos in H.
    destruct n as [|[[q|q|]|[q|q|]|]]; try discriminate H; injection H as <-; reflexivity. }
  intros n m x y Hx Hy. rewrite (Q n x Hx), (Q m y Hy). reflexivity.
Qed.
Theorem C71_header_order : forall b l r b' l' r',
  FixedHeader_cmp (mkFixedHeader b l r) (mkFixedHeader b' l' r') = Lt <->
  b < b' \/ b = b' /\ (l < l' \/ l = l' /\ r < r').
Proof.
  intros. unfold FixedHeader_cmp, then_cmp. cbn [byte1 fixed_header_len remaining_len].
  destruct (N.compare_spec b b'), (N.compare_spec l l'), (N.compare_spec r r'); split; try discriminate; try lia; reflexivity.
Qed.
(** a total order: exactly one of `<`, `==`, `>`, and `<` is transitive *)
Definition total_order {A} (eq : A -> A -> bool) (cmp : A -> A -> comparison) : Prop :=
  (forall x y, cmp x y = Eq <-> eq x y = true) /\
  (forall x y, cmp x y = Lt <-> cmp y x = Gt) /\
  (forall x y z, cmp x y = Lt -> cmp y z = Lt -> cmp x z = Lt).
Theorem C71_orders_total : total_order QoS_eq QoS_cmp /\ total_order FixedHeader_eq FixedHeader_cmp.
Proof.
  split; (split; [|split]).
  - intros x y. destruct x, y; vm_compute; split; congruence.
  - intros x y. destruct x, y; vm_compute; split; congruence.
  - intros x y z. destruct x, y, z; vm_compute; congruence.
  - intros [b l r] [b' l' r']. rewrite (exact_eq (eq := FixedHeader_eq)). unfold FixedHeader_cmp, then_cmp. cbn [byte1 fixed_header_len remaining_len].
    destruct (N.compare_spec b b'), (N.compare_spec l l'), (N.compare_spec r r'); subst; split; intros E; try discriminate; try reflexivity;
      injection E; intros; lia.
  - intros [b l r] [b' l' r']. unfold FixedHeader_cmp, then_cmp. cbn [byte1 fixed_header_len remaining_len].
    rewrite (N.compare_antisym b b'), (N.compare_antisym l l'), (N.compare_antisym r r').
    destruct (b ?= b'), (l ?= l'), (r ?= r'); cbn; split; congruence.
  - intros [b l r] [b' l' r'] [b2 l2 r2]. rewrite !C71_header_order. lia.
Qed.

(** cases *)
Example C71_case :
  v4_Packet_eq SampleV4.ex_connect SampleV4.ex_connect = true /\
  v4_Packet_eq SampleV4.ex_connect (V4Mod.Connect (V4Connect.mkConnect V4 300 [99; 49] true
    (Some (V4Connect.mkLastWill [119; 47; 116] [222; 173] AtLeastOnce true)) (Some (V4Connect.mkLogin [117] [0])))) = false /\
  v4_Packet_eq V4Mod.PingReq V4Mod.PingResp = false /\ v5_Packet_eq SampleV5.ex_publish5 SampleV5.ex_publish5 = true /\
  Error_eq (InsufficientBytes 3) (InsufficientBytes 4) = false /\
  QoS_cmp AtMostOnce ExactlyOnce = Lt /\ FixedHeader_cmp (mkFixedHeader 48 2 9) (mkFixedHeader 48 2 8) = Gt /\
  (exists q, v5_reads (snd (v5_write 5 SampleV5.ex_publish5 []) ++ [1]) 100 = (Ok q, [1]) /\ v5_Packet_eq q SampleV5.ex_publish5 = true).
Proof. vm_compute. repeat split; auto. eexists. split; reflexivity. Qed.
Print Assumptions C71_v4_packet.
Print Assumptions C71_v5_packet.
Print Assumptions C71_common.
Print Assumptions C71_v4_parts.
Print Assumptions C71_v5_parts.
Print Assumptions C71_v4_bytes.
Print Assumptions C71_v5_bytes.
Print Assumptions C71_v4_round_trip.
Print Assumptions C71_v5_round_trip.
Print Assumptions C71_qos_order.
Print Assumptions C71_header_order.
Print Assumptions C71_orders_total.

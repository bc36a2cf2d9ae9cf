(** PropSourceApi.v -- the smaller public functions of the Rust text (its translation Src*.v):
    code tables, constructors and setters, headers, decoders called directly. *)
From Verif Require Import Base Lib SpecWire SpecCodes SpecDirect SpecRelease ProofBase ProofLib ProofRelBase ProofSrcBase ProofSrcTop SpecSource.
From Verif Require Import ProofSrcV4Read ProofSrcV5Read ProofSrcBuild.
From Verif Require V4Mod V5Mod SpecV4 SpecV5 PropCodes PropHeader PropDirect PropRelease PropBuild PropSource V5Property.

(** ** C35: codes *)
Lemma represents_ext {A} (code : A -> N) f g err : (forall n, g n = f n) -> represents code f err -> represents code g err.
Proof.
  intros E (H0 & H1 & H2 & H3). split; [exact H0|]. split; [exact H1|]. split.
  - intros a. rewrite E. apply H2.
  - intros n Hn. rewrite E. apply H3, Hn.
Qed.
Theorem C35_source_decode :
  represents SpecWire.qos_num SrcLib.qos InvalidQoS /\
  represents property_code SrcV5Property.property InvalidPropertyType /\
  represents SpecV4.connack_code SrcV4ConnAck.connect_return InvalidConnectReturnCode /\
  represents SpecV4.suback_code SrcV4SubAck.SubscribeReasonCode_try_from InvalidSubscribeReasonCode /\
  represents SpecV5.connack_code SrcV5ConnAck.connect_return InvalidConnectReturnCode /\
  represents SpecV5.puback_code SrcV5PubAck.reason InvalidConnectReturnCode /\
  represents SpecV5.pubrec_code SrcV5PubRec.reason InvalidConnectReturnCode /\
  represents SpecV5.pubrel_code SrcV5PubRel.reason InvalidConnectReturnCode /\
  represents SpecV5.pubcomp_code SrcV5PubComp.reason InvalidConnectReturnCode /\
  represents SpecV5.suback_code SrcV5SubAck.SubscribeReasonCode_try_from InvalidSubscribeReasonCode /\
  represents SpecV5.unsuback_code SrcV5UnsubAck.reason InvalidSubscribeReasonCode /\
  represents SpecV5.disconnect_code SrcV5Disconnect.DisconnectReasonCode_try_from InvalidConnectReturnCode.
Proof.
  destruct PropCodes.C35_v4_tables as (A1 & A2). destruct PropCodes.C35_v5_tables as (B1 & B2 & B3 & B4 & B5 & B6 & B7 & B8 & _).
  split; [exact (represents_ext _ _ _ _ qos_eq PropCodes.C35_qos)|].
  split; [exact (represents_ext _ _ _ _ property_eq PropCodes.C35_property)|].
  split; [exact (represents_ext _ _ _ _ v4_connack_return A1)|]. split; [exact (represents_ext _ _ _ _ v4_suback_code A2)|].
  split; [exact (represents_ext _ _ _ _ v5_connack_return B1)|]. split; [exact (represents_ext _ _ _ _ v5_puback_reason B2)|].
  split; [exact (represents_ext _ _ _ _ v5_pubrec_reason B3)|]. split; [exact (represents_ext _ _ _ _ v5_pubrel_reason B4)|].
  split; [exact (represents_ext _ _ _ _ v5_pubcomp_reason B5)|]. split; [exact (represents_ext _ _ _ _ v5_suback_reason B6)|].
  split; [exact (represents_ext _ _ _ _ v5_unsuback_reason B7)|]. exact (represents_ext _ _ _ _ v5_disconnect_reason B8).
Qed.
(** the numbers the enums carry (`as u8`) are the codes of the standard, also where `write` does not use them *)
Theorem C35_source_numbers :
  (forall x, SrcLib.QoS_as_u8 x = SpecWire.qos_num x) /\ (forall x, SrcLib.PacketType_as_u8 x = type_code x) /\
  (forall x, SrcV5Property.PropertyType_as_u8 x = property_code x) /\
  (forall x, SrcV4ConnAck.ConnectReturnCode_as_u8 x = SpecV4.connack_code x) /\
  (forall x, SrcV5PubAck.PubAckReason_as_u8 x = SpecV5.puback_code x) /\
  (forall x, SrcV5PubRec.PubRecReason_as_u8 x = SpecV5.pubrec_code x) /\
  (forall x, SrcV5PubRel.PubRelReason_as_u8 x = SpecV5.pubrel_code x) /\
  (forall x, SrcV5PubComp.PubCompReason_as_u8 x = SpecV5.pubcomp_code x) /\
  (forall x, SrcV5Subscribe.RetainForwardRule_as_u8 x = SpecV5.rule_num x) /\
  (forall x, SrcV5ConnAck.ConnectReturnCode_as_u8 x = SpecV5.connack_code x) /\
  (forall x, SrcV5SubAck.SubscribeReasonCode_as_u8 x = SpecV5.suback_code x) /\
  (forall x, SrcV5UnsubAck.UnsubAckReason_as_u8 x = SpecV5.unsuback_code x) /\
  (forall x, SrcV5Disconnect.DisconnectReasonCode_as_u8 x = SpecV5.disconnect_code x).
Proof. repeat split; intros []; reflexivity. Qed.

(** ** C45: constructors *)
Theorem C45_source_v4_new :
  (forall c b, SrcV4ConnAck.ConnAck_new c b = Ok (V4ConnAck.mkConnAck b c)) /\
  (forall id, SrcV4Connect.Connect_new id = Ok (V4Connect.mkConnect V4 10 id true None None)) /\
  (forall t m q r, SrcV4Connect.LastWill_new t m q r = Ok (V4Connect.mkLastWill t m q r)) /\
  (forall u p, SrcV4Connect.Login_new u p = Ok (V4Connect.mkLogin u p)) /\
  (forall id, SrcV4PubAck.PubAck_new id = Ok (V4PubAck.mkPubAck id)) /\
  (forall id, SrcV4PubRec.PubRec_new id = Ok (V4PubRec.mkPubRec id)) /\
  (forall id, SrcV4PubRel.PubRel_new id = Ok (V4PubRel.mkPubRel id)) /\
  (forall id, SrcV4PubComp.PubComp_new id = Ok (V4PubComp.mkPubComp id)) /\
  (forall t q p, SrcV4Publish.Publish_new t q p = Ok (V4Publish.mkPublish false q false t 0 p)) /\
  (forall t q p, SrcV4Publish.Publish_from_bytes t q p = Ok (V4Publish.mkPublish false q false t 0 p)) /\
  (forall id cs, SrcV4SubAck.SubAck_new id cs = Ok (V4SubAck.mkSubAck id cs)) /\
  (forall t q, SrcV4Subscribe.SubscribeFilter_new t q = Ok (V4Subscribe.mkSubscribeFilter t q)) /\
  (forall t q, SrcV4Subscribe.Subscribe_new t q = Ok (V4Subscribe.mkSubscribe 0 [V4Subscribe.mkSubscribeFilter t q])) /\
  (SrcV4Subscribe.Subscribe_new_many [] = Err EmptySubscription) /\
  (forall f fs, SrcV4Subscribe.Subscribe_new_many (f :: fs) = Ok (V4Subscribe.mkSubscribe 0 (f :: fs))) /\
  (forall id, SrcV4UnsubAck.UnsubAck_new id = Ok (V4UnsubAck.mkUnsubAck id)) /\
  (forall t, SrcV4Unsubscribe.Unsubscribe_new t = Ok (V4Unsubscribe.mkUnsubscribe 0 [t])).
Proof.
  repeat split.
Qed.
Theorem C45_source_v5_new :
  (forall c b, SrcV5ConnAck.ConnAck_new c b = Ok (V5ConnAck.mkConnAck b c None)) /\
  (forall id, SrcV5Connect.Connect_new id = Ok (V5Connect.mkConnect V5 10 id true None None None)) /\
  (forall t m q r, SrcV5Connect.LastWill_new t m q r = Ok (V5Connect.mkLastWill t m q r None)) /\
  (forall u p, SrcV5Connect.Login_new u p = Ok (V5Connect.mkLogin u p)) /\
  (forall id, SrcV5PubAck.PubAck_new id = Ok (V5PubAck.mkPubAck id V5PubAck.Success None)) /\
  (forall id, SrcV5PubRec.PubRec_new id = Ok (V5PubRec.mkPubRec id V5PubRec.Success None)) /\
  (forall id, SrcV5PubRel.PubRel_new id = Ok (V5PubRel.mkPubRel id V5PubRel.Success None)) /\
  (forall id, SrcV5PubComp.PubComp_new id = Ok (V5PubComp.mkPubComp id V5PubComp.Success None)) /\
  (forall t q p, SrcV5Publish.Publish_new t q p = Ok (V5Publish.mkPublish false q false t 0 None p)) /\
  (forall t q p, SrcV5Publish.Publish_from_bytes t q p = Ok (V5Publish.mkPublish false q false t 0 None p)) /\
  (forall id cs, SrcV5SubAck.SubAck_new id cs = Ok (V5SubAck.mkSubAck id cs None)) /\
  (forall t q, SrcV5Subscribe.SubscribeFilter_new t q = Ok (V5Subscribe.mkSubscribeFilter t q false false V5Subscribe.OnEverySubscribe)) /\
  (forall t q, SrcV5Subscribe.Subscribe_new t q =
     Ok (V5Subscribe.mkSubscribe 0 [V5Subscribe.mkSubscribeFilter t q false false V5Subscribe.OnEverySubscribe] None)) /\
  (forall fs, SrcV5Subscribe.Subscribe_new_many fs = Ok (V5Subscribe.mkSubscribe 0 fs None)) /\
  (SrcV5Subscribe.Subscribe_empty_subscribe = Ok (V5Subscribe.mkSubscribe 0 [] None)) /\
  (forall id, SrcV5UnsubAck.UnsubAck_new id = Ok (V5UnsubAck.mkUnsubAck id [] None)) /\
  (forall t, SrcV5Unsubscribe.Unsubscribe_new t = Ok (V5Unsubscribe.mkUnsubscribe 0 [t] None)) /\
  (SrcV5Disconnect.Disconnect_new = Ok (V5Disconnect.mkDisconnect V5Disconnect.NormalDisconnection None)) /\
  (SrcV5Disconnect.DisconnectProperties_new = Ok (V5Disconnect.mkDisconnectProperties None None [] None)) /\
  (SrcV5Connect.ConnectProperties__new = Ok (V5Connect.mkConnectProperties None None None None None None [] None None)) /\
  (SrcV5ConnAck.ConnAckProperties_new =
     Ok (V5ConnAck.mkConnAckProperties None None None None None None None None [] None None None None None None None None)).
Proof. repeat split. Qed.
(** setters and `add` change what they name and nothing else; `validate` compares both strings *)
Theorem C45_source_setters :
  (forall c u p, SrcV4Connect.Connect_set_login c u p =
     Ok (V4Connect.mkConnect (V4Connect.protocol c) (V4Connect.keep_alive c) (V4Connect.client_id c)
           (V4Connect.clean_session c) (V4Connect.last_will c) (Some (V4Connect.mkLogin u p)))) /\
  (forall c u p, SrcV5Connect.Connect_set_login c u p =
     Ok (V5Connect.mkConnect (V5Connect.protocol c) (V5Connect.keep_alive c) (V5Connect.client_id c)
           (V5Connect.clean_session c) (V5Connect.last_will c) (Some (V5Connect.mkLogin u p)) (V5Connect.properties c))) /\
  (forall id fs t q, SrcV4Subscribe.Subscribe_add (V4Subscribe.mkSubscribe id fs) t q =
     Ok (V4Subscribe.mkSubscribe id (fs ++ [V4Subscribe.mkSubscribeFilter t q]))) /\
  (forall id fs o t q, SrcV5Subscribe.Subscribe_add (V5Subscribe.mkSubscribe id fs o) t q =
     Ok (V5Subscribe.mkSubscribe id (fs ++ [V5Subscribe.mkSubscribeFilter t q false false V5Subscribe.OnEverySubscribe]) o)) /\
  (forall t q a b r x, SrcV5Subscribe.SubscribeFilter_set_nolocal (V5Subscribe.mkSubscribeFilter t q a b r) x =
     Ok (V5Subscribe.mkSubscribeFilter t q x b r)) /\
  (forall t q a b r x, SrcV5Subscribe.SubscribeFilter_set_preserve_retain (V5Subscribe.mkSubscribeFilter t q a b r) x =
     Ok (V5Subscribe.mkSubscribeFilter t q a x r)) /\
  (forall t q a b r x, SrcV5Subscribe.SubscribeFilter_set_retain_forward_rule (V5Subscribe.mkSubscribeFilter t q a b r) x =
     Ok (V5Subscribe.mkSubscribeFilter t q a b x)) /\
  (forall lu lp u p, SrcV4Connect.Login_validate (V4Connect.mkLogin lu lp) u p = Ok true <-> lu = u /\ lp = p) /\
  (forall l u p, exists b, SrcV4Connect.Login_validate l u p = Ok b).
Proof.
  repeat split.
  - apply (PropBuild.C45_v4_login_validate (V4Connect.mkLogin lu lp) u p). rewrite v4connect_login_validate in H. injection H as H. exact H.
  - apply (PropBuild.C45_v4_login_validate (V4Connect.mkLogin lu lp) u p). rewrite v4connect_login_validate in H. injection H as H. exact H.
  - intros [-> ->]. rewrite v4connect_login_validate. f_equal. apply PropBuild.C45_v4_login_validate. split; reflexivity.
  - intros l u p. eexists. apply v4connect_login_validate.
Qed.

(** ** C50: headers *)
Theorem C50_source_new : forall b ll rl, b < 256 -> ll < 2 ^ 64 -> rl < 2 ^ 64 ->
  (ll = 2 ^ 64 - 1 -> SrcLib.FixedHeader_new b ll rl = Panic) /\
  (ll < 2 ^ 64 - 1 -> exists h, SrcLib.FixedHeader_new b ll rl = Ok h /\
     (forall t, SrcLib.FixedHeader_packet_type h = Ok t <-> type_code t = b / 16) /\
     ((forall t, type_code t <> b / 16) -> SrcLib.FixedHeader_packet_type h = Err (InvalidPacketType (b / 16))) /\
     SrcLib.FixedHeader_frame_length h = if ll + 1 + rl <? 2 ^ 64 then Ok (ll + 1 + rl) else Panic).
Proof.
  intros b ll rl Hb Hl Hr. destruct (PropHeader.C50_new b ll rl Hb Hl Hr) as [H1 H2]. rewrite fixed_header_new_eq. split; [exact H1|].
  intros H. destruct (H2 H) as (h & E & A & B & C). exists h. rewrite packet_type_eq, frame_length_eq. auto.
Qed.

(** ** C51: decoders called directly *)
Lemma wrapped_v4 {A} (c : A -> V4Mod.Packet) o r : o = value r -> wrapped c o = V4Mod.wrap c r.
Proof. intros ->. destruct r as [[a s]| | |]; reflexivity. Qed.
Lemma wrapped_v5 {A} (c : A -> V5Mod.Packet) o r : o = value r -> wrapped c o = V5Mod.wrap c r.
Proof. intros ->. destruct r as [[a s]| | |]; reflexivity. Qed.
Lemma v4_direct_model t rd : In (t, rd) v4_direct -> exists rd', In (t, rd') v4_readers /\
  forall fuel h b, (List.length b < fuel)%nat -> blen b < 2 ^ 63 -> rd fuel h b = rd' h b.
Proof.
  intros H. unfold v4_direct in H. cbn [In] in H. unfold v4_readers. cbn [In].
  repeat (destruct H as [H|H]; [injection H as <- <-; eexists; split; [eauto 20|]; intros fuel h b Hf Hb; apply PropRelease.small_half in Hb; apply wrapped_v4|]); [..|contradiction].
  - apply v4_connect_read. - apply v4_connack_read. - apply v4_publish_read. - apply v4_puback_read.
  - apply v4_pubrec_read. - apply v4_pubrel_read. - apply v4_pubcomp_read. - apply v4_subscribe_read; assumption.
  - apply v4_suback_read; assumption. - apply v4_unsubscribe_read; assumption. - apply v4_unsuback_read.
Qed.
Lemma v5_direct_model t rd : In (t, rd) v5_direct -> exists rd', In (t, rd') v5_readers /\
  forall fuel h b, (List.length b < fuel)%nat -> blen b < 2 ^ 63 -> rd fuel h b = rd' h b.
Proof.
  intros H. unfold v5_direct in H. cbn [In] in H. unfold v5_readers. cbn [In].
  repeat (destruct H as [H|H]; [injection H as <- <-; eexists; split; [eauto 20|]; intros fuel h b Hf Hb; apply PropRelease.small_half in Hb; apply wrapped_v5|]); [..|contradiction].
  - apply v5_connect_read; assumption. - apply v5_connack_read; assumption. - apply v5_publish_read; assumption.
  - apply v5_puback_read; assumption. - apply v5_pubrec_read; assumption. - apply v5_pubrel_read; assumption.
  - apply v5_pubcomp_read; assumption. - apply v5_subscribe_read; assumption.
  - apply v5_suback_read; assumption. - apply v5_unsubscribe_read; assumption. - apply v5_unsuback_read; assumption.
  - apply v5_disconnect_read; assumption.
Qed.

(** called with a header that fits the bytes a decoder answers what `read` answers for the frame *)
Theorem C51_source_v4_agrees : forall t rd, In (t, rd) v4_direct -> forall b hdr bd max,
  b < 256 -> bytes_ok bd -> bd <> [] -> blen bd <= max_len -> blen bd <= max ->
  forall fuel fuel', (List.length (hdr ++ bd) < fuel)%nat -> blen (hdr ++ bd) < 2 ^ 62 -> (List.length (frame_with t (b mod 16) bd) < fuel')%nat ->
  SrcV4Mod.read fuel' max (frame_with t (b mod 16) bd) = (rd fuel (mkFixedHeader b (blen hdr) (blen bd)) (hdr ++ bd), []).
Proof.
  intros t rd Hin b hdr bd max Hb Hok Hne Hm Hmax fuel fuel' Hf Hl Hf'. destruct (v4_direct_model t rd Hin) as (rd' & Hin' & E).
  rewrite E by (assumption || lia). rewrite PropSource.v4_read_src; [apply PropDirect.C51_v4_agrees; assumption|exact Hf'|].
  unfold frame_with. rewrite blen_cons, blen_app. pose proof (ProofLib.varint_len_bound (blen bd)). rewrite blen_app in Hl. lia.
Qed.
Theorem C51_source_v5_agrees : forall t rd, In (t, rd) v5_direct -> forall b hdr bd max,
  b < 256 -> bytes_ok bd -> bd <> [] -> blen bd <= max_len -> blen bd <= max ->
  (t = PT_Disconnect -> b / 16 = 14) ->
  forall fuel fuel', (List.length (hdr ++ bd) < fuel)%nat -> blen (hdr ++ bd) < 2 ^ 62 -> (List.length (frame_with t (b mod 16) bd) < fuel')%nat ->
  SrcV5Mod.read fuel' max (frame_with t (b mod 16) bd) = (rd fuel (mkFixedHeader b (blen hdr) (blen bd)) (hdr ++ bd), []).
Proof.
  intros t rd Hin b hdr bd max Hb Hok Hne Hm Hmax Hd fuel fuel' Hf Hl Hf'. destruct (v5_direct_model t rd Hin) as (rd' & Hin' & E).
  rewrite E by (assumption || lia). rewrite PropSource.v5_read_src; [apply PropDirect.C51_v5_agrees; assumption|exact Hf'|].
  unfold frame_with. rewrite blen_cons, blen_app. pose proof (ProofLib.varint_len_bound (blen bd)). rewrite blen_app in Hl. lia.
Qed.
(** whatever the header says, if the buffer holds the header's bytes there is a packet or an error
    (v4 UNSUBSCRIBE excepted, see C51_source_v4_unsubscribe) *)
Theorem C51_source_total : forall fuel b l rl bs, b < 256 -> bytes_ok bs -> blen bs < 2 ^ 62 -> l <= blen bs -> (List.length bs < fuel)%nat ->
  (forall t rd, In (t, rd) v4_direct -> t <> PT_Unsubscribe ->
     (exists p, rd fuel (mkFixedHeader b l rl) bs = Ok p) \/ (exists e, rd fuel (mkFixedHeader b l rl) bs = Err e)) /\
  (forall t rd, In (t, rd) v5_direct ->
     (exists p, rd fuel (mkFixedHeader b l rl) bs = Ok p) \/ (exists e, rd fuel (mkFixedHeader b l rl) bs = Err e)).
Proof.
  intros fuel b l rl bs Hb Hok Hs Hl Hf. split.
  - intros t rd Hin Hu. destruct (v4_direct_model t rd Hin) as (rd' & Hin' & E). rewrite E by (assumption || lia).
    pose proof (PropDirect.C51_v4_total t rd' Hin' Hu b l rl bs Hb Hok Hl) as H. destruct (rd' _ bs); eauto; contradiction.
  - intros t rd Hin. destruct (v5_direct_model t rd Hin) as (rd' & Hin' & E). rewrite E by (assumption || lia).
    pose proof (PropDirect.C51_v5_total t rd' Hin' b l rl bs Hb Hok Hs Hl) as H. destruct (rd' _ bs); eauto; contradiction.
Qed.
Theorem C51_source_v4_unsubscribe : forall fuel b hdr rl bd r, bytes_ok bd ->
  (List.length (hdr ++ bd) < fuel)%nat -> blen (hdr ++ bd) < 2 ^ 63 ->
  (unsubscribe_answer rl bd r <->
   wrapped V4Mod.Unsubscribe (SrcV4Unsubscribe.Unsubscribe_read fuel (mkFixedHeader b (blen hdr) rl) (hdr ++ bd)) = r).
Proof.
  intros fuel b hdr rl bd r Hb Hf Hs.
  rewrite (wrapped_v4 _ _ _ (v4_unsubscribe_read fuel _ _ Hf (PropRelease.small_half _ Hs))). apply PropDirect.C51_v4_unsubscribe, Hb.
Qed.
Theorem C51_source_short : forall fuel b l rl bs, b < 256 -> blen bs < 2 ^ 63 -> blen bs < l -> (List.length bs < fuel)%nat ->
  (forall t rd, In (t, rd) v4_direct -> rd fuel (mkFixedHeader b l rl) bs =
    match t with
    | PT_Publish => if qos_bits b =? 3 then Err (InvalidQoS 3) else Panic
    | PT_UnsubAck => if rl =? 2 then Panic else Err PayloadSizeIncorrect
    | _ => Panic
    end) /\
  (forall t rd, In (t, rd) v5_direct -> rd fuel (mkFixedHeader b l rl) bs =
    match t with
    | PT_Publish => if qos_bits b =? 3 then Err (InvalidQoS 3) else Panic
    | _ => Panic
    end).
Proof.
  intros fuel b l rl bs Hb Hs Hl Hf. split; intros t rd Hin.
  - destruct (v4_direct_model t rd Hin) as (rd' & Hin' & E). rewrite E by (assumption || lia). apply PropDirect.C51_v4_short; assumption.
  - destruct (v5_direct_model t rd Hin) as (rd' & Hin' & E). rewrite E by (assumption || lia). apply PropDirect.C51_v5_short; assumption.
Qed.

(** cases *)
Example C51_source_case :
  wrapped V4Mod.PubAck (SrcV4PubAck.PubAck_read (mkFixedHeader 0x40 2 2) [9; 9; 0; 7]) = Ok (V4Mod.PubAck (V4PubAck.mkPubAck 7)) /\
  SrcV4Mod.read 10 100 (frame_with PT_PubAck 0 [0; 7]) = (Ok (V4Mod.PubAck (V4PubAck.mkPubAck 7)), []) /\
  SrcV4Unsubscribe.Unsubscribe_read 20 (mkFixedHeader 0xA2 0 3) [0; 1; 0; 1; 97] = Panic /\
  SrcV5Connect.Connect_read 20 (mkFixedHeader 0x10 5 0) [1; 2] = Panic.
Proof. vm_compute. auto. Qed.
Example C50_source_case :
  SrcLib.FixedHeader_new 0x30 1 20 = Ok (mkFixedHeader 0x30 2 20) /\ SrcLib.FixedHeader_frame_length (mkFixedHeader 0x30 2 20) = Ok 22 /\
  SrcLib.FixedHeader_packet_type (mkFixedHeader 0xF0 2 20) = Err (InvalidPacketType 15).
Proof. vm_compute. auto. Qed.
Print Assumptions C35_source_decode.
Print Assumptions C35_source_numbers.
Print Assumptions C45_source_v4_new.
Print Assumptions C45_source_v5_new.
Print Assumptions C45_source_setters.
Print Assumptions C50_source_new.
Print Assumptions C51_source_v4_agrees.
Print Assumptions C51_source_v5_agrees.
Print Assumptions C51_source_total.
Print Assumptions C51_source_v4_unsubscribe.
Print Assumptions C51_source_short.

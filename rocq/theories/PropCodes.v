(** PropCodes.v -- property theorems about the enumerations and their wire codes.
    `represents` and the tables are the specification of SpecCodes, SpecV4, SpecV5. *)
From Verif Require Import ProofBase Lib ProofLib SpecFrame ProofCheck ProofRead ProofBits SpecCodes.
From Verif Require SpecProps SpecV4 SpecV5 SpecErrorsV4 ProofErrorsV4 SpecErrorsV5 ProofErrorsV5 ProofV5Read ProofV4Read.

(** ** C35: codes *)
Lemma represents_intro {A} (code : A -> N) decode error :
  (forall a, code a < 256) -> (forall a, decode (code a) = Ok a) ->
  (forall n, (exists a, n = code a) \/ decode n = Err (error n)) -> represents code decode error.
Proof.
  intros H0 H1 H2. split; [exact H0|]. split; [|split; [exact H1|]].
  - intros a b E. assert (E' := H1 a). rewrite E, H1 in E'. congruence.
  - intros n Hn. destruct (H2 n) as [[a Ha]|H]; [destruct (Hn a Ha)|exact H].
Qed.
Lemma of_table {C} (f : N -> outcome C) num err : (forall c, num c < 256) -> (forall c, f (num c) = Ok c) ->
  (forall n, ProofV5Read.table_ok f num err n) -> represents num f err.
Proof.
  intros H0 H1 H2. apply represents_intro; auto. intros n. specialize (H2 n). unfold ProofV5Read.table_ok in H2.
  destruct (f n) as [c|e| |]; try contradiction; [left; eauto|]. destruct H2 as [-> _]. auto.
Qed.
Ltac lt256 := intros a; destruct a; vm_compute; reflexivity.

Theorem C35_qos : represents qos_num qos InvalidQoS.
Proof.
  apply of_table; [lt256|intros []; reflexivity|]. apply ProofV5Read.code_table; [intros []; reflexivity|].
  intros n. destruct n as [|[[|[]|]|[|[]|]|]]; first [right; reflexivity|left; eexists; split; reflexivity].
Qed.
(** the type in the high nibble of a frame's first byte *)
Theorem C35_packet_type : forall low len, low < 16 ->
  represents type_code
    (fun t => packet_type (mkFixedHeader (16 * t + low) len 0)) InvalidPacketType.
Proof.
  intros low len Hl.
  assert (E : forall t, packet_type (mkFixedHeader (16 * t + low) len 0)
    = packet_type (mkFixedHeader (16 * t) len 0)).
  { intros t. unfold packet_type. cbn [byte1]. rewrite !N.shiftr_div_pow2. change (2 ^ 4) with 16.
    replace ((16 * t + low) / 16) with t by (clear - Hl; lia). replace (16 * t / 16) with t by (clear; lia). reflexivity. }
  apply represents_intro; [lt256|intros a; rewrite E; destruct a; reflexivity|].
  intros n. rewrite E. unfold packet_type. cbn [byte1]. rewrite !N.shiftr_div_pow2. change (2 ^ 4) with 16.
  replace (16 * n / 16) with n by (clear; lia).
  destruct n as [|p]; [right; reflexivity|].
  do 4 (try destruct p as [p|p|]);
    first [right; reflexivity | left;
      first [exists PT_Connect; reflexivity | exists PT_ConnAck; reflexivity | exists PT_Publish; reflexivity
        | exists PT_PubAck; reflexivity | exists PT_PubRec; reflexivity | exists PT_PubRel; reflexivity
        | exists PT_PubComp; reflexivity | exists PT_Subscribe; reflexivity | exists PT_SubAck; reflexivity
        | exists PT_Unsubscribe; reflexivity | exists PT_UnsubAck; reflexivity | exists PT_PingReq; reflexivity
        | exists PT_PingResp; reflexivity | exists PT_Disconnect; reflexivity]].
Qed.
Theorem C35_property : represents property_code V5Property.property InvalidPropertyType.
Proof.
  apply of_table; [lt256|intros []; reflexivity|]. apply ProofV5Read.code_table; [intros []; reflexivity|].
  intros n. destruct n as [|p]; [right; reflexivity|].
  do 6 (try destruct p as [p|p|]); first [right; reflexivity|left; eexists; split; reflexivity].
Qed.
Theorem C35_v4_tables :
  represents SpecV4.connack_code V4ConnAck.connect_return InvalidConnectReturnCode /\
  represents SpecV4.suback_code V4SubAck.try_from InvalidSubscribeReasonCode.
Proof.
  split; apply of_table; try solve [intros [[]|]; reflexivity]; try solve [intros []; reflexivity].
  - apply ProofV5Read.code_table; [intros []; reflexivity|].
    intros n. destruct n as [|p]; [left; eexists; split; reflexivity|].
    do 3 (try destruct p as [p|p|]); first [right; reflexivity|left; eexists; split; reflexivity].
  - apply ProofV5Read.code_table; [intros [[]|]; reflexivity|].
    intros n. destruct n as [|p]; [left; eexists; split; reflexivity|].
    do 8 (try destruct p as [p|p|]); first [right; reflexivity|left; eexists; split; reflexivity].
Qed.
Theorem C35_v5_tables :
  represents SpecV5.connack_code V5ConnAck.connect_return InvalidConnectReturnCode /\
  represents SpecV5.puback_code V5PubAck.reason_of InvalidConnectReturnCode /\
  represents SpecV5.pubrec_code V5PubRec.reason_of InvalidConnectReturnCode /\
  represents SpecV5.pubrel_code V5PubRel.reason_of InvalidConnectReturnCode /\
  represents SpecV5.pubcomp_code V5PubComp.reason_of InvalidConnectReturnCode /\
  represents SpecV5.suback_code V5SubAck.try_from InvalidSubscribeReasonCode /\
  represents SpecV5.unsuback_code V5UnsubAck.reason_of InvalidSubscribeReasonCode /\
  represents SpecV5.disconnect_code V5Disconnect.try_from InvalidConnectReturnCode /\
  represents SpecV5.rule_num V5Subscribe.rule_of InvalidRetainForwardRule.
Proof.
  repeat split; try solve [lt256]; try solve [intros []; reflexivity].
  all: try solve [intros a b; destruct a, b; first [reflexivity | discriminate]].
  all: intros n Hn.
  - generalize (ProofV5Read.connack_table n); unfold ProofV5Read.table_ok;
      destruct (V5ConnAck.connect_return n) as [c|e| |]; intros H; try contradiction; [destruct (Hn c H)|destruct H as [-> _]; reflexivity].
  - generalize (ProofV5Read.puback_table n); unfold ProofV5Read.table_ok;
      destruct (V5PubAck.reason_of n) as [c|e| |]; intros H; try contradiction; [destruct (Hn c H)|destruct H as [-> _]; reflexivity].
  - generalize (ProofV5Read.pubrec_table n); unfold ProofV5Read.table_ok;
      destruct (V5PubRec.reason_of n) as [c|e| |]; intros H; try contradiction; [destruct (Hn c H)|destruct H as [-> _]; reflexivity].
  - generalize (ProofV5Read.pubrel_table n); unfold ProofV5Read.table_ok;
      destruct (V5PubRel.reason_of n) as [c|e| |]; intros H; try contradiction; [destruct (Hn c H)|destruct H as [-> _]; reflexivity].
  - generalize (ProofV5Read.pubcomp_table n); unfold ProofV5Read.table_ok;
      destruct (V5PubComp.reason_of n) as [c|e| |]; intros H; try contradiction; [destruct (Hn c H)|destruct H as [-> _]; reflexivity].
  - generalize (ProofV5Read.suback_table n); unfold ProofV5Read.table_ok;
      destruct (V5SubAck.try_from n) as [c|e| |]; intros H; try contradiction; [destruct (Hn c H)|destruct H as [-> _]; reflexivity].
  - generalize (ProofV5Read.unsuback_table n); unfold ProofV5Read.table_ok;
      destruct (V5UnsubAck.reason_of n) as [c|e| |]; intros H; try contradiction; [destruct (Hn c H)|destruct H as [-> _]; reflexivity].
  - generalize (ProofV5Read.disconnect_table n); unfold ProofV5Read.table_ok;
      destruct (V5Disconnect.try_from n) as [c|e| |]; intros H; try contradiction; [destruct (Hn c H)|destruct H as [-> _]; reflexivity].
  - generalize (ProofV5Read.rule_table n); unfold ProofV5Read.table_ok;
      destruct (V5Subscribe.rule_of n) as [c|e| |]; intros H; try contradiction; [destruct (Hn c H)|destruct H as [-> _]; reflexivity].
Qed.
(** the packet writers put the very same codes on the wire *)
Theorem C35_written_codes :
  (forall q, qos_u8 q = qos_num q) /\ (forall p, V5Property.property_u8 p = property_code p) /\
  (forall t, packet_type_u8 t = type_code t).
Proof. repeat split; intros []; reflexivity. Qed.

(** through `read`: frames with a code that does not exist, and the protocol level *)
Lemma in_frame_4 s b1 pre suf rest max e : bytes_ok s -> SpecErrorsV4.rejects b1 pre e -> pre ++ suf <> [] ->
  starts_with_frame s b1 (pre ++ suf) rest -> blen (pre ++ suf) <= max -> V4Mod.read s max = (Err e, rest).
Proof.
  intros Hb Hr Hne Hs Hm. apply ProofErrorsV4.read_fails_iff; [exact Hb|]. exists b1, (pre ++ suf).
  split; [exact Hs|]. split; [exact Hm|]. eapply SpecErrorsV4.f_value; [exact Hne|reflexivity|exact Hr].
Qed.
Lemma in_frame_5 s b1 pre suf rest max e : bytes_ok s -> SpecErrorsV5.rejects b1 pre e -> pre ++ suf <> [] ->
  starts_with_frame s b1 (pre ++ suf) rest -> blen (pre ++ suf) <= max -> V5Mod.read s max = (Err e, rest).
Proof.
  intros Hb Hr Hne Hs Hm. apply ProofErrorsV5.read_fails_iff; [exact Hb|]. exists b1, (pre ++ suf).
  split; [exact Hs|]. split; [exact Hm|]. eapply SpecErrorsV5.f_value; [exact Hne|reflexivity|exact Hr].
Qed.
Theorem C35_v4_bad_codes : forall s b1 bd rest max, bytes_ok s ->
  starts_with_frame s b1 bd rest -> blen bd <= max ->
  (forall flags n suf, b1 / 16 = 2 -> bd = flags :: n :: suf -> (forall c, n <> SpecV4.connack_code c) ->
     V4Mod.read s max = (Err (InvalidConnectReturnCode n), rest)) /\
  (forall id cs n suf, b1 / 16 = 9 -> bd = be16 id ++ map SpecV4.suback_code cs ++ n :: suf -> u16 id ->
     (forall c, n <> SpecV4.suback_code c) ->
     V4Mod.read s max = (Err (InvalidSubscribeReasonCode n), rest)) /\
  (forall n suf, b1 / 16 = 1 -> bd = field MQTT ++ n :: suf -> (forall p, n <> level p) ->
     V4Mod.read s max = (Err (InvalidProtocolLevel n), rest)).
Proof.
  intros s b1 bd rest max Hb Hs Hm. repeat split.
  - intros flags n suf H1 -> Hn. apply (in_frame_4 s b1 [flags; n] suf); auto; [|discriminate].
    constructor; [exact H1|]. destruct (N.lt_ge_cases 5 n) as [H|H]; [exact H|]. exfalso.
    assert (C : n = 0 \/ n = 1 \/ n = 2 \/ n = 3 \/ n = 4 \/ n = 5) by lia.
    destruct C as [->|[->|[->|[->|[->| ->]]]]];
      [apply (Hn V4ConnAck.Success)|apply (Hn V4ConnAck.RefusedProtocolVersion)|apply (Hn V4ConnAck.BadClientId)
      |apply (Hn V4ConnAck.ServiceUnavailable)|apply (Hn V4ConnAck.BadUserNamePassword)|apply (Hn V4ConnAck.NotAuthorized)]; reflexivity.
  - intros id cs n suf H1 -> Hid Hn.
    assert (E : be16 id ++ map SpecV4.suback_code cs ++ n :: suf = (be16 id ++ map SpecV4.suback_code cs ++ [n]) ++ suf)
      by (rewrite <- !app_assoc; reflexivity).
    rewrite E in *. eapply (in_frame_4 s b1 _ suf); [exact Hb| | |exact Hs|exact Hm]; [|discriminate].
    constructor; auto.
    + assert (A := Hn (V4SubAck.Success AtMostOnce)). assert (B := Hn (V4SubAck.Success AtLeastOnce)).
      assert (C := Hn (V4SubAck.Success ExactlyOnce)). cbn in A, B, C. lia.
    + exact (Hn V4SubAck.Failure).
  - intros n suf H1 -> Hn.
    change (field MQTT ++ n :: suf) with ((field MQTT ++ [n]) ++ suf) in *.
    eapply (in_frame_4 s b1 _ suf); [exact Hb| | |exact Hs|exact Hm]; [|discriminate].
    constructor; [exact H1|exact (Hn V4)|exact (Hn V5)].
Qed.
Theorem C35_v5_bad_codes : forall s b1 bd rest max, bytes_ok s ->
  starts_with_frame s b1 bd rest -> blen bd <= max ->
  (forall flags n suf, b1 / 16 = 2 -> bd = flags :: n :: suf -> (forall c, n <> SpecV5.connack_code c) ->
     V5Mod.read s max = (Err (InvalidConnectReturnCode n), rest)) /\
  (forall id n suf, bd = be16 id ++ n :: suf -> u16 id ->
     b1 / 16 = 4 /\ (forall c, n <> SpecV5.puback_code c) \/
     b1 / 16 = 5 /\ (forall c, n <> SpecV5.pubrec_code c) \/
     b1 / 16 = 6 /\ (forall c, n <> SpecV5.pubrel_code c) \/
     b1 / 16 = 7 /\ (forall c, n <> SpecV5.pubcomp_code c) ->
     V5Mod.read s max = (Err (InvalidConnectReturnCode n), rest)) /\
  (forall id cs n suf sec, b1 / 16 = 9 -> bd = be16 id ++ sec ++ map SpecV5.suback_code cs ++ n :: suf ->
     u16 id -> SpecErrorsV5.good_section SpecProps.InSubAck sec -> (forall c, n <> SpecV5.suback_code c) ->
     V5Mod.read s max = (Err (InvalidSubscribeReasonCode n), rest)) /\
  (forall id cs n suf sec, b1 / 16 = 11 -> bd = be16 id ++ sec ++ map SpecV5.unsuback_code cs ++ n :: suf ->
     u16 id -> SpecErrorsV5.good_section SpecProps.InUnsubAck sec -> (forall c, n <> SpecV5.unsuback_code c) ->
     V5Mod.read s max = (Err (InvalidSubscribeReasonCode n), rest)) /\
  (forall n suf, b1 = 0xE0 -> bd = n :: suf -> (forall c, n <> SpecV5.disconnect_code c) ->
     V5Mod.read s max = (Err (InvalidConnectReturnCode n), rest)) /\
  (forall n suf, b1 / 16 = 1 -> bd = field MQTT ++ n :: suf -> (forall p, n <> level p) ->
     V5Mod.read s max = (Err (InvalidProtocolLevel n), rest)).
Proof.
  intros s b1 bd rest max Hb Hs Hm. repeat split.
  - intros flags n suf H1 -> Hn. apply (in_frame_5 s b1 [flags; n] suf); auto; [|discriminate].
    constructor; assumption.
  - intros id n suf -> Hid H.
    assert (E : be16 id ++ n :: suf = (be16 id ++ [n]) ++ suf) by (rewrite <- !app_assoc; reflexivity).
    rewrite E in *. eapply (in_frame_5 s b1 _ suf); [exact Hb| | |exact Hs|exact Hm]; [|discriminate].
    destruct H as [[H1 H]|[[H1 H]|[[H1 H]|[H1 H]]]];
      [apply SpecErrorsV5.rj_puback|apply SpecErrorsV5.rj_pubrec|apply SpecErrorsV5.rj_pubrel|apply SpecErrorsV5.rj_pubcomp]; assumption.
  - intros id cs n suf sec H1 -> Hid Hsec Hn.
    assert (E : be16 id ++ sec ++ map SpecV5.suback_code cs ++ n :: suf = (be16 id ++ sec ++ map SpecV5.suback_code cs ++ [n]) ++ suf)
      by (rewrite <- !app_assoc; reflexivity).
    rewrite E in *. eapply (in_frame_5 s b1 _ suf); [exact Hb| | |exact Hs|exact Hm]; [|discriminate]. constructor; assumption.
  - intros id cs n suf sec H1 -> Hid Hsec Hn.
    assert (E : be16 id ++ sec ++ map SpecV5.unsuback_code cs ++ n :: suf = (be16 id ++ sec ++ map SpecV5.unsuback_code cs ++ [n]) ++ suf)
      by (rewrite <- !app_assoc; reflexivity).
    rewrite E in *. eapply (in_frame_5 s b1 _ suf); [exact Hb| | |exact Hs|exact Hm]; [|discriminate]. constructor; assumption.
  - intros n suf H1 -> Hn. apply (in_frame_5 s b1 [n] suf); auto; [|discriminate].
    constructor; assumption.
  - intros n suf H1 -> Hn.
    change (field MQTT ++ n :: suf) with ((field MQTT ++ [n]) ++ suf) in *.
    eapply (in_frame_5 s b1 _ suf); [exact Hb| | |exact Hs|exact Hm]; [|discriminate].
    constructor; [exact H1|exact (Hn V4)|exact (Hn V5)].
Qed.
(** 0x8B is a DISCONNECT reason but not a CONNACK one *)
Example C35_v5_case :
  SpecV5.disconnect_code V5Disconnect.ServerShuttingDown = 0x8B /\
  V5Disconnect.try_from 0x8B = Ok V5Disconnect.ServerShuttingDown /\
  V5Mod.read [0x20; 3; 0; 0x8B; 0; 0xC0; 0] 10 = (Err (InvalidConnectReturnCode 0x8B), [0xC0; 0]).
Proof. repeat split. Qed.
Example C35_v4_case :
  V4SubAck.try_from 0x80 = Ok V4SubAck.Failure /\
  V4Mod.read [0x90; 4; 0; 1; 2; 0x81] 10 = (Err (InvalidSubscribeReasonCode 0x81), []).
Proof. repeat split. Qed.

Print Assumptions C35_qos.
Print Assumptions C35_packet_type.
Print Assumptions C35_property.
Print Assumptions C35_v4_tables.
Print Assumptions C35_v5_tables.
Print Assumptions C35_written_codes.
Print Assumptions C35_v4_bad_codes.
Print Assumptions C35_v5_bad_codes.

(** ProofPortV5Write.v -- the translated `write` methods on an arbitrary target are the model's, for every message whose length fits in a `usize` of the target. *)
From Verif Require Import ProofSrcTacW ProofPortBase ProofPortTac ProofPortTacW ProofPortLen.
From Verif Require PortBase.
From Verif Require V5ConnAck PortV5ConnAck V5Connect PortV5Connect V5Disconnect PortV5Disconnect V5PubAck PortV5PubAck V5PubComp PortV5PubComp V5PubRec PortV5PubRec V5PubRel PortV5PubRel V5Publish PortV5Publish V5SubAck PortV5SubAck V5Subscribe PortV5Subscribe V5UnsubAck PortV5UnsubAck V5Unsubscribe PortV5Unsubscribe V5Ping PortV5Ping.

Ltac sub H f := cbv beta zeta delta [f] in H;
  repeat match goal with E : _ = _ :> option _ |- _ => rewrite E in H; clear E end;
  cbn [is_none] in H; rewrite ?andb_false_r in H; cbv iota in H; unfold V5Property.add_props_len in H;
  repeat match type of H with context [match ?o with _ => _ end] => destruct o end; lia.
Lemma p_v5connack_code {T : Target} {WT : Wide} r : PortV5ConnAck.ConnectReturnCode_as_u8 r = V5ConnAck.code_u8 r.
Proof. destruct r; reflexivity. Qed.
Lemma p_v5connack_props_write {T : Target} {WT : Wide} fuel p b : (5 <= fuel)%nat -> V5ConnAck.props_len p < 2 ^ bits -> PortV5ConnAck.ConnAckProperties_write fuel p b = V5ConnAck.props_write p b.
Proof.
  intros Hf H. cbv beta zeta delta [V5ConnAck.props_write PortV5ConnAck.ConnAckProperties_write]. rewrite ?p_qos_src.
  pw1 ltac:(plens p_v5connack_props_len) ltac:((rewrite p_v5connack_code; reflexivity)).
Qed.
Lemma p_v5connack_write {T : Target} {WT : Wide} fuel p b : (5 <= fuel)%nat -> V5ConnAck.len p < 2 ^ bits -> PortV5ConnAck.ConnAck_write fuel p b = V5ConnAck.write p b.
Proof.
  intros Hf H. cbv beta zeta delta [V5ConnAck.write PortV5ConnAck.ConnAck_write]. rewrite ?p_qos_src.
  pw1 ltac:(plens p_v5connack_len) ltac:(first [(apply p_v5connack_props_write; assumption) | (apply p_v5connack_props_write; [assumption|sub H V5ConnAck.len]) | (rewrite p_v5connack_code; reflexivity)]).
Qed.
Lemma p_v5connect_cp_props_write {T : Target} {WT : Wide} fuel p b : (5 <= fuel)%nat -> V5Connect.cp_props_len p < 2 ^ bits -> PortV5Connect.ConnectProperties_write fuel p b = V5Connect.cp_props_write p b.
Proof.
  intros Hf H. cbv beta zeta delta [V5Connect.cp_props_write PortV5Connect.ConnectProperties_write]. rewrite ?p_qos_src.
  pw1 ltac:(plens p_v5connect_cp_props_len) ltac:(fail).
Qed.
Lemma p_v5connect_wp_props_write {T : Target} {WT : Wide} fuel p b : (5 <= fuel)%nat -> V5Connect.wp_props_len p < 2 ^ bits -> PortV5Connect.WillProperties_write fuel p b = V5Connect.wp_props_write p b.
Proof.
  intros Hf H. cbv beta zeta delta [V5Connect.wp_props_write PortV5Connect.WillProperties_write]. rewrite ?p_qos_src.
  pw1 ltac:(plens p_v5connect_wp_props_len) ltac:(first [(apply p_v5connect_cp_props_write; assumption) | (apply p_v5connect_cp_props_write; [assumption|sub H V5Connect.wp_props_len])]).
Qed.
Lemma p_v5connect_lw_write {T : Target} {WT : Wide} fuel p b : (5 <= fuel)%nat -> V5Connect.lw_len p < 2 ^ bits -> PortV5Connect.LastWill_write fuel p b = V5Connect.lw_write p b.
Proof.
  intros Hf H. cbv beta zeta delta [V5Connect.lw_write PortV5Connect.LastWill_write]. rewrite ?p_qos_src.
  pw1 ltac:(plens p_v5connect_lw_len) ltac:(first [(apply p_v5connect_cp_props_write; assumption) | (apply p_v5connect_wp_props_write; assumption) | (apply p_v5connect_cp_props_write; [assumption|sub H V5Connect.lw_len]) | (apply p_v5connect_wp_props_write; [assumption|sub H V5Connect.lw_len])]).
Qed.
Lemma p_v5connect_login_write {T : Target} {WT : Wide} p b : PortV5Connect.Login_write p b = V5Connect.login_write p b.
Proof.
   cbv beta zeta delta [V5Connect.login_write PortV5Connect.Login_write]. rewrite ?p_qos_src.
  pw1 ltac:(fail) ltac:(fail).
Qed.
Lemma p_v5connect_write {T : Target} {WT : Wide} fuel p b : (5 <= fuel)%nat -> V5Connect.len p < 2 ^ bits -> PortV5Connect.Connect_write fuel p b = V5Connect.write p b.
Proof.
  intros Hf H. cbv beta zeta delta [V5Connect.write PortV5Connect.Connect_write V5Connect.mqtt_name]. rewrite ?p_qos_src.
  pw1 ltac:(plens p_v5connect_len) ltac:(first [(apply p_v5connect_cp_props_write; assumption) | (apply p_v5connect_wp_props_write; assumption) | (apply p_v5connect_lw_write; assumption) | (apply p_v5connect_login_write; assumption) | (apply p_v5connect_cp_props_write; [assumption|sub H V5Connect.len]) | (apply p_v5connect_wp_props_write; [assumption|sub H V5Connect.len]) | (apply p_v5connect_lw_write; [assumption|sub H V5Connect.len])]).
Qed.
Lemma p_v5disconnect_code {T : Target} {WT : Wide} r : PortV5Disconnect.DisconnectReasonCode_as_u8 r = V5Disconnect.code_u8 r.
Proof. destruct r; reflexivity. Qed.
Lemma p_v5disconnect_props_write {T : Target} {WT : Wide} fuel p b : (5 <= fuel)%nat -> V5Disconnect.props_len p < 2 ^ bits -> PortV5Disconnect.DisconnectProperties_write fuel p b = V5Disconnect.props_write p b.
Proof.
  intros Hf H. cbv beta zeta delta [V5Disconnect.props_write PortV5Disconnect.DisconnectProperties_write]. rewrite ?p_qos_src.
  pw1 ltac:(plens p_v5disconnect_props_len) ltac:((rewrite p_v5disconnect_code; reflexivity)).
Qed.
Lemma p_v5disconnect_write {T : Target} {WT : Wide} fuel p b : (5 <= fuel)%nat -> V5Disconnect.len p < 2 ^ bits -> PortV5Disconnect.Disconnect_write fuel p b = V5Disconnect.write p b.
Proof.
  intros Hf H. cbv beta zeta delta [V5Disconnect.write PortV5Disconnect.Disconnect_write]. rewrite ?p_qos_src.
  pw1 ltac:(plens p_v5disconnect_len) ltac:(first [(apply p_v5disconnect_props_write; assumption) | (apply p_v5disconnect_props_write; [assumption|sub H V5Disconnect.len]) | (rewrite p_v5disconnect_code; reflexivity)]).
Qed.
Lemma p_v5puback_code {T : Target} {WT : Wide} r : PortV5PubAck.PubAckReason_as_u8 r = V5PubAck.code_u8 r.
Proof. destruct r; reflexivity. Qed.
Lemma p_v5puback_props_write {T : Target} {WT : Wide} fuel p b : (5 <= fuel)%nat -> V5PubAck.props_len p < 2 ^ bits -> PortV5PubAck.PubAckProperties_write fuel p b = V5PubAck.props_write p b.
Proof.
  intros Hf H. cbv beta zeta delta [V5PubAck.props_write PortV5PubAck.PubAckProperties_write]. rewrite ?p_qos_src.
  pw1 ltac:(plens p_v5puback_props_len) ltac:((rewrite p_v5puback_code; reflexivity)).
Qed.
Lemma p_v5puback_write {T : Target} {WT : Wide} fuel p b : (5 <= fuel)%nat -> V5PubAck.len p < 2 ^ bits -> PortV5PubAck.PubAck_write fuel p b = V5PubAck.write p b.
Proof.
  intros Hf H. cbv beta zeta delta [V5PubAck.write PortV5PubAck.PubAck_write]. rewrite p_v5puback_success. rewrite ?p_qos_src.
  pw1 ltac:(plens p_v5puback_len) ltac:(first [(apply p_v5puback_props_write; assumption) | (apply p_v5puback_props_write; [assumption|sub H V5PubAck.len]) | (rewrite p_v5puback_code; reflexivity)]).
Qed.
Lemma p_v5pubcomp_code {T : Target} {WT : Wide} r : PortV5PubComp.PubCompReason_as_u8 r = V5PubComp.code_u8 r.
Proof. destruct r; reflexivity. Qed.
Lemma p_v5pubcomp_props_write {T : Target} {WT : Wide} fuel p b : (5 <= fuel)%nat -> V5PubComp.props_len p < 2 ^ bits -> PortV5PubComp.PubCompProperties_write fuel p b = V5PubComp.props_write p b.
Proof.
  intros Hf H. cbv beta zeta delta [V5PubComp.props_write PortV5PubComp.PubCompProperties_write]. rewrite ?p_qos_src.
  pw1 ltac:(plens p_v5pubcomp_props_len) ltac:((rewrite p_v5pubcomp_code; reflexivity)).
Qed.
Lemma p_v5pubcomp_write {T : Target} {WT : Wide} fuel p b : (5 <= fuel)%nat -> V5PubComp.len p < 2 ^ bits -> PortV5PubComp.PubComp_write fuel p b = V5PubComp.write p b.
Proof.
  intros Hf H. cbv beta zeta delta [V5PubComp.write PortV5PubComp.PubComp_write]. rewrite p_v5pubcomp_success. rewrite ?p_qos_src.
  pw1 ltac:(plens p_v5pubcomp_len) ltac:(first [(apply p_v5pubcomp_props_write; assumption) | (apply p_v5pubcomp_props_write; [assumption|sub H V5PubComp.len]) | (rewrite p_v5pubcomp_code; reflexivity)]).
Qed.
Lemma p_v5pubrec_code {T : Target} {WT : Wide} r : PortV5PubRec.PubRecReason_as_u8 r = V5PubRec.code_u8 r.
Proof. destruct r; reflexivity. Qed.
Lemma p_v5pubrec_props_write {T : Target} {WT : Wide} fuel p b : (5 <= fuel)%nat -> V5PubRec.props_len p < 2 ^ bits -> PortV5PubRec.PubRecProperties_write fuel p b = V5PubRec.props_write p b.
Proof.
  intros Hf H. cbv beta zeta delta [V5PubRec.props_write PortV5PubRec.PubRecProperties_write]. rewrite ?p_qos_src.
  pw1 ltac:(plens p_v5pubrec_props_len) ltac:((rewrite p_v5pubrec_code; reflexivity)).
Qed.
Lemma p_v5pubrec_write {T : Target} {WT : Wide} fuel p b : (5 <= fuel)%nat -> V5PubRec.len p < 2 ^ bits -> PortV5PubRec.PubRec_write fuel p b = V5PubRec.write p b.
Proof.
  intros Hf H. cbv beta zeta delta [V5PubRec.write PortV5PubRec.PubRec_write]. rewrite p_v5pubrec_success. rewrite ?p_qos_src.
  pw1 ltac:(plens p_v5pubrec_len) ltac:(first [(apply p_v5pubrec_props_write; assumption) | (apply p_v5pubrec_props_write; [assumption|sub H V5PubRec.len]) | (rewrite p_v5pubrec_code; reflexivity)]).
Qed.
Lemma p_v5pubrel_code {T : Target} {WT : Wide} r : PortV5PubRel.PubRelReason_as_u8 r = V5PubRel.code_u8 r.
Proof. destruct r; reflexivity. Qed.
Lemma p_v5pubrel_props_write {T : Target} {WT : Wide} fuel p b : (5 <= fuel)%nat -> V5PubRel.props_len p < 2 ^ bits -> PortV5PubRel.PubRelProperties_write fuel p b = V5PubRel.props_write p b.
Proof.
  intros Hf H. cbv beta zeta delta [V5PubRel.props_write PortV5PubRel.PubRelProperties_write]. rewrite ?p_qos_src.
  pw1 ltac:(plens p_v5pubrel_props_len) ltac:((rewrite p_v5pubrel_code; reflexivity)).
Qed.
Lemma p_v5pubrel_write {T : Target} {WT : Wide} fuel p b : (5 <= fuel)%nat -> V5PubRel.len p < 2 ^ bits -> PortV5PubRel.PubRel_write fuel p b = V5PubRel.write p b.
Proof.
  intros Hf H. cbv beta zeta delta [V5PubRel.write PortV5PubRel.PubRel_write]. rewrite p_v5pubrel_success. rewrite ?p_qos_src.
  pw1 ltac:(plens p_v5pubrel_len) ltac:(first [(apply p_v5pubrel_props_write; assumption) | (apply p_v5pubrel_props_write; [assumption|sub H V5PubRel.len]) | (rewrite p_v5pubrel_code; reflexivity)]).
Qed.
Lemma p_v5publish_props_write {T : Target} {WT : Wide} fuel p b : (5 <= fuel)%nat -> V5Publish.props_len p < 2 ^ bits -> PortV5Publish.PublishProperties_write fuel p b = V5Publish.props_write p b.
Proof.
  intros Hf H. cbv beta zeta delta [V5Publish.props_write PortV5Publish.PublishProperties_write]. rewrite ?p_qos_src.
  pw1 ltac:(plens p_v5publish_props_len) ltac:(fail).
Qed.
Lemma p_v5publish_write {T : Target} {WT : Wide} fuel p b : (5 <= fuel)%nat -> V5Publish.len p < 2 ^ bits -> PortV5Publish.Publish_write fuel p b = V5Publish.write p b.
Proof.
  intros Hf H. cbv beta zeta delta [V5Publish.write PortV5Publish.Publish_write]. rewrite p_qos_eqb. rewrite ?p_qos_src.
  pw1 ltac:(plens p_v5publish_len) ltac:(first [(apply p_v5publish_props_write; assumption) | (apply p_v5publish_props_write; [assumption|sub H V5Publish.len])]).
Qed.
Lemma p_v5suback_code {T : Target} {WT : Wide} r : PortV5SubAck.SubscribeReasonCode_as_u8 r = V5SubAck.code_u8 r.
Proof. destruct r; reflexivity. Qed.
Lemma p_v5suback_props_write {T : Target} {WT : Wide} fuel p b : (5 <= fuel)%nat -> V5SubAck.props_len p < 2 ^ bits -> PortV5SubAck.SubAckProperties_write fuel p b = V5SubAck.props_write p b.
Proof.
  intros Hf H. cbv beta zeta delta [V5SubAck.props_write PortV5SubAck.SubAckProperties_write]. rewrite ?p_qos_src.
  pw1 ltac:(plens p_v5suback_props_len) ltac:((rewrite p_v5suback_code; reflexivity)).
Qed.
Lemma p_v5suback_write {T : Target} {WT : Wide} fuel p b : (5 <= fuel)%nat -> V5SubAck.len p < 2 ^ bits -> PortV5SubAck.SubAck_write fuel p b = V5SubAck.write p b.
Proof.
  intros Hf H. cbv beta zeta delta [V5SubAck.write PortV5SubAck.SubAck_write]. rewrite ?p_qos_src.
  pw1 ltac:(first [plens p_v5suback_len | rewrite (bind_ok _ _ (map V5SubAck.code_u8 (V5SubAck.return_codes p))) by (apply map_eq; clear; intros c ?; destruct c; reflexivity)]) ltac:(first [(apply p_v5suback_props_write; assumption) | (apply p_v5suback_props_write; [assumption|sub H V5SubAck.len]) | (rewrite p_v5suback_code; reflexivity)]).
Qed.
Lemma p_v5subscribe_props_write {T : Target} {WT : Wide} fuel p b : (5 <= fuel)%nat -> V5Subscribe.props_len p < 2 ^ bits -> PortV5Subscribe.SubscribeProperties_write fuel p b = V5Subscribe.props_write p b.
Proof.
  intros Hf H. cbv beta zeta delta [V5Subscribe.props_write PortV5Subscribe.SubscribeProperties_write]. rewrite ?p_qos_src.
  pw1 ltac:(plens p_v5subscribe_props_len) ltac:(fail).
Qed.
Lemma p_v5subscribe_filter_write {T : Target} {WT : Wide} p b : PortV5Subscribe.SubscribeFilter_write p b = V5Subscribe.filter_write p b.
Proof.
   cbv beta zeta delta [V5Subscribe.filter_write PortV5Subscribe.SubscribeFilter_write]. rewrite ?p_qos_src.
  pw1 ltac:(fail) ltac:(fail).
Qed.
Lemma p_v5subscribe_write {T : Target} {WT : Wide} fuel p b : (5 <= fuel)%nat -> V5Subscribe.len p < 2 ^ bits -> PortV5Subscribe.Subscribe_write fuel p b = V5Subscribe.write p b.
Proof.
  intros Hf H. cbv beta zeta delta [V5Subscribe.write PortV5Subscribe.Subscribe_write]. rewrite ?p_qos_src.
  pw1 ltac:(plens p_v5subscribe_len) ltac:(first [(apply p_v5subscribe_props_write; assumption) | (apply p_v5subscribe_filter_write; assumption) | (apply p_v5subscribe_props_write; [assumption|sub H V5Subscribe.len])]).
Qed.
Lemma p_v5unsuback_code {T : Target} {WT : Wide} r : PortV5UnsubAck.UnsubAckReason_as_u8 r = V5UnsubAck.code_u8 r.
Proof. destruct r; reflexivity. Qed.
Lemma p_v5unsuback_props_write {T : Target} {WT : Wide} fuel p b : (5 <= fuel)%nat -> V5UnsubAck.props_len p < 2 ^ bits -> PortV5UnsubAck.UnsubAckProperties_write fuel p b = V5UnsubAck.props_write p b.
Proof.
  intros Hf H. cbv beta zeta delta [V5UnsubAck.props_write PortV5UnsubAck.UnsubAckProperties_write]. rewrite ?p_qos_src.
  pw1 ltac:(plens p_v5unsuback_props_len) ltac:((rewrite p_v5unsuback_code; reflexivity)).
Qed.
Lemma p_v5unsuback_write {T : Target} {WT : Wide} fuel p b : (5 <= fuel)%nat -> V5UnsubAck.len p < 2 ^ bits -> PortV5UnsubAck.UnsubAck_write fuel p b = V5UnsubAck.write p b.
Proof.
  intros Hf H. cbv beta zeta delta [V5UnsubAck.write PortV5UnsubAck.UnsubAck_write]. rewrite ?p_qos_src.
  pw1 ltac:(first [plens p_v5unsuback_len | rewrite (bind_ok _ _ (map V5UnsubAck.code_u8 (V5UnsubAck.reasons p))) by (apply map_eq; clear; intros c ?; destruct c; reflexivity)]) ltac:(first [(apply p_v5unsuback_props_write; assumption) | (apply p_v5unsuback_props_write; [assumption|sub H V5UnsubAck.len]) | (rewrite p_v5unsuback_code; reflexivity)]).
Qed.
Lemma p_v5unsubscribe_props_write {T : Target} {WT : Wide} fuel p b : (5 <= fuel)%nat -> V5Unsubscribe.props_len p < 2 ^ bits -> PortV5Unsubscribe.UnsubscribeProperties_write fuel p b = V5Unsubscribe.props_write p b.
Proof.
  intros Hf H. cbv beta zeta delta [V5Unsubscribe.props_write PortV5Unsubscribe.UnsubscribeProperties_write]. rewrite ?p_qos_src.
  pw1 ltac:(plens p_v5unsubscribe_props_len) ltac:(fail).
Qed.
Lemma p_v5unsubscribe_write {T : Target} {WT : Wide} fuel p b : (5 <= fuel)%nat -> V5Unsubscribe.len p < 2 ^ bits -> PortV5Unsubscribe.Unsubscribe_write fuel p b = V5Unsubscribe.write p b.
Proof.
  intros Hf H. cbv beta zeta delta [V5Unsubscribe.write PortV5Unsubscribe.Unsubscribe_write]. rewrite ?p_qos_src.
  pw1 ltac:(plens p_v5unsubscribe_len) ltac:(first [(apply p_v5unsubscribe_props_write; assumption) | (apply p_v5unsubscribe_props_write; [assumption|sub H V5Unsubscribe.len])]).
Qed.
Lemma p_v5ping_pingreq_write {T : Target} {WT : Wide} b : PortV5Ping.PingReq_write b = V5Ping.pingreq_write b.
Proof. reflexivity. Qed.
Lemma p_v5ping_pingresp_write {T : Target} {WT : Wide} b : PortV5Ping.PingResp_write b = V5Ping.pingresp_write b.
Proof. reflexivity. Qed.

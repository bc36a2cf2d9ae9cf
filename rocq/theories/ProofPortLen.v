(** ProofPortLen.v -- the `len` methods on an arbitrary target compute the model's lengths whenever they fit. *)
From Verif Require Import ProofSrcTacW ProofSrcLen ProofPortBase ProofPortTac.
From Verif Require PortBase PortV4Mod PortV5Mod.

From Verif Require V4ConnAck SrcV4ConnAck V4Connect SrcV4Connect V4PubAck SrcV4PubAck V4PubComp SrcV4PubComp V4PubRec SrcV4PubRec V4PubRel SrcV4PubRel V4Publish SrcV4Publish V4SubAck SrcV4SubAck V4Subscribe SrcV4Subscribe V5ConnAck SrcV5ConnAck V5Connect SrcV5Connect V5Disconnect SrcV5Disconnect V5PubAck SrcV5PubAck V5PubComp SrcV5PubComp V5PubRec SrcV5PubRec V5PubRel SrcV5PubRel V5Publish SrcV5Publish V5SubAck SrcV5SubAck V5Subscribe SrcV5Subscribe V5UnsubAck SrcV5UnsubAck V5Unsubscribe SrcV5Unsubscribe.

From Verif Require PortV4ConnAck PortV4Connect PortV4PubAck PortV4PubComp PortV4PubRec PortV4PubRel PortV4Publish PortV4SubAck PortV4Subscribe PortV5ConnAck PortV5Connect PortV5Disconnect PortV5PubAck PortV5PubComp PortV5PubRec PortV5PubRel PortV5Publish PortV5SubAck PortV5Subscribe PortV5UnsubAck PortV5Unsubscribe.

Lemma p_qos_eqb {T : Target} {WT : Wide} a b : (PortLib.QoS_as_u8 a =? PortLib.QoS_as_u8 b) = qos_eqb a b.
Proof. destruct a, b; reflexivity. Qed.
Lemma p_v4connack_len {T : Target} {WT : Wide} p : fit (PortV4ConnAck.ConnAck_len p) (V4ConnAck.len p).
Proof.
  cbv beta delta [V4ConnAck.len PortV4ConnAck.ConnAck_len].
  flen_tac ltac:(fail).
Qed.
Lemma p_v4connect_lw_len {T : Target} {WT : Wide} p : fit (PortV4Connect.LastWill_len p) (V4Connect.lw_len p).
Proof.
  cbv beta delta [V4Connect.lw_len PortV4Connect.LastWill_len].
  flen_tac ltac:(apply p_v4connack_len).
Qed.
Lemma p_v4connect_login_len {T : Target} {WT : Wide} p : fit (PortV4Connect.Login_len p) (V4Connect.login_len p).
Proof.
  cbv beta delta [V4Connect.login_len PortV4Connect.Login_len].
  flen_tac ltac:(apply p_v4connect_lw_len || apply p_v4connect_lw_len).
Qed.
Lemma p_v4connect_len {T : Target} {WT : Wide} p : fit (PortV4Connect.Connect_len p) (V4Connect.len p).
Proof.
  cbv beta delta [V4Connect.mqtt_name V4Connect.len PortV4Connect.Connect_len].
  flen_tac ltac:(apply p_v4connect_login_len || apply p_v4connect_lw_len || apply p_v4connect_login_len).
Qed.
Lemma p_v4puback_len {T : Target} {WT : Wide} p : fit (PortV4PubAck.PubAck_len p) (V4PubAck.len p).
Proof.
  cbv beta delta [V4PubAck.len PortV4PubAck.PubAck_len].
  flen_tac ltac:(apply p_v4connect_len).
Qed.
Lemma p_v4pubcomp_len {T : Target} {WT : Wide} p : fit (PortV4PubComp.PubComp_len p) (V4PubComp.len p).
Proof.
  cbv beta delta [V4PubComp.len PortV4PubComp.PubComp_len].
  flen_tac ltac:(apply p_v4puback_len).
Qed.
Lemma p_v4pubrec_len {T : Target} {WT : Wide} p : fit (PortV4PubRec.PubRec_len p) (V4PubRec.len p).
Proof.
  cbv beta delta [V4PubRec.len PortV4PubRec.PubRec_len].
  flen_tac ltac:(apply p_v4pubcomp_len).
Qed.
Lemma p_v4pubrel_len {T : Target} {WT : Wide} p : fit (PortV4PubRel.PubRel_len p) (V4PubRel.len p).
Proof.
  cbv beta delta [V4PubRel.len PortV4PubRel.PubRel_len].
  flen_tac ltac:(apply p_v4pubrec_len).
Qed.
Lemma p_v4publish_len {T : Target} {WT : Wide} p : fit (PortV4Publish.Publish_len p) (V4Publish.len p).
Proof.
  cbv beta delta [V4Publish.len PortV4Publish.Publish_len]. rewrite p_qos_eqb.
  flen_tac ltac:(apply p_v4pubrel_len).
Qed.
Lemma p_v4suback_len {T : Target} {WT : Wide} p : fit (PortV4SubAck.SubAck_len p) (V4SubAck.len p).
Proof.
  cbv beta delta [V4SubAck.len PortV4SubAck.SubAck_len].
  flen_tac ltac:(apply p_v4publish_len).
Qed.
Lemma p_v4subscribe_filter_len {T : Target} {WT : Wide} p : fit (PortV4Subscribe.SubscribeFilter_len p) (V4Subscribe.filter_len p).
Proof.
  cbv beta delta [V4Subscribe.filter_len PortV4Subscribe.SubscribeFilter_len].
  flen_tac ltac:(apply p_v4suback_len).
Qed.
Lemma p_v4subscribe_len {T : Target} {WT : Wide} p : fit (PortV4Subscribe.Subscribe_len p) (V4Subscribe.len p).
Proof.
  cbv beta delta [V4Subscribe.len PortV4Subscribe.Subscribe_len].
  flen_tac ltac:(apply p_v4subscribe_filter_len || apply p_v4subscribe_filter_len).
Qed.
Lemma p_v5connack_props_len {T : Target} {WT : Wide} p : fit (PortV5ConnAck.ConnAckProperties_len p) (V5ConnAck.props_len p).
Proof.
  cbv beta delta [V5ConnAck.props_len PortV5ConnAck.ConnAckProperties_len].
  flen_tac ltac:(apply p_v4subscribe_len).
Qed.
Lemma p_v5connack_len {T : Target} {WT : Wide} p : fit (PortV5ConnAck.ConnAck_len p) (V5ConnAck.len p).
Proof.
  cbv beta delta [V5ConnAck.len PortV5ConnAck.ConnAck_len].
  flen_tac ltac:(apply p_v5connack_props_len || apply p_v5connack_props_len).
Qed.
Lemma p_v5connect_cp_props_len {T : Target} {WT : Wide} p : fit (PortV5Connect.ConnectProperties_len p) (V5Connect.cp_props_len p).
Proof.
  cbv beta delta [V5Connect.cp_props_len PortV5Connect.ConnectProperties_len].
  flen_tac ltac:(apply p_v5connack_len).
Qed.
Lemma p_v5connect_wp_props_len {T : Target} {WT : Wide} p : fit (PortV5Connect.WillProperties_len p) (V5Connect.wp_props_len p).
Proof.
  cbv beta delta [V5Connect.wp_props_len PortV5Connect.WillProperties_len].
  flen_tac ltac:(apply p_v5connect_cp_props_len || apply p_v5connect_cp_props_len).
Qed.
Lemma p_v5connect_lw_len {T : Target} {WT : Wide} p : fit (PortV5Connect.LastWill_len p) (V5Connect.lw_len p).
Proof.
  cbv beta delta [V5Connect.lw_len PortV5Connect.LastWill_len].
  flen_tac ltac:(apply p_v5connect_wp_props_len || apply p_v5connect_cp_props_len || apply p_v5connect_wp_props_len).
Qed.
Lemma p_v5connect_login_len {T : Target} {WT : Wide} p : fit (PortV5Connect.Login_len p) (V5Connect.login_len p).
Proof.
  cbv beta delta [V5Connect.login_len PortV5Connect.Login_len].
  flen_tac ltac:(apply p_v5connect_lw_len || apply p_v5connect_cp_props_len || apply p_v5connect_wp_props_len || apply p_v5connect_lw_len).
Qed.
Lemma p_v5connect_len {T : Target} {WT : Wide} p : fit (PortV5Connect.Connect_len p) (V5Connect.len p).
Proof.
  cbv beta delta [V5Connect.mqtt_name V5Connect.len PortV5Connect.Connect_len].
  flen_tac ltac:(apply p_v5connect_login_len || apply p_v5connect_cp_props_len || apply p_v5connect_wp_props_len || apply p_v5connect_lw_len || apply p_v5connect_login_len).
Qed.
Lemma p_v5disconnect_props_len {T : Target} {WT : Wide} p : fit (PortV5Disconnect.DisconnectProperties_len p) (V5Disconnect.props_len p).
Proof.
  cbv beta delta [V5Disconnect.props_len PortV5Disconnect.DisconnectProperties_len].
  flen_tac ltac:(apply p_v5connect_len).
Qed.
Lemma p_v5disconnect_normal {T : Target} {WT : Wide} r : (PortV5Disconnect.DisconnectReasonCode_as_u8 r =? PortV5Disconnect.DisconnectReasonCode_as_u8 V5Disconnect.NormalDisconnection) = V5Disconnect.reason_eqb r V5Disconnect.NormalDisconnection.
Proof. destruct r; reflexivity. Qed.
Lemma p_v5disconnect_len {T : Target} {WT : Wide} p : fit (PortV5Disconnect.Disconnect_len p) (V5Disconnect.len p).
Proof.
  cbv beta delta [V5Disconnect.len PortV5Disconnect.Disconnect_len]. rewrite ?p_v5disconnect_normal.
  flen_tac ltac:(apply p_v5disconnect_props_len || apply p_v5disconnect_props_len).
Qed.
Lemma p_v5puback_props_len {T : Target} {WT : Wide} p : fit (PortV5PubAck.PubAckProperties_len p) (V5PubAck.props_len p).
Proof.
  cbv beta delta [V5PubAck.props_len PortV5PubAck.PubAckProperties_len].
  flen_tac ltac:(apply p_v5disconnect_len).
Qed.
Lemma p_v5puback_success {T : Target} {WT : Wide} r : (PortV5PubAck.PubAckReason_as_u8 r =? PortV5PubAck.PubAckReason_as_u8 V5PubAck.Success) = V5PubAck.reason_eqb r V5PubAck.Success.
Proof. destruct r; reflexivity. Qed.
Lemma p_v5puback_len {T : Target} {WT : Wide} p : fit (PortV5PubAck.PubAck_len p) (V5PubAck.len p).
Proof.
  cbv beta delta [V5PubAck.len PortV5PubAck.PubAck_len]. rewrite ?p_v5puback_success.
  flen_tac ltac:(apply p_v5puback_props_len || apply p_v5puback_props_len).
Qed.
Lemma p_v5pubcomp_props_len {T : Target} {WT : Wide} p : fit (PortV5PubComp.PubCompProperties_len p) (V5PubComp.props_len p).
Proof.
  cbv beta delta [V5PubComp.props_len PortV5PubComp.PubCompProperties_len].
  flen_tac ltac:(apply p_v5puback_len).
Qed.
Lemma p_v5pubcomp_success {T : Target} {WT : Wide} r : (PortV5PubComp.PubCompReason_as_u8 r =? PortV5PubComp.PubCompReason_as_u8 V5PubComp.Success) = V5PubComp.reason_eqb r V5PubComp.Success.
Proof. destruct r; reflexivity. Qed.
Lemma p_v5pubcomp_len {T : Target} {WT : Wide} p : fit (PortV5PubComp.PubComp_len p) (V5PubComp.len p).
Proof.
  cbv beta delta [V5PubComp.len PortV5PubComp.PubComp_len]. rewrite ?p_v5pubcomp_success.
  flen_tac ltac:(apply p_v5pubcomp_props_len || apply p_v5pubcomp_props_len).
Qed.
Lemma p_v5pubrec_props_len {T : Target} {WT : Wide} p : fit (PortV5PubRec.PubRecProperties_len p) (V5PubRec.props_len p).
Proof.
  cbv beta delta [V5PubRec.props_len PortV5PubRec.PubRecProperties_len].
  flen_tac ltac:(apply p_v5pubcomp_len).
Qed.
Lemma p_v5pubrec_success {T : Target} {WT : Wide} r : (PortV5PubRec.PubRecReason_as_u8 r =? PortV5PubRec.PubRecReason_as_u8 V5PubRec.Success) = V5PubRec.reason_eqb r V5PubRec.Success.
Proof. destruct r; reflexivity. Qed.
Lemma p_v5pubrec_len {T : Target} {WT : Wide} p : fit (PortV5PubRec.PubRec_len p) (V5PubRec.len p).
Proof.
  cbv beta delta [V5PubRec.len PortV5PubRec.PubRec_len]. rewrite ?p_v5pubrec_success.
  flen_tac ltac:(apply p_v5pubrec_props_len || apply p_v5pubrec_props_len).
Qed.
Lemma p_v5pubrel_props_len {T : Target} {WT : Wide} p : fit (PortV5PubRel.PubRelProperties_len p) (V5PubRel.props_len p).
Proof.
  cbv beta delta [V5PubRel.props_len PortV5PubRel.PubRelProperties_len].
  flen_tac ltac:(apply p_v5pubrec_len).
Qed.
Lemma p_v5pubrel_success {T : Target} {WT : Wide} r : (PortV5PubRel.PubRelReason_as_u8 r =? PortV5PubRel.PubRelReason_as_u8 V5PubRel.Success) = V5PubRel.reason_eqb r V5PubRel.Success.
Proof. destruct r; reflexivity. Qed.
Lemma p_v5pubrel_len {T : Target} {WT : Wide} p : fit (PortV5PubRel.PubRel_len p) (V5PubRel.len p).
Proof.
  cbv beta delta [V5PubRel.len PortV5PubRel.PubRel_len]. rewrite ?p_v5pubrel_success.
  flen_tac ltac:(apply p_v5pubrel_props_len || apply p_v5pubrel_props_len).
Qed.
Lemma p_v5publish_props_len {T : Target} {WT : Wide} p : fit (PortV5Publish.PublishProperties_len p) (V5Publish.props_len p).
Proof.
  cbv beta delta [V5Publish.props_len PortV5Publish.PublishProperties_len].
  flen_tac ltac:(apply p_v5pubrel_len).
Qed.
Lemma p_v5publish_len {T : Target} {WT : Wide} p : fit (PortV5Publish.Publish_len p) (V5Publish.len p).
Proof.
  cbv beta delta [V5Publish.len PortV5Publish.Publish_len]. rewrite p_qos_eqb.
  flen_tac ltac:(apply p_v5publish_props_len || apply p_v5publish_props_len).
Qed.
Lemma p_v5suback_props_len {T : Target} {WT : Wide} p : fit (PortV5SubAck.SubAckProperties_len p) (V5SubAck.props_len p).
Proof.
  cbv beta delta [V5SubAck.props_len PortV5SubAck.SubAckProperties_len].
  flen_tac ltac:(apply p_v5publish_len).
Qed.
Lemma p_v5suback_len {T : Target} {WT : Wide} p : fit (PortV5SubAck.SubAck_len p) (V5SubAck.len p).
Proof.
  cbv beta delta [V5SubAck.len PortV5SubAck.SubAck_len].
  flen_tac ltac:(apply p_v5suback_props_len || apply p_v5suback_props_len).
Qed.
Lemma p_v5subscribe_filter_len {T : Target} {WT : Wide} p : fit (PortV5Subscribe.SubscribeFilter_len p) (V5Subscribe.filter_len p).
Proof.
  cbv beta delta [V5Subscribe.filter_len PortV5Subscribe.SubscribeFilter_len].
  flen_tac ltac:(apply p_v5suback_len).
Qed.
Lemma p_v5subscribe_props_len {T : Target} {WT : Wide} p : fit (PortV5Subscribe.SubscribeProperties_len p) (V5Subscribe.props_len p).
Proof.
  cbv beta delta [V5Subscribe.props_len PortV5Subscribe.SubscribeProperties_len].
  flen_tac ltac:(apply p_v5subscribe_filter_len || apply p_v5subscribe_filter_len).
Qed.
Lemma p_v5subscribe_len {T : Target} {WT : Wide} p : fit (PortV5Subscribe.Subscribe_len p) (V5Subscribe.len p).
Proof.
  cbv beta delta [V5Subscribe.len PortV5Subscribe.Subscribe_len].
  flen_tac ltac:(apply p_v5subscribe_props_len || apply p_v5subscribe_filter_len || apply p_v5subscribe_props_len).
Qed.
Lemma p_v5unsuback_props_len {T : Target} {WT : Wide} p : fit (PortV5UnsubAck.UnsubAckProperties_len p) (V5UnsubAck.props_len p).
Proof.
  cbv beta delta [V5UnsubAck.props_len PortV5UnsubAck.UnsubAckProperties_len].
  flen_tac ltac:(apply p_v5subscribe_len).
Qed.
Lemma p_v5unsuback_len {T : Target} {WT : Wide} p : fit (PortV5UnsubAck.UnsubAck_len p) (V5UnsubAck.len p).
Proof.
  cbv beta delta [V5UnsubAck.len PortV5UnsubAck.UnsubAck_len].
  flen_tac ltac:(apply p_v5unsuback_props_len || apply p_v5unsuback_props_len).
Qed.
Lemma p_v5unsubscribe_props_len {T : Target} {WT : Wide} p : fit (PortV5Unsubscribe.UnsubscribeProperties_len p) (V5Unsubscribe.props_len p).
Proof.
  cbv beta delta [V5Unsubscribe.props_len PortV5Unsubscribe.UnsubscribeProperties_len].
  flen_tac ltac:(apply p_v5unsuback_len).
Qed.
Lemma p_v5unsubscribe_len {T : Target} {WT : Wide} p : fit (PortV5Unsubscribe.Unsubscribe_len p) (V5Unsubscribe.len p).
Proof.
  cbv beta delta [V5Unsubscribe.len PortV5Unsubscribe.Unsubscribe_len].
  flen_tac ltac:(apply p_v5unsubscribe_props_len || apply p_v5unsubscribe_props_len).
Qed.

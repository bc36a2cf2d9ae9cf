(** ProofSrcLen.v -- the translated `len` methods compute the model's lengths: exactly when the total fits in a `usize`,
    and a panic (overflow) otherwise. *)
From Verif Require Import ProofSrcTacW.

From Verif Require V4ConnAck SrcV4ConnAck V4Connect SrcV4Connect V4PubAck SrcV4PubAck V4PubComp SrcV4PubComp V4PubRec SrcV4PubRec V4PubRel SrcV4PubRel V4Publish SrcV4Publish V4SubAck SrcV4SubAck V4Subscribe SrcV4Subscribe V5ConnAck SrcV5ConnAck V5Connect SrcV5Connect V5Disconnect SrcV5Disconnect V5PubAck SrcV5PubAck V5PubComp SrcV5PubComp V5PubRec SrcV5PubRec V5PubRel SrcV5PubRel V5Publish SrcV5Publish V5SubAck SrcV5SubAck V5Subscribe SrcV5Subscribe V5UnsubAck SrcV5UnsubAck V5Unsubscribe SrcV5Unsubscribe.

Lemma v4connack_len p : SrcV4ConnAck.ConnAck_len p = cap (V4ConnAck.len p).
Proof.
  cbv beta delta [V4ConnAck.len SrcV4ConnAck.ConnAck_len].
  len_tac ltac:(apply usize_add_cap).
Qed.
Lemma v4connect_lw_len p : SrcV4Connect.LastWill_len p = cap (V4Connect.lw_len p).
Proof.
  cbv beta delta [V4Connect.lw_len SrcV4Connect.LastWill_len].
  len_tac ltac:(apply v4connack_len).
Qed.
Lemma v4connect_login_len p : SrcV4Connect.Login_len p = cap (V4Connect.login_len p).
Proof.
  cbv beta delta [V4Connect.login_len SrcV4Connect.Login_len].
  len_tac ltac:(apply v4connect_lw_len || apply v4connect_lw_len).
Qed.
Lemma v4connect_len p : SrcV4Connect.Connect_len p = cap (V4Connect.len p).
Proof.
  cbv beta delta [V4Connect.mqtt_name V4Connect.len SrcV4Connect.Connect_len].
  len_tac ltac:(apply v4connect_login_len || apply v4connect_lw_len || apply v4connect_login_len).
Qed.
Lemma v4puback_len p : SrcV4PubAck.PubAck_len p = cap (V4PubAck.len p).
Proof.
  cbv beta delta [V4PubAck.len SrcV4PubAck.PubAck_len].
  len_tac ltac:(apply v4connect_len).
Qed.
Lemma v4pubcomp_len p : SrcV4PubComp.PubComp_len p = cap (V4PubComp.len p).
Proof.
  cbv beta delta [V4PubComp.len SrcV4PubComp.PubComp_len].
  len_tac ltac:(apply v4puback_len).
Qed.
Lemma v4pubrec_len p : SrcV4PubRec.PubRec_len p = cap (V4PubRec.len p).
Proof.
  cbv beta delta [V4PubRec.len SrcV4PubRec.PubRec_len].
  len_tac ltac:(apply v4pubcomp_len).
Qed.
Lemma v4pubrel_len p : SrcV4PubRel.PubRel_len p = cap (V4PubRel.len p).
Proof.
  cbv beta delta [V4PubRel.len SrcV4PubRel.PubRel_len].
  len_tac ltac:(apply v4pubrec_len).
Qed.
Lemma v4publish_len p : SrcV4Publish.Publish_len p = cap (V4Publish.len p).
Proof.
  cbv beta delta [V4Publish.len SrcV4Publish.Publish_len]. rewrite qos_eqb_src.
  len_tac ltac:(apply v4pubrel_len).
Qed.
Lemma v4suback_len p : SrcV4SubAck.SubAck_len p = cap (V4SubAck.len p).
Proof.
  cbv beta delta [V4SubAck.len SrcV4SubAck.SubAck_len].
  len_tac ltac:(apply v4publish_len).
Qed.
Lemma v4subscribe_filter_len p : SrcV4Subscribe.SubscribeFilter_len p = cap (V4Subscribe.filter_len p).
Proof.
  cbv beta delta [V4Subscribe.filter_len SrcV4Subscribe.SubscribeFilter_len].
  len_tac ltac:(apply v4suback_len).
Qed.
Lemma v4subscribe_len p : SrcV4Subscribe.Subscribe_len p = cap (V4Subscribe.len p).
Proof.
  cbv beta delta [V4Subscribe.len SrcV4Subscribe.Subscribe_len].
  len_tac ltac:(apply v4subscribe_filter_len || apply v4subscribe_filter_len).
Qed.
Lemma v5connack_props_len p : SrcV5ConnAck.ConnAckProperties_len p = cap (V5ConnAck.props_len p).
Proof.
  cbv beta delta [V5ConnAck.props_len SrcV5ConnAck.ConnAckProperties_len].
  len_tac ltac:(apply v4subscribe_len).
Qed.
Lemma v5connack_len p : SrcV5ConnAck.ConnAck_len p = cap (V5ConnAck.len p).
Proof.
  cbv beta delta [V5ConnAck.len SrcV5ConnAck.ConnAck_len].
  len_tac ltac:(apply v5connack_props_len || apply v5connack_props_len).
Qed.
Lemma v5connect_cp_props_len p : SrcV5Connect.ConnectProperties_len p = cap (V5Connect.cp_props_len p).
Proof.
  cbv beta delta [V5Connect.cp_props_len SrcV5Connect.ConnectProperties_len].
  len_tac ltac:(apply v5connack_len).
Qed.
Lemma v5connect_wp_props_len p : SrcV5Connect.WillProperties_len p = cap (V5Connect.wp_props_len p).
Proof.
  cbv beta delta [V5Connect.wp_props_len SrcV5Connect.WillProperties_len].
  len_tac ltac:(apply v5connect_cp_props_len || apply v5connect_cp_props_len).
Qed.
Lemma v5connect_lw_len p : SrcV5Connect.LastWill_len p = cap (V5Connect.lw_len p).
Proof.
  cbv beta delta [V5Connect.lw_len SrcV5Connect.LastWill_len].
  len_tac ltac:(apply v5connect_wp_props_len || apply v5connect_cp_props_len || apply v5connect_wp_props_len).
Qed.
Lemma v5connect_login_len p : SrcV5Connect.Login_len p = cap (V5Connect.login_len p).
Proof.
  cbv beta delta [V5Connect.login_len SrcV5Connect.Login_len].
  len_tac ltac:(apply v5connect_lw_len || apply v5connect_cp_props_len || apply v5connect_wp_props_len || apply v5connect_lw_len).
Qed.
Lemma v5connect_len p : SrcV5Connect.Connect_len p = cap (V5Connect.len p).
Proof.
  cbv beta delta [V5Connect.mqtt_name V5Connect.len SrcV5Connect.Connect_len].
  len_tac ltac:(apply v5connect_login_len || apply v5connect_cp_props_len || apply v5connect_wp_props_len || apply v5connect_lw_len || apply v5connect_login_len).
Qed.
Lemma v5disconnect_props_len p : SrcV5Disconnect.DisconnectProperties_len p = cap (V5Disconnect.props_len p).
Proof.
  cbv beta delta [V5Disconnect.props_len SrcV5Disconnect.DisconnectProperties_len].
  len_tac ltac:(apply v5connect_len).
Qed.
Lemma v5disconnect_normal r : (SrcV5Disconnect.DisconnectReasonCode_as_u8 r =? SrcV5Disconnect.DisconnectReasonCode_as_u8 V5Disconnect.NormalDisconnection) = V5Disconnect.reason_eqb r V5Disconnect.NormalDisconnection.
Proof. destruct r; reflexivity. Qed.
Lemma v5disconnect_len p : SrcV5Disconnect.Disconnect_len p = cap (V5Disconnect.len p).
Proof.
  cbv beta delta [V5Disconnect.len SrcV5Disconnect.Disconnect_len]. rewrite !v5disconnect_normal.
  len_tac ltac:(apply v5disconnect_props_len || apply v5disconnect_props_len).
Qed.
Lemma v5puback_props_len p : SrcV5PubAck.PubAckProperties_len p = cap (V5PubAck.props_len p).
Proof.
  cbv beta delta [V5PubAck.props_len SrcV5PubAck.PubAckProperties_len].
  len_tac ltac:(apply v5disconnect_len).
Qed.
Lemma v5puback_success r : (SrcV5PubAck.PubAckReason_as_u8 r =? SrcV5PubAck.PubAckReason_as_u8 V5PubAck.Success) = V5PubAck.reason_eqb r V5PubAck.Success.
Proof. destruct r; reflexivity. Qed.
Lemma v5puback_len p : SrcV5PubAck.PubAck_len p = cap (V5PubAck.len p).
Proof.
  cbv beta delta [V5PubAck.len SrcV5PubAck.PubAck_len]. rewrite v5puback_success.
  len_tac ltac:(apply v5puback_props_len || apply v5puback_props_len).
Qed.
Lemma v5pubcomp_props_len p : SrcV5PubComp.PubCompProperties_len p = cap (V5PubComp.props_len p).
Proof.
  cbv beta delta [V5PubComp.props_len SrcV5PubComp.PubCompProperties_len].
  len_tac ltac:(apply v5puback_len).
Qed.
Lemma v5pubcomp_success r : (SrcV5PubComp.PubCompReason_as_u8 r =? SrcV5PubComp.PubCompReason_as_u8 V5PubComp.Success) = V5PubComp.reason_eqb r V5PubComp.Success.
Proof. destruct r; reflexivity. Qed.
Lemma v5pubcomp_len p : SrcV5PubComp.PubComp_len p = cap (V5PubComp.len p).
Proof.
  cbv beta delta [V5PubComp.len SrcV5PubComp.PubComp_len]. rewrite v5pubcomp_success.
  len_tac ltac:(apply v5pubcomp_props_len || apply v5pubcomp_props_len).
Qed.
Lemma v5pubrec_props_len p : SrcV5PubRec.PubRecProperties_len p = cap (V5PubRec.props_len p).
Proof.
  cbv beta delta [V5PubRec.props_len SrcV5PubRec.PubRecProperties_len].
  len_tac ltac:(apply v5pubcomp_len).
Qed.
Lemma v5pubrec_success r : (SrcV5PubRec.PubRecReason_as_u8 r =? SrcV5PubRec.PubRecReason_as_u8 V5PubRec.Success) = V5PubRec.reason_eqb r V5PubRec.Success.
Proof. destruct r; reflexivity. Qed.
Lemma v5pubrec_len p : SrcV5PubRec.PubRec_len p = cap (V5PubRec.len p).
Proof.
  cbv beta delta [V5PubRec.len SrcV5PubRec.PubRec_len]. rewrite v5pubrec_success.
  len_tac ltac:(apply v5pubrec_props_len || apply v5pubrec_props_len).
Qed.
Lemma v5pubrel_props_len p : SrcV5PubRel.PubRelProperties_len p = cap (V5PubRel.props_len p).
Proof.
  cbv beta delta [V5PubRel.props_len SrcV5PubRel.PubRelProperties_len].
  len_tac ltac:(apply v5pubrec_len).
Qed.
Lemma v5pubrel_success r : (SrcV5PubRel.PubRelReason_as_u8 r =? SrcV5PubRel.PubRelReason_as_u8 V5PubRel.Success) = V5PubRel.reason_eqb r V5PubRel.Success.
Proof. destruct r; reflexivity. Qed.
Lemma v5pubrel_len p : SrcV5PubRel.PubRel_len p = cap (V5PubRel.len p).
Proof.
  cbv beta delta [V5PubRel.len SrcV5PubRel.PubRel_len]. rewrite v5pubrel_success.
  len_tac ltac:(apply v5pubrel_props_len || apply v5pubrel_props_len).
Qed.
Lemma v5publish_props_len p : SrcV5Publish.PublishProperties_len p = cap (V5Publish.props_len p).
Proof.
  cbv beta delta [V5Publish.props_len SrcV5Publish.PublishProperties_len].
  len_tac ltac:(apply v5pubrel_len).
Qed.
Lemma v5publish_len p : SrcV5Publish.Publish_len p = cap (V5Publish.len p).
Proof.
  cbv beta delta [V5Publish.len SrcV5Publish.Publish_len]. rewrite qos_eqb_src.
  len_tac ltac:(apply v5publish_props_len || apply v5publish_props_len).
Qed.
Lemma v5suback_props_len p : SrcV5SubAck.SubAckProperties_len p = cap (V5SubAck.props_len p).
Proof.
  cbv beta delta [V5SubAck.props_len SrcV5SubAck.SubAckProperties_len].
  len_tac ltac:(apply v5publish_len).
Qed.
Lemma v5suback_len p : SrcV5SubAck.SubAck_len p = cap (V5SubAck.len p).
Proof.
  cbv beta delta [V5SubAck.len SrcV5SubAck.SubAck_len].
  len_tac ltac:(apply v5suback_props_len || apply v5suback_props_len).
Qed.
Lemma v5subscribe_filter_len p : SrcV5Subscribe.SubscribeFilter_len p = cap (V5Subscribe.filter_len p).
Proof.
  cbv beta delta [V5Subscribe.filter_len SrcV5Subscribe.SubscribeFilter_len].
  len_tac ltac:(apply v5suback_len).
Qed.
Lemma v5subscribe_props_len p : SrcV5Subscribe.SubscribeProperties_len p = cap (V5Subscribe.props_len p).
Proof.
  cbv beta delta [V5Subscribe.props_len SrcV5Subscribe.SubscribeProperties_len].
  len_tac ltac:(apply v5subscribe_filter_len || apply v5subscribe_filter_len).
Qed.
Lemma v5subscribe_len p : SrcV5Subscribe.Subscribe_len p = cap (V5Subscribe.len p).
Proof.
  cbv beta delta [V5Subscribe.len SrcV5Subscribe.Subscribe_len].
  len_tac ltac:(apply v5subscribe_props_len || apply v5subscribe_filter_len || apply v5subscribe_props_len).
Qed.
Lemma v5unsuback_props_len p : SrcV5UnsubAck.UnsubAckProperties_len p = cap (V5UnsubAck.props_len p).
Proof.
  cbv beta delta [V5UnsubAck.props_len SrcV5UnsubAck.UnsubAckProperties_len].
  len_tac ltac:(apply v5subscribe_len).
Qed.
Lemma v5unsuback_len p : SrcV5UnsubAck.UnsubAck_len p = cap (V5UnsubAck.len p).
Proof.
  cbv beta delta [V5UnsubAck.len SrcV5UnsubAck.UnsubAck_len].
  len_tac ltac:(apply v5unsuback_props_len || apply v5unsuback_props_len).
Qed.
Lemma v5unsubscribe_props_len p : SrcV5Unsubscribe.UnsubscribeProperties_len p = cap (V5Unsubscribe.props_len p).
Proof.
  cbv beta delta [V5Unsubscribe.props_len SrcV5Unsubscribe.UnsubscribeProperties_len].
  len_tac ltac:(apply v5unsuback_len).
Qed.
Lemma v5unsubscribe_len p : SrcV5Unsubscribe.Unsubscribe_len p = cap (V5Unsubscribe.len p).
Proof.
  cbv beta delta [V5Unsubscribe.len SrcV5Unsubscribe.Unsubscribe_len].
  len_tac ltac:(apply v5unsubscribe_props_len || apply v5unsubscribe_props_len).
Qed.

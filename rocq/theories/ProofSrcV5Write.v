(** ProofSrcV5Write.v -- the translated MQTT 5 `write` methods are the model's, for every message whose length fits in a `usize`. *)
From Verif Require Import ProofSrcTacW ProofSrcLen.
From Verif Require V5ConnAck SrcV5ConnAck V5Connect SrcV5Connect V5Disconnect SrcV5Disconnect V5PubAck SrcV5PubAck V5PubComp SrcV5PubComp V5PubRec SrcV5PubRec V5PubRel SrcV5PubRel V5Publish SrcV5Publish V5SubAck SrcV5SubAck V5Subscribe SrcV5Subscribe V5UnsubAck SrcV5UnsubAck V5Unsubscribe SrcV5Unsubscribe V5Ping SrcV5Ping.

Ltac sub H f := cbv beta zeta delta [f] in H;
  repeat match goal with E : _ = _ :> option _ |- _ => rewrite E in H; clear E end;
  cbn [is_none] in H; rewrite ?andb_false_r in H; cbv iota in H; unfold V5Property.add_props_len in H;
  repeat match type of H with context [match ?o with _ => _ end] => destruct o end; lia.
Lemma v5connack_code r : SrcV5ConnAck.ConnectReturnCode_as_u8 r = V5ConnAck.code_u8 r.
Proof. destruct r; reflexivity. Qed.
Lemma v5connack_props_write fuel p b : (5 <= fuel)%nat -> V5ConnAck.props_len p <= usize_max -> SrcV5ConnAck.ConnAckProperties_write fuel p b = V5ConnAck.props_write p b.
Proof.
  intros Hf H. cbv beta zeta delta [V5ConnAck.props_write SrcV5ConnAck.ConnAckProperties_write]. rewrite ?qos_src.
  w1 ltac:(rewrite v5connack_props_len) ltac:((rewrite v5connack_code; reflexivity)).
Qed.
Lemma v5connack_write fuel p b : (5 <= fuel)%nat -> V5ConnAck.len p <= usize_max -> SrcV5ConnAck.ConnAck_write fuel p b = V5ConnAck.write p b.
Proof.
  intros Hf H. cbv beta zeta delta [V5ConnAck.write SrcV5ConnAck.ConnAck_write]. rewrite ?qos_src.
  w1 ltac:(rewrite v5connack_len) ltac:(first [(apply v5connack_props_write; assumption) | (apply v5connack_props_write; [assumption|sub H V5ConnAck.len]) | (rewrite v5connack_code; reflexivity)]).
Qed.
Lemma v5connect_cp_props_write fuel p b : (5 <= fuel)%nat -> V5Connect.cp_props_len p <= usize_max -> SrcV5Connect.ConnectProperties_write fuel p b = V5Connect.cp_props_write p b.
Proof.
  intros Hf H. cbv beta zeta delta [V5Connect.cp_props_write SrcV5Connect.ConnectProperties_write]. rewrite ?qos_src.
  w1 ltac:(rewrite v5connect_cp_props_len) ltac:(fail).
Qed.
Lemma v5connect_wp_props_write fuel p b : (5 <= fuel)%nat -> V5Connect.wp_props_len p <= usize_max -> SrcV5Connect.WillProperties_write fuel p b = V5Connect.wp_props_write p b.
Proof.
  intros Hf H. cbv beta zeta delta [V5Connect.wp_props_write SrcV5Connect.WillProperties_write]. rewrite ?qos_src.
  w1 ltac:(rewrite v5connect_wp_props_len) ltac:(first [(apply v5connect_cp_props_write; assumption) | (apply v5connect_cp_props_write; [assumption|sub H V5Connect.wp_props_len])]).
Qed.
Lemma v5connect_lw_write fuel p b : (5 <= fuel)%nat -> V5Connect.lw_len p <= usize_max -> SrcV5Connect.LastWill_write fuel p b = V5Connect.lw_write p b.
Proof.
  intros Hf H. cbv beta zeta delta [V5Connect.lw_write SrcV5Connect.LastWill_write]. rewrite ?qos_src.
  w1 ltac:(rewrite v5connect_lw_len) ltac:(first [(apply v5connect_cp_props_write; assumption) | (apply v5connect_wp_props_write; assumption) | (apply v5connect_cp_props_write; [assumption|sub H V5Connect.lw_len]) | (apply v5connect_wp_props_write; [assumption|sub H V5Connect.lw_len])]).
Qed.
Lemma v5connect_login_write p b : SrcV5Connect.Login_write p b = V5Connect.login_write p b.
Proof.
   cbv beta zeta delta [V5Connect.login_write SrcV5Connect.Login_write]. rewrite ?qos_src.
  w1 ltac:(fail) ltac:(fail).
Qed.
Lemma v5connect_write fuel p b : (5 <= fuel)%nat -> V5Connect.len p <= usize_max -> SrcV5Connect.Connect_write fuel p b = V5Connect.write p b.
Proof.
  intros Hf H. cbv beta zeta delta [V5Connect.write SrcV5Connect.Connect_write V5Connect.mqtt_name]. rewrite ?qos_src.
  w1 ltac:(rewrite v5connect_len) ltac:(first [(apply v5connect_cp_props_write; assumption) | (apply v5connect_wp_props_write; assumption) | (apply v5connect_lw_write; assumption) | (apply v5connect_login_write; assumption) | (apply v5connect_cp_props_write; [assumption|sub H V5Connect.len]) | (apply v5connect_wp_props_write; [assumption|sub H V5Connect.len]) | (apply v5connect_lw_write; [assumption|sub H V5Connect.len])]).
Qed.
Lemma v5disconnect_code r : SrcV5Disconnect.DisconnectReasonCode_as_u8 r = V5Disconnect.code_u8 r.
Proof. destruct r; reflexivity. Qed.
Lemma v5disconnect_props_write fuel p b : (5 <= fuel)%nat -> V5Disconnect.props_len p <= usize_max -> SrcV5Disconnect.DisconnectProperties_write fuel p b = V5Disconnect.props_write p b.
Proof.
  intros Hf H. cbv beta zeta delta [V5Disconnect.props_write SrcV5Disconnect.DisconnectProperties_write]. rewrite ?qos_src.
  w1 ltac:(rewrite v5disconnect_props_len) ltac:((rewrite v5disconnect_code; reflexivity)).
Qed.
Lemma v5disconnect_write fuel p b : (5 <= fuel)%nat -> V5Disconnect.len p <= usize_max -> SrcV5Disconnect.Disconnect_write fuel p b = V5Disconnect.write p b.
Proof.
  intros Hf H. cbv beta zeta delta [V5Disconnect.write SrcV5Disconnect.Disconnect_write]. rewrite ?qos_src.
  w1 ltac:(rewrite v5disconnect_len) ltac:(first [(apply v5disconnect_props_write; assumption) | (apply v5disconnect_props_write; [assumption|sub H V5Disconnect.len]) | (rewrite v5disconnect_code; reflexivity)]).
Qed.
Lemma v5puback_code r : SrcV5PubAck.PubAckReason_as_u8 r = V5PubAck.code_u8 r.
Proof. destruct r; reflexivity. Qed.
Lemma v5puback_props_write fuel p b : (5 <= fuel)%nat -> V5PubAck.props_len p <= usize_max -> SrcV5PubAck.PubAckProperties_write fuel p b = V5PubAck.props_write p b.
Proof.
  intros Hf H. cbv beta zeta delta [V5PubAck.props_write SrcV5PubAck.PubAckProperties_write]. rewrite ?qos_src.
  w1 ltac:(rewrite v5puback_props_len) ltac:((rewrite v5puback_code; reflexivity)).
Qed.
Lemma v5puback_write fuel p b : (5 <= fuel)%nat -> V5PubAck.len p <= usize_max -> SrcV5PubAck.PubAck_write fuel p b = V5PubAck.write p b.
Proof.
  intros Hf H. cbv beta zeta delta [V5PubAck.write SrcV5PubAck.PubAck_write]. rewrite v5puback_success. rewrite ?qos_src.
  w1 ltac:(rewrite v5puback_len) ltac:(first [(apply v5puback_props_write; assumption) | (apply v5puback_props_write; [assumption|sub H V5PubAck.len]) | (rewrite v5puback_code; reflexivity)]).
Qed.
Lemma v5pubcomp_code r : SrcV5PubComp.PubCompReason_as_u8 r = V5PubComp.code_u8 r.
Proof. destruct r; reflexivity. Qed.
Lemma v5pubcomp_props_write fuel p b : (5 <= fuel)%nat -> V5PubComp.props_len p <= usize_max -> SrcV5PubComp.PubCompProperties_write fuel p b = V5PubComp.props_write p b.
Proof.
  intros Hf H. cbv beta zeta delta [V5PubComp.props_write SrcV5PubComp.PubCompProperties_write]. rewrite ?qos_src.
  w1 ltac:(rewrite v5pubcomp_props_len) ltac:((rewrite v5pubcomp_code; reflexivity)).
Qed.
Lemma v5pubcomp_write fuel p b : (5 <= fuel)%nat -> V5PubComp.len p <= usize_max -> SrcV5PubComp.PubComp_write fuel p b = V5PubComp.write p b.
Proof.
  intros Hf H. cbv beta zeta delta [V5PubComp.write SrcV5PubComp.PubComp_write]. rewrite v5pubcomp_success. rewrite ?qos_src.
  w1 ltac:(rewrite v5pubcomp_len) ltac:(first [(apply v5pubcomp_props_write; assumption) | (apply v5pubcomp_props_write; [assumption|sub H V5PubComp.len]) | (rewrite v5pubcomp_code; reflexivity)]).
Qed.
Lemma v5pubrec_code r : SrcV5PubRec.PubRecReason_as_u8 r = V5PubRec.code_u8 r.
Proof. destruct r; reflexivity. Qed.
Lemma v5pubrec_props_write fuel p b : (5 <= fuel)%nat -> V5PubRec.props_len p <= usize_max -> SrcV5PubRec.PubRecProperties_write fuel p b = V5PubRec.props_write p b.
Proof.
  intros Hf H. cbv beta zeta delta [V5PubRec.props_write SrcV5PubRec.PubRecProperties_write]. rewrite ?qos_src.
  w1 ltac:(rewrite v5pubrec_props_len) ltac:((rewrite v5pubrec_code; reflexivity)).
Qed.
Lemma v5pubrec_write fuel p b : (5 <= fuel)%nat -> V5PubRec.len p <= usize_max -> SrcV5PubRec.PubRec_write fuel p b = V5PubRec.write p b.
Proof.
  intros Hf H. cbv beta zeta delta [V5PubRec.write SrcV5PubRec.PubRec_write]. rewrite v5pubrec_success. rewrite ?qos_src.
  w1 ltac:(rewrite v5pubrec_len) ltac:(first [(apply v5pubrec_props_write; assumption) | (apply v5pubrec_props_write; [assumption|sub H V5PubRec.len]) | (rewrite v5pubrec_code; reflexivity)]).
Qed.
Lemma v5pubrel_code r : SrcV5PubRel.PubRelReason_as_u8 r = V5PubRel.code_u8 r.
Proof. destruct r; reflexivity. Qed.
Lemma v5pubrel_props_write fuel p b : (5 <= fuel)%nat -> V5PubRel.props_len p <= usize_max -> SrcV5PubRel.PubRelProperties_write fuel p b = V5PubRel.props_write p b.
Proof.
  intros Hf H. cbv beta zeta delta [V5PubRel.props_write SrcV5PubRel.PubRelProperties_write]. rewrite ?qos_src.
  w1 ltac:(rewrite v5pubrel_props_len) ltac:((rewrite v5pubrel_code; reflexivity)).
Qed.
Lemma v5pubrel_write fuel p b : (5 <= fuel)%nat -> V5PubRel.len p <= usize_max -> SrcV5PubRel.PubRel_write fuel p b = V5PubRel.write p b.
Proof.
  intros Hf H. cbv beta zeta delta [V5PubRel.write SrcV5PubRel.PubRel_write]. rewrite v5pubrel_success. rewrite ?qos_src.
  w1 ltac:(rewrite v5pubrel_len) ltac:(first [(apply v5pubrel_props_write; assumption) | (apply v5pubrel_props_write; [assumption|sub H V5PubRel.len]) | (rewrite v5pubrel_code; reflexivity)]).
Qed.
Lemma v5publish_props_write fuel p b : (5 <= fuel)%nat -> V5Publish.props_len p <= usize_max -> SrcV5Publish.PublishProperties_write fuel p b = V5Publish.props_write p b.
Proof.
  intros Hf H. cbv beta zeta delta [V5Publish.props_write SrcV5Publish.PublishProperties_write]. rewrite ?qos_src.
  w1 ltac:(rewrite v5publish_props_len) ltac:(fail).
Qed.
Lemma v5publish_write fuel p b : (5 <= fuel)%nat -> V5Publish.len p <= usize_max -> SrcV5Publish.Publish_write fuel p b = V5Publish.write p b.
Proof.
  intros Hf H. cbv beta zeta delta [V5Publish.write SrcV5Publish.Publish_write]. rewrite qos_eqb_src. rewrite ?qos_src.
  w1 ltac:(rewrite v5publish_len) ltac:(first [(apply v5publish_props_write; assumption) | (apply v5publish_props_write; [assumption|sub H V5Publish.len])]).
Qed.
Lemma v5suback_code r : SrcV5SubAck.SubscribeReasonCode_as_u8 r = V5SubAck.code_u8 r.
Proof. destruct r; reflexivity. Qed.
Lemma v5suback_props_write fuel p b : (5 <= fuel)%nat -> V5SubAck.props_len p <= usize_max -> SrcV5SubAck.SubAckProperties_write fuel p b = V5SubAck.props_write p b.
Proof.
  intros Hf H. cbv beta zeta delta [V5SubAck.props_write SrcV5SubAck.SubAckProperties_write]. rewrite ?qos_src.
  w1 ltac:(rewrite v5suback_props_len) ltac:((rewrite v5suback_code; reflexivity)).
Qed.
Lemma v5suback_write fuel p b : (5 <= fuel)%nat -> V5SubAck.len p <= usize_max -> SrcV5SubAck.SubAck_write fuel p b = V5SubAck.write p b.
Proof.
  intros Hf H. cbv beta zeta delta [V5SubAck.write SrcV5SubAck.SubAck_write]. rewrite ?qos_src.
  w1 ltac:(first [rewrite v5suback_len | rewrite (bind_ok _ _ (map V5SubAck.code_u8 (V5SubAck.return_codes p))) by (apply map_eq; clear; intros c ?; destruct c; reflexivity)]) ltac:(first [(apply v5suback_props_write; assumption) | (apply v5suback_props_write; [assumption|sub H V5SubAck.len]) | (rewrite v5suback_code; reflexivity)]).
Qed.
Lemma v5subscribe_props_write fuel p b : (5 <= fuel)%nat -> V5Subscribe.props_len p <= usize_max -> SrcV5Subscribe.SubscribeProperties_write fuel p b = V5Subscribe.props_write p b.
Proof.
  intros Hf H. cbv beta zeta delta [V5Subscribe.props_write SrcV5Subscribe.SubscribeProperties_write]. rewrite ?qos_src.
  w1 ltac:(rewrite v5subscribe_props_len) ltac:(fail).
Qed.
Lemma v5subscribe_filter_write p b : SrcV5Subscribe.SubscribeFilter_write p b = V5Subscribe.filter_write p b.
Proof.
   cbv beta zeta delta [V5Subscribe.filter_write SrcV5Subscribe.SubscribeFilter_write]. rewrite ?qos_src.
  w1 ltac:(fail) ltac:(fail).
Qed.
Lemma v5subscribe_write fuel p b : (5 <= fuel)%nat -> V5Subscribe.len p <= usize_max -> SrcV5Subscribe.Subscribe_write fuel p b = V5Subscribe.write p b.
Proof.
  intros Hf H. cbv beta zeta delta [V5Subscribe.write SrcV5Subscribe.Subscribe_write]. rewrite ?qos_src.
  w1 ltac:(rewrite v5subscribe_len) ltac:(first [(apply v5subscribe_props_write; assumption) | (apply v5subscribe_filter_write; assumption) | (apply v5subscribe_props_write; [assumption|sub H V5Subscribe.len])]).
Qed.
Lemma v5unsuback_code r : SrcV5UnsubAck.UnsubAckReason_as_u8 r = V5UnsubAck.code_u8 r.
Proof. destruct r; reflexivity. Qed.
Lemma v5unsuback_props_write fuel p b : (5 <= fuel)%nat -> V5UnsubAck.props_len p <= usize_max -> SrcV5UnsubAck.UnsubAckProperties_write fuel p b = V5UnsubAck.props_write p b.
Proof.
  intros Hf H. cbv beta zeta delta [V5UnsubAck.props_write SrcV5UnsubAck.UnsubAckProperties_write]. rewrite ?qos_src.
  w1 ltac:(rewrite v5unsuback_props_len) ltac:((rewrite v5unsuback_code; reflexivity)).
Qed.
Lemma v5unsuback_write fuel p b : (5 <= fuel)%nat -> V5UnsubAck.len p <= usize_max -> SrcV5UnsubAck.UnsubAck_write fuel p b = V5UnsubAck.write p b.
Proof.
  intros Hf H. cbv beta zeta delta [V5UnsubAck.write SrcV5UnsubAck.UnsubAck_write]. rewrite ?qos_src.
  w1 ltac:(first [rewrite v5unsuback_len | rewrite (bind_ok _ _ (map V5UnsubAck.code_u8 (V5UnsubAck.reasons p))) by (apply map_eq; clear; intros c ?; destruct c; reflexivity)]) ltac:(first [(apply v5unsuback_props_write; assumption) | (apply v5unsuback_props_write; [assumption|sub H V5UnsubAck.len]) | (rewrite v5unsuback_code; reflexivity)]).
Qed.
Lemma v5unsubscribe_props_write fuel p b : (5 <= fuel)%nat -> V5Unsubscribe.props_len p <= usize_max -> SrcV5Unsubscribe.UnsubscribeProperties_write fuel p b = V5Unsubscribe.props_write p b.
Proof.
  intros Hf H. cbv beta zeta delta [V5Unsubscribe.props_write SrcV5Unsubscribe.UnsubscribeProperties_write]. rewrite ?qos_src.
  w1 ltac:(rewrite v5unsubscribe_props_len) ltac:(fail).
Qed.
Lemma v5unsubscribe_write fuel p b : (5 <= fuel)%nat -> V5Unsubscribe.len p <= usize_max -> SrcV5Unsubscribe.Unsubscribe_write fuel p b = V5Unsubscribe.write p b.
Proof.
  intros Hf H. cbv beta zeta delta [V5Unsubscribe.write SrcV5Unsubscribe.Unsubscribe_write]. rewrite ?qos_src.
  w1 ltac:(rewrite v5unsubscribe_len) ltac:(first [(apply v5unsubscribe_props_write; assumption) | (apply v5unsubscribe_props_write; [assumption|sub H V5Unsubscribe.len])]).
Qed.
Lemma v5ping_pingreq_write b : SrcV5Ping.PingReq_write b = V5Ping.pingreq_write b.
Proof. reflexivity. Qed.
Lemma v5ping_pingresp_write b : SrcV5Ping.PingResp_write b = V5Ping.pingresp_write b.
Proof. reflexivity. Qed.

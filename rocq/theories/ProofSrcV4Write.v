(** ProofSrcV4Write.v -- the translated MQTT 3.1.1 `write` methods are the model's, for every message whose length fits in a `usize`. *)
From Verif Require Import ProofSrcTacW ProofSrcLen.
From Verif Require V4ConnAck SrcV4ConnAck V4Connect SrcV4Connect V4PubAck SrcV4PubAck V4PubComp SrcV4PubComp V4PubRec SrcV4PubRec V4PubRel SrcV4PubRel V4Publish SrcV4Publish V4SubAck SrcV4SubAck V4Subscribe SrcV4Subscribe V4Unsubscribe SrcV4Unsubscribe V4UnsubAck SrcV4UnsubAck V4Ping SrcV4Ping SrcV4Disconnect.

Lemma v4connack_code r : SrcV4ConnAck.ConnectReturnCode_as_u8 r = V4ConnAck.code_u8 r.
Proof. destruct r; reflexivity. Qed.
Lemma v4connack_write fuel p b : (5 <= fuel)%nat -> V4ConnAck.len p <= usize_max -> SrcV4ConnAck.ConnAck_write fuel p b = V4ConnAck.write p b.
Proof.
  intros Hf H. cbv beta zeta delta [V4ConnAck.write SrcV4ConnAck.ConnAck_write]. rewrite ?qos_src.
  w1 ltac:(rewrite v4connack_len) ltac:((rewrite v4connack_code; reflexivity)).
Qed.
Lemma v4connect_lw_write p b : SrcV4Connect.LastWill_write p b = V4Connect.lw_write p b.
Proof.
  cbv beta zeta delta [V4Connect.lw_write SrcV4Connect.LastWill_write]. rewrite ?qos_src.
  w1 ltac:(fail) ltac:(fail).
Qed.
Lemma v4connect_login_write p b : SrcV4Connect.Login_write p b = V4Connect.login_write p b.
Proof.
   cbv beta zeta delta [V4Connect.login_write SrcV4Connect.Login_write]. rewrite ?qos_src.
  w1 ltac:(fail) ltac:(fail).
Qed.
Lemma v4connect_write fuel p b : (5 <= fuel)%nat -> V4Connect.len p <= usize_max -> SrcV4Connect.Connect_write fuel p b = V4Connect.write p b.
Proof.
  intros Hf H. cbv beta zeta delta [V4Connect.write SrcV4Connect.Connect_write V4Connect.mqtt_name]. rewrite ?qos_src.
  w1 ltac:(rewrite v4connect_len) ltac:(first [(apply v4connect_lw_write; assumption) | (apply v4connect_login_write; assumption)]).
Qed.
Lemma v4puback_write fuel p b : (5 <= fuel)%nat -> V4PubAck.len p <= usize_max -> SrcV4PubAck.PubAck_write fuel p b = V4PubAck.write p b.
Proof.
  intros Hf H. cbv beta zeta delta [V4PubAck.write SrcV4PubAck.PubAck_write]. rewrite ?qos_src.
  w1 ltac:(rewrite v4puback_len) ltac:(fail).
Qed.
Lemma v4pubcomp_write fuel p b : (5 <= fuel)%nat -> V4PubComp.len p <= usize_max -> SrcV4PubComp.PubComp_write fuel p b = V4PubComp.write p b.
Proof.
  intros Hf H. cbv beta zeta delta [V4PubComp.write SrcV4PubComp.PubComp_write]. rewrite ?qos_src.
  w1 ltac:(rewrite v4pubcomp_len) ltac:(fail).
Qed.
Lemma v4pubrec_write fuel p b : (5 <= fuel)%nat -> V4PubRec.len p <= usize_max -> SrcV4PubRec.PubRec_write fuel p b = V4PubRec.write p b.
Proof.
  intros Hf H. cbv beta zeta delta [V4PubRec.write SrcV4PubRec.PubRec_write]. rewrite ?qos_src.
  w1 ltac:(rewrite v4pubrec_len) ltac:(fail).
Qed.
Lemma v4pubrel_write fuel p b : (5 <= fuel)%nat -> V4PubRel.len p <= usize_max -> SrcV4PubRel.PubRel_write fuel p b = V4PubRel.write p b.
Proof.
  intros Hf H. cbv beta zeta delta [V4PubRel.write SrcV4PubRel.PubRel_write]. rewrite ?qos_src.
  w1 ltac:(rewrite v4pubrel_len) ltac:(fail).
Qed.
Lemma v4publish_write fuel p b : (5 <= fuel)%nat -> V4Publish.len p <= usize_max -> SrcV4Publish.Publish_write fuel p b = V4Publish.write p b.
Proof.
  intros Hf H. cbv beta zeta delta [V4Publish.write SrcV4Publish.Publish_write]. rewrite qos_eqb_src. rewrite ?qos_src.
  w1 ltac:(rewrite v4publish_len) ltac:(fail).
Qed.
Lemma v4suback_write fuel p b : (5 <= fuel)%nat -> V4SubAck.len p <= usize_max -> SrcV4SubAck.SubAck_write fuel p b = V4SubAck.write p b.
Proof.
  intros Hf H. cbv beta zeta delta [V4SubAck.write SrcV4SubAck.SubAck_write]. rewrite ?qos_src.
  w1 ltac:(first [rewrite v4suback_len | rewrite (bind_ok _ _ (map V4SubAck.code_u8 (V4SubAck.return_codes p))) by (apply map_eq; clear; intros c ?; destruct c; reflexivity)]) ltac:(fail).
Qed.
Lemma v4subscribe_filter_write p b : SrcV4Subscribe.SubscribeFilter_write p b = V4Subscribe.filter_write p b.
Proof.
   cbv beta zeta delta [V4Subscribe.filter_write SrcV4Subscribe.SubscribeFilter_write]. rewrite ?qos_src.
  w1 ltac:(fail) ltac:(fail).
Qed.
Lemma v4subscribe_write fuel p b : (5 <= fuel)%nat -> V4Subscribe.len p <= usize_max -> SrcV4Subscribe.Subscribe_write fuel p b = V4Subscribe.write p b.
Proof.
  intros Hf H. cbv beta zeta delta [V4Subscribe.write SrcV4Subscribe.Subscribe_write]. rewrite ?qos_src.
  w1 ltac:(rewrite v4subscribe_len) ltac:((apply v4subscribe_filter_write; assumption)).
Qed.
Lemma v4unsubscribe_write fuel p b : (5 <= fuel)%nat -> 2 + fold_left (fun s topic => s + blen topic + 2) (V4Unsubscribe.topics p) 0 <= usize_max -> SrcV4Unsubscribe.Unsubscribe_write fuel p b = V4Unsubscribe.write p b.
Proof.
  intros Hf H. cbv beta zeta delta [V4Unsubscribe.write SrcV4Unsubscribe.Unsubscribe_write]. rewrite ?qos_src.
  rewrite (bind_ok _ _ (fold_left (fun s topic => s + blen topic + 2) (V4Unsubscribe.topics p) 0)).
  - w1 ltac:(fail) ltac:(fail).
  - rewrite (fold_cap (fun s topic => s + blen topic + 2)); [rewrite cap_ok by lia; reflexivity | intros; lia | | lia].
    intros x a b' Ha. len1 fail.
Qed.
Lemma v4unsuback_write p b : SrcV4UnsubAck.UnsubAck_write p b = V4UnsubAck.write p b.
Proof.
   cbv beta zeta delta [V4UnsubAck.write SrcV4UnsubAck.UnsubAck_write]. rewrite ?qos_src.
  w1 ltac:(fail) ltac:(fail).
Qed.
Lemma v4ping_pingreq_write b : SrcV4Ping.PingReq_write b = V4Ping.pingreq_write b.
Proof. reflexivity. Qed.
Lemma v4ping_pingresp_write b : SrcV4Ping.PingResp_write b = V4Ping.pingresp_write b.
Proof. reflexivity. Qed.
Lemma v4disconnect_disconnect_write b : SrcV4Disconnect.Disconnect_write b = V4Ping.disconnect_write b.
Proof. reflexivity. Qed.

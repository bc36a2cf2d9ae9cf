(** ProofPortV4Write.v -- the translated `write` methods on an arbitrary target are the model's, for every message whose length fits in a `usize` of the target. *)
From Verif Require Import ProofSrcTacW ProofPortBase ProofPortTac ProofPortTacW ProofPortLen.
From Verif Require PortBase.
From Verif Require V4ConnAck PortV4ConnAck V4Connect PortV4Connect V4PubAck PortV4PubAck V4PubComp PortV4PubComp V4PubRec PortV4PubRec V4PubRel PortV4PubRel V4Publish PortV4Publish V4SubAck PortV4SubAck V4Subscribe PortV4Subscribe V4Unsubscribe PortV4Unsubscribe V4UnsubAck PortV4UnsubAck V4Ping PortV4Ping PortV4Disconnect.

Lemma p_v4connack_code {T : Target} {WT : Wide} r : PortV4ConnAck.ConnectReturnCode_as_u8 r = V4ConnAck.code_u8 r.
Proof. destruct r; reflexivity. Qed.
Lemma p_v4connack_write {T : Target} {WT : Wide} fuel p b : (5 <= fuel)%nat -> V4ConnAck.len p < 2 ^ bits -> PortV4ConnAck.ConnAck_write fuel p b = V4ConnAck.write p b.
Proof.
  intros Hf H. cbv beta zeta delta [V4ConnAck.write PortV4ConnAck.ConnAck_write]. rewrite ?p_qos_src.
  pw1 ltac:(plens p_v4connack_len) ltac:((rewrite p_v4connack_code; reflexivity)).
Qed.
Lemma p_v4connect_lw_write {T : Target} {WT : Wide} p b : PortV4Connect.LastWill_write p b = V4Connect.lw_write p b.
Proof.
  cbv beta zeta delta [V4Connect.lw_write PortV4Connect.LastWill_write]. rewrite ?p_qos_src.
  pw1 ltac:(fail) ltac:(fail).
Qed.
Lemma p_v4connect_login_write {T : Target} {WT : Wide} p b : PortV4Connect.Login_write p b = V4Connect.login_write p b.
Proof.
   cbv beta zeta delta [V4Connect.login_write PortV4Connect.Login_write]. rewrite ?p_qos_src.
  pw1 ltac:(fail) ltac:(fail).
Qed.
Lemma p_v4connect_write {T : Target} {WT : Wide} fuel p b : (5 <= fuel)%nat -> V4Connect.len p < 2 ^ bits -> PortV4Connect.Connect_write fuel p b = V4Connect.write p b.
Proof.
  intros Hf H. cbv beta zeta delta [V4Connect.write PortV4Connect.Connect_write V4Connect.mqtt_name]. rewrite ?p_qos_src.
  pw1 ltac:(plens p_v4connect_len) ltac:(first [(apply p_v4connect_lw_write; assumption) | (apply p_v4connect_login_write; assumption)]).
Qed.
Lemma p_v4puback_write {T : Target} {WT : Wide} fuel p b : (5 <= fuel)%nat -> V4PubAck.len p < 2 ^ bits -> PortV4PubAck.PubAck_write fuel p b = V4PubAck.write p b.
Proof.
  intros Hf H. cbv beta zeta delta [V4PubAck.write PortV4PubAck.PubAck_write]. rewrite ?p_qos_src.
  pw1 ltac:(plens p_v4puback_len) ltac:(fail).
Qed.
Lemma p_v4pubcomp_write {T : Target} {WT : Wide} fuel p b : (5 <= fuel)%nat -> V4PubComp.len p < 2 ^ bits -> PortV4PubComp.PubComp_write fuel p b = V4PubComp.write p b.
Proof.
  intros Hf H. cbv beta zeta delta [V4PubComp.write PortV4PubComp.PubComp_write]. rewrite ?p_qos_src.
  pw1 ltac:(plens p_v4pubcomp_len) ltac:(fail).
Qed.
Lemma p_v4pubrec_write {T : Target} {WT : Wide} fuel p b : (5 <= fuel)%nat -> V4PubRec.len p < 2 ^ bits -> PortV4PubRec.PubRec_write fuel p b = V4PubRec.write p b.
Proof.
  intros Hf H. cbv beta zeta delta [V4PubRec.write PortV4PubRec.PubRec_write]. rewrite ?p_qos_src.
  pw1 ltac:(plens p_v4pubrec_len) ltac:(fail).
Qed.
Lemma p_v4pubrel_write {T : Target} {WT : Wide} fuel p b : (5 <= fuel)%nat -> V4PubRel.len p < 2 ^ bits -> PortV4PubRel.PubRel_write fuel p b = V4PubRel.write p b.
Proof.
  intros Hf H. cbv beta zeta delta [V4PubRel.write PortV4PubRel.PubRel_write]. rewrite ?p_qos_src.
  pw1 ltac:(plens p_v4pubrel_len) ltac:(fail).
Qed.
Lemma p_v4publish_write {T : Target} {WT : Wide} fuel p b : (5 <= fuel)%nat -> V4Publish.len p < 2 ^ bits -> PortV4Publish.Publish_write fuel p b = V4Publish.write p b.
Proof.
  intros Hf H. cbv beta zeta delta [V4Publish.write PortV4Publish.Publish_write]. rewrite p_qos_eqb. rewrite ?p_qos_src.
  pw1 ltac:(plens p_v4publish_len) ltac:(fail).
Qed.
Lemma p_v4suback_write {T : Target} {WT : Wide} fuel p b : (5 <= fuel)%nat -> V4SubAck.len p < 2 ^ bits -> PortV4SubAck.SubAck_write fuel p b = V4SubAck.write p b.
Proof.
  intros Hf H. cbv beta zeta delta [V4SubAck.write PortV4SubAck.SubAck_write]. rewrite ?p_qos_src.
  pw1 ltac:(first [plens p_v4suback_len | rewrite (bind_ok _ _ (map V4SubAck.code_u8 (V4SubAck.return_codes p))) by (apply map_eq; clear; intros c ?; destruct c; reflexivity)]) ltac:(fail).
Qed.
Lemma p_v4subscribe_filter_write {T : Target} {WT : Wide} p b : PortV4Subscribe.SubscribeFilter_write p b = V4Subscribe.filter_write p b.
Proof.
   cbv beta zeta delta [V4Subscribe.filter_write PortV4Subscribe.SubscribeFilter_write]. rewrite ?p_qos_src.
  pw1 ltac:(fail) ltac:(fail).
Qed.
Lemma p_v4subscribe_write {T : Target} {WT : Wide} fuel p b : (5 <= fuel)%nat -> V4Subscribe.len p < 2 ^ bits -> PortV4Subscribe.Subscribe_write fuel p b = V4Subscribe.write p b.
Proof.
  intros Hf H. cbv beta zeta delta [V4Subscribe.write PortV4Subscribe.Subscribe_write]. rewrite ?p_qos_src.
  pw1 ltac:(plens p_v4subscribe_len) ltac:((apply p_v4subscribe_filter_write; assumption)).
Qed.
Lemma p_v4unsubscribe_write {T : Target} {WT : Wide} fuel p b : (5 <= fuel)%nat -> 2 + fold_left (fun s topic => s + blen topic + 2) (V4Unsubscribe.topics p) 0 < 2 ^ bits -> PortV4Unsubscribe.Unsubscribe_write fuel p b = V4Unsubscribe.write p b.
Proof.
  intros Hf H. cbv beta zeta delta [V4Unsubscribe.write PortV4Unsubscribe.Unsubscribe_write]. rewrite ?p_qos_src.
  rewrite (bind_ok _ _ (fold_left (fun s topic => s + blen topic + 2) (V4Unsubscribe.topics p) 0)).
  - pw1 ltac:(fail) ltac:(fail).
  - apply (fit_fold (fun s topic => s + blen topic + 2)); [intros; lia | | lia].
    intros x a b'. flen1 fail.
Qed.
Lemma p_v4unsuback_write {T : Target} {WT : Wide} p b : PortV4UnsubAck.UnsubAck_write p b = V4UnsubAck.write p b.
Proof.
   cbv beta zeta delta [V4UnsubAck.write PortV4UnsubAck.UnsubAck_write]. rewrite ?p_qos_src.
  pw1 ltac:(fail) ltac:(fail).
Qed.
Lemma p_v4ping_pingreq_write {T : Target} {WT : Wide} b : PortV4Ping.PingReq_write b = V4Ping.pingreq_write b.
Proof. reflexivity. Qed.
Lemma p_v4ping_pingresp_write {T : Target} {WT : Wide} b : PortV4Ping.PingResp_write b = V4Ping.pingresp_write b.
Proof. reflexivity. Qed.
Lemma p_v4disconnect_disconnect_write {T : Target} {WT : Wide} b : PortV4Disconnect.Disconnect_write b = V4Ping.disconnect_write b.
Proof. reflexivity. Qed.

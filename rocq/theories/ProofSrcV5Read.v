(** ProofSrcV5Read.v -- `read` of every v5 packet: the mechanical translation against the model. *)
From Verif Require Import ProofSrcTac ProofSrcV5Ext ProofSrcV5ExtC.
From Verif Require V5PubAck SrcV5PubAck V5PubRec SrcV5PubRec V5PubRel SrcV5PubRel V5PubComp SrcV5PubComp
  V5SubAck SrcV5SubAck V5UnsubAck SrcV5UnsubAck V5Subscribe SrcV5Subscribe V5Unsubscribe SrcV5Unsubscribe
  V5Publish SrcV5Publish V5Disconnect SrcV5Disconnect V5Connect SrcV5Connect V5ConnAck SrcV5ConnAck.

(** ** code tables *)
Lemma v5_puback_reason n : SrcV5PubAck.reason n = V5PubAck.reason_of n.
Proof. unfold SrcV5PubAck.reason, V5PubAck.reason_of, run. codes. Qed.
Lemma v5_pubrec_reason n : SrcV5PubRec.reason n = V5PubRec.reason_of n.
Proof. unfold SrcV5PubRec.reason, V5PubRec.reason_of, run. codes. Qed.
Lemma v5_pubrel_reason n : SrcV5PubRel.reason n = V5PubRel.reason_of n.
Proof. unfold SrcV5PubRel.reason, V5PubRel.reason_of, run. codes. Qed.
Lemma v5_pubcomp_reason n : SrcV5PubComp.reason n = V5PubComp.reason_of n.
Proof. unfold SrcV5PubComp.reason, V5PubComp.reason_of, run. codes. Qed.
Lemma v5_unsuback_reason n : SrcV5UnsubAck.reason n = V5UnsubAck.reason_of n.
Proof. unfold SrcV5UnsubAck.reason, V5UnsubAck.reason_of, run. codes. Qed.
Lemma v5_suback_reason n : SrcV5SubAck.SubscribeReasonCode_try_from n = V5SubAck.try_from n.
Proof. unfold SrcV5SubAck.SubscribeReasonCode_try_from, V5SubAck.try_from, run. codes. Qed.
Lemma v5_disconnect_reason n : SrcV5Disconnect.DisconnectReasonCode_try_from n = V5Disconnect.try_from n.
Proof. unfold SrcV5Disconnect.DisconnectReasonCode_try_from, V5Disconnect.try_from, run. codes. Qed.
Lemma v5_connack_return n : SrcV5ConnAck.connect_return n = V5ConnAck.connect_return n.
Proof. unfold SrcV5ConnAck.connect_return, V5ConnAck.connect_return, run. codes. Qed.

(** ** the four publish acknowledgements *)
Lemma v5_puback_read fuel fh s : (List.length s < fuel)%nat -> blen s <= half ->
  SrcV5PubAck.PubAck_read fuel fh s = value (V5PubAck.read fh s).
Proof.
  intros Hf Hs. start. unfold V5PubAck.read. simgo ltac:(libeqs; rewrite ?v5_puback_reason); try reflexivity.
  use_extract v5_puback_extract. simgo libeqs. reflexivity.
Qed.
Lemma v5_pubrec_read fuel fh s : (List.length s < fuel)%nat -> blen s <= half ->
  SrcV5PubRec.PubRec_read fuel fh s = value (V5PubRec.read fh s).
Proof.
  intros Hf Hs. start. unfold V5PubRec.read. simgo ltac:(libeqs; rewrite ?v5_pubrec_reason); try reflexivity.
  use_extract v5_pubrec_extract. simgo libeqs. reflexivity.
Qed.
Lemma v5_pubrel_read fuel fh s : (List.length s < fuel)%nat -> blen s <= half ->
  SrcV5PubRel.PubRel_read fuel fh s = value (V5PubRel.read fh s).
Proof.
  intros Hf Hs. start. unfold V5PubRel.read. simgo ltac:(libeqs; rewrite ?v5_pubrel_reason); try reflexivity.
  use_extract v5_pubrel_extract. simgo libeqs. reflexivity.
Qed.
Lemma v5_pubcomp_read fuel fh s : (List.length s < fuel)%nat -> blen s <= half ->
  SrcV5PubComp.PubComp_read fuel fh s = value (V5PubComp.read fh s).
Proof.
  intros Hf Hs. start. unfold V5PubComp.read. simgo ltac:(libeqs; rewrite ?v5_pubcomp_reason); try reflexivity.
  use_extract v5_pubcomp_extract. simgo libeqs. reflexivity.
Qed.

(** ** lists: SUBACK, UNSUBACK, SUBSCRIBE, UNSUBSCRIBE *)
Lemma v5_suback_read fuel fh s : (List.length s < fuel)%nat -> blen s <= half ->
  SrcV5SubAck.SubAck_read fuel fh s = value (V5SubAck.read fh s).
Proof.
  intros Hf Hs. start. unfold V5SubAck.read. simgo libeqs.
  use_extract v5_suback_extract. simgo libeqs.
  loop_tac V5SubAck.codes_loop ltac:(libeqs; rewrite ?v5_suback_reason).
Qed.
Lemma v5_unsuback_read fuel fh s : (List.length s < fuel)%nat -> blen s <= half ->
  SrcV5UnsubAck.UnsubAck_read fuel fh s = value (V5UnsubAck.read fh s).
Proof.
  intros Hf Hs. start. unfold V5UnsubAck.read. simgo libeqs.
  use_extract v5_unsuback_extract. simgo libeqs.
  loop_tac V5UnsubAck.codes_loop ltac:(libeqs; rewrite ?v5_unsuback_reason).
Qed.
Lemma v5_unsubscribe_read fuel fh s : (List.length s < fuel)%nat -> blen s <= half ->
  SrcV5Unsubscribe.Unsubscribe_read fuel fh s = value (V5Unsubscribe.read fh s).
Proof.
  intros Hf Hs. start. unfold V5Unsubscribe.read. simgo libeqs.
  use_extract v5_unsubscribe_extract. simgo libeqs.
  loop_tac V5Unsubscribe.filters_loop libeqs.
Qed.
Lemma v5_subscribe_read fuel fh s : (List.length s < fuel)%nat -> blen s <= half ->
  SrcV5Subscribe.Subscribe_read fuel fh s = value (V5Subscribe.read fh s).
Proof.
  intros Hf Hs. start. unfold V5Subscribe.read. simgo libeqs.
  use_extract v5_subscribe_extract. simgo libeqs.
  loop_tac V5Subscribe.filters_loop libeqs.
  all: unfold V5Subscribe.rule_of; simgo libeqs;
    match goal with IH : _ |- _ => apply IH; [alia|len_side|len_side] end.
Qed.

(** ** CONNACK, DISCONNECT, PUBLISH, CONNECT *)
Lemma v5_connack_read fuel fh s : (List.length s < fuel)%nat -> blen s <= half ->
  SrcV5ConnAck.ConnAck_read fuel fh s = value (V5ConnAck.read fh s).
Proof.
  intros Hf Hs. start. unfold V5ConnAck.read. simgo ltac:(libeqs; rewrite ?v5_connack_return).
  use_extract v5_connack_extract. simgo libeqs. reflexivity.
Qed.
Lemma v5_disconnect_new : SrcV5Disconnect.Disconnect_new = Ok V5Disconnect.new.
Proof. reflexivity. Qed.
Lemma v5_disconnect_read fuel fh s : (List.length s < fuel)%nat -> blen s <= half ->
  SrcV5Disconnect.Disconnect_read fuel fh s = value (V5Disconnect.read fh s).
Proof.
  intros Hf Hs. start. unfold V5Disconnect.read. simgo ltac:(libeqs; rewrite ?v5_disconnect_reason, ?v5_disconnect_new).
  all: change (packet_type_u8 PT_Disconnect) with (SrcLib.PacketType_as_u8 PT_Disconnect).
  all: repeat match goal with H : _ = _ :> bool |- _ => rewrite H end.
  all: simgo ltac:(libeqs; rewrite ?v5_disconnect_reason, ?v5_disconnect_new); try reflexivity.
  use_extract v5_disconnect_extract. simgo libeqs. reflexivity.
Qed.
Lemma v5_publish_read fuel fh s : (List.length s < fuel)%nat -> blen s <= half ->
  SrcV5Publish.Publish_read fuel fh s = value (V5Publish.read fh s).
Proof.
  intros Hf Hs.
  transitivity (value ((qos <-r rlift (Lib.qos (N.shiftr (N.land (byte1 fh) 6) 1)) ;;
  let dup := negb (N.land (byte1 fh) 8 =? 0) in
  let retain := negb (N.land (byte1 fh) 1 =? 0) in
  advance (fixed_header_len fh) ;;r
  topic <-r read_mqtt_string ;;
  pkid <-r (match qos with
            | AtMostOnce => rret 0
            | AtLeastOnce | ExactlyOnce => read_u16
            end) ;;
  if negb (qos_eqb qos AtMostOnce) && (pkid =? 0) then rerr PacketIdZero
  else
    properties <-r V5Publish.extract ;;
    fun bytes => Ok (V5Publish.mkPublish dup qos retain topic pkid properties bytes, bytes)) s)).
  - start. unfold SrcV5Publish.Publish_read. simgo libeqs; try reflexivity.
    all: rewrite ?qos_eqb_src in *. all: cbn [qos_eqb negb andb] in *.
    all: repeat match goal with H : _ = _ :> bool |- _ => rewrite H end.
    all: simgo libeqs; try reflexivity; try discriminate.
    all: rewrite ?qos_eqb_src in *; cbn [qos_eqb negb andb] in *; simgo libeqs; try reflexivity; try discriminate.
    all: use_extract v5_publish_extract; simgo libeqs; reflexivity.
  - unfold V5Publish.read. repeat (apply value_bind; intros). destruct (negb _ && _); [reflexivity|].
    apply value_bind; reflexivity.
Qed.

Lemma v5_lw_read fuel fl s : (List.length s < fuel)%nat -> blen s <= half ->
  sim (SrcV5Connect.LastWill_read fuel fl s) (V5Connect.lw_read fl s) (fun a b s' => a = b /\ blen s' <= blen s).
Proof.
  intros Hf Hs. unfold SrcV5Connect.LastWill_read, V5Connect.lw_read.
  destruct (N.land fl 4) eqn:E; flag0.
  - simgo libeqs; try (split; [reflexivity|lia]).
  - simgo libeqs. use_extract v5_willprops_read. simgo libeqs. split; [reflexivity|lia].
Qed.
Lemma v5_login_read fl s :
  sim (SrcV5Connect.Login_read fl s) (V5Connect.login_read fl s) (fun a b s' => a = b /\ blen s' <= blen s).
Proof.
  unfold SrcV5Connect.Login_read, V5Connect.login_read.
  destruct (N.land fl 128) eqn:E; flag0; destruct (N.land fl 64) eqn:E'; flag0; simgo libeqs; (split; [reflexivity|lia]).
Qed.
Lemma v5_connect_read fuel fh s : (List.length s < fuel)%nat -> blen s <= half ->
  SrcV5Connect.Connect_read fuel fh s = value (V5Connect.read fh s).
Proof.
  intros Hf Hs. start. unfold V5Connect.read, V5Connect.mqtt_name.
  simgo libeqs.
  all: try reflexivity.
  1: use_extract v5_connectprops_read; simgo libeqs.
  all: use_extract v5_lw_read; simgo libeqs;
    (eapply sim_bind; [apply v5_login_read|]; intros ? ? ? [<- ?]); simgo libeqs; reflexivity.
Qed.

(** ProofSrcV4Read.v -- `read` of every v4 packet: the mechanical translation against the model. *)
From Verif Require Import ProofSrcTac.
From Verif Require V4PubAck SrcV4PubAck V4PubRec SrcV4PubRec V4PubRel SrcV4PubRel V4PubComp SrcV4PubComp
  V4SubAck SrcV4SubAck V4UnsubAck SrcV4UnsubAck V4Subscribe SrcV4Subscribe V4Unsubscribe SrcV4Unsubscribe
  V4Publish SrcV4Publish V4Connect SrcV4Connect V4ConnAck SrcV4ConnAck.

Lemma v4_suback_code n : SrcV4SubAck.SubscribeReasonCode_try_from n = V4SubAck.try_from n.
Proof. unfold SrcV4SubAck.SubscribeReasonCode_try_from, V4SubAck.try_from, run. codes. Qed.
Lemma v4_connack_return n : SrcV4ConnAck.connect_return n = V4ConnAck.connect_return n.
Proof. unfold SrcV4ConnAck.connect_return, V4ConnAck.connect_return, run. codes. Qed.

Lemma v4_puback_read fh s : SrcV4PubAck.PubAck_read fh s = value (V4PubAck.read fh s).
Proof. start. unfold V4PubAck.read. simgo libeqs; reflexivity. Qed.
Lemma v4_pubrec_read fh s : SrcV4PubRec.PubRec_read fh s = value (V4PubRec.read fh s).
Proof. start. unfold V4PubRec.read. simgo libeqs; reflexivity. Qed.
Lemma v4_pubrel_read fh s : SrcV4PubRel.PubRel_read fh s = value (V4PubRel.read fh s).
Proof. start. unfold V4PubRel.read. simgo libeqs; reflexivity. Qed.
Lemma v4_pubcomp_read fh s : SrcV4PubComp.PubComp_read fh s = value (V4PubComp.read fh s).
Proof. start. unfold V4PubComp.read. simgo libeqs; reflexivity. Qed.
Lemma v4_unsuback_read fh s : SrcV4UnsubAck.UnsubAck_read fh s = value (V4UnsubAck.read fh s).
Proof. start. unfold V4UnsubAck.read. simgo libeqs; reflexivity. Qed.
Lemma v4_connack_read fh s : SrcV4ConnAck.ConnAck_read fh s = value (V4ConnAck.read fh s).
Proof. start. unfold V4ConnAck.read. simgo ltac:(libeqs; rewrite ?v4_connack_return); reflexivity. Qed.
Lemma v4_suback_read fuel fh s : (List.length s < fuel)%nat -> blen s <= half ->
  SrcV4SubAck.SubAck_read fuel fh s = value (V4SubAck.read fh s).
Proof.
  intros Hf Hs. start. unfold V4SubAck.read. simgo libeqs.
  loop_tac V4SubAck.codes_loop ltac:(libeqs; rewrite ?v4_suback_code).
Qed.
Lemma v4_subscribe_read fuel fh s : (List.length s < fuel)%nat -> blen s <= half ->
  SrcV4Subscribe.Subscribe_read fuel fh s = value (V4Subscribe.read fh s).
Proof.
  intros Hf Hs. start. unfold V4Subscribe.read. simgo libeqs.
  loop_tac V4Subscribe.filters_loop libeqs.
Qed.
Lemma v4_unsubscribe_loop (cond := fun '(payload_bytes, topics) => wret (0 <? payload_bytes))
    (body := fun '(payload_bytes, topics) =>
        topic_filter <-w SrcLib.read_mqtt_string ;;
        t1 <-w lift (usize_add (blen topic_filter) 2) ;;
        payload_bytes <-w lift (usize_sub payload_bytes t1) ;;
        let topics := (topics ++ [topic_filter]) in
        wret (payload_bytes, topics)) :
  forall f1 f2 n l s, blen s <= half -> (List.length s < f1)%nat -> (List.length s < f2)%nat ->
    sim (while_ f1 cond body (n, l) s) (V4Unsubscribe.topics_loop f2 n l s) (fun a b _ => snd a = b).
Proof.
  induction f1 as [|f1 IH]; intros f2 n l s Hs H1 H2; [lia|].
  destruct f2 as [|f2]; [lia|]. cbn [while_ V4Unsubscribe.topics_loop]. unfold cond at 1, body at 1.
  simgo libeqs; [|reflexivity]. apply IH; [alia|len_side|len_side].
Qed.
Lemma v4_unsubscribe_read fuel fh s : (List.length s < fuel)%nat -> blen s <= half ->
  SrcV4Unsubscribe.Unsubscribe_read fuel fh s = value (V4Unsubscribe.read fh s).
Proof.
  intros Hf Hs. start. unfold V4Unsubscribe.read. simgo libeqs.
  eapply sim_bind; [apply v4_unsubscribe_loop; [alia|len_side|len_side]|].
  intros [? ?] ? ? <-. simgo libeqs. reflexivity.
Qed.
Lemma v4_publish_read fh s : SrcV4Publish.Publish_read fh s = value (V4Publish.read fh s).
Proof.
  transitivity (value ((qos <-r rlift (Lib.qos (N.shiftr (N.land (byte1 fh) 6) 1)) ;;
  let dup := negb (N.land (byte1 fh) 8 =? 0) in
  let retain := negb (N.land (byte1 fh) 1 =? 0) in
  advance (fixed_header_len fh) ;;r
  topic <-r read_mqtt_string ;;
  pkid <-r (match qos with
            | AtMostOnce => rret 0
            | AtLeastOnce | ExactlyOnce => read_u16
            end) ;;
  if negb (qos_eqb qos AtMostOnce) && (pkid =? 0) then rerr PacketIdZero
  else fun bytes => Ok (V4Publish.mkPublish dup qos retain topic pkid bytes, bytes)) s)).
  - start. unfold SrcV4Publish.Publish_read. simgo libeqs; try reflexivity.
    all: rewrite ?qos_eqb_src in *. all: cbn [qos_eqb negb andb] in *.
    all: repeat match goal with H : _ = _ :> bool |- _ => rewrite H end.
    all: simgo libeqs; try reflexivity; try discriminate.
    all: rewrite ?qos_eqb_src in *; cbn [qos_eqb negb andb] in *; simgo libeqs; try reflexivity; try discriminate.
  - unfold V4Publish.read. repeat (apply value_bind; intros). destruct (negb _ && _); reflexivity.
Qed.

Lemma v4_lw_read fl s :
  sim (SrcV4Connect.LastWill_read fl s) (V4Connect.lw_read fl s) (fun a b s' => a = b /\ blen s' <= blen s).
Proof.
  unfold SrcV4Connect.LastWill_read, V4Connect.lw_read.
  destruct (N.land fl 4) eqn:E; flag0.
  - simgo libeqs; try (split; [reflexivity|lia]).
  - simgo libeqs. split; [reflexivity|lia].
Qed.
Lemma v4_login_read fl s :
  sim (SrcV4Connect.Login_read fl s) (V4Connect.login_read fl s) (fun a b s' => a = b /\ blen s' <= blen s).
Proof.
  unfold SrcV4Connect.Login_read, V4Connect.login_read.
  destruct (N.land fl 128) eqn:E; flag0; destruct (N.land fl 64) eqn:E'; flag0; simgo libeqs; (split; [reflexivity|lia]).
Qed.
Lemma v4_connect_read fh s : SrcV4Connect.Connect_read fh s = value (V4Connect.read fh s).
Proof.
  start. unfold V4Connect.read, V4Connect.mqtt_name.
  simgo libeqs.
  all: try reflexivity.
  all: (eapply sim_bind; [apply v4_lw_read|]; intros ? ? ? [<- ?]); simgo libeqs;
    (eapply sim_bind; [apply v4_login_read|]; intros ? ? ? [<- ?]); simgo libeqs; reflexivity.
Qed.

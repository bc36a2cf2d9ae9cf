(** ProofSrcV5Ext.v -- the property blocks of src/v5 (all but CONNECT and CONNACK): the
    mechanical translation of `extract` against the model. *)
From Verif Require Import ProofSrcTac.
From Verif Require V5PubAck SrcV5PubAck V5PubRec SrcV5PubRec V5PubRel SrcV5PubRel V5PubComp SrcV5PubComp V5SubAck SrcV5SubAck V5UnsubAck SrcV5UnsubAck V5Subscribe SrcV5Subscribe V5Unsubscribe SrcV5Unsubscribe V5Publish SrcV5Publish V5Disconnect SrcV5Disconnect.

Lemma v5_puback_extract fuel s : (List.length s < fuel)%nat -> blen s <= half ->
  sim (SrcV5PubAck.PubAckProperties_extract fuel s) (V5PubAck.extract s) (fun a b s' => a = b /\ blen s' <= blen s).
Proof.
  intros Hf Hs. unfold SrcV5PubAck.PubAckProperties_extract, V5PubAck.extract, V5PubAck.props_step, props_loop.
  extract_tac (fun '(z, a, b) => (z : N, V5PubAck.mkPubAckProperties a b)).
Qed.
Lemma v5_pubrec_extract fuel s : (List.length s < fuel)%nat -> blen s <= half ->
  sim (SrcV5PubRec.PubRecProperties_extract fuel s) (V5PubRec.extract s) (fun a b s' => a = b /\ blen s' <= blen s).
Proof.
  intros Hf Hs. unfold SrcV5PubRec.PubRecProperties_extract, V5PubRec.extract, V5PubRec.props_step, props_loop.
  extract_tac (fun '(z, a, b) => (z : N, V5PubRec.mkPubRecProperties a b)).
Qed.
Lemma v5_pubrel_extract fuel s : (List.length s < fuel)%nat -> blen s <= half ->
  sim (SrcV5PubRel.PubRelProperties_extract fuel s) (V5PubRel.extract s) (fun a b s' => a = b /\ blen s' <= blen s).
Proof.
  intros Hf Hs. unfold SrcV5PubRel.PubRelProperties_extract, V5PubRel.extract, V5PubRel.props_step, props_loop.
  extract_tac (fun '(z, a, b) => (z : N, V5PubRel.mkPubRelProperties a b)).
Qed.
Lemma v5_pubcomp_extract fuel s : (List.length s < fuel)%nat -> blen s <= half ->
  sim (SrcV5PubComp.PubCompProperties_extract fuel s) (V5PubComp.extract s) (fun a b s' => a = b /\ blen s' <= blen s).
Proof.
  intros Hf Hs. unfold SrcV5PubComp.PubCompProperties_extract, V5PubComp.extract, V5PubComp.props_step, props_loop.
  extract_tac (fun '(z, a, b) => (z : N, V5PubComp.mkPubCompProperties a b)).
Qed.
Lemma v5_suback_extract fuel s : (List.length s < fuel)%nat -> blen s <= half ->
  sim (SrcV5SubAck.SubAckProperties_extract fuel s) (V5SubAck.extract s) (fun a b s' => a = b /\ blen s' <= blen s).
Proof.
  intros Hf Hs. unfold SrcV5SubAck.SubAckProperties_extract, V5SubAck.extract, V5SubAck.props_step, props_loop.
  extract_tac (fun '(z, a, b) => (z : N, V5SubAck.mkSubAckProperties a b)).
Qed.
Lemma v5_unsuback_extract fuel s : (List.length s < fuel)%nat -> blen s <= half ->
  sim (SrcV5UnsubAck.UnsubAckProperties_extract fuel s) (V5UnsubAck.extract s) (fun a b s' => a = b /\ blen s' <= blen s).
Proof.
  intros Hf Hs. unfold SrcV5UnsubAck.UnsubAckProperties_extract, V5UnsubAck.extract, V5UnsubAck.props_step, props_loop.
  extract_tac (fun '(z, a, b) => (z : N, V5UnsubAck.mkUnsubAckProperties a b)).
Qed.
Lemma v5_subscribe_extract fuel s : (List.length s < fuel)%nat -> blen s <= half ->
  sim (SrcV5Subscribe.SubscribeProperties_extract fuel s) (V5Subscribe.extract s) (fun a b s' => a = b /\ blen s' <= blen s).
Proof.
  intros Hf Hs. unfold SrcV5Subscribe.SubscribeProperties_extract, V5Subscribe.extract, V5Subscribe.props_step, props_loop.
  extract_tac (fun '(z, a, b) => (z : N, V5Subscribe.mkSubscribeProperties a b)).
Qed.
Lemma v5_unsubscribe_extract fuel s : (List.length s < fuel)%nat -> blen s <= half ->
  sim (SrcV5Unsubscribe.UnsubscribeProperties_extract fuel s) (V5Unsubscribe.extract s) (fun a b s' => a = b /\ blen s' <= blen s).
Proof.
  intros Hf Hs. unfold SrcV5Unsubscribe.UnsubscribeProperties_extract, V5Unsubscribe.extract, V5Unsubscribe.props_step, props_loop.
  extract_tac (fun '(z, a) => (z : N, V5Unsubscribe.mkUnsubscribeProperties a)).
Qed.
Lemma v5_publish_extract fuel s : (List.length s < fuel)%nat -> blen s <= half ->
  sim (SrcV5Publish.PublishProperties_extract fuel s) (V5Publish.extract s) (fun a b s' => a = b /\ blen s' <= blen s).
Proof.
  intros Hf Hs. unfold SrcV5Publish.PublishProperties_extract, V5Publish.extract, V5Publish.props_step, props_loop.
  extract_tac (fun '(z, a, b, c, d, e, f, g, h) => (z : N, V5Publish.mkPublishProperties a b c d e f g h)).
Qed.
Lemma v5_disconnect_extract fuel s : (List.length s < fuel)%nat -> blen s <= half ->
  sim (SrcV5Disconnect.DisconnectProperties_extract fuel s) (V5Disconnect.extract s) (fun a b s' => a = b /\ blen s' <= blen s).
Proof.
  intros Hf Hs. unfold SrcV5Disconnect.DisconnectProperties_extract, V5Disconnect.extract, V5Disconnect.props_step, props_loop.
  extract_tac (fun '(z, a, b, c, d) => (z : N, V5Disconnect.mkDisconnectProperties a b c d)).
Qed.

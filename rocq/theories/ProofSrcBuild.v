(** ProofSrcBuild.v -- the translated constructors and setters are the model's. *)
From Verif Require Import Base SrcBase.
From Verif Require V4ConnAck SrcV4ConnAck V4Connect SrcV4Connect V4PubAck SrcV4PubAck V4PubComp SrcV4PubComp V4PubRec SrcV4PubRec V4PubRel SrcV4PubRel V4Publish SrcV4Publish V4SubAck SrcV4SubAck V4Subscribe SrcV4Subscribe V4UnsubAck SrcV4UnsubAck V4Unsubscribe SrcV4Unsubscribe V5ConnAck SrcV5ConnAck V5Connect SrcV5Connect V5Disconnect SrcV5Disconnect V5PubAck SrcV5PubAck V5PubComp SrcV5PubComp V5PubRec SrcV5PubRec V5PubRel SrcV5PubRel V5Publish SrcV5Publish V5SubAck SrcV5SubAck V5Subscribe SrcV5Subscribe V5UnsubAck SrcV5UnsubAck V5Unsubscribe SrcV5Unsubscribe.

Lemma v4connack_new a b : SrcV4ConnAck.ConnAck_new a b = Ok (V4ConnAck.new a b).
Proof. reflexivity. Qed.
Lemma v4connect_new a : SrcV4Connect.Connect_new a = Ok (V4Connect.new a).
Proof. reflexivity. Qed.
Lemma v4connect_set_login a b c : SrcV4Connect.Connect_set_login a b c = Ok (V4Connect.set_login a b c).
Proof. reflexivity. Qed.
Lemma v4connect_lw_new a b c d : SrcV4Connect.LastWill_new a b c d = Ok (V4Connect.lw_new a b c d).
Proof. reflexivity. Qed.
Lemma v4connect_login_new a b : SrcV4Connect.Login_new a b = Ok (V4Connect.login_new a b).
Proof. reflexivity. Qed.
Lemma v4connect_login_validate a b c : SrcV4Connect.Login_validate a b c = Ok (V4Connect.login_validate a b c).
Proof. reflexivity. Qed.
Lemma v4puback_new a : SrcV4PubAck.PubAck_new a = Ok (V4PubAck.new a).
Proof. reflexivity. Qed.
Lemma v4pubcomp_new a : SrcV4PubComp.PubComp_new a = Ok (V4PubComp.new a).
Proof. reflexivity. Qed.
Lemma v4pubrec_new a : SrcV4PubRec.PubRec_new a = Ok (V4PubRec.new a).
Proof. reflexivity. Qed.
Lemma v4pubrel_new a : SrcV4PubRel.PubRel_new a = Ok (V4PubRel.new a).
Proof. reflexivity. Qed.
Lemma v4publish_new a b c : SrcV4Publish.Publish_new a b c = Ok (V4Publish.new a b c).
Proof. reflexivity. Qed.
Lemma v4publish_from_bytes a b c : SrcV4Publish.Publish_from_bytes a b c = Ok (V4Publish.from_bytes a b c).
Proof. reflexivity. Qed.
Lemma v4suback_new a b : SrcV4SubAck.SubAck_new a b = Ok (V4SubAck.new a b).
Proof. reflexivity. Qed.
Lemma v4subscribe_new a b : SrcV4Subscribe.Subscribe_new a b = Ok (V4Subscribe.new a b).
Proof. reflexivity. Qed.
Lemma v4subscribe_new_many a : SrcV4Subscribe.Subscribe_new_many a = V4Subscribe.new_many a.
Proof. unfold SrcV4Subscribe.Subscribe_new_many, V4Subscribe.new_many, run, wret, werr. destruct (blen a); reflexivity. Qed.
Lemma v4subscribe_add a b c : SrcV4Subscribe.Subscribe_add a b c = Ok (V4Subscribe.add a b c).
Proof. reflexivity. Qed.
Lemma v4subscribe_filter_new a b : SrcV4Subscribe.SubscribeFilter_new a b = Ok (V4Subscribe.filter_new a b).
Proof. reflexivity. Qed.
Lemma v4unsuback_new a : SrcV4UnsubAck.UnsubAck_new a = Ok (V4UnsubAck.new a).
Proof. reflexivity. Qed.
Lemma v4unsubscribe_new a : SrcV4Unsubscribe.Unsubscribe_new a = Ok (V4Unsubscribe.new a).
Proof. reflexivity. Qed.
Lemma v5connack_new a b : SrcV5ConnAck.ConnAck_new a b = Ok (V5ConnAck.new a b).
Proof. reflexivity. Qed.
Lemma v5connack_props_new : SrcV5ConnAck.ConnAckProperties_new = Ok V5ConnAck.props_new.
Proof. reflexivity. Qed.
Lemma v5connect_new a : SrcV5Connect.Connect_new a = Ok (V5Connect.new a).
Proof. reflexivity. Qed.
Lemma v5connect_set_login a b c : SrcV5Connect.Connect_set_login a b c = Ok (V5Connect.set_login a b c).
Proof. reflexivity. Qed.
Lemma v5connect_lw_new a b c d : SrcV5Connect.LastWill_new a b c d = Ok (V5Connect.lw_new a b c d).
Proof. reflexivity. Qed.
Lemma v5connect_login_new a b : SrcV5Connect.Login_new a b = Ok (V5Connect.login_new a b).
Proof. reflexivity. Qed.
Lemma v5connect_cp_props_new : SrcV5Connect.ConnectProperties__new = Ok V5Connect.cp_props_new.
Proof. reflexivity. Qed.
Lemma v5disconnect_props_new : SrcV5Disconnect.DisconnectProperties_new = Ok V5Disconnect.props_new.
Proof. reflexivity. Qed.
Lemma v5disconnect_new : SrcV5Disconnect.Disconnect_new = Ok V5Disconnect.new.
Proof. reflexivity. Qed.
Lemma v5puback_new a : SrcV5PubAck.PubAck_new a = Ok (V5PubAck.new a).
Proof. reflexivity. Qed.
Lemma v5pubcomp_new a : SrcV5PubComp.PubComp_new a = Ok (V5PubComp.new a).
Proof. reflexivity. Qed.
Lemma v5pubrec_new a : SrcV5PubRec.PubRec_new a = Ok (V5PubRec.new a).
Proof. reflexivity. Qed.
Lemma v5pubrel_new a : SrcV5PubRel.PubRel_new a = Ok (V5PubRel.new a).
Proof. reflexivity. Qed.
Lemma v5publish_new a b c : SrcV5Publish.Publish_new a b c = Ok (V5Publish.new a b c).
Proof. reflexivity. Qed.
Lemma v5publish_from_bytes a b c : SrcV5Publish.Publish_from_bytes a b c = Ok (V5Publish.from_bytes a b c).
Proof. reflexivity. Qed.
Lemma v5suback_new a b : SrcV5SubAck.SubAck_new a b = Ok (V5SubAck.new a b).
Proof. reflexivity. Qed.
Lemma v5subscribe_new a b : SrcV5Subscribe.Subscribe_new a b = Ok (V5Subscribe.new a b).
Proof. reflexivity. Qed.
Lemma v5subscribe_new_many a : SrcV5Subscribe.Subscribe_new_many a = Ok (V5Subscribe.new_many a).
Proof. reflexivity. Qed.
Lemma v5subscribe_empty_subscribe : SrcV5Subscribe.Subscribe_empty_subscribe = Ok V5Subscribe.empty_subscribe.
Proof. reflexivity. Qed.
Lemma v5subscribe_add a b c : SrcV5Subscribe.Subscribe_add a b c = Ok (V5Subscribe.add a b c).
Proof. reflexivity. Qed.
Lemma v5subscribe_filter_new a b : SrcV5Subscribe.SubscribeFilter_new a b = Ok (V5Subscribe.filter_new a b).
Proof. reflexivity. Qed.
Lemma v5subscribe_set_nolocal a b : SrcV5Subscribe.SubscribeFilter_set_nolocal a b = Ok (V5Subscribe.set_nolocal a b).
Proof. reflexivity. Qed.
Lemma v5subscribe_set_preserve_retain a b : SrcV5Subscribe.SubscribeFilter_set_preserve_retain a b = Ok (V5Subscribe.set_preserve_retain a b).
Proof. reflexivity. Qed.
Lemma v5subscribe_set_retain_forward_rule a b : SrcV5Subscribe.SubscribeFilter_set_retain_forward_rule a b = Ok (V5Subscribe.set_retain_forward_rule a b).
Proof. reflexivity. Qed.
Lemma v5unsuback_new a : SrcV5UnsubAck.UnsubAck_new a = Ok (V5UnsubAck.new a).
Proof. reflexivity. Qed.
Lemma v5unsubscribe_new a : SrcV5Unsubscribe.Unsubscribe_new a = Ok (V5Unsubscribe.new a).
Proof. reflexivity. Qed.

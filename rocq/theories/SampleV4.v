(** SampleV4.v -- concrete v4 packets used in the non-vacuity examples. *)
From Verif Require Import ProofBase Utf8 ProofUtf8 ProofRead SpecV4.

(** client "c1", will "w/t" -> [222;173], login "u"/"" , clean session, keep alive 300 *)
Definition ex_connect : Packet :=
  Connect (V4Connect.mkConnect V4 300 [99; 49] true
    (Some (V4Connect.mkLastWill [119; 47; 116] [222; 173] AtLeastOnce true))
    (Some (V4Connect.mkLogin [117] []))).
(** "a/b", QoS 2, dup, id 513, payload of three bytes *)
Definition ex_publish : Packet :=
  Publish (V4Publish.mkPublish true ExactlyOnce false [97; 47; 98] 513 [1; 2; 3]).
Definition ex_publish0 : Packet :=
  Publish (V4Publish.mkPublish false AtMostOnce true [97] 0 []).
(** two filters, the first with a two-byte character *)
Definition ex_subscribe : Packet :=
  Subscribe (V4Subscribe.mkSubscribe 7
    [V4Subscribe.mkSubscribeFilter [0xC3; 0xA9; 47; 35] AtLeastOnce;
     V4Subscribe.mkSubscribeFilter [43] ExactlyOnce]).
Definition ex_suback : Packet :=
  SubAck (V4SubAck.mkSubAck 7 [V4SubAck.Success AtLeastOnce; V4SubAck.Failure]).
Definition ex_unsubscribe : Packet :=
  Unsubscribe (V4Unsubscribe.mkUnsubscribe 8 [[97]; [98; 47; 99]]).

Ltac sample :=
  repeat split; cbn;
  repeat match goal with
  | |- is_string _ => apply utf8_ok_spec; reflexivity
  | |- Forall _ _ => constructor
  | |- _ /\ _ => split
  end; try (apply utf8_ok_spec; reflexivity); unfold short, u16, u8, bytes_ok, max_len;
  repeat constructor; try discriminate; cbv; try discriminate; try reflexivity; auto.

Lemma ex_connect_fits : fits ex_connect.
Proof. sample. Qed.
Lemma ex_publish_fits : fits ex_publish.
Proof. sample. Qed.
Lemma ex_publish0_fits : fits ex_publish0.
Proof. sample. Qed.
Lemma ex_subscribe_fits : fits ex_subscribe.
Proof. sample. Qed.
Lemma ex_suback_fits : fits ex_suback.
Proof. sample. Qed.
Lemma ex_unsubscribe_fits : fits ex_unsubscribe.
Proof. sample. Qed.

(** a mixed sequence of canonical packets *)
Definition ex_session : list Packet :=
  [ex_connect; ex_publish; ex_publish0; ex_subscribe; ex_suback; ex_unsubscribe; PingReq; Disconnect].
Lemma ex_session_ok : Forall (fun p => fits p /\ has_payload p /\ canonical p /\ blen (body p) <= 100) ex_session.
Proof.
  repeat constructor; try (apply ex_connect_fits || apply ex_publish_fits || apply ex_publish0_fits
    || apply ex_subscribe_fits || apply ex_suback_fits || apply ex_unsubscribe_fits);
    try discriminate; try (cbv; congruence); sample.
Qed.

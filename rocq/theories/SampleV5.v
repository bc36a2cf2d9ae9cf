(** SampleV5.v -- concrete v5 packets used in the non-vacuity examples. *)
From Verif Require Import ProofBase Utf8 ProofUtf8 ProofRead SpecProps SpecPropSets SpecV5.

(** client "c1", will "w/t" with a delay and a content type, login "u"/"p", session expiry *)
Definition ex_connect5 : Packet :=
  Connect (V5Connect.mkConnect V5 300 [99; 49] true
    (Some (V5Connect.mkLastWill [119; 47; 116] [222; 173] AtLeastOnce true
      (Some (V5Connect.mkWillProperties (Some 70000) None None (Some [120]) None None [([107], [118])]))))
    (Some (V5Connect.mkLogin [117] [112]))
    (Some (V5Connect.mkConnectProperties (Some 3600) (Some 10) None None (Some 1) None [([97], [98])] None (Some [1; 2])))).
(** the same at level 4, as the v5 module lets one write it *)
Definition ex_connect54 : Packet :=
  Connect (V5Connect.mkConnect V4 300 [99; 49] true None None None).
Definition ex_connack5 : Packet :=
  ConnAck (V5ConnAck.mkConnAck true V5ConnAck.Success
    (Some (V5ConnAck.mkConnAckProperties None (Some 20) (Some 1) None None (Some [105; 100]) None None [] None None None (Some 60) None None None None))).
(** "a/b", QoS 2, two subscription identifiers, a user property, a content type *)
Definition ex_publish5 : Packet :=
  Publish (V5Publish.mkPublish true ExactlyOnce false [97; 47; 98] 513
    (Some (V5Publish.mkPublishProperties (Some 1) (Some 4) None (Some [114]) (Some [9]) [([107], [])] [5; 300] (Some [116])))
    [1; 2; 3]).
Definition ex_puback5 : Packet :=
  PubAck (V5PubAck.mkPubAck 513 V5PubAck.QuotaExceeded
    (Some (V5PubAck.mkPubAckProperties (Some [113]) [([107], [118])]))).
Definition ex_pubrel5 : Packet := PubRel (V5PubRel.mkPubRel 513 V5PubRel.PacketIdentifierNotFound None).
(** one filter with a two-byte character and all options, one plain *)
Definition ex_subscribe5 : Packet :=
  Subscribe (V5Subscribe.mkSubscribe 7
    [V5Subscribe.mkSubscribeFilter [0xC3; 0xA9; 47; 35] AtLeastOnce true true V5Subscribe.Never;
     V5Subscribe.mkSubscribeFilter [43] ExactlyOnce false false V5Subscribe.OnEverySubscribe]
    (Some (V5Subscribe.mkSubscribeProperties (Some 100) [([107], [118])]))).
Definition ex_suback5 : Packet :=
  SubAck (V5SubAck.mkSubAck 7 [V5SubAck.QoS1; V5SubAck.NotAuthorized] None).
Definition ex_unsubscribe5 : Packet := Unsubscribe (V5Unsubscribe.mkUnsubscribe 8 [[97]; [98; 47; 99]] None).
Definition ex_unsuback5 : Packet := UnsubAck (V5UnsubAck.mkUnsubAck 8 [V5UnsubAck.Success] None).
Definition ex_disconnect5 : Packet :=
  Disconnect (V5Disconnect.mkDisconnect V5Disconnect.ServerBusy
    (Some (V5Disconnect.mkDisconnectProperties None (Some [98]) [] None))).

Ltac sample5 :=
  repeat split; cbn;
  repeat match goal with
  | |- is_utf8 _ => apply utf8_ok_spec; reflexivity
  | |- is_string _ => apply utf8_ok_spec; reflexivity
  | |- Forall _ _ => constructor
  | |- item_typed _ => split; cbn
  | |- _ /\ _ => split
  end; try (apply utf8_ok_spec; reflexivity); unfold short, u16, u8, u32, usize, bytes_ok, max_len;
  repeat constructor; try discriminate; cbv; try discriminate; try reflexivity; auto.

Lemma ex_connect5_fits : fits ex_connect5. Proof. sample5. Qed.
Lemma ex_connect54_fits : fits ex_connect54. Proof. sample5. Qed.
Lemma ex_connack5_fits : fits ex_connack5. Proof. sample5. Qed.
Lemma ex_publish5_fits : fits ex_publish5. Proof. sample5. Qed.
Lemma ex_puback5_fits : fits ex_puback5. Proof. sample5. Qed.
Lemma ex_pubrel5_fits : fits ex_pubrel5. Proof. sample5. Qed.
Lemma ex_subscribe5_fits : fits ex_subscribe5. Proof. sample5. Qed.
Lemma ex_suback5_fits : fits ex_suback5. Proof. sample5. Qed.
Lemma ex_unsubscribe5_fits : fits ex_unsubscribe5. Proof. sample5. Qed.
Lemma ex_unsuback5_fits : fits ex_unsuback5. Proof. sample5. Qed.
Lemma ex_disconnect5_fits : fits ex_disconnect5. Proof. sample5. Qed.

(** one of each kind *)
Definition ex_session5 : list Packet :=
  [ex_connect5; ex_connack5; ex_publish5; ex_puback5; ex_pubrel5; ex_subscribe5; ex_suback5;
   ex_unsubscribe5; ex_unsuback5; PingReq; PingResp; ex_disconnect5].
Lemma ex_session5_ok :
  Forall (fun p => fits p /\ readable p /\ canonical p /\ blen (written p) <= 150) ex_session5.
Proof.
  repeat (apply Forall_cons; [|]); try apply Forall_nil;
    (split; [first [apply ex_connect5_fits | apply ex_connack5_fits | apply ex_publish5_fits | apply ex_puback5_fits
      | apply ex_pubrel5_fits | apply ex_subscribe5_fits | apply ex_suback5_fits | apply ex_unsubscribe5_fits
      | apply ex_unsuback5_fits | apply ex_disconnect5_fits | sample5]|]);
    (split; [|split; [reflexivity|vm_compute; discriminate]]); cbn; try discriminate; try reflexivity; auto.
  eexists; split; [reflexivity|]. cbn. discriminate.
Qed.

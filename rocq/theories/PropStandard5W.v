(** PropStandard5W.v -- property theorems: the v5 `write` against the MQTT 5 standard's own
    grammar (SpecStd5, SpecStd5Write). *)
From Verif Require Import Base SpecWire SpecTopic SpecProps SpecPropSets SpecV5 SpecStd5 SpecStd5Write
  ProofStd ProofBase ProofLib ProofRead ProofV5 ProofStd5 ProofStd5Not ProofStd5Inj ProofStd5Write SampleV5.
From Verif Require V5Connect V5ConnAck V5Publish V5PubAck V5PubRec V5PubRel V5PubComp
  V5Subscribe V5SubAck V5Unsubscribe V5UnsubAck V5Disconnect.

(** ** C63: `v5` `write` and the messages of MQTT 5 *)
Lemma written_frame p n out : fits p -> write p [] = (Ok n, out) -> out = frame (first_byte p) (written p).
Proof.
  intros (_ & _ & Hs & Hi & Hl) Hw. destruct (write_empty p Hl Hi Hs) as [E _]. rewrite Hw in E. exact E.
Qed.
Lemma frame_det b1 bd b2 bd2 : blen bd <= max_len -> blen bd2 <= max_len -> frame b1 bd = frame b2 bd2 -> b1 = b2 /\ bd = bd2.
Proof.
  intros L L' E. unfold frame in E. apply cons_eq in E as [-> E]. split; [reflexivity|].
  destruct (lenfield_det _ _ _ _ _ _ (lenfield_varint _ L) (lenfield_varint _ L') E) as (_ & _ & H). exact H.
Qed.
(** what is written is the message of the standard that the value stands for, exactly for the
    values listed in [standard_value] *)
Theorem C63_v5_writes_standard : forall p n out, fits p -> write p [] = (Ok n, out) ->
  (standard_value p <->
   exists m, conforms m /\ as_packet m = Some (canon p) /\ blen (content m) <= max_len /\
     out = frame (header_byte m) (content m)).
Proof.
  intros p n out Hf Hw. apply written_frame in Hw; [|exact Hf]. subst out. split.
  - intros V. assert (Hr := standard_regular p (proj1 V)). destruct (message_written p Hr) as [E1 E2].
    exists (message_of p). split; [apply message_conforms; assumption|]. split; [apply message_packet, Hr|].
    rewrite <- E1, <- E2. split; [apply Hf|reflexivity].
  - intros (m & Hm & Hp & Hl & E). apply frame_det in E as [E1 E2]; [|apply Hf|exact Hl].
    destruct (regular_dec p) as [Hr|Hr].
    + destruct (message_written p Hr) as [E1' E2'].
      assert (m = message_of p) as ->; [|apply message_conforms; assumption].
      apply content_det; [apply conforms_formed; assumption|apply message_formed; assumption|congruence|congruence].
    + exfalso. destruct (irregular p m Hr) as [(code & r & -> & Ei & Hn) ->]; [congruence|congruence|].
      cbn [as_packet code_of canon V5Disconnect.reason_code] in Hp. injection Hp as Hp _. congruence.
Qed.
(** a message of the standard is written only for the value it stands for, with one exception:
    a DISCONNECT with a property set in which nothing is set is written as a normal
    disconnection *)
Theorem C63_v5_writes_the_message : forall p n out m, fits p -> write p [] = (Ok n, out) ->
  conforms m -> blen (content m) <= max_len -> out = frame (header_byte m) (content m) ->
  as_packet m = Some (canon p) \/
  (m = M_DISCONNECT Nothing /\
   exists code, p = Disconnect (V5Disconnect.mkDisconnect code (Some (disconnect_record []))) /\
     code <> V5Disconnect.NormalDisconnection).
Proof.
  intros p n out m Hf Hw Hm Hl E. apply written_frame in Hw; [|exact Hf]. subst out.
  apply frame_det in E as [E1 E2]; [|apply Hf|exact Hl].
  destruct (regular_dec p) as [Hr|Hr].
  - left. destruct (message_written p Hr) as [E1' E2'].
    assert (m = message_of p) as ->; [|apply message_packet, Hr].
    apply content_det; [apply conforms_formed; assumption|apply message_formed; assumption|congruence|congruence].
  - right. destruct (irregular p m Hr) as [(code & r & -> & Ei & Hn) ->]; [congruence|congruence|].
    split; [reflexivity|]. exists code. split; [|exact Hn].
    rewrite <- (ProofPropSets.disconnect_record_items r), Ei. reflexivity.
Qed.
(** the encoding of the standard is unambiguous: no two messages have the same bytes *)
Theorem C63_v5_encoding_unambiguous : forall m m', conforms m -> conforms m' ->
  blen (content m) <= max_len -> blen (content m') <= max_len ->
  frame (header_byte m) (content m) = frame (header_byte m') (content m') -> m = m'.
Proof.
  intros m m' H H' L L' E. apply frame_det in E as [E1 E2]; [|exact L|exact L'].
  apply content_det; auto using conforms_formed.
Qed.
(** a PUBLISH with three subscription identifiers is written as the standard has it; a CONNECT
    with authentication data but no method is no message of the standard; a DISCONNECT loses
    its reason *)
Example C63_v5_case :
  let q := Publish (V5Publish.mkPublish true AtLeastOnce false [116] 7
    (Some (V5Publish.mkPublishProperties None None None None None [([107], [118])] [1; 2; 3] None)) [9]) in
  let d := Disconnect (V5Disconnect.mkDisconnect V5Disconnect.ServerBusy (Some (V5Disconnect.mkDisconnectProperties None None [] None))) in
  fits q /\ standard_value q /\
  write q [] = (Ok 22, [0x3A; 20; 0; 1; 116; 0; 7; 13; 38; 0; 1; 107; 0; 1; 118; 11; 1; 11; 2; 11; 3; 9]) /\
  fits ex_connect5 /\ ~ standard_value ex_connect5 /\
  fits d /\ write d [] = (Ok 2, [0xE0; 0]) /\ ~ standard_value d /\
  conforms (M_DISCONNECT Nothing) /\ frame (header_byte (M_DISCONNECT Nothing)) (content (M_DISCONNECT Nothing)) = [0xE0; 0].
Proof.
  assert (A : forall l, Forall (fun c => c < 128) l -> is_string l).
  { intros l H. exists l. split; [eapply Forall_impl; [|exact H]; cbv beta; intros c Hc; left; lia|].
    induction H as [|c l Hc H IH]; [reflexivity|]. cbn [flat_map]. 
    rewrite <- IH. unfold utf8_encode. rewrite (proj2 (N.ltb_lt c 0x80) Hc). reflexivity. }
  assert (T : forall c, 0 < c < 128 -> text [c]).
  { intros c Hc. split; [apply A; repeat constructor; lia|]. split; [cbv; discriminate|]. intros [H|[]]; lia. }
  split; [sample5|]. split.
  { split; [|cbn; repeat constructor; try apply T; try lia; discriminate].
    cbn. split; [apply T; lia|]. split; [intros [H|[]]; discriminate H|]. split; [intros [H|[]]; discriminate H|]. split; discriminate. }
  split; [vm_compute; reflexivity|]. split; [sample5|].
  split. { intros [(_ & _ & _ & _ & H) _]. apply H; [discriminate|reflexivity]. }
  split; [sample5|]. split; [vm_compute; reflexivity|].
  split. { intros [H _]. discriminate (H _ eq_refl eq_refl). }
  split; [exact I|reflexivity].
Qed.
Print Assumptions C63_v5_writes_standard.
Print Assumptions C63_v5_writes_the_message.
Print Assumptions C63_v5_encoding_unambiguous.

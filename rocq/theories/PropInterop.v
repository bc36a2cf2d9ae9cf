(** PropInterop.v -- C53: packets of one protocol version read by the other module. *)
From Verif Require Import ProofBase Lib ProofLib ProofRead SpecFrame ProofCheck SpecProps SpecPropSets ProofProps.
From Verif Require SpecV4 SpecV5 V4Mod V5Mod ProofV4Read ProofV5Read ProofV4 ProofV5 ProofV5Back ProofPropSets SampleV4 SampleV5.

(** [p], written by the v4 module, on the wire *)
Definition sent4 (p : V4Mod.Packet) (out : bytes) : Prop := exists n, V4Mod.write p [] = (Ok n, out).
Definition sent5 (p : V5Mod.Packet) (out : bytes) : Prop := exists n, V5Mod.write p [] = (Ok n, out).
(** the receiver of the other version gets this packet and nothing else is consumed *)
Definition v5_gets (out rest : bytes) (max : N) (q : V5Mod.Packet) : Prop :=
  V5Mod.read (out ++ rest) max = (Ok q, rest).
Definition v4_gets (out rest : bytes) (max : N) (q : V4Mod.Packet) : Prop :=
  V4Mod.read (out ++ rest) max = (Ok q, rest).
(** it refuses the packet, and drops exactly its bytes *)
Definition v5_refuses (out rest : bytes) (max : N) : Prop :=
  exists e, V5Mod.read (out ++ rest) max = (Err e, rest).
Definition v4_refuses (out rest : bytes) (max : N) : Prop :=
  exists e, V4Mod.read (out ++ rest) max = (Err e, rest).

(** *** infrastructure *)
Lemma sent4_wire p out : SpecV4.fits p -> sent4 p out -> out = SpecV4.wire p.
Proof.
  intros (_ & _ & Hi & Hl) [n H]. destruct (ProofV4.write_empty p Hl Hi) as [E _]. rewrite H in E. exact E.
Qed.
Lemma sent5_wire p out : SpecV5.fits p -> sent5 p out -> out = SpecV5.written_wire p.
Proof.
  intros Hf [n H]. destruct (ProofV5.write_fits p Hf) as [m E]. rewrite H in E. injection E as _ E. exact E.
Qed.
Lemma frame_starts b1 bd rest : blen bd <= max_len -> starts_with_frame (frame b1 bd ++ rest) b1 bd rest.
Proof.
  intros H. exists (varint (blen bd)). unfold frame. cbn [app]. rewrite <- app_assoc.
  split; [reflexivity|]. split; [apply lenfield_varint, H|apply varint_len_bound].
Qed.
Lemma app_inj_blen (a b c d : bytes) : a ++ c = b ++ d -> blen a = blen b -> a = b /\ c = d.
Proof.
  revert b; induction a as [|x a IH]; intros [|y b] E H; cbn [app] in E; autorewrite with blen in H; try lia; auto.
  injection E as -> E. destruct (IH b E) as [-> ->]; [lia|auto].
Qed.
Lemma frame_starts_det b1 bd rest c1 bd' rest' : blen bd <= max_len ->
  starts_with_frame (frame b1 bd ++ rest) c1 bd' rest' -> c1 = b1 /\ bd' = bd /\ rest' = rest.
Proof.
  intros Hl (f & E & Hf & _). unfold frame in E. cbn [app] in E. rewrite <- app_assoc in E. injection E as <- E.
  destruct (lenfield_det _ _ _ _ _ _ Hf (lenfield_varint _ Hl) (eq_sym E)) as (Ef & En & Er).
  split; [reflexivity|].
  assert (H : blen bd' = blen bd) by congruence. apply app_inj_blen in Er; [tauto|lia].
Qed.

Lemma up_bytes p rest : SpecV4.fits p -> bytes_ok rest -> bytes_ok (SpecV4.wire p ++ rest).
Proof. intros Hf Hr. apply bytes_ok_app. split; [apply ProofV4.wire_bytes, Hf|exact Hr]. Qed.
Lemma down_bytes p rest : SpecV5.fits p -> bytes_ok rest -> bytes_ok (SpecV5.written_wire p ++ rest).
Proof. intros Hf Hr. apply bytes_ok_app. split; [apply ProofV5.wire_bytes, Hf|exact Hr]. Qed.

Lemma up_iff p out rest max q : SpecV4.fits p -> sent4 p out -> bytes_ok rest -> blen (SpecV4.body p) <= max ->
  (v5_gets out rest max q <-> SpecV5.decodes_body (SpecV4.first_byte p) (SpecV4.body p) q).
Proof.
  intros Hf Hs Hr Hm. rewrite (sent4_wire _ _ Hf Hs). unfold v5_gets.
  rewrite (ProofV5Read.read_iff _ _ _ _ (up_bytes _ _ Hf Hr)). assert (Hl : blen (SpecV4.body p) <= max_len) by apply Hf.
  split.
  - intros (b1 & bd & H & _ & Hd). apply frame_starts_det in H as (-> & -> & _); assumption.
  - intros Hd. do 2 eexists. split; [apply frame_starts, Hl|]. auto.
Qed.
Lemma down_iff p out rest max q : SpecV5.fits p -> sent5 p out -> bytes_ok rest -> blen (SpecV5.written p) <= max ->
  (v4_gets out rest max q <-> SpecV4.decodes_body (SpecV5.first_byte p) (SpecV5.written p) q).
Proof.
  intros Hf Hs Hr Hm. rewrite (sent5_wire _ _ Hf Hs). unfold v4_gets.
  rewrite (ProofV4Read.read_iff _ _ _ _ (down_bytes _ _ Hf Hr)). assert (Hl : blen (SpecV5.written p) <= max_len) by apply Hf.
  split.
  - intros (b1 & bd & H & _ & Hd). apply frame_starts_det in H as (-> & -> & _); assumption.
  - intros Hd. do 2 eexists. split; [apply frame_starts, Hl|]. auto.
Qed.
Lemma up_refuses p out rest max : SpecV4.fits p -> sent4 p out -> bytes_ok rest -> blen (SpecV4.body p) <= max ->
  (forall q, ~ SpecV5.decodes_body (SpecV4.first_byte p) (SpecV4.body p) q) -> v5_refuses out rest max.
Proof.
  intros Hf Hs Hr Hm Hn. rewrite (sent4_wire _ _ Hf Hs).
  eapply ProofV5.read_rejects; [apply up_bytes; assumption|apply frame_starts, Hf|exact Hm|exact Hn].
Qed.
Lemma down_refuses p out rest max : SpecV5.fits p -> sent5 p out -> bytes_ok rest -> blen (SpecV5.written p) <= max ->
  (forall q, ~ SpecV4.decodes_body (SpecV5.first_byte p) (SpecV5.written p) q) -> v4_refuses out rest max.
Proof.
  intros Hf Hs Hr Hm Hn. rewrite (sent5_wire _ _ Hf Hs).
  eapply ProofV4.read_rejects; [apply down_bytes; assumption|apply frame_starts, Hf|exact Hm|exact Hn].
Qed.
Lemma up_kind p bd q : SpecV5.decodes_body (SpecV4.first_byte p) bd q -> SpecV5.kind q = SpecV4.kind p.
Proof.
  assert (E : SpecV4.first_byte p / 16 = SpecV4.kind p).
  { destruct p; try reflexivity. cbn [SpecV4.first_byte SpecV4.kind].
    destruct (V4Publish.dup p), (V4Publish.qos p), (V4Publish.retain p); reflexivity. }
  destruct q; cbn [SpecV5.decodes_body SpecV5.kind]; intros H; try match type of H with _ /\ _ => destruct H as [H _] end; rewrite <- E, H; reflexivity.
Qed.
Lemma down_kind p bd q : SpecV4.decodes_body (SpecV5.first_byte p) bd q -> SpecV4.kind q = SpecV5.kind p.
Proof.
  assert (E : SpecV5.first_byte p / 16 = SpecV5.kind p).
  { destruct p; try reflexivity. cbn [SpecV5.first_byte SpecV5.kind].
    destruct (V5Publish.dup p), (V5Publish.qos p), (V5Publish.retain p); reflexivity. }
  destruct q; cbn [SpecV4.decodes_body SpecV4.kind]; intros H; try match type of H with _ /\ _ => destruct H as [H _] end; rewrite <- E, H; reflexivity.
Qed.

Lemma up_total p out rest max : SpecV4.fits p -> sent4 p out -> bytes_ok rest -> blen (SpecV4.body p) <= max ->
  (exists q, v5_gets out rest max q) \/ v5_refuses out rest max.
Proof.
  intros Hf Hs Hr Hm. assert (Hl : blen (SpecV4.body p) <= max_len) by apply Hf.
  unfold v5_gets, v5_refuses. rewrite (sent4_wire _ _ Hf Hs).
  assert (Hb := up_bytes _ _ Hf Hr). revert Hb. unfold SpecV4.wire, frame. cbn [app]. rewrite <- app_assoc. intros Hb.
  rewrite ProofV5Read.read_complete_frame by (exact Hb || (apply lenfield_varint, Hl) || apply varint_len_bound || exact Hm).
  apply bytes_ok_cons in Hb as [Hb1 Hb]. apply bytes_ok_app in Hb as [_ Hb]. apply bytes_ok_app in Hb as [Hbd _].
  assert (H := ProofV5Read.frame_sound (SpecV4.first_byte p) (SpecV4.first_byte p :: varint (blen (SpecV4.body p))) _ Hb1 Hbd (ProofProps.le_huge _ Hl)).
  destruct (V5Mod.read_frame _ _); try contradiction; eauto.
Qed.
Lemma down_total p out rest max : SpecV5.fits p -> sent5 p out -> bytes_ok rest -> blen (SpecV5.written p) <= max ->
  (exists q, v4_gets out rest max q) \/ v4_refuses out rest max.
Proof.
  intros Hf Hs Hr Hm. assert (Hl : blen (SpecV5.written p) <= max_len) by apply Hf.
  unfold v4_gets, v4_refuses. rewrite (sent5_wire _ _ Hf Hs).
  assert (Hb := down_bytes _ _ Hf Hr). revert Hb. unfold SpecV5.written_wire, frame. cbn [app]. rewrite <- app_assoc. intros Hb.
  rewrite ProofV4Read.read_complete_frame by (exact Hb || (apply lenfield_varint, Hl) || apply varint_len_bound || exact Hm).
  apply bytes_ok_cons in Hb as [Hb1 Hb]. apply bytes_ok_app in Hb as [_ Hb]. apply bytes_ok_app in Hb as [Hbd _].
  assert (H := ProofV4Read.frame_sound (SpecV5.first_byte p) (SpecV5.first_byte p :: varint (blen (SpecV5.written p))) _ Hb1 Hbd).
  destruct (V4Mod.read_frame _ _); try contradiction; eauto.
Qed.

(** ** C53: packet boundaries and types are common to both versions *)
Theorem C53_boundaries_v4_to_v5 : forall p out rest max, SpecV4.fits p -> sent4 p out -> bytes_ok rest ->
  blen (SpecV4.body p) <= max ->
  v5_refuses out rest max \/ exists q, v5_gets out rest max q /\ SpecV5.kind q = SpecV4.kind p.
Proof.
  intros p out rest max Hf Hs Hr Hm.
  destruct (up_total p out rest max Hf Hs Hr Hm) as [[q H]|H]; [right|left; exact H].
  exists q. split; [exact H|]. apply (up_iff p out rest max q Hf Hs Hr Hm) in H. eapply up_kind, H.
Qed.
Theorem C53_boundaries_v5_to_v4 : forall p out rest max, SpecV5.fits p -> sent5 p out -> bytes_ok rest ->
  blen (SpecV5.written p) <= max ->
  v4_refuses out rest max \/ exists q, v4_gets out rest max q /\ SpecV4.kind q = SpecV5.kind p.
Proof.
  intros p out rest max Hf Hs Hr Hm.
  destruct (down_total p out rest max Hf Hs Hr Hm) as [[q H]|H]; [right|left; exact H].
  exists q. split; [exact H|]. apply (down_iff p out rest max q Hf Hs Hr Hm) in H. eapply down_kind, H.
Qed.

(** ** C53: acknowledgements and pings are understood both ways *)
Theorem C53_acks_v4_to_v5 : forall id rest max, u16 id -> bytes_ok rest -> 2 <= max ->
  (forall out, sent4 (V4Mod.PubAck (V4PubAck.mkPubAck id)) out ->
     v5_gets out rest max (V5Mod.PubAck (V5PubAck.mkPubAck id V5PubAck.Success None))) /\
  (forall out, sent4 (V4Mod.PubRec (V4PubRec.mkPubRec id)) out ->
     v5_gets out rest max (V5Mod.PubRec (V5PubRec.mkPubRec id V5PubRec.Success None))) /\
  (forall out, sent4 (V4Mod.PubRel (V4PubRel.mkPubRel id)) out ->
     v5_gets out rest max (V5Mod.PubRel (V5PubRel.mkPubRel id V5PubRel.Success None))) /\
  (forall out, sent4 (V4Mod.PubComp (V4PubComp.mkPubComp id)) out ->
     v5_gets out rest max (V5Mod.PubComp (V5PubComp.mkPubComp id V5PubComp.Success None))).
Proof.
  intros id rest max Hi Hr Hm. repeat split; intros out Hs; 
  refine (proj2 (up_iff _ out rest max _ _ Hs Hr _) _);
  try (repeat split; try exact Hi; cbn; try discriminate; auto; fail);
  (split; [reflexivity|]); (split; [exact Hi|]); left; auto.
Qed.
Theorem C53_acks_v5_to_v4 : forall rest max, bytes_ok rest ->
  (forall p out, SpecV5.fits (V5Mod.PubAck p) -> sent5 (V5Mod.PubAck p) out -> blen (SpecV5.written (V5Mod.PubAck p)) <= max ->
     v4_gets out rest max (V4Mod.PubAck (V4PubAck.mkPubAck (V5PubAck.pkid p)))) /\
  (forall p out, SpecV5.fits (V5Mod.PubRec p) -> sent5 (V5Mod.PubRec p) out -> blen (SpecV5.written (V5Mod.PubRec p)) <= max ->
     v4_gets out rest max (V4Mod.PubRec (V4PubRec.mkPubRec (V5PubRec.pkid p)))) /\
  (forall p out, SpecV5.fits (V5Mod.PubRel p) -> sent5 (V5Mod.PubRel p) out -> blen (SpecV5.written (V5Mod.PubRel p)) <= max ->
     v4_gets out rest max (V4Mod.PubRel (V4PubRel.mkPubRel (V5PubRel.pkid p)))) /\
  (forall p out, SpecV5.fits (V5Mod.PubComp p) -> sent5 (V5Mod.PubComp p) out -> blen (SpecV5.written (V5Mod.PubComp p)) <= max ->
     v4_gets out rest max (V4Mod.PubComp (V4PubComp.mkPubComp (V5PubComp.pkid p)))).
Proof.
  intros rest max Hr. repeat split; intros p out Hf Hs Hm;
  refine (proj2 (down_iff _ out rest max _ Hf Hs Hr Hm) _);
  (split; [reflexivity|]); (split; [apply Hf|]); eexists; reflexivity.
Qed.
Theorem C53_pings : forall rest max, bytes_ok rest ->
  (forall out, sent4 V4Mod.PingReq out -> sent5 V5Mod.PingReq out /\ v5_gets out rest max V5Mod.PingReq) /\
  (forall out, sent4 V4Mod.PingResp out -> sent5 V5Mod.PingResp out /\ v5_gets out rest max V5Mod.PingResp).
Proof.
  intros rest max Hr. split; intros out Hs; split;
    try (destruct Hs as [n H]; vm_compute in H; injection H as _ <-; exists 2; reflexivity);
    (refine (proj2 (up_iff _ out rest max _ _ Hs Hr _) _); [|change (0 <= max); lia|reflexivity]);
    (split; [exact I|]); (split; [exact I|]); (split; [exact I|]); vm_compute; discriminate.
Qed.

(** ** C53: CONNACK, UNSUBACK, DISCONNECT *)
Theorem C53_refused_v4_to_v5 : forall p out rest max, SpecV4.fits p -> sent4 p out -> bytes_ok rest ->
  blen (SpecV4.body p) <= max ->
  In (SpecV4.kind p) [2; 11; 14] -> v5_refuses out rest max.
Proof.
  intros p out rest max Hf Hs Hr Hm Hk. eapply up_refuses; eauto. intros q Hd.
  assert (Hq := up_kind _ _ _ Hd).
  destruct p; cbn in Hk; try (exfalso; lia); destruct q; try discriminate Hq; cbn [SpecV5.decodes_body SpecV4.body] in Hd.
  - destruct Hd as (_ & flags & sec & junk & E & _ & Hp). apply ProofV5Back.dprops_len in Hp.
    apply (f_equal blen) in E. autorewrite with blen in E. lia.
  - destruct Hd as (_ & _ & _ & sec & Hp & E). apply ProofV5Back.dprops_len in Hp.
    apply (f_equal blen) in E. autorewrite with blen in E. lia.
  - destruct Hd as (_ & sec & junk & E & _). discriminate E.
Qed.
(** the other way: successful CONNACKs and all DISCONNECTs are read, the rest is refused *)
Theorem C53_connack_v5_to_v4 : forall c out rest max, SpecV5.fits (V5Mod.ConnAck c) ->
  sent5 (V5Mod.ConnAck c) out -> bytes_ok rest -> blen (SpecV5.written (V5Mod.ConnAck c)) <= max ->
  (V5ConnAck.code c = V5ConnAck.Success ->
     v4_gets out rest max (V4Mod.ConnAck (V4ConnAck.mkConnAck (V5ConnAck.session_present c) V4ConnAck.Success))) /\
  (V5ConnAck.code c <> V5ConnAck.Success -> v4_refuses out rest max).
Proof.
  intros c out rest max Hf Hs Hr Hm. split; intros Hc.
  - refine (proj2 (down_iff _ out rest max _ Hf Hs Hr Hm) _). cbn [SpecV4.decodes_body SpecV5.written].
    split; [reflexivity|]. do 2 eexists. split; [rewrite Hc; reflexivity|]. cbn.
    destruct (V5ConnAck.session_present c); reflexivity.
  - apply (down_refuses _ _ rest max Hf Hs Hr Hm). intros q Hd. assert (Hq := down_kind _ _ _ Hd).
    destruct q; try discriminate Hq. cbn [SpecV4.decodes_body SpecV5.written] in Hd.
    destruct Hd as (_ & flags & junk & E & _). cbn [app] in E. injection E as _ E _.
    destruct (V5ConnAck.code c), (V4ConnAck.code c0); try discriminate E; congruence.
Qed.
Theorem C53_disconnect_v5_to_v4 : forall d out rest max, SpecV5.fits (V5Mod.Disconnect d) ->
  sent5 (V5Mod.Disconnect d) out -> bytes_ok rest -> blen (SpecV5.written (V5Mod.Disconnect d)) <= max ->
  v4_gets out rest max V4Mod.Disconnect.
Proof.
  intros d out rest max Hf Hs Hr Hm.
  refine (proj2 (down_iff _ out rest max _ Hf Hs Hr Hm) _). reflexivity.
Qed.
Theorem C53_unsuback_v5_to_v4 : forall u out rest max, SpecV5.fits (V5Mod.UnsubAck u) ->
  sent5 (V5Mod.UnsubAck u) out -> bytes_ok rest -> blen (SpecV5.written (V5Mod.UnsubAck u)) <= max ->
  v4_refuses out rest max.
Proof.
  intros c out rest max Hf Hs Hr Hm.
  apply (down_refuses _ _ rest max Hf Hs Hr Hm). intros q Hd. assert (Hq := down_kind _ _ _ Hd).
  destruct q; try discriminate Hq. cbn [SpecV4.decodes_body SpecV5.written SpecV5.body] in Hd.
  destruct Hd as (_ & _ & E). apply (f_equal blen) in E. unfold section_bytes in E. autorewrite with blen in E.
  assert (H := varint_len_bound (blen (items_bytes (SpecV5.opt_items unsuback_items (V5UnsubAck.properties c))))). lia.
Qed.

(** ** C53: PUBLISH -- properties become payload and payload becomes properties *)
Theorem C53_publish_v5_to_v4 : forall p out rest max, SpecV5.fits (V5Mod.Publish p) ->
  sent5 (V5Mod.Publish p) out -> bytes_ok rest -> blen (SpecV5.written (V5Mod.Publish p)) <= max ->
  v4_gets out rest max (V4Mod.Publish (V4Publish.mkPublish (V5Publish.dup p) (V5Publish.qos p) (V5Publish.retain p)
    (V5Publish.topic p) (if positive_qos (V5Publish.qos p) then V5Publish.pkid p else 0)
    (section_bytes (SpecV5.opt_items publish_items (V5Publish.properties p)) ++ V5Publish.payload p))).
Proof.
  intros p out rest max Hf Hs Hr Hm.
  refine (proj2 (down_iff _ out rest max _ Hf Hs Hr Hm) _).
  destruct Hf as ((Ht & _) & (Hsh & _) & _ & Hi & _). cbn [SpecV5.typed_fields SpecV5.short_fields SpecV5.has_id] in *.
  cbn [SpecV4.decodes_body SpecV5.first_byte SpecV5.written SpecV5.body V4Publish.dup V4Publish.qos V4Publish.retain V4Publish.topic V4Publish.pkid V4Publish.payload].
  assert (F : forall d q r, let b := 0x30 + 8 * bit d + 2 * qos_num q + bit r in
    b / 16 = 3 /\ d = bit_at 3 b /\ b / 2 mod 4 = qos_num q /\ r = bit_at 0 b) by (intros [|] [| |] [|]; repeat split).
  destruct (F (V5Publish.dup p) (V5Publish.qos p) (V5Publish.retain p)) as (F1 & F2 & F3 & F4).
  do 4 (split; [assumption|]). split; [destruct (positive_qos (V5Publish.qos p)); reflexivity|].
  split; [apply Ht|]. split; [apply Hsh|]. destruct (positive_qos (V5Publish.qos p)); [|reflexivity].
  split; [specialize (Hi eq_refl); lia|apply Ht].
Qed.
Theorem C53_publish_v4_to_v5 : forall p q out rest max, SpecV4.fits (V4Mod.Publish p) ->
  sent4 (V4Mod.Publish p) out -> bytes_ok rest -> blen (SpecV4.body (V4Mod.Publish p)) <= max ->
  (v5_gets out rest max (V5Mod.Publish q) <->
   V5Publish.dup q = V4Publish.dup p /\ V5Publish.qos q = V4Publish.qos p /\
   V5Publish.retain q = V4Publish.retain p /\ V5Publish.topic q = V4Publish.topic p /\
   V5Publish.pkid q = (if positive_qos (V4Publish.qos p) then V4Publish.pkid p else 0) /\
   exists sec, V4Publish.payload p = sec ++ V5Publish.payload q /\ sec <> [] /\
     decodes_props (allowed_at InPublish) publish_record (V5Publish.properties q) sec).
Proof.
  intros p q out rest max Hf Hs Hr Hm.
  rewrite (up_iff _ out rest max _ Hf Hs Hr Hm).
  destruct Hf as (Ht & Hsh & Hi & _). cbn [SpecV4.typed SpecV4.short_fields SpecV4.has_id] in *.
  cbn [SpecV5.decodes_body SpecV4.first_byte SpecV4.body].
  assert (F : forall d q r, let b := 0x30 + 8 * bit d + 2 * qos_num q + bit r in
    b / 16 = 3 /\ d = bit_at 3 b /\ b / 2 mod 4 = qos_num q /\ r = bit_at 0 b) by (intros [|] [| |] [|]; repeat split).
  destruct (F (V4Publish.dup p) (V4Publish.qos p) (V4Publish.retain p)) as (F1 & F2 & F3 & F4).
  cbv zeta in *. rewrite F1, <- F2, F3, <- F4.
  assert (Hq : qos_num (V4Publish.qos p) = qos_num (V5Publish.qos q) <-> V5Publish.qos q = V4Publish.qos p).
  { split; [|congruence]. destruct (V4Publish.qos p), (V5Publish.qos q); intros H; try discriminate H; reflexivity. }
  split.
  - intros (_ & E1 & E2 & E3 & _ & Hsq & Hid & sec & E & Hp). apply Hq in E2. rewrite E2 in *.
    apply field_inj in E as [Et E]; [|apply Hsh|exact Hsq].
    assert (Hne : sec <> []) by (intros ->; apply ProofV5Back.dprops_len in Hp; autorewrite with blen in Hp; lia).
    destruct (positive_qos (V4Publish.qos p)).
    + apply be16_inj in E as [Ei E]; [|apply Ht|apply Hid]. repeat split; auto. exists sec. auto.
    + repeat split; auto. exists sec. auto.
  - intros (E1 & E2 & E3 & E4 & E5 & sec & E & _ & Hp). rewrite E2, E4, E5.
    split; [reflexivity|]. do 3 (split; [congruence|]). split; [apply Ht|]. split; [apply Hsh|].
    split; [destruct (positive_qos (V4Publish.qos p)); [|reflexivity]; split; [specialize (Hi eq_refl); lia|apply Ht]|].
    exists sec. split; [|exact Hp]. rewrite E. destruct (positive_qos (V4Publish.qos p)); reflexivity.
Qed.
(** in particular a payload that starts with a zero byte silently loses it ... *)
Theorem C53_publish_v4_to_v5_zero : forall dup qos retain topic id payload out rest max,
  let p := V4Mod.Publish (V4Publish.mkPublish dup qos retain topic id (0 :: payload)) in
  SpecV4.fits p -> sent4 p out -> bytes_ok rest -> blen (SpecV4.body p) <= max ->
  v5_gets out rest max (V5Mod.Publish (V5Publish.mkPublish dup qos retain topic
    (if positive_qos qos then id else 0) None payload)).
Proof.
  intros dup qos retain topic id payload out rest max p Hf Hs Hr Hm.
  apply (C53_publish_v4_to_v5 _ _ out rest max Hf Hs Hr Hm).
  cbn. repeat split. exists [0]. split; [reflexivity|]. split; [discriminate|]. split; [|vm_compute; discriminate].
  apply lf_last. reflexivity.
Qed.
(** ... an empty one is refused, and no payload arrives unchanged *)
Theorem C53_publish_v4_to_v5_never : forall p out rest max, SpecV4.fits (V4Mod.Publish p) ->
  sent4 (V4Mod.Publish p) out -> bytes_ok rest -> blen (SpecV4.body (V4Mod.Publish p)) <= max ->
  (V4Publish.payload p = [] -> v5_refuses out rest max) /\
  (forall q, v5_gets out rest max (V5Mod.Publish q) -> blen (V5Publish.payload q) < blen (V4Publish.payload p)).
Proof.
  intros p out rest max Hf Hs Hr Hm.
  assert (H2 : forall q, v5_gets out rest max (V5Mod.Publish q) -> blen (V5Publish.payload q) < blen (V4Publish.payload p)).
  { intros q H. apply (C53_publish_v4_to_v5 _ _ out rest max Hf Hs Hr Hm) in H as (_ & _ & _ & _ & _ & sec & -> & Hn & _).
    destruct sec; [congruence|]. autorewrite with blen. lia. }
  split; [|exact H2]. intros E.
  destruct (C53_boundaries_v4_to_v5 _ out rest max Hf Hs Hr Hm) as [H|[q [H Hk]]]; [exact H|].
  destruct q; try discriminate Hk. apply H2 in H. rewrite E in H. autorewrite with blen in H. lia.
Qed.

(** ** C53: SUBACK -- one code too many, or codes missing *)
Lemma suback_items_ids r : Forall (fun it => In (fst it) (allowed_at InSubAck)) (suback_items r).
Proof.
  unfold suback_items. apply Forall_app. split.
  - destruct (V5SubAck.reason_string r); cbn; repeat constructor; auto.
  - unfold pair_items. apply Forall_map. apply Forall_forall. intros [k v] _. cbn. auto.
Qed.
Lemma code4_values cs x : In x (map SpecV4.suback_code cs) -> x = 0 \/ x = 1 \/ x = 2 \/ x = 128.
Proof.
  intros H. apply in_map_iff in H as (c & <- & _). destruct c as [[| |]|]; cbn; auto.
Qed.
(** the v4 module reads the property length as a first return code *)
Theorem C53_suback_v5_to_v4 : forall s q out rest max, SpecV5.fits (V5Mod.SubAck s) ->
  sent5 (V5Mod.SubAck s) out -> bytes_ok rest -> blen (SpecV5.written (V5Mod.SubAck s)) <= max ->
  (v4_gets out rest max q <->
   SpecV5.opt_items suback_items (V5SubAck.properties s) = [] /\
   exists codes, map SpecV4.suback_code codes = map SpecV5.suback_code (V5SubAck.return_codes s) /\
     q = V4Mod.SubAck (V4SubAck.mkSubAck (V5SubAck.pkid s) (V4SubAck.Success AtMostOnce :: codes))).
Proof.
  intros s q out rest max Hf Hs Hr Hm.
  rewrite (down_iff _ out rest max _ Hf Hs Hr Hm).
  destruct Hf as ((Ht & _) & _). cbn [SpecV5.typed_fields] in Ht. split.
  - intros Hd. assert (Hq := down_kind _ _ _ Hd). destruct q; try discriminate Hq.
    cbn [SpecV4.decodes_body SpecV5.written SpecV5.body] in Hd. destruct Hd as (_ & Hi & Hn & E).
    apply be16_inj in E as [Ei E]; [|apply Ht|exact Hi].
    destruct (SpecV5.opt_items suback_items (V5SubAck.properties s)) as [|it its] eqn:Ei0.
    + split; [reflexivity|]. change (section_bytes []) with [0] in E. cbn [app] in E.
      destruct s0 as [id codes]. cbn [V4SubAck.pkid V4SubAck.return_codes] in *.
      destruct codes as [|c codes]; [congruence|]. cbn [map] in E. injection E as Ec E.
      exists codes. split; [congruence|]. rewrite Ei. destruct c as [[| |]|]; try discriminate Ec. reflexivity.
    + exfalso. assert (Hin : In (fst it) (map SpecV4.suback_code (V4SubAck.return_codes s0))).
      { rewrite <- E. apply in_or_app. left. unfold section_bytes. apply in_or_app. right. cbn. auto. }
      assert (Ha : In (fst it) (allowed_at InSubAck)).
      { destruct (V5SubAck.properties s) as [r|]; [|discriminate Ei0]. cbn [SpecV5.opt_items] in Ei0.
        assert (H := suback_items_ids r). rewrite Ei0 in H. inversion H; assumption. }
      apply code4_values in Hin. cbn in Ha. lia.
  - intros (E0 & codes & E & ->). cbn [SpecV4.decodes_body SpecV5.written SpecV5.body V4SubAck.pkid V4SubAck.return_codes].
    rewrite E0. split; [reflexivity|]. split; [apply Ht|]. split; [discriminate|].
    change (section_bytes []) with [0]. cbn [map]. rewrite E. reflexivity.
Qed.
(** the v5 module takes the leading codes for the property length *)
Theorem C53_suback_v4_to_v5 : forall s q out rest max, SpecV4.fits (V4Mod.SubAck s) ->
  sent4 (V4Mod.SubAck s) out -> bytes_ok rest -> blen (SpecV4.body (V4Mod.SubAck s)) <= max ->
  (v5_gets out rest max (V5Mod.SubAck q) <->
   V5SubAck.pkid q = V4SubAck.pkid s /\ V5SubAck.properties q = None /\ V5SubAck.return_codes q <> [] /\
   exists lost, map SpecV4.suback_code (V4SubAck.return_codes s)
     = lost ++ map SpecV5.suback_code (V5SubAck.return_codes q) /\ lenfield lost 0 /\ blen lost <= 4).
Proof.
  intros s q out rest max Hf Hs Hr Hm.
  rewrite (up_iff _ out rest max _ Hf Hs Hr Hm).
  destruct Hf as (Ht & _). cbn [SpecV4.typed] in Ht. cbn [SpecV5.decodes_body SpecV4.body SpecV4.first_byte].
  split.
  - intros (_ & Hi & Hn & sec & Hp & E). apply be16_inj in E as [Ei E]; [|apply Ht|exact Hi].
    split; [congruence|].
    destruct (V5SubAck.properties q) as [r|]; cbn [decodes_props] in Hp.
    + exfalso. destruct Hp as (f & plen & its & sec' & -> & Hf & Hl & H0 & (c & Hrd & Hc) & _).
      destruct Hrd as [c|c id v vb its bs c' _ Ha _ _ _]; [lia|].
      assert (Hin : In id (map SpecV4.suback_code (V4SubAck.return_codes s))).
      { rewrite E. apply in_or_app. left. apply in_or_app. right. left. reflexivity. }
      apply code4_values in Hin. cbn in Ha. lia.
    + split; [reflexivity|]. split; [exact Hn|]. exists sec. split; [exact E|exact Hp].
  - intros (Ei & Ep & Hn & lost & E & Hl). rewrite Ei, Ep. split; [reflexivity|]. split; [apply Ht|]. split; [exact Hn|].
    exists lost. split; [exact Hl|]. rewrite E. reflexivity.
Qed.

(** ** C53: SUBSCRIBE and UNSUBSCRIBE -- never the same filters *)
Fixpoint total (k : N) (paths : list bytes) : N :=
  match paths with [] => 0 | p :: l => k + blen p + total k l end.
Lemma total_fields paths : blen (flat_map field paths) = total 2 paths.
Proof. induction paths as [|p l IH]; [reflexivity|]. cbn [flat_map total]. rewrite blen_app, blen_field, IH. lia. Qed.
Lemma total_filters {A} (path : A -> bytes) (opt : A -> N) fs :
  blen (flat_map (fun f => field (path f) ++ [opt f]) fs) = total 3 (map path fs).
Proof.
  induction fs as [|p l IH]; [reflexivity|]. cbn [flat_map map total]. rewrite !blen_app, blen_field, IH.
  change (blen [opt p]) with 1. lia.
Qed.
Lemma total_combine {A} (path : A -> bytes) P fs opts : Forall2 P fs opts ->
  blen (flat_map (fun fo : A * N => field (path (fst fo)) ++ [snd fo]) (combine fs opts)) = total 3 (map path fs).
Proof.
  induction 1 as [|f o fs opts _ _ IH]; [reflexivity|]. cbn [combine flat_map map total fst snd].
  rewrite !blen_app, blen_field, IH. change (blen [o]) with 1. lia.
Qed.
Theorem C53_subscribe_never : forall out rest max, bytes_ok rest ->
  (forall s q, SpecV4.fits (V4Mod.Subscribe s) -> sent4 (V4Mod.Subscribe s) out ->
     blen (SpecV4.body (V4Mod.Subscribe s)) <= max -> v5_gets out rest max (V5Mod.Subscribe q) ->
     map V5Subscribe.path (V5Subscribe.filters q) <> map V4Subscribe.path (V4Subscribe.filters s)) /\
  (forall s q, SpecV5.fits (V5Mod.Subscribe s) -> sent5 (V5Mod.Subscribe s) out ->
     blen (SpecV5.written (V5Mod.Subscribe s)) <= max -> v4_gets out rest max (V4Mod.Subscribe q) ->
     map V4Subscribe.path (V4Subscribe.filters q) <> map V5Subscribe.path (V5Subscribe.filters s)) /\
  (forall u q, SpecV4.fits (V4Mod.Unsubscribe u) -> sent4 (V4Mod.Unsubscribe u) out ->
     blen (SpecV4.body (V4Mod.Unsubscribe u)) <= max -> v5_gets out rest max (V5Mod.Unsubscribe q) ->
     V5Unsubscribe.filters q <> V4Unsubscribe.topics u) /\
  (forall u q, SpecV5.fits (V5Mod.Unsubscribe u) -> sent5 (V5Mod.Unsubscribe u) out ->
     blen (SpecV5.written (V5Mod.Unsubscribe u)) <= max -> v4_gets out rest max (V4Mod.Unsubscribe q) ->
     V4Unsubscribe.topics q <> V5Unsubscribe.filters u).
Proof.
  intros out rest max Hr. split; [|split; [|split]]; intros s q Hf Hs Hm H Eq.
  - apply (up_iff _ out rest max _ Hf Hs Hr Hm) in H. destruct H as (_ & _ & sec & opts & Hp & Ho & E).
    apply ProofV5Back.dprops_len in Hp. cbn [SpecV4.body] in E. apply (f_equal blen) in E. rewrite !blen_app in E.
    rewrite (total_combine _ _ _ _ Ho), (total_filters V4Subscribe.path), Eq, !blen_be16 in E. lia.
  - apply (down_iff _ out rest max _ Hf Hs Hr Hm) in H. destruct H as (_ & _ & _ & opts & Ho & E).
    cbn [SpecV5.written SpecV5.body] in E. apply (f_equal blen) in E. rewrite !blen_app in E. unfold section_bytes in E.
    rewrite (total_combine _ _ _ _ Ho), (total_filters V5Subscribe.path), Eq, !blen_be16, blen_app in E.
    assert (V := varint_len_bound (blen (items_bytes (SpecV5.opt_items subscribe_items (V5Subscribe.properties s))))). lia.
  - apply (up_iff _ out rest max _ Hf Hs Hr Hm) in H. destruct H as (_ & _ & _ & sec & Hp & E).
    apply ProofV5Back.dprops_len in Hp. cbn [SpecV4.body] in E. apply (f_equal blen) in E. rewrite !blen_app in E.
    rewrite !total_fields, Eq, !blen_be16 in E. lia.
  - apply (down_iff _ out rest max _ Hf Hs Hr Hm) in H. destruct H as (_ & _ & _ & E).
    cbn [SpecV5.written SpecV5.body] in E. apply (f_equal blen) in E. rewrite !blen_app in E. unfold section_bytes in E.
    rewrite !total_fields, Eq, !blen_be16, blen_app in E.
    assert (V := varint_len_bound (blen (items_bytes (SpecV5.opt_items unsubscribe_items (V5Unsubscribe.properties s))))). lia.
Qed.

(** ** C53: CONNECT.  v4 to v5 is C40.  A v5 CONNECT (level 5) is read by the v4 module
    with the right protocol level, keep alive and clean session flag, if at all ... *)
Theorem C53_connect_v5_to_v4_header : forall c q out rest max, SpecV5.fits (V5Mod.Connect c) ->
  sent5 (V5Mod.Connect c) out -> bytes_ok rest -> blen (SpecV5.written (V5Mod.Connect c)) <= max ->
  v4_gets out rest max (V4Mod.Connect q) ->
  V4Connect.protocol q = V5Connect.protocol c /\ V4Connect.keep_alive q = V5Connect.keep_alive c /\
  V4Connect.clean_session q = V5Connect.clean_session c.
Proof.
  intros c q out rest max Hf Hs Hr Hm H.
  apply (down_iff _ out rest max _ Hf Hs Hr Hm) in H.
  destruct Hf as ((Ht & _) & _). cbn [SpecV5.typed_fields] in Ht. destruct Ht as (Hka & _).
  cbn [SpecV4.decodes_body SpecV5.written] in H.
  destruct H as (_ & flags & wbs & ubs & pbs & u & pw & junk & Hfl & E & Hka' & _ & _ & Hcs & _).
  apply app_inj_blen in E as [_ E]; [|reflexivity].
  apply (app_inj_blen [_; _] [_; _]) in E as [E1 E]; [|reflexivity]. injection E1 as E1 E2.
  apply app_inj_blen in E as [E3 _]; [|rewrite !blen_be16; reflexivity].
  split; [destruct (V5Connect.protocol c), (V4Connect.protocol q); (reflexivity || discriminate E1)|].
  split; [symmetry; apply (be16_inj _ _ [] []); [assumption..|congruence]|].
  rewrite Hcs, <- E2. unfold SpecV5.connect_flags.
  destruct (V5Connect.clean_session c), (V5Connect.last_will c) as [w|], (V5Connect.login c) as [l|];
    try destruct (V5Connect.lw_qos w), (V5Connect.lw_retain w);
    try destruct (nonempty (V5Connect.password l)), (nonempty (V5Connect.username l)); reflexivity.
Qed.
(** ... but the property length is taken for the client identifier's: without properties,
    will and login, and with a client identifier of less than 256 bytes, the CONNECT is
    always accepted, as one with the empty client identifier *)
Theorem C53_connect_v5_to_v4_plain : forall c out rest max, SpecV5.fits (V5Mod.Connect c) ->
  sent5 (V5Mod.Connect c) out -> bytes_ok rest -> blen (SpecV5.written (V5Mod.Connect c)) <= max ->
  SpecV5.opt_items connect_items (V5Connect.properties c) = [] ->
  V5Connect.last_will c = None -> V5Connect.login c = None -> blen (V5Connect.client_id c) < 256 ->
  v4_gets out rest max (V4Mod.Connect (V4Connect.mkConnect (V5Connect.protocol c) (V5Connect.keep_alive c)
    [] (V5Connect.clean_session c) None None)).
Proof.
  intros c out rest max Hf Hs Hr Hm Hp Hw Hl Hc.
  refine (proj2 (down_iff _ out rest max _ Hf Hs Hr Hm) _).
  destruct Hf as ((Ht & _) & _). cbn [SpecV5.typed_fields] in Ht. destruct Ht as (Hka & _).
  cbn [SpecV4.decodes_body SpecV5.written V4Connect.protocol V4Connect.keep_alive V4Connect.client_id
       V4Connect.clean_session V4Connect.last_will V4Connect.login].
  split; [reflexivity|].
  exists (SpecV5.connect_flags c), [], [], [], [], [], (blen (V5Connect.client_id c) :: V5Connect.client_id c).
  unfold SpecV5.connect_flags. rewrite Hp, Hw, Hl. cbn [opt].
  assert (Hfl : forall b, let f := 2 * bit b + 0 + 0 in u8 f /\ b = bit_at 1 f /\ bit_at 2 f = false /\ f / 8 mod 8 = 0 /\
    bit_at 7 f = false /\ bit_at 6 f = false) by (intros [|]; repeat split).
  destruct (Hfl (V5Connect.clean_session c)) as (F1 & F2 & F3 & F4 & F5 & F6).
  split; [exact F1|]. split.
  - do 3 f_equal. change (section_bytes []) with [0]. unfold field, be16. rewrite !app_nil_r.
    rewrite (N.div_small (blen (V5Connect.client_id c))), (N.mod_small (blen (V5Connect.client_id c))) by exact Hc. reflexivity.
  - rewrite F5, F6. split; [exact Hka|]. split; [exists []; split; [constructor|reflexivity]|]. split; [cbv; (reflexivity || discriminate)|].
    split; [exact F2|]. cbn [SpecV4.decodes_will decodes_opt_string]. repeat split; assumption.
Qed.

(** ** The cases *)
Example C53_case :
  (exists out, sent4 (V4Mod.PubAck (V4PubAck.mkPubAck 10)) out) /\
  SpecV5.fits SampleV5.ex_puback5 /\ (exists out, sent5 SampleV5.ex_puback5 out) /\
  SpecV5.fits SampleV5.ex_publish5 /\ (exists out, sent5 SampleV5.ex_publish5 out) /\
  SpecV4.fits SampleV4.ex_publish /\ (exists out, sent4 SampleV4.ex_publish out).
Proof.
  assert (A : forall p, SpecV5.fits p -> exists out, sent5 p out).
  { intros p H. destruct (ProofV5.write_fits p H) as [n E]. exists (SpecV5.written_wire p), n. exact E. }
  assert (B : forall p, SpecV4.fits p -> exists out, sent4 p out).
  { intros p (_ & _ & Hi & Hl). destruct (ProofV4.write_empty p Hl Hi) as [E [n E']]. exists (SpecV4.wire p), n.
    destruct (V4Mod.write p []). cbn [fst snd] in *. congruence. }
  split; [exists [0x40; 2; 0; 10], 4; reflexivity|].
  split; [apply SampleV5.ex_puback5_fits|]. split; [apply A, SampleV5.ex_puback5_fits|].
  split; [apply SampleV5.ex_publish5_fits|]. split; [apply A, SampleV5.ex_publish5_fits|].
  split; [apply SampleV4.ex_publish_fits|apply B, SampleV4.ex_publish_fits].
Qed.
(** a SUBACK with two granted QoS levels arrives in the other version with one code, or three *)
Example C53_suback_case :
  v5_gets [0x90; 4; 0; 7; 0; 1] [] 10 (V5Mod.SubAck (V5SubAck.mkSubAck 7 [V5SubAck.QoS1] None)) /\
  v4_gets [0x90; 5; 0; 7; 0; 0; 1] [] 10
    (V4Mod.SubAck (V4SubAck.mkSubAck 7 [V4SubAck.Success AtMostOnce; V4SubAck.Success AtMostOnce; V4SubAck.Success AtLeastOnce])) /\
  sent4 (V4Mod.SubAck (V4SubAck.mkSubAck 7 [V4SubAck.Success AtMostOnce; V4SubAck.Success AtLeastOnce])) [0x90; 4; 0; 7; 0; 1] /\
  sent5 (V5Mod.SubAck (V5SubAck.mkSubAck 7 [V5SubAck.QoS0; V5SubAck.QoS1] None)) [0x90; 5; 0; 7; 0; 0; 1].
Proof.
  split; [reflexivity|]. split; [reflexivity|]. split; [exists 6; reflexivity|exists 7; reflexivity].
Qed.
(** client "ab" arrives as client "" *)
Example C53_connect_case :
  let c := V5Connect.mkConnect V5 60 [97; 98] true None None None in
  SpecV5.fits (V5Mod.Connect c) /\
  sent5 (V5Mod.Connect c) [0x10; 15; 0; 4; 77; 81; 84; 84; 5; 2; 0; 60; 0; 0; 2; 97; 98] /\
  v4_gets [0x10; 15; 0; 4; 77; 81; 84; 84; 5; 2; 0; 60; 0; 0; 2; 97; 98] [] 15
    (V4Mod.Connect (V4Connect.mkConnect V5 60 [] true None None)).
Proof.
  split; [|split; [eexists; vm_compute; reflexivity|vm_compute; reflexivity]].
  SampleV5.sample5.
Qed.
Print Assumptions C53_boundaries_v4_to_v5.
Print Assumptions C53_boundaries_v5_to_v4.
Print Assumptions C53_acks_v4_to_v5.
Print Assumptions C53_acks_v5_to_v4.
Print Assumptions C53_pings.
Print Assumptions C53_refused_v4_to_v5.
Print Assumptions C53_connack_v5_to_v4.
Print Assumptions C53_disconnect_v5_to_v4.
Print Assumptions C53_unsuback_v5_to_v4.
Print Assumptions C53_publish_v5_to_v4.
Print Assumptions C53_publish_v4_to_v5.
Print Assumptions C53_publish_v4_to_v5_zero.
Print Assumptions C53_publish_v4_to_v5_never.
Print Assumptions C53_suback_v5_to_v4.
Print Assumptions C53_suback_v4_to_v5.
Print Assumptions C53_subscribe_never.
Print Assumptions C53_connect_v5_to_v4_header.
Print Assumptions C53_connect_v5_to_v4_plain.

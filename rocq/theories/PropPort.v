(** PropPort.v -- C72: the width of `usize` and the treatment of overflow make no difference.
    The translation of the source for an arbitrary target (Port*.v: `usize` of any width from 32 bits on, any
    result for an operation that overflows) against the one for 64 bits with overflow checks (Src*.v). *)
From Verif Require Import ProofBase Lib SrcBase SpecWire SpecErrors SpecDirect SpecSource SpecPort.
From Verif Require Import ProofWrapBase ProofRelBase ProofPortBase ProofPortLib ProofPortPlain ProofPortExtract ProofPortRead.
From Verif Require ProofSrcTacW ProofPortTac ProofPortLen ProofPortV4Write ProofPortV5Write ProofSrcV4Write ProofSrcV5Write.
From Verif Require ProofSrcBase ProofSrcTac PropFrame PropV4 PropV5 PropLen PropRelease PropSource PropSourceApi PropStop PortBase PropSourceRelease ProofV4Write ProofV5Write ProofPropSets.

(** ** reading *)
Theorem C72_check : forall (T : Target), 32 <= bits -> forall s max, bytes_ok s -> PortLib.check s max = SrcLib.check s max.
Proof.
  intros T HT s max Hb. change (@PortBase.Wide T) in HT. apply pLib_check. rewrite ProofSrcBase.check_eq.
  destruct (PropFrame.C02_check_total s max Hb) as [[h E]|[e E]]; rewrite E; discriminate.
Qed.
Theorem C72_v4_read : forall (T : Target), 32 <= bits -> forall fuel s max, bytes_ok s -> blen s < 2 ^ 63 -> (List.length s < fuel)%nat ->
  PortV4Mod.read fuel max s = SrcV4Mod.read fuel max s.
Proof.
  intros T HT fuel s max Hb Hs Hf. change (@PortBase.Wide T) in HT. apply p_v4_read.
  destruct (PropSource.C06_source_v4_total fuel s max Hb Hs Hf) as [[p E]|[e E]]; rewrite E; discriminate.
Qed.
Theorem C72_v5_read : forall (T : Target), 32 <= bits -> forall fuel s max, bytes_ok s -> blen s < 2 ^ 63 -> (List.length s < fuel)%nat ->
  PortV5Mod.read fuel max s = SrcV5Mod.read fuel max s.
Proof.
  intros T HT fuel s max Hb Hs Hf. change (@PortBase.Wide T) in HT. apply p_v5_read.
  destruct (PropSource.C07_source_v5_total fuel s max Hb Hs Hf) as [[p E]|[e E]]; rewrite E; discriminate.
Qed.

(** ** writing: the length of a message, as the model computes it *)
Lemma small64 n : n < 2 ^ 64 -> n <= usize_max.
Proof. intros H. pose proof usize_val. change (2 ^ 64) with 18446744073709551616 in *. lia. Qed.
Definition len4 (p : V4Mod.Packet) : N :=
  match p with
  | V4Mod.Connect x => V4Connect.len x | V4Mod.ConnAck x => V4ConnAck.len x | V4Mod.Publish x => V4Publish.len x
  | V4Mod.Subscribe x => V4Subscribe.len x | V4Mod.SubAck x => V4SubAck.len x
  | V4Mod.Unsubscribe u => 2 + fold_left (fun s topic => s + blen topic + 2) (V4Unsubscribe.topics u) 0
  | _ => 2
  end.
Lemma len4_declared p : len4 p = SpecV4.declared_len p \/ len4 p = 2.
Proof.
  destruct p as [c|c|q|x|x|x|x|s|s|u|u| | |]; cbn [len4]; try (right; reflexivity); left.
  - apply PropLen.v4_len_declared; reflexivity.
  - apply PropLen.v4_len_declared; reflexivity.
  - apply PropLen.v4_len_declared; reflexivity.
  - apply PropLen.v4_len_declared; reflexivity.
  - apply ProofV4Write.unsubscribe_len.
Qed.
Lemma src_v4_write fuel p buf : (5 <= fuel)%nat -> SpecV4.declared_len p < 2 ^ 64 -> v4_write fuel p buf = V4Mod.write p buf.
Proof.
  intros Hf Hd. assert (B : len4 p <= usize_max).
  { pose proof usize_big. destruct (len4_declared p) as [->| ->]; [apply small64, Hd|lia]. }
  destruct p as [c|c|q|x|x|x|x|s|s|u|u| | |]; cbn [v4_write V4Mod.write len4] in *.
  - apply ProofSrcV4Write.v4connect_write; assumption.
  - apply ProofSrcV4Write.v4connack_write; assumption.
  - apply ProofSrcV4Write.v4publish_write; assumption.
  - apply ProofSrcV4Write.v4puback_write; assumption.
  - apply ProofSrcV4Write.v4pubrec_write; assumption.
  - apply ProofSrcV4Write.v4pubrel_write; assumption.
  - apply ProofSrcV4Write.v4pubcomp_write; assumption.
  - apply ProofSrcV4Write.v4subscribe_write; assumption.
  - apply ProofSrcV4Write.v4suback_write; assumption.
  - apply ProofSrcV4Write.v4unsubscribe_write; assumption.
  - apply ProofSrcV4Write.v4unsuback_write.
  - reflexivity.
  - reflexivity.
  - reflexivity.
Qed.
Lemma target_v4_write (T : Target) {WT : @PortBase.Wide T} fuel p buf : (5 <= fuel)%nat -> SpecV4.declared_len p < 2 ^ bits -> port_v4_write fuel p buf = V4Mod.write p buf.
Proof.
  intros Hf Hd. assert (B : len4 p < 2 ^ bits).
  { pose proof word_big. destruct (len4_declared p) as [->| ->]; [exact Hd|lia]. }
  destruct p as [c|c|q|x|x|x|x|s|s|u|u| | |]; cbn [port_v4_write V4Mod.write len4] in *.
  - apply ProofPortV4Write.p_v4connect_write; assumption.
  - apply ProofPortV4Write.p_v4connack_write; assumption.
  - apply ProofPortV4Write.p_v4publish_write; assumption.
  - apply ProofPortV4Write.p_v4puback_write; assumption.
  - apply ProofPortV4Write.p_v4pubrec_write; assumption.
  - apply ProofPortV4Write.p_v4pubrel_write; assumption.
  - apply ProofPortV4Write.p_v4pubcomp_write; assumption.
  - apply ProofPortV4Write.p_v4subscribe_write; assumption.
  - apply ProofPortV4Write.p_v4suback_write; assumption.
  - apply ProofPortV4Write.p_v4unsubscribe_write; assumption.
  - apply ProofPortV4Write.p_v4unsuback_write.
  - reflexivity.
  - reflexivity.
  - reflexivity.
Qed.
Theorem C72_v4_write : forall (T : Target), 32 <= bits -> forall fuel p buf, (5 <= fuel)%nat ->
  SpecV4.declared_len p < 2 ^ bits -> SpecV4.declared_len p < 2 ^ 64 ->
  port_v4_write fuel p buf = v4_write fuel p buf.
Proof. intros T HT fuel p buf Hf H1 H2. change (@PortBase.Wide T) in HT. rewrite src_v4_write, target_v4_write by assumption. reflexivity. Qed.

Definition len5 (p : V5Mod.Packet) : N :=
  match p with
  | V5Mod.Connect x => V5Connect.len x | V5Mod.ConnAck x => V5ConnAck.len x | V5Mod.Publish x => V5Publish.len x
  | V5Mod.PubAck x => V5PubAck.len x | V5Mod.PubRec x => V5PubRec.len x | V5Mod.PubRel x => V5PubRel.len x
  | V5Mod.PubComp x => V5PubComp.len x | V5Mod.Subscribe x => V5Subscribe.len x | V5Mod.SubAck x => V5SubAck.len x
  | V5Mod.Unsubscribe x => V5Unsubscribe.len x | V5Mod.UnsubAck x => V5UnsubAck.len x
  | V5Mod.Disconnect x => V5Disconnect.len x | V5Mod.PingReq | V5Mod.PingResp => 0
  end.
Lemma len5_declared p : len5 p = SpecV5.declared_len p \/ len5 p = 2.
Proof.
  destruct p as [c|c|q|x|x|x|x|s|s|u|u| | |d]; cbn [len5]; try (left; reflexivity).
  - left. apply PropLen.v5_len_declared; reflexivity.
  - left. apply ProofV5Write.connack_len.
  - left. apply PropLen.v5_len_declared; reflexivity.
  - left. unfold V5PubAck.len, V5PubAck.reason_eqb. rewrite !ProofV5Write.puback_num.
    exact (ProofV5Write.ack_len_spec _ _ _ ProofPropSets.puback_props_write ProofPropSets.puback_props_len (V5PubAck.pkid x) _ _).
  - left. unfold V5PubRec.len, V5PubRec.reason_eqb. rewrite !ProofV5Write.pubrec_num.
    exact (ProofV5Write.ack_len_spec _ _ _ ProofPropSets.pubrec_props_write ProofPropSets.pubrec_props_len (V5PubRec.pkid x) _ _).
  - left. unfold V5PubRel.len, V5PubRel.reason_eqb. rewrite !ProofV5Write.pubrel_num.
    exact (ProofV5Write.ack_len_spec _ _ _ ProofPropSets.pubrel_props_write ProofPropSets.pubrel_props_len (V5PubRel.pkid x) _ _).
  - left. unfold V5PubComp.len, V5PubComp.reason_eqb. rewrite !ProofV5Write.pubcomp_num.
    exact (ProofV5Write.ack_len_spec _ _ _ ProofPropSets.pubcomp_props_write ProofPropSets.pubcomp_props_len (V5PubComp.pkid x) _ _).
  - left. apply PropLen.v5_len_declared; reflexivity.
  - left. apply PropLen.v5_len_declared; reflexivity.
  - left. apply PropLen.v5_len_declared; reflexivity.
  - left. apply PropLen.v5_len_declared; reflexivity.
  - pose proof (ProofV5Write.disconnect_len_2 d) as E. destruct (SpecV5.written (V5Mod.Disconnect d)) eqn:W.
    + right. cbn in E. apply N.eqb_eq in E. exact E.
    + left. apply ProofV5Write.disconnect_len. rewrite W. discriminate.
Qed.
Lemma src_v5_write fuel p buf : (5 <= fuel)%nat -> SpecV5.declared_len p < 2 ^ 64 -> v5_write fuel p buf = V5Mod.write p buf.
Proof.
  intros Hf Hd. assert (B : len5 p <= usize_max).
  { pose proof usize_big. destruct (len5_declared p) as [->| ->]; [apply small64, Hd|lia]. }
  destruct p as [c|c|q|x|x|x|x|s|s|u|u| | |d]; cbn [v5_write V5Mod.write len5] in *.
  - apply ProofSrcV5Write.v5connect_write; assumption.
  - apply ProofSrcV5Write.v5connack_write; assumption.
  - apply ProofSrcV5Write.v5publish_write; assumption.
  - apply ProofSrcV5Write.v5puback_write; assumption.
  - apply ProofSrcV5Write.v5pubrec_write; assumption.
  - apply ProofSrcV5Write.v5pubrel_write; assumption.
  - apply ProofSrcV5Write.v5pubcomp_write; assumption.
  - apply ProofSrcV5Write.v5subscribe_write; assumption.
  - apply ProofSrcV5Write.v5suback_write; assumption.
  - apply ProofSrcV5Write.v5unsubscribe_write; assumption.
  - apply ProofSrcV5Write.v5unsuback_write; assumption.
  - reflexivity.
  - reflexivity.
  - apply ProofSrcV5Write.v5disconnect_write; assumption.
Qed.
Lemma target_v5_write (T : Target) {WT : @PortBase.Wide T} fuel p buf : (5 <= fuel)%nat -> SpecV5.declared_len p < 2 ^ bits -> port_v5_write fuel p buf = V5Mod.write p buf.
Proof.
  intros Hf Hd. assert (B : len5 p < 2 ^ bits).
  { pose proof word_big. destruct (len5_declared p) as [->| ->]; [exact Hd|lia]. }
  destruct p as [c|c|q|x|x|x|x|s|s|u|u| | |d]; cbn [port_v5_write V5Mod.write len5] in *.
  - apply ProofPortV5Write.p_v5connect_write; assumption.
  - apply ProofPortV5Write.p_v5connack_write; assumption.
  - apply ProofPortV5Write.p_v5publish_write; assumption.
  - apply ProofPortV5Write.p_v5puback_write; assumption.
  - apply ProofPortV5Write.p_v5pubrec_write; assumption.
  - apply ProofPortV5Write.p_v5pubrel_write; assumption.
  - apply ProofPortV5Write.p_v5pubcomp_write; assumption.
  - apply ProofPortV5Write.p_v5subscribe_write; assumption.
  - apply ProofPortV5Write.p_v5suback_write; assumption.
  - apply ProofPortV5Write.p_v5unsubscribe_write; assumption.
  - apply ProofPortV5Write.p_v5unsuback_write; assumption.
  - reflexivity.
  - reflexivity.
  - apply ProofPortV5Write.p_v5disconnect_write; assumption.
Qed.
Theorem C72_v5_write : forall (T : Target), 32 <= bits -> forall fuel p buf, (5 <= fuel)%nat ->
  SpecV5.declared_len p < 2 ^ bits -> SpecV5.declared_len p < 2 ^ 64 ->
  port_v5_write fuel p buf = v5_write fuel p buf.
Proof. intros T HT fuel p buf Hf H1 H2. change (@PortBase.Wide T) in HT. rewrite src_v5_write, target_v5_write by assumption. reflexivity. Qed.

(** ** the `len` methods: exact whenever the answer is a number of the target *)
Lemma p_in_set {R} (len : R -> outcome N) items o r n (W : N) (pl : R -> N) : In (r, n) (set_len len items o) ->
  (forall x, pl x < W -> len x = Ok (pl x)) -> (forall x, pl x = blen (SpecProps.items_bytes (items x))) -> n < W -> r = Ok n.
Proof.
  intros H H1 H2 Hn. destruct o as [x|]; [|destruct H]. destruct H as [H|[]]. apply PropSource.pair_inv in H as [<- <-].
  rewrite <- H2 in *. apply H1, Hn.
Qed.
Theorem C72_v4_lens : forall (T : Target), 32 <= bits -> forall p r n, In (r, n) (port_v4_lens p) -> n < 2 ^ bits -> r = Ok n.
Proof.
  intros T HT p r n H Hn. change (@PortBase.Wide T) in HT. destruct p as [c|c|q|x|x|x|x|s|s|u|u| | |]; cbn [port_v4_lens] in H; cbn [In] in H; try tauto.
  - destruct H as [H|[]]; apply PropSource.pair_inv in H as [<- <-]. rewrite <- (PropLen.v4_len_declared (V4Mod.Connect c) _ eq_refl) in *.
    apply ProofPortLen.p_v4connect_len, Hn.
  - destruct H as [H|[]]; apply PropSource.pair_inv in H as [<- <-]. rewrite <- (PropLen.v4_len_declared (V4Mod.Publish q) _ eq_refl) in *.
    apply ProofPortLen.p_v4publish_len, Hn.
  - destruct H as [H|H].
    + apply PropSource.pair_inv in H as [<- <-]. rewrite <- (PropLen.v4_len_declared (V4Mod.Subscribe s) _ eq_refl) in *.
      apply ProofPortLen.p_v4subscribe_len, Hn.
    + apply in_map_iff in H as (f & E & _). apply PropSource.pair_inv in E as [<- <-].
      assert (E : blen (field (V4Subscribe.path f)) + 1 = V4Subscribe.filter_len f) by (unfold V4Subscribe.filter_len; autorewrite with blen; lia).
      rewrite E in *. apply ProofPortLen.p_v4subscribe_filter_len, Hn.
  - destruct H as [H|[]]; apply PropSource.pair_inv in H as [<- <-]. rewrite <- (PropLen.v4_len_declared (V4Mod.SubAck s) _ eq_refl) in *.
    apply ProofPortLen.p_v4suback_len, Hn.
Qed.
Theorem C72_v5_lens : forall (T : Target), 32 <= bits -> forall p r n, In (r, n) (port_v5_lens p) -> n < 2 ^ bits -> r = Ok n.
Proof.
  intros T HT p r n H Hn. change (@PortBase.Wide T) in HT. destruct p as [c|c|q|x|x|x|x|s|s|u|u| | |d]; cbn [port_v5_lens] in H; cbn [In] in H; try tauto.
  - destruct H as [H|[]]; apply PropSource.pair_inv in H as [<- <-]. rewrite <- (PropLen.v5_len_declared (V5Mod.Connect c) _ eq_refl) in *.
    apply ProofPortLen.p_v5connect_len, Hn.
  - apply (p_in_set _ _ _ _ _ _ _ H ProofPortLen.p_v5connack_props_len ProofPropSets.connack_props_len Hn).
  - destruct H as [H|[]]; apply PropSource.pair_inv in H as [<- <-]. rewrite <- (PropLen.v5_len_declared (V5Mod.Publish q) _ eq_refl) in *.
    apply ProofPortLen.p_v5publish_len, Hn.
  - apply (p_in_set _ _ _ _ _ _ _ H ProofPortLen.p_v5puback_props_len ProofPropSets.puback_props_len Hn).
  - apply (p_in_set _ _ _ _ _ _ _ H ProofPortLen.p_v5pubrec_props_len ProofPropSets.pubrec_props_len Hn).
  - apply (p_in_set _ _ _ _ _ _ _ H ProofPortLen.p_v5pubrel_props_len ProofPropSets.pubrel_props_len Hn).
  - apply (p_in_set _ _ _ _ _ _ _ H ProofPortLen.p_v5pubcomp_props_len ProofPropSets.pubcomp_props_len Hn).
  - destruct H as [H|H]; [|apply in_app_or in H as [H|H]].
    + apply PropSource.pair_inv in H as [<- <-]. rewrite <- (PropLen.v5_len_declared (V5Mod.Subscribe s) _ eq_refl) in *.
      apply ProofPortLen.p_v5subscribe_len, Hn.
    + apply (p_in_set _ _ _ _ _ _ _ H ProofPortLen.p_v5subscribe_props_len ProofPropSets.subscribe_props_len Hn).
    + apply in_map_iff in H as (f & E & _). apply PropSource.pair_inv in E as [<- <-].
      assert (E : blen (field (V5Subscribe.path f)) + 1 = V5Subscribe.filter_len f) by (unfold V5Subscribe.filter_len; autorewrite with blen; lia).
      rewrite E in *. apply ProofPortLen.p_v5subscribe_filter_len, Hn.
  - destruct H as [H|H].
    + apply PropSource.pair_inv in H as [<- <-]. rewrite <- (PropLen.v5_len_declared (V5Mod.SubAck s) _ eq_refl) in *.
      apply ProofPortLen.p_v5suback_len, Hn.
    + apply (p_in_set _ _ _ _ _ _ _ H ProofPortLen.p_v5suback_props_len ProofPropSets.suback_props_len Hn).
  - destruct H as [H|[]]; apply PropSource.pair_inv in H as [<- <-]. rewrite <- (PropLen.v5_len_declared (V5Mod.Unsubscribe u) _ eq_refl) in *.
    apply ProofPortLen.p_v5unsubscribe_len, Hn.
  - destruct H as [H|H].
    + apply PropSource.pair_inv in H as [<- <-]. rewrite <- (PropLen.v5_len_declared (V5Mod.UnsubAck u) _ eq_refl) in *.
      apply ProofPortLen.p_v5unsuback_len, Hn.
    + apply (p_in_set _ _ _ _ _ _ _ H ProofPortLen.p_v5unsuback_props_len ProofPropSets.unsuback_props_len Hn).
Qed.

(** ** the decoders of the packet types, called directly *)
Ltac same_type Hin :=
  match type of Hin with (?a, _) = (?b, _) => tryif constr_eq a b then idtac else (apply (f_equal fst) in Hin; discriminate Hin) end.
Ltac direct_sim := apply PropSourceRelease.wrapped_sim; first [solve [auto with port] | prd].
Lemma v4_direct_sim (T : Target) {WT : @PortBase.Wide T} t rd' rd : In (t, rd') port_v4_direct -> In (t, rd) v4_direct -> forall fuel h bs,
  2 * blen bs < 2 ^ bits -> osim (rd fuel h bs) (rd' fuel h bs).
Proof.
  intros Hin' Hin fuel h bs Hs.
  cbn [port_v4_direct In] in Hin'. repeat match type of Hin' with _ \/ _ => destruct Hin' as [Hin'|Hin'] end; try contradiction;
    injection Hin' as <- <-; cbn [v4_direct In] in Hin;
    repeat match type of Hin with _ \/ _ => destruct Hin as [Hin|Hin] end; try contradiction;
    same_type Hin; apply (f_equal snd) in Hin; cbn [snd] in Hin; subst rd; direct_sim.
Qed.
Lemma v5_direct_sim (T : Target) {WT : @PortBase.Wide T} t rd' rd : In (t, rd') port_v5_direct -> In (t, rd) v5_direct -> forall fuel h bs,
  2 * blen bs < 2 ^ bits -> osim (rd fuel h bs) (rd' fuel h bs).
Proof.
  intros Hin' Hin fuel h bs Hs.
  cbn [port_v5_direct In] in Hin'. repeat match type of Hin' with _ \/ _ => destruct Hin' as [Hin'|Hin'] end; try contradiction;
    injection Hin' as <- <-; cbn [v5_direct In] in Hin;
    repeat match type of Hin with _ \/ _ => destruct Hin as [Hin|Hin] end; try contradiction;
    same_type Hin; apply (f_equal snd) in Hin; cbn [snd] in Hin; subst rd; direct_sim.
Qed.
(** a header longer than the buffer *)
Lemma v4_publish_short {T : Target} {WT : Wide} h bs : blen bs < fixed_header_len h -> PortV4Publish.Publish_read h bs = SrcV4Publish.Publish_read h bs.
Proof.
  intros H. unfold PortV4Publish.Publish_read, SrcV4Publish.Publish_read.
  change (PortBase.u8_shr (N.land (byte1 h) 6) 1) with (@Ok N (N.shiftr (N.land (byte1 h) 6) 1)).
  change (u8_shr (N.land (byte1 h) 6) 1) with (@Ok N (N.shiftr (N.land (byte1 h) 6) 1)).
  rewrite !PropSourceRelease.lift_ok. change PortLib.qos with SrcLib.qos. apply PropSourceRelease.lift_same. intros q. cbv zeta. rewrite !PropSourceRelease.advance_short by exact H. reflexivity.
Qed.
Lemma v5_publish_short {T : Target} {WT : Wide} fuel h bs : blen bs < fixed_header_len h -> PortV5Publish.Publish_read fuel h bs = SrcV5Publish.Publish_read fuel h bs.
Proof.
  intros H. unfold PortV5Publish.Publish_read, SrcV5Publish.Publish_read.
  change (PortBase.u8_shr (N.land (byte1 h) 6) 1) with (@Ok N (N.shiftr (N.land (byte1 h) 6) 1)).
  change (u8_shr (N.land (byte1 h) 6) 1) with (@Ok N (N.shiftr (N.land (byte1 h) 6) 1)).
  rewrite !PropSourceRelease.lift_ok. change PortLib.qos with SrcLib.qos. apply PropSourceRelease.lift_same. intros q. cbv zeta. rewrite !PropSourceRelease.advance_short by exact H. reflexivity.
Qed.
Lemma v4_unsuback_short {T : Target} {WT : Wide} h bs : blen bs < fixed_header_len h -> PortV4UnsubAck.UnsubAck_read h bs = SrcV4UnsubAck.UnsubAck_read h bs.
Proof.
  intros H. unfold PortV4UnsubAck.UnsubAck_read, SrcV4UnsubAck.UnsubAck_read.
  destruct (negb _); [reflexivity|].
  match goal with |- run (wbind (wret tt) ?k) bs = run (wbind (wret tt) ?k') bs => change (run (k tt) bs = run (k' tt) bs) end.
  cbv beta zeta. rewrite !PropSourceRelease.advance_short by exact H. reflexivity.
Qed.
Lemma v5_disconnect_short {T : Target} {WT : Wide} fuel h bs : blen bs < fixed_header_len h -> PortV5Disconnect.Disconnect_read fuel h bs = SrcV5Disconnect.Disconnect_read fuel h bs.
Proof.
  intros H. unfold PortV5Disconnect.Disconnect_read, SrcV5Disconnect.Disconnect_read.
  change (PortBase.u8_shr (byte1 h) 4) with (@Ok N (N.shiftr (byte1 h) 4)).
  change (u8_shr (byte1 h) 4) with (@Ok N (N.shiftr (byte1 h) 4)).
  rewrite !PropSourceRelease.lift_ok. cbv zeta. rewrite !PropSourceRelease.advance_short by exact H. reflexivity.
Qed.
Ltac short_tac H :=
  lazymatch goal with
  | |- context [PortV4Publish.Publish_read] => rewrite v4_publish_short by exact H
  | |- context [PortV5Publish.Publish_read] => rewrite v5_publish_short by exact H
  | |- context [PortV4UnsubAck.UnsubAck_read] => rewrite v4_unsuback_short by exact H
  | |- context [PortV5Disconnect.Disconnect_read] => rewrite v5_disconnect_short by exact H
  | |- wrapped _ (?f _ ?x ?h ?b) = wrapped _ (?g ?x ?h ?b) => unfold f, g; cbv zeta; rewrite !PropSourceRelease.advance_short by exact H
  | |- wrapped _ (?f ?x ?h ?b) = wrapped _ (?g ?x ?h ?b) => unfold f, g; cbv zeta; rewrite !PropSourceRelease.advance_short by exact H
  | |- wrapped _ (?f _ ?h ?b) = wrapped _ (?g ?h ?b) => unfold f, g; cbv zeta; rewrite !PropSourceRelease.advance_short by exact H
  | |- wrapped _ (?f ?h ?b) = wrapped _ (?g ?h ?b) => unfold f, g; cbv zeta; rewrite !PropSourceRelease.advance_short by exact H
  end; reflexivity.
Lemma v4_direct_short {T : Target} {WT : Wide} t rd' rd : In (t, rd') port_v4_direct -> In (t, rd) v4_direct -> forall fuel h bs,
  blen bs < fixed_header_len h -> rd' fuel h bs = rd fuel h bs.
Proof.
  intros Hin' Hin fuel h bs H.
  cbn [port_v4_direct In] in Hin'. repeat match type of Hin' with _ \/ _ => destruct Hin' as [Hin'|Hin'] end; try contradiction;
    injection Hin' as <- <-; cbn [v4_direct In] in Hin;
    repeat match type of Hin with _ \/ _ => destruct Hin as [Hin|Hin] end; try contradiction;
    same_type Hin; apply (f_equal snd) in Hin; cbn [snd] in Hin; subst rd; cbv beta; short_tac H.
Qed.
Lemma v5_direct_short {T : Target} {WT : Wide} t rd' rd : In (t, rd') port_v5_direct -> In (t, rd) v5_direct -> forall fuel h bs,
  blen bs < fixed_header_len h -> rd' fuel h bs = rd fuel h bs.
Proof.
  intros Hin' Hin fuel h bs H.
  cbn [port_v5_direct In] in Hin'. repeat match type of Hin' with _ \/ _ => destruct Hin' as [Hin'|Hin'] end; try contradiction;
    injection Hin' as <- <-; cbn [v5_direct In] in Hin;
    repeat match type of Hin with _ \/ _ => destruct Hin as [Hin|Hin] end; try contradiction;
    same_type Hin; apply (f_equal snd) in Hin; cbn [snd] in Hin; subst rd; cbv beta; short_tac H.
Qed.

Theorem C72_v5_direct : forall (T : Target), 32 <= bits -> forall t rd' rd, In (t, rd') port_v5_direct -> In (t, rd) v5_direct ->
  forall fuel b l rl bs, b < 256 -> bytes_ok bs -> blen bs < 2 ^ (bits - 1) -> blen bs < 2 ^ 62 -> (List.length bs < fuel)%nat ->
  rd' fuel (mkFixedHeader b l rl) bs = rd fuel (mkFixedHeader b l rl) bs.
Proof.
  intros T HT t rd' rd Hin' Hin fuel b l rl bs Hb Hok Hw Hs Hf. change (@PortBase.Wide T) in HT.
  destruct (N.ltb_spec (blen bs) l) as [Hl|Hl]; [exact (v5_direct_short t rd' rd Hin' Hin fuel (mkFixedHeader b l rl) bs Hl)|].
  apply (v5_direct_sim T t rd' rd Hin' Hin); [rewrite word_half; lia|].
  destruct (proj2 (PropSourceApi.C51_source_total fuel b l rl bs Hb Hok Hs Hl Hf) t rd Hin) as [[p E]|[e E]]; rewrite E; discriminate.
Qed.
(** the decoder of a 3.1.1 UNSUBSCRIBE can underflow when the header disagrees with the buffer (C51); then the target decides *)
Theorem C72_v4_direct : forall (T : Target), 32 <= bits -> forall t rd' rd, In (t, rd') port_v4_direct -> In (t, rd) v4_direct ->
  forall fuel b l rl bs, b < 256 -> bytes_ok bs -> blen bs < 2 ^ (bits - 1) -> blen bs < 2 ^ 62 -> (List.length bs < fuel)%nat ->
  t <> PT_Unsubscribe \/ blen bs < l \/ rd fuel (mkFixedHeader b l rl) bs <> Panic ->
  rd' fuel (mkFixedHeader b l rl) bs = rd fuel (mkFixedHeader b l rl) bs.
Proof.
  intros T HT t rd' rd Hin' Hin fuel b l rl bs Hb Hok Hw Hs Hf Hc. change (@PortBase.Wide T) in HT.
  destruct (N.ltb_spec (blen bs) l) as [Hl|Hl]; [exact (v4_direct_short t rd' rd Hin' Hin fuel (mkFixedHeader b l rl) bs Hl)|].
  apply (v4_direct_sim T t rd' rd Hin' Hin); [rewrite word_half; lia|]. destruct Hc as [Hc|[Hc|Hc]]; [|lia|exact Hc].
  destruct (proj1 (PropSourceApi.C51_source_total fuel b l rl bs Hb Hok Hs Hl Hf) t rd Hin Hc) as [[p E]|[e E]]; rewrite E; discriminate.
Qed.

(** ** the public `extract` functions *)
Definition same_extract (T : Target) {R} (ex ex' : nat -> bytes -> outcome (option R) * bytes) : Prop :=
  forall fuel s, bytes_ok s -> blen s < 2 ^ (bits - 1) -> blen s < 2 ^ 62 -> (List.length s < fuel)%nat -> ex' fuel s = ex fuel s.
Lemma extract_same (T : Target) {WT : @PortBase.Wide T} {R} pl (rec : list SpecProps.item -> R) ex ex' :
  PropStop.extracts_from pl rec ex -> extracts ex ex' -> same_extract T ex ex'.
Proof.
  intros H S fuel s Hb Hw Hs Hf. apply (S fuel s); [rewrite word_half; lia|]. apply (H fuel s Hb Hs Hf).
Qed.
Theorem C72_extract : forall T : Target, 32 <= bits ->
  same_extract T SrcV5ConnAck.ConnAckProperties_extract PortV5ConnAck.ConnAckProperties_extract /\
  same_extract T SrcV5PubAck.PubAckProperties_extract PortV5PubAck.PubAckProperties_extract /\
  same_extract T SrcV5PubRec.PubRecProperties_extract PortV5PubRec.PubRecProperties_extract /\
  same_extract T SrcV5PubRel.PubRelProperties_extract PortV5PubRel.PubRelProperties_extract /\
  same_extract T SrcV5PubComp.PubCompProperties_extract PortV5PubComp.PubCompProperties_extract /\
  same_extract T SrcV5Subscribe.SubscribeProperties_extract PortV5Subscribe.SubscribeProperties_extract /\
  same_extract T SrcV5SubAck.SubAckProperties_extract PortV5SubAck.SubAckProperties_extract /\
  same_extract T SrcV5UnsubAck.UnsubAckProperties_extract PortV5UnsubAck.UnsubAckProperties_extract /\
  same_extract T SrcV5Disconnect.DisconnectProperties_extract PortV5Disconnect.DisconnectProperties_extract.
Proof.
  intros T HT. change (@PortBase.Wide T) in HT. destruct PropStop.C67_extract_exact as (A & B & C & D & E & F & G & H & I).
  split; [exact (extract_same T _ _ _ _ A p_ConnAckProperties_extract)|].
  split; [exact (extract_same T _ _ _ _ B p_PubAckProperties_extract)|].
  split; [exact (extract_same T _ _ _ _ C p_PubRecProperties_extract)|].
  split; [exact (extract_same T _ _ _ _ D p_PubRelProperties_extract)|].
  split; [exact (extract_same T _ _ _ _ E p_PubCompProperties_extract)|].
  split; [exact (extract_same T _ _ _ _ F p_SubscribeProperties_extract)|].
  split; [exact (extract_same T _ _ _ _ G p_SubAckProperties_extract)|].
  split; [exact (extract_same T _ _ _ _ H p_UnsubAckProperties_extract)|].
  exact (extract_same T _ _ _ _ I p_DisconnectProperties_extract).
Qed.

(** ** headers and topics *)
Theorem C72_header : forall (T : Target), 32 <= bits -> forall b ll rl,
  (ll + 1 < 2 ^ bits -> PortLib.FixedHeader_new b ll rl = Ok (mkFixedHeader b (ll + 1) rl)) /\
  (ll + rl < 2 ^ bits -> PortLib.FixedHeader_frame_length (mkFixedHeader b ll rl) = Ok (ll + rl)).
Proof.
  intros T HT b ll rl. change (@PortBase.Wide T) in HT. split; intros H.
  - unfold PortLib.FixedHeader_new. rewrite add_small by exact H. reflexivity.
  - unfold PortLib.FixedHeader_frame_length. cbn [fixed_header_len remaining_len]. rewrite add_small by exact H. reflexivity.
Qed.
Theorem C72_topics : forall (T : Target) t f,
  PortTopic.has_wildcards t = SrcTopic.has_wildcards t /\ PortTopic.valid_topic t = SrcTopic.valid_topic t /\
  PortTopic.valid_filter f = SrcTopic.valid_filter f /\ PortTopic.matches t f = SrcTopic.matches t f.
Proof. intros T t f. repeat split; reflexivity. Qed.

(** ** a consequence: what one target writes, any other reads back *)
Theorem C72_v4_between : forall (T T' : Target), 32 <= PortBase.bits (Target := T) -> 32 <= PortBase.bits (Target := T') -> forall p rest max,
  SpecV4.fits p -> SpecV4.has_payload p -> SpecV4.canonical p -> bytes_ok rest -> blen (SpecV4.body p) <= max ->
  exists n out, (forall fuel, (5 <= fuel)%nat -> @port_v4_write T fuel p [] = (Ok n, out)) /\
    forall fuel, (List.length (out ++ rest) < fuel)%nat -> blen (out ++ rest) < 2 ^ 63 ->
      @PortV4Mod.read T' fuel max (out ++ rest) = (Ok p, rest).
Proof.
  intros T T' HT HT' p rest max Hp Hy Hc Hr Hx. change (@PortBase.Wide T) in HT. change (@PortBase.Wide T') in HT'.
  destruct (PropV4.C18_v4_round_trip_identity p rest max Hp Hy Hc Hr Hx) as (n & out & H1 & H2). exists n, out.
  assert (D : SpecV4.declared_len p <= 268435455).
  { destruct Hp as (_ & _ & Hi & Hl). rewrite (ProofV4.declared_body p Hi). exact Hl. }
  split.
  - intros fuel Hf. pose proof (@word_big T). rewrite target_v4_write by (assumption || lia). exact H1.
  - intros fuel Hf Hs. assert (R : SrcV4Mod.read fuel max (out ++ rest) = (Ok p, rest)) by (rewrite PropSource.v4_read_src by assumption; exact H2).
    rewrite (p_v4_read fuel max (out ++ rest)); rewrite R; [reflexivity|discriminate].
Qed.
Theorem C72_v5_between : forall (T T' : Target), 32 <= PortBase.bits (Target := T) -> 32 <= PortBase.bits (Target := T') -> forall p rest max,
  SpecV5.fits p -> SpecV5.readable p -> SpecV5.canonical p -> bytes_ok rest -> blen (SpecV5.written p) <= max ->
  exists n out, (forall fuel, (5 <= fuel)%nat -> @port_v5_write T fuel p [] = (Ok n, out)) /\
    forall fuel, (List.length (out ++ rest) < fuel)%nat -> blen (out ++ rest) < 2 ^ 63 ->
      @PortV5Mod.read T' fuel max (out ++ rest) = (Ok p, rest).
Proof.
  intros T T' HT HT' p rest max Hp Hy Hc Hr Hx. change (@PortBase.Wide T) in HT. change (@PortBase.Wide T') in HT'.
  destruct (PropV5.C19_v5_round_trip_identity p rest max Hp Hy Hc Hr Hx) as (n & out & H1 & H2). exists n, out.
  assert (D : SpecV5.declared_len p <= 268435455).
  { destruct Hp as (_ & _ & _ & Hi & Hl). rewrite (ProofV5Write.has_id_declared p Hi). exact Hl. }
  split.
  - intros fuel Hf. pose proof (@word_big T). rewrite target_v5_write by (assumption || lia). exact H1.
  - intros fuel Hf Hs. assert (R : SrcV5Mod.read fuel max (out ++ rest) = (Ok p, rest)) by (rewrite PropSource.v5_read_src by assumption; exact H2).
    rewrite (p_v5_read fuel max (out ++ rest)); rewrite R; [reflexivity|discriminate].
Qed.

(** 16 bits do not do: a complete header that announces 65536 bytes is read as one that announces none, so what follows
    in the stream is taken for the next frame; a four-byte length field panics or, without overflow checks, is misread *)
Theorem C72_16_bits_refuted :
  let debug := PortBase.checked 16 in let release := PortBase.unchecked 16 in
  let s := [0x30; 128; 128; 4; 0xC0; 0] in let s' := [0x30; 128; 128; 128; 1] in
  SrcLib.check s 65535 = Err (PayloadSizeLimitExceeded 65536) /\
  @PortLib.check debug s 65535 = Ok (mkFixedHeader 0x30 4 0) /\ @PortLib.check release s 65535 = Ok (mkFixedHeader 0x30 4 0) /\
  SrcLib.check s' 65535 = Err (PayloadSizeLimitExceeded 2097152) /\
  @PortLib.check debug s' 65535 = Panic /\ @PortLib.check release s' 65535 = Err (InsufficientBytes 32).
Proof. vm_compute. repeat split; reflexivity. Qed.

(** cases: 32-bit targets with and without overflow checks *)
Example C72_case :
  let q := V5Mod.Publish (V5Publish.mkPublish false AtLeastOnce false [97; 47; 98] 7
    (Some (V5Publish.mkPublishProperties None None None None None [([107], [118])] [5] None)) [1; 2; 3]) in
  let debug := PortBase.checked 32 in let release := PortBase.unchecked 32 in
  SpecV5.declared_len q < 2 ^ 32 /\
  @port_v5_write debug 5 q [] = v5_write 5 q [] /\ fst (@port_v5_write release 5 q []) = Ok 22 /\
  @port_v5_lens release q = [(Ok 20, 20)] /\
  @port_v5_reads debug (snd (@port_v5_write release 5 q [])) 100 = (Ok q, []) /\
  (* the largest length a header can announce stays below 2^32 *)
  @PortLib.length debug [255; 255; 255; 127] = Ok (4, 268435455) /\
  (* outside the range, the target decides *)
  @PortLib.FixedHeader_frame_length debug (mkFixedHeader 0x30 2 (2 ^ 32 - 1)) = Panic /\
  @PortLib.FixedHeader_frame_length release (mkFixedHeader 0x30 2 (2 ^ 32 - 1)) = Ok 1 /\
  SrcLib.FixedHeader_frame_length (mkFixedHeader 0x30 2 (2 ^ 32 - 1)) = Ok 4294967297.
Proof. vm_compute. repeat split; reflexivity. Qed.
Print Assumptions C72_check.
Print Assumptions C72_v4_read.
Print Assumptions C72_v5_read.
Print Assumptions C72_v4_write.
Print Assumptions C72_v5_write.
Print Assumptions C72_v4_lens.
Print Assumptions C72_v5_lens.
Print Assumptions C72_v4_direct.
Print Assumptions C72_v5_direct.
Print Assumptions C72_extract.
Print Assumptions C72_header.
Print Assumptions C72_topics.
Print Assumptions C72_v4_between.
Print Assumptions C72_v5_between.
Print Assumptions C72_16_bits_refuted.

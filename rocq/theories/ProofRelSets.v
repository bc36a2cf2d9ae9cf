(** ProofRelSets.v -- the v5 property sets without overflow checks. *)
From Verif Require Import ProofBase Lib ProofLib ProofRelBase.
From Verif Require Release RelLib RelV5Property V5Property.
From Verif Require V5Connect V5ConnAck V5Publish V5PubAck V5PubRec V5PubRel V5PubComp V5Subscribe V5SubAck
  V5Unsubscribe V5UnsubAck V5Disconnect.
From Verif Require RelV5Connect RelV5ConnAck RelV5Publish RelV5PubAck RelV5PubRec RelV5PubRel RelV5PubComp
  RelV5Subscribe RelV5SubAck RelV5Unsubscribe RelV5UnsubAck RelV5Disconnect.

Section WithBuild.
Context {build : Release.Build}.

(** equality of two property steps: read the fields, then an addition that fits the buffer *)
Lemma step_string {A} (f : bytes -> A) s : blen s <= usize_max ->
  rbind read_mqtt_string (fun v => rret (f v, Release.wadd 2 (blen v))) s
  = rbind read_mqtt_string (fun v => rret (f v, 2 + blen v)) s.
Proof.
  intros Hs. apply rbind_eq; [reflexivity|]. intros v s' E. apply read_string_len in E.
  rewrite wadd_small by lia. reflexivity.
Qed.
Lemma step_bytes {A} (f : bytes -> A) s : blen s <= usize_max ->
  rbind read_mqtt_bytes (fun v => rret (f v, Release.wadd 2 (blen v))) s
  = rbind read_mqtt_bytes (fun v => rret (f v, 2 + blen v)) s.
Proof.
  intros Hs. apply rbind_eq; [reflexivity|]. intros v s' E. apply read_bytes_len in E.
  rewrite wadd_small by lia. reflexivity.
Qed.
Lemma step_pair {A} (f : bytes -> bytes -> A) s : blen s <= usize_max ->
  rbind read_mqtt_string (fun k => rbind read_mqtt_string (fun v =>
    rret (f k v, Release.wadd (Release.wadd (Release.wadd 2 (blen k)) 2) (blen v)))) s
  = rbind read_mqtt_string (fun k => rbind read_mqtt_string (fun v => rret (f k v, 2 + blen k + 2 + blen v))) s.
Proof.
  intros Hs. apply rbind_eq; [reflexivity|]. intros k s' E. apply read_string_len in E.
  apply rbind_eq; [reflexivity|]. intros v s'' E'. apply read_string_len in E'.
  rewrite (wadd_small 2 (blen k)), (wadd_small (2 + blen k) 2), wadd_small by lia. reflexivity.
Qed.
Lemma step_id {A} (f : N -> A) s :
  rbind RelV5Property.peek_length (fun ll => rbind (advance (fst ll)) (fun _ => rret (f (snd ll), Release.wadd 1 (fst ll)))) s
  = rbind V5Property.peek_length (fun ll => rbind (advance (fst ll)) (fun _ => rret (f (snd ll), 1 + fst ll))) s.
Proof.
  apply rbind_eq; [apply peek_eq|]. intros [a n] s' E. apply peek_bound in E as [E _]. cbn [fst snd].
  rewrite wadd_small; [reflexivity|]. pose proof usize_big. lia.
Qed.
Tactic Notation "step_same" reference(f) reference(g) :=
  intros ty prop a s Hs; destruct ty; cbv beta iota delta [f g];
  lazymatch goal with
  | |- context [Release.wadd (Release.wadd _ _) _] => apply step_pair, Hs
  | |- context [RelV5Property.peek_length] => apply step_id
  | |- context [Release.wadd] =>
      lazymatch goal with
      | |- context [read_mqtt_string] => apply step_string, Hs
      | |- _ => apply step_bytes, Hs
      end
  | |- _ => reflexivity
  end.
(** a step does not lengthen the buffer *)
Lemma rbind_len {A B} (m : reader A) (k : A -> reader B) s b s' :
  (forall a s1, m s = Ok (a, s1) -> blen s1 <= blen s) ->
  (forall a s1, k a s1 = Ok (b, s') -> blen s' <= blen s1) ->
  rbind m k s = Ok (b, s') -> blen s' <= blen s.
Proof.
  intros H1 H2. unfold rbind. destruct (m s) as [[a s1]| | |]; try discriminate. intros H.
  specialize (H1 _ _ eq_refl). apply H2 in H. lia.
Qed.
Lemma read_u32_len s n r : read_u32 s = Ok (n, r) -> blen s = 4 + blen r.
Proof.
  unfold read_u32. destruct (blen s <? 4) eqn:E; [discriminate|].
  destruct s as [|a [|b [|c [|d s]]]]; cbn [get_u32]; try discriminate. intros H. injection H as _ <-.
  rewrite !blen_cons. lia.
Qed.
Lemma u8_le s n r : read_u8 s = Ok (n, r) -> blen r <= blen s. Proof. intros H; apply read_u8_len in H; lia. Qed.
Lemma u16_le s n r : read_u16 s = Ok (n, r) -> blen r <= blen s. Proof. intros H; apply read_u16_len in H; lia. Qed.
Lemma u32_le s n r : read_u32 s = Ok (n, r) -> blen r <= blen s. Proof. intros H; apply read_u32_len in H; lia. Qed.
Lemma str_le s n r : read_mqtt_string s = Ok (n, r) -> blen r <= blen s. Proof. intros H; apply read_string_len in H; lia. Qed.
Lemma byt_le s n r : read_mqtt_bytes s = Ok (n, r) -> blen r <= blen s. Proof. intros H; apply read_bytes_len in H; lia. Qed.
Lemma adv_le n s u r : advance n s = Ok (u, r) -> blen r <= blen s.
Proof. destruct u. apply advance_len. Qed.
Lemma peek_le s n r : V5Property.peek_length s = Ok (n, r) -> blen r <= blen s.
Proof. destruct n. intros H. apply peek_bound in H as [_ ->]. lia. Qed.
Lemma ret_le {A} (a b : A) s r : rret a s = Ok (b, r) -> blen r <= blen s.
Proof. intros H. injection H as _ <-. lia. Qed.
Ltac shorter :=
  lazymatch goal with
  | |- rbind _ _ _ = _ -> _ => apply rbind_len; intros ? ?; shorter
  | |- read_u8 _ = _ -> _ => apply u8_le
  | |- read_u16 _ = _ -> _ => apply u16_le
  | |- read_u32 _ = _ -> _ => apply u32_le
  | |- read_mqtt_string _ = _ -> _ => apply str_le
  | |- read_mqtt_bytes _ = _ -> _ => apply byt_le
  | |- advance _ _ = _ -> _ => apply adv_le
  | |- V5Property.peek_length _ = _ -> _ => apply peek_le
  | |- rret _ _ = _ -> _ => apply ret_le
  | |- rerr _ _ = _ -> _ => discriminate
  end.
(** and counts no more bytes than there were (one more for a subscription identifier) *)
Lemma rbind_inv {A B} (m : reader A) (k : A -> reader B) s x : rbind m k s = Ok x ->
  exists a s1, m s = Ok (a, s1) /\ k a s1 = Ok x.
Proof. unfold rbind. destruct (m s) as [[a s1]| | |]; try discriminate. eauto. Qed.
Ltac counts :=
  lazymatch goal with
  | |- rerr _ _ = _ -> _ => discriminate
  | |- rret _ _ = _ -> _ => let H := fresh in intros H; injection H as <- _; cbn [snd fst];
      repeat match goal with
      | E : read_u8 _ = _ |- _ => apply read_u8_len in E
      | E : read_u16 _ = _ |- _ => apply read_u16_len in E
      | E : read_u32 _ = _ |- _ => apply read_u32_len in E
      | E : read_mqtt_string _ = _ |- _ => apply read_string_len in E
      | E : read_mqtt_bytes _ = _ |- _ => apply read_bytes_len in E
      | a : N * N |- _ => destruct a
      | E : V5Property.peek_length _ = _ |- _ => apply peek_bound in E as [E _]
      end; cbn [snd fst]; lia
  | |- _ => let H := fresh in intros H; apply rbind_inv in H as (? & ? & ? & H); revert H; counts
  end.
Ltac step_short g := intros ty prop a s r s' Hst; split;
  [revert Hst; destruct ty; cbv beta iota delta [g]; shorter
  |revert Hst; destruct ty; cbv beta iota delta [g]; counts].

(** lengths *)
Ltac lens := cbv beta;
  lazymatch goal with
  | |- wraps (let x := ?A in @?B x) (let y := ?C in @?D y) =>
      apply (wraps_let A C B D); [lens | let a := fresh "x" in let b := fresh "y" in intros a b ?; cbv beta; lens]
  | |- wraps (Release.wadd _ _) (_ + _) => apply wraps_add; lens
  | |- wraps (fold_left _ _ _) (fold_left _ _ _) => apply wraps_fold; [lens | intros ? ? ? ?; lens]
  | |- wraps (match ?o with _ => _ end) _ => destruct o; lens
  | H : wraps ?a ?b |- wraps ?a ?b => exact H
  | |- wraps ?a ?a => apply wraps_refl
  end.
(** writers *)
Ltac wr := cbv beta;
  lazymatch goal with
  | |- wbind _ _ _ = wbind _ _ _ => apply wbind_eq; [wr | intros ? ? _; wr]
  | |- when_some _ _ _ = _ => apply when_some_eq; intros ? ? _; wr
  | |- for_each _ _ _ = _ => apply for_each_eq; intros ? ?; wr
  | |- RelLib.write_remaining_length _ _ = _ => apply write_rem_eq
  | |- ?x = ?x => reflexivity
  end.

Lemma wp_step ty prop a s : blen s <= usize_max -> RelV5Connect.wp_props_step ty prop a s = V5Connect.wp_props_step ty prop a s.
Proof. revert ty prop a s. step_same RelV5Connect.wp_props_step V5Connect.wp_props_step. Qed.
Lemma wp_short ty prop a s r s' : V5Connect.wp_props_step ty prop a s = Ok (r, s') -> blen s' <= blen s /\ snd r <= blen s + 5.
Proof. revert ty prop a s r s'. step_short V5Connect.wp_props_step. Qed.
Lemma wp_extract s : blen s <= half -> RelV5Connect.wp_extract s = V5Connect.wp_extract s.
Proof. intros Hs. apply section_eq; [exact wp_step|exact wp_short|exact Hs]. Qed.

Lemma cp_step ty prop a s : blen s <= usize_max -> RelV5Connect.cp_props_step ty prop a s = V5Connect.cp_props_step ty prop a s.
Proof. revert ty prop a s. step_same RelV5Connect.cp_props_step V5Connect.cp_props_step. Qed.
Lemma cp_short ty prop a s r s' : V5Connect.cp_props_step ty prop a s = Ok (r, s') -> blen s' <= blen s /\ snd r <= blen s + 5.
Proof. revert ty prop a s r s'. step_short V5Connect.cp_props_step. Qed.
Lemma cp_extract s : blen s <= half -> RelV5Connect.cp_extract s = V5Connect.cp_extract s.
Proof. intros Hs. apply section_eq; [exact cp_step|exact cp_short|exact Hs]. Qed.

Lemma connack_step ty prop a s : blen s <= usize_max -> RelV5ConnAck.props_step ty prop a s = V5ConnAck.props_step ty prop a s.
Proof. revert ty prop a s. step_same RelV5ConnAck.props_step V5ConnAck.props_step. Qed.
Lemma connack_short ty prop a s r s' : V5ConnAck.props_step ty prop a s = Ok (r, s') -> blen s' <= blen s /\ snd r <= blen s + 5.
Proof. revert ty prop a s r s'. step_short V5ConnAck.props_step. Qed.
Lemma connack_extract s : blen s <= half -> RelV5ConnAck.extract s = V5ConnAck.extract s.
Proof. intros Hs. apply section_eq; [exact connack_step|exact connack_short|exact Hs]. Qed.

Lemma publish_step ty prop a s : blen s <= usize_max -> RelV5Publish.props_step ty prop a s = V5Publish.props_step ty prop a s.
Proof. revert ty prop a s. step_same RelV5Publish.props_step V5Publish.props_step. Qed.
Lemma publish_short ty prop a s r s' : V5Publish.props_step ty prop a s = Ok (r, s') -> blen s' <= blen s /\ snd r <= blen s + 5.
Proof. revert ty prop a s r s'. step_short V5Publish.props_step. Qed.
Lemma publish_extract s : blen s <= half -> RelV5Publish.extract s = V5Publish.extract s.
Proof. intros Hs. apply section_eq; [exact publish_step|exact publish_short|exact Hs]. Qed.

Lemma puback_step ty prop a s : blen s <= usize_max -> RelV5PubAck.props_step ty prop a s = V5PubAck.props_step ty prop a s.
Proof. revert ty prop a s. step_same RelV5PubAck.props_step V5PubAck.props_step. Qed.
Lemma puback_short ty prop a s r s' : V5PubAck.props_step ty prop a s = Ok (r, s') -> blen s' <= blen s /\ snd r <= blen s + 5.
Proof. revert ty prop a s r s'. step_short V5PubAck.props_step. Qed.
Lemma puback_extract s : blen s <= half -> RelV5PubAck.extract s = V5PubAck.extract s.
Proof. intros Hs. apply section_eq; [exact puback_step|exact puback_short|exact Hs]. Qed.

Lemma pubrec_step ty prop a s : blen s <= usize_max -> RelV5PubRec.props_step ty prop a s = V5PubRec.props_step ty prop a s.
Proof. revert ty prop a s. step_same RelV5PubRec.props_step V5PubRec.props_step. Qed.
Lemma pubrec_short ty prop a s r s' : V5PubRec.props_step ty prop a s = Ok (r, s') -> blen s' <= blen s /\ snd r <= blen s + 5.
Proof. revert ty prop a s r s'. step_short V5PubRec.props_step. Qed.
Lemma pubrec_extract s : blen s <= half -> RelV5PubRec.extract s = V5PubRec.extract s.
Proof. intros Hs. apply section_eq; [exact pubrec_step|exact pubrec_short|exact Hs]. Qed.

Lemma pubrel_step ty prop a s : blen s <= usize_max -> RelV5PubRel.props_step ty prop a s = V5PubRel.props_step ty prop a s.
Proof. revert ty prop a s. step_same RelV5PubRel.props_step V5PubRel.props_step. Qed.
Lemma pubrel_short ty prop a s r s' : V5PubRel.props_step ty prop a s = Ok (r, s') -> blen s' <= blen s /\ snd r <= blen s + 5.
Proof. revert ty prop a s r s'. step_short V5PubRel.props_step. Qed.
Lemma pubrel_extract s : blen s <= half -> RelV5PubRel.extract s = V5PubRel.extract s.
Proof. intros Hs. apply section_eq; [exact pubrel_step|exact pubrel_short|exact Hs]. Qed.

Lemma pubcomp_step ty prop a s : blen s <= usize_max -> RelV5PubComp.props_step ty prop a s = V5PubComp.props_step ty prop a s.
Proof. revert ty prop a s. step_same RelV5PubComp.props_step V5PubComp.props_step. Qed.
Lemma pubcomp_short ty prop a s r s' : V5PubComp.props_step ty prop a s = Ok (r, s') -> blen s' <= blen s /\ snd r <= blen s + 5.
Proof. revert ty prop a s r s'. step_short V5PubComp.props_step. Qed.
Lemma pubcomp_extract s : blen s <= half -> RelV5PubComp.extract s = V5PubComp.extract s.
Proof. intros Hs. apply section_eq; [exact pubcomp_step|exact pubcomp_short|exact Hs]. Qed.

Lemma subscribe_step ty prop a s : blen s <= usize_max -> RelV5Subscribe.props_step ty prop a s = V5Subscribe.props_step ty prop a s.
Proof. revert ty prop a s. step_same RelV5Subscribe.props_step V5Subscribe.props_step. Qed.
Lemma subscribe_short ty prop a s r s' : V5Subscribe.props_step ty prop a s = Ok (r, s') -> blen s' <= blen s /\ snd r <= blen s + 5.
Proof. revert ty prop a s r s'. step_short V5Subscribe.props_step. Qed.
Lemma subscribe_extract s : blen s <= half -> RelV5Subscribe.extract s = V5Subscribe.extract s.
Proof. intros Hs. apply section_eq; [exact subscribe_step|exact subscribe_short|exact Hs]. Qed.

Lemma suback_step ty prop a s : blen s <= usize_max -> RelV5SubAck.props_step ty prop a s = V5SubAck.props_step ty prop a s.
Proof. revert ty prop a s. step_same RelV5SubAck.props_step V5SubAck.props_step. Qed.
Lemma suback_short ty prop a s r s' : V5SubAck.props_step ty prop a s = Ok (r, s') -> blen s' <= blen s /\ snd r <= blen s + 5.
Proof. revert ty prop a s r s'. step_short V5SubAck.props_step. Qed.
Lemma suback_extract s : blen s <= half -> RelV5SubAck.extract s = V5SubAck.extract s.
Proof. intros Hs. apply section_eq; [exact suback_step|exact suback_short|exact Hs]. Qed.

Lemma unsubscribe_step ty prop a s : blen s <= usize_max -> RelV5Unsubscribe.props_step ty prop a s = V5Unsubscribe.props_step ty prop a s.
Proof. revert ty prop a s. step_same RelV5Unsubscribe.props_step V5Unsubscribe.props_step. Qed.
Lemma unsubscribe_short ty prop a s r s' : V5Unsubscribe.props_step ty prop a s = Ok (r, s') -> blen s' <= blen s /\ snd r <= blen s + 5.
Proof. revert ty prop a s r s'. step_short V5Unsubscribe.props_step. Qed.
Lemma unsubscribe_extract s : blen s <= half -> RelV5Unsubscribe.extract s = V5Unsubscribe.extract s.
Proof. intros Hs. apply section_eq; [exact unsubscribe_step|exact unsubscribe_short|exact Hs]. Qed.

Lemma unsuback_step ty prop a s : blen s <= usize_max -> RelV5UnsubAck.props_step ty prop a s = V5UnsubAck.props_step ty prop a s.
Proof. revert ty prop a s. step_same RelV5UnsubAck.props_step V5UnsubAck.props_step. Qed.
Lemma unsuback_short ty prop a s r s' : V5UnsubAck.props_step ty prop a s = Ok (r, s') -> blen s' <= blen s /\ snd r <= blen s + 5.
Proof. revert ty prop a s r s'. step_short V5UnsubAck.props_step. Qed.
Lemma unsuback_extract s : blen s <= half -> RelV5UnsubAck.extract s = V5UnsubAck.extract s.
Proof. intros Hs. apply section_eq; [exact unsuback_step|exact unsuback_short|exact Hs]. Qed.

Lemma disconnect_step ty prop a s : blen s <= usize_max -> RelV5Disconnect.props_step ty prop a s = V5Disconnect.props_step ty prop a s.
Proof. revert ty prop a s. step_same RelV5Disconnect.props_step V5Disconnect.props_step. Qed.
Lemma disconnect_short ty prop a s r s' : V5Disconnect.props_step ty prop a s = Ok (r, s') -> blen s' <= blen s /\ snd r <= blen s + 5.
Proof. revert ty prop a s r s'. step_short V5Disconnect.props_step. Qed.
Lemma disconnect_extract s : blen s <= half -> RelV5Disconnect.extract s = V5Disconnect.extract s.
Proof. intros Hs. apply section_eq; [exact disconnect_step|exact disconnect_short|exact Hs]. Qed.

Lemma wp_wraps r : wraps (RelV5Connect.wp_props_len r) (V5Connect.wp_props_len r).
Proof. cbv beta delta [RelV5Connect.wp_props_len V5Connect.wp_props_len]. lens. Qed.
Lemma wp_len r : V5Connect.wp_props_len r <= usize_max -> RelV5Connect.wp_props_len r = V5Connect.wp_props_len r.
Proof. apply wraps_eq, wp_wraps. Qed.
Lemma wp_write r b : V5Connect.wp_props_len r <= usize_max -> RelV5Connect.wp_props_write r b = V5Connect.wp_props_write r b.
Proof. intros H. unfold RelV5Connect.wp_props_write, V5Connect.wp_props_write. rewrite (wp_len r H). cbv zeta. wr. Qed.

Lemma cp_wraps r : wraps (RelV5Connect.cp_props_len r) (V5Connect.cp_props_len r).
Proof. cbv beta delta [RelV5Connect.cp_props_len V5Connect.cp_props_len]. lens. Qed.
Lemma cp_len r : V5Connect.cp_props_len r <= usize_max -> RelV5Connect.cp_props_len r = V5Connect.cp_props_len r.
Proof. apply wraps_eq, cp_wraps. Qed.
Lemma cp_write r b : V5Connect.cp_props_len r <= usize_max -> RelV5Connect.cp_props_write r b = V5Connect.cp_props_write r b.
Proof. intros H. unfold RelV5Connect.cp_props_write, V5Connect.cp_props_write. rewrite (cp_len r H). cbv zeta. wr. Qed.

Lemma connack_wraps r : wraps (RelV5ConnAck.props_len r) (V5ConnAck.props_len r).
Proof. cbv beta delta [RelV5ConnAck.props_len V5ConnAck.props_len]. lens. Qed.
Lemma connack_len r : V5ConnAck.props_len r <= usize_max -> RelV5ConnAck.props_len r = V5ConnAck.props_len r.
Proof. apply wraps_eq, connack_wraps. Qed.
Lemma connack_write r b : V5ConnAck.props_len r <= usize_max -> RelV5ConnAck.props_write r b = V5ConnAck.props_write r b.
Proof. intros H. unfold RelV5ConnAck.props_write, V5ConnAck.props_write. rewrite (connack_len r H). cbv zeta. wr. Qed.

Lemma publish_wraps r : wraps (RelV5Publish.props_len r) (V5Publish.props_len r).
Proof. cbv beta delta [RelV5Publish.props_len V5Publish.props_len]. lens. Qed.
Lemma publish_len r : V5Publish.props_len r <= usize_max -> RelV5Publish.props_len r = V5Publish.props_len r.
Proof. apply wraps_eq, publish_wraps. Qed.
Lemma publish_write r b : V5Publish.props_len r <= usize_max -> RelV5Publish.props_write r b = V5Publish.props_write r b.
Proof. intros H. unfold RelV5Publish.props_write, V5Publish.props_write. rewrite (publish_len r H). cbv zeta. wr. Qed.

Lemma puback_wraps r : wraps (RelV5PubAck.props_len r) (V5PubAck.props_len r).
Proof. cbv beta delta [RelV5PubAck.props_len V5PubAck.props_len]. lens. Qed.
Lemma puback_len r : V5PubAck.props_len r <= usize_max -> RelV5PubAck.props_len r = V5PubAck.props_len r.
Proof. apply wraps_eq, puback_wraps. Qed.
Lemma puback_write r b : V5PubAck.props_len r <= usize_max -> RelV5PubAck.props_write r b = V5PubAck.props_write r b.
Proof. intros H. unfold RelV5PubAck.props_write, V5PubAck.props_write. rewrite (puback_len r H). cbv zeta. wr. Qed.

Lemma pubrec_wraps r : wraps (RelV5PubRec.props_len r) (V5PubRec.props_len r).
Proof. cbv beta delta [RelV5PubRec.props_len V5PubRec.props_len]. lens. Qed.
Lemma pubrec_len r : V5PubRec.props_len r <= usize_max -> RelV5PubRec.props_len r = V5PubRec.props_len r.
Proof. apply wraps_eq, pubrec_wraps. Qed.
Lemma pubrec_write r b : V5PubRec.props_len r <= usize_max -> RelV5PubRec.props_write r b = V5PubRec.props_write r b.
Proof. intros H. unfold RelV5PubRec.props_write, V5PubRec.props_write. rewrite (pubrec_len r H). cbv zeta. wr. Qed.

Lemma pubrel_wraps r : wraps (RelV5PubRel.props_len r) (V5PubRel.props_len r).
Proof. cbv beta delta [RelV5PubRel.props_len V5PubRel.props_len]. lens. Qed.
Lemma pubrel_len r : V5PubRel.props_len r <= usize_max -> RelV5PubRel.props_len r = V5PubRel.props_len r.
Proof. apply wraps_eq, pubrel_wraps. Qed.
Lemma pubrel_write r b : V5PubRel.props_len r <= usize_max -> RelV5PubRel.props_write r b = V5PubRel.props_write r b.
Proof. intros H. unfold RelV5PubRel.props_write, V5PubRel.props_write. rewrite (pubrel_len r H). cbv zeta. wr. Qed.

Lemma pubcomp_wraps r : wraps (RelV5PubComp.props_len r) (V5PubComp.props_len r).
Proof. cbv beta delta [RelV5PubComp.props_len V5PubComp.props_len]. lens. Qed.
Lemma pubcomp_len r : V5PubComp.props_len r <= usize_max -> RelV5PubComp.props_len r = V5PubComp.props_len r.
Proof. apply wraps_eq, pubcomp_wraps. Qed.
Lemma pubcomp_write r b : V5PubComp.props_len r <= usize_max -> RelV5PubComp.props_write r b = V5PubComp.props_write r b.
Proof. intros H. unfold RelV5PubComp.props_write, V5PubComp.props_write. rewrite (pubcomp_len r H). cbv zeta. wr. Qed.

Lemma subscribe_wraps r : wraps (RelV5Subscribe.props_len r) (V5Subscribe.props_len r).
Proof. cbv beta delta [RelV5Subscribe.props_len V5Subscribe.props_len]. lens. Qed.
Lemma subscribe_len r : V5Subscribe.props_len r <= usize_max -> RelV5Subscribe.props_len r = V5Subscribe.props_len r.
Proof. apply wraps_eq, subscribe_wraps. Qed.
Lemma subscribe_write r b : V5Subscribe.props_len r <= usize_max -> RelV5Subscribe.props_write r b = V5Subscribe.props_write r b.
Proof. intros H. unfold RelV5Subscribe.props_write, V5Subscribe.props_write. rewrite (subscribe_len r H). cbv zeta. wr. Qed.

Lemma suback_wraps r : wraps (RelV5SubAck.props_len r) (V5SubAck.props_len r).
Proof. cbv beta delta [RelV5SubAck.props_len V5SubAck.props_len]. lens. Qed.
Lemma suback_len r : V5SubAck.props_len r <= usize_max -> RelV5SubAck.props_len r = V5SubAck.props_len r.
Proof. apply wraps_eq, suback_wraps. Qed.
Lemma suback_write r b : V5SubAck.props_len r <= usize_max -> RelV5SubAck.props_write r b = V5SubAck.props_write r b.
Proof. intros H. unfold RelV5SubAck.props_write, V5SubAck.props_write. rewrite (suback_len r H). cbv zeta. wr. Qed.

Lemma unsubscribe_wraps r : wraps (RelV5Unsubscribe.props_len r) (V5Unsubscribe.props_len r).
Proof. cbv beta delta [RelV5Unsubscribe.props_len V5Unsubscribe.props_len]. lens. Qed.
Lemma unsubscribe_len r : V5Unsubscribe.props_len r <= usize_max -> RelV5Unsubscribe.props_len r = V5Unsubscribe.props_len r.
Proof. apply wraps_eq, unsubscribe_wraps. Qed.
Lemma unsubscribe_write r b : V5Unsubscribe.props_len r <= usize_max -> RelV5Unsubscribe.props_write r b = V5Unsubscribe.props_write r b.
Proof. intros H. unfold RelV5Unsubscribe.props_write, V5Unsubscribe.props_write. rewrite (unsubscribe_len r H). cbv zeta. wr. Qed.

Lemma unsuback_wraps r : wraps (RelV5UnsubAck.props_len r) (V5UnsubAck.props_len r).
Proof. cbv beta delta [RelV5UnsubAck.props_len V5UnsubAck.props_len]. lens. Qed.
Lemma unsuback_len r : V5UnsubAck.props_len r <= usize_max -> RelV5UnsubAck.props_len r = V5UnsubAck.props_len r.
Proof. apply wraps_eq, unsuback_wraps. Qed.
Lemma unsuback_write r b : V5UnsubAck.props_len r <= usize_max -> RelV5UnsubAck.props_write r b = V5UnsubAck.props_write r b.
Proof. intros H. unfold RelV5UnsubAck.props_write, V5UnsubAck.props_write. rewrite (unsuback_len r H). cbv zeta. wr. Qed.

Lemma disconnect_wraps r : wraps (RelV5Disconnect.props_len r) (V5Disconnect.props_len r).
Proof. cbv beta delta [RelV5Disconnect.props_len V5Disconnect.props_len]. lens. Qed.
Lemma disconnect_len r : V5Disconnect.props_len r <= usize_max -> RelV5Disconnect.props_len r = V5Disconnect.props_len r.
Proof. apply wraps_eq, disconnect_wraps. Qed.
Lemma disconnect_write r b : V5Disconnect.props_len r <= usize_max -> RelV5Disconnect.props_write r b = V5Disconnect.props_write r b.
Proof. intros H. unfold RelV5Disconnect.props_write, V5Disconnect.props_write. rewrite (disconnect_len r H). cbv zeta. wr. Qed.

End WithBuild.

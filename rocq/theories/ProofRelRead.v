(** ProofRelRead.v -- packet decoders without overflow checks. *)
From Verif Require Import ProofBase Lib ProofLib ProofRelBase ProofRelSets.
From Verif Require Release RelLib RelV5Property V5Property V4Mod V5Mod RelV4Mod RelV5Mod.

Section WithBuild.
Context {build : Release.Build}.

Lemma rlift_le {A} (o : outcome A) a s r : rlift o s = Ok (a, r) -> blen r <= blen s.
Proof. unfold rlift. destruct o; try discriminate. intros H. injection H as _ <-. lia. Qed.
Ltac shorter :=
  lazymatch goal with
  | E : read_u8 _ = Ok _ |- _ => apply u8_le in E; shorter
  | E : read_u16 _ = Ok _ |- _ => apply u16_le in E; shorter
  | E : read_u32 _ = Ok _ |- _ => apply u32_le in E; shorter
  | E : read_mqtt_string _ = Ok _ |- _ => apply str_le in E; shorter
  | E : read_mqtt_bytes _ = Ok _ |- _ => apply byt_le in E; shorter
  | E : advance _ _ = Ok _ |- _ => apply adv_le in E; shorter
  | E : rret _ _ = Ok _ |- _ => apply ret_le in E; shorter
  | E : rlift _ _ = Ok _ |- _ => apply rlift_le in E; shorter
  | E : rerr _ _ = Ok _ |- _ => discriminate E
  | E : (match ?o with _ => _ end) _ = Ok _ |- _ => destruct o; shorter
  | E : V5Property.peek_length _ = Ok _ |- _ => apply peek_le in E; shorter
  | |- _ => lia
  end.
(** walk two decoders in step; `ext` : the lemma about the `extract` *)
Ltac rd ext := cbv beta zeta;
  lazymatch goal with
  | |- rbind _ _ _ = rbind _ _ _ =>
      apply rbind_eq; [rd ext | let E := fresh "E" in intros ? ? E; rd ext]
  | |- ?x = ?y =>
      tryif constr_eq x y then exact (eq_refl x) else
      lazymatch goal with
      | |- (match ?o with _ => _ end) _ = _ => destruct o; rd ext
      | |- match ?o with _ => _ end = _ => destruct o; rd ext
      | |- _ => ext
      end
  end.

Lemma v5_connack_read h s : blen s <= half -> RelV5ConnAck.read h s = V5ConnAck.read h s.
Proof.
  intros Hs. cbv beta delta [RelV5ConnAck.read V5ConnAck.read]. rd ltac:(apply connack_extract; shorter).
Qed.

Lemma v5_publish_read h s : blen s <= half -> RelV5Publish.read h s = V5Publish.read h s.
Proof.
  intros Hs. cbv beta delta [RelV5Publish.read V5Publish.read]. rd ltac:(apply publish_extract; shorter).
Qed.

Lemma v5_puback_read h s : blen s <= half -> RelV5PubAck.read h s = V5PubAck.read h s.
Proof.
  intros Hs. cbv beta delta [RelV5PubAck.read V5PubAck.read]. rd ltac:(apply puback_extract; shorter).
Qed.

Lemma v5_pubrec_read h s : blen s <= half -> RelV5PubRec.read h s = V5PubRec.read h s.
Proof.
  intros Hs. cbv beta delta [RelV5PubRec.read V5PubRec.read]. rd ltac:(apply pubrec_extract; shorter).
Qed.

Lemma v5_pubrel_read h s : blen s <= half -> RelV5PubRel.read h s = V5PubRel.read h s.
Proof.
  intros Hs. cbv beta delta [RelV5PubRel.read V5PubRel.read]. rd ltac:(apply pubrel_extract; shorter).
Qed.

Lemma v5_pubcomp_read h s : blen s <= half -> RelV5PubComp.read h s = V5PubComp.read h s.
Proof.
  intros Hs. cbv beta delta [RelV5PubComp.read V5PubComp.read]. rd ltac:(apply pubcomp_extract; shorter).
Qed.

Lemma v5_subscribe_read h s : blen s <= half -> RelV5Subscribe.read h s = V5Subscribe.read h s.
Proof.
  intros Hs. cbv beta delta [RelV5Subscribe.read V5Subscribe.read]. rd ltac:(apply subscribe_extract; shorter).
Qed.

Lemma v5_suback_read h s : blen s <= half -> RelV5SubAck.read h s = V5SubAck.read h s.
Proof.
  intros Hs. cbv beta delta [RelV5SubAck.read V5SubAck.read]. rd ltac:(apply suback_extract; shorter).
Qed.

Lemma v5_unsubscribe_read h s : blen s <= half -> RelV5Unsubscribe.read h s = V5Unsubscribe.read h s.
Proof.
  intros Hs. cbv beta delta [RelV5Unsubscribe.read V5Unsubscribe.read]. rd ltac:(apply unsubscribe_extract; shorter).
Qed.

Lemma v5_unsuback_read h s : blen s <= half -> RelV5UnsubAck.read h s = V5UnsubAck.read h s.
Proof.
  intros Hs. cbv beta delta [RelV5UnsubAck.read V5UnsubAck.read]. rd ltac:(apply unsuback_extract; shorter).
Qed.

Lemma v5_disconnect_read h s : blen s <= half -> RelV5Disconnect.read h s = V5Disconnect.read h s.
Proof.
  intros Hs. cbv beta delta [RelV5Disconnect.read V5Disconnect.read]. rd ltac:(apply disconnect_extract; shorter).
Qed.

Lemma v5_will_read f s : blen s <= half -> RelV5Connect.lw_read f s = V5Connect.lw_read f s.
Proof.
  intros Hs. cbv beta delta [RelV5Connect.lw_read V5Connect.lw_read]. rd ltac:(apply wp_extract; shorter).
Qed.
(** the property section leaves a suffix *)
Lemma loop_short {A} (step : V5Property.PropertyType -> N -> A -> reader (A * N)) :
  (forall ty prop a s r s', step ty prop a s = Ok (r, s') -> blen s' <= blen s /\ snd r <= blen s + 5) ->
  forall fuel n c a s r s', V5Property.props_loop_fuel step fuel n c a s = Ok (r, s') -> blen s' <= blen s.
Proof.
  intros H. induction fuel as [|f IH]; intros n c a s r s'; cbn [V5Property.props_loop_fuel]; [discriminate|].
  destruct (c <? n); [|intros E; injection E as _ <-; lia].
  apply rbind_len; [apply u8_le|]. intros p s1. apply rbind_len; [intros ? ?; apply rlift_le|]. intros c1 s2.
  apply rbind_len; [intros ? ?; apply rlift_le|]. intros ty s3. apply rbind_len; [intros ? ? E; apply H in E; apply E|]. intros d s4.
  apply rbind_len; [intros ? ?; apply rlift_le|]. intros c2 s5. apply IH.
Qed.
Lemma section_short {A} (step : V5Property.PropertyType -> N -> A -> reader (A * N)) a0 s r s' :
  (forall ty prop a s r s', step ty prop a s = Ok (r, s') -> blen s' <= blen s /\ snd r <= blen s + 5) ->
  (ll <-r V5Property.peek_length ;; advance (fst ll) ;;r
   if snd ll =? 0 then rret None
   else p <-r V5Property.props_loop step (snd ll) a0 ;; rret (Some p)) s = Ok (r, s') -> blen s' <= blen s.
Proof.
  intros H. apply rbind_len; [intros ? ?; apply peek_le|]. intros ll s1.
  apply rbind_len; [intros ? ?; apply adv_le|]. intros _ s2.
  destruct (snd ll =? 0); [apply ret_le|].
  apply rbind_len; [|intros ? ?; apply ret_le]. intros a s3. apply loop_short, H.
Qed.
Lemma cp_section_short s r s' : V5Connect.cp_extract s = Ok (r, s') -> blen s' <= blen s.
Proof. apply section_short, cp_short. Qed.
Lemma v5_connect_read h s : blen s <= half -> RelV5Connect.read h s = V5Connect.read h s.
Proof.
  intros Hs. cbv beta delta [RelV5Connect.read V5Connect.read].
  apply rbind_eq; [reflexivity|]. intros [] s1 E1. apply advance_len in E1.
  apply rbind_eq; [reflexivity|]. intros name s2 E2. apply str_le in E2.
  apply rbind_eq; [reflexivity|]. intros level s3 E3. apply u8_le in E3.
  destruct (negb _); [reflexivity|].
  apply rbind_eq; [reflexivity|]. intros prot s4 E4.
  assert (s4 = s3) as ->.
  { clear -E4. unfold rret, rerr in E4. destruct level as [|[[[?|?|]|[?|?|]|]|[[?|?|]|[?|?|]|]|]]; try discriminate;
      injection E4; auto. }
  apply rbind_eq; [reflexivity|]. intros flags s5 E5. apply u8_le in E5. cbv zeta.
  apply rbind_eq; [reflexivity|]. intros ka s6 E6. apply u16_le in E6.
  apply rbind_eq; [destruct prot; [reflexivity|apply cp_extract; lia]|]. intros props s7 E7.
  assert (blen s7 <= blen s6). { destruct prot; [apply ret_le in E7; exact E7|apply cp_section_short in E7; exact E7]. }
  apply rbind_eq; [reflexivity|]. intros id s8 E8. apply str_le in E8.
  apply rbind_eq; [apply v5_will_read; lia|]. intros will s9 E9. reflexivity.
Qed.

(** 3.1.1: only UNSUBSCRIBE computes with lengths *)
Lemma topics_same fuel : forall n acc s, blen s <= usize_max ->
  same (RelV4Unsubscribe.topics_loop fuel n acc s) (V4Unsubscribe.topics_loop fuel n acc s).
Proof.
  induction fuel as [|f IH]; intros n acc s Hs; cbn [RelV4Unsubscribe.topics_loop V4Unsubscribe.topics_loop];
    [apply same_refl|].
  destruct (0 <? n); [|apply same_refl].
  apply same_bind; [apply same_refl|]. intros t s1 E1. apply read_string_len in E1.
  rewrite wadd_small by lia.
  apply same_bind; [apply rlift_same, usize_sub_same|]. intros n1 s2 E2. apply rlift_le in E2.
  apply IH. lia.
Qed.
Lemma v4_unsubscribe_read h s : blen s <= usize_max -> same (RelV4Unsubscribe.read h s) (V4Unsubscribe.read h s).
Proof.
  intros Hs. cbv beta delta [RelV4Unsubscribe.read V4Unsubscribe.read].
  apply same_bind; [apply same_refl|]. intros [] s1 E1. apply advance_len in E1.
  apply same_bind; [apply same_refl|]. intros id s2 E2. apply u16_le in E2.
  apply same_bind; [apply rlift_same, usize_sub_same|]. intros n s3 E3. apply rlift_le in E3.
  apply same_bind; [apply topics_same; lia|]. intros; apply same_refl.
Qed.

(** ** the whole `read` *)
Lemma same_wrap4 {A} (f : A -> V4Mod.Packet) o1 o2 : same o1 o2 -> same (V4Mod.wrap f o1) (V4Mod.wrap f o2).
Proof. intros [-> | ->]; [left|right]; reflexivity. Qed.
Lemma v4_frame_same h s : blen s <= usize_max -> same (RelV4Mod.read_frame h s) (V4Mod.read_frame h s).
Proof.
  intros Hs. unfold RelV4Mod.read_frame, V4Mod.read_frame. apply same_obind; [apply same_refl|]. intros t _.
  destruct (remaining_len h =? 0); [apply same_refl|].
  destruct t; lazymatch goal with |- context [RelV4Unsubscribe.read] => idtac | |- _ => apply same_refl end.
  apply same_wrap4, v4_unsubscribe_read, Hs.
Qed.
Lemma v5_frame_eq h s : blen s <= half -> RelV5Mod.read_frame h s = V5Mod.read_frame h s.
Proof.
  intros Hs. unfold RelV5Mod.read_frame, V5Mod.read_frame. destruct (packet_type h) as [t| | |]; [|reflexivity..]. cbn [obind].
  destruct (remaining_len h =? 0); [reflexivity|].
  destruct t; lazymatch goal with |- V5Mod.wrap _ _ = _ => f_equal | |- _ => reflexivity end.
  - apply v5_connect_read, Hs.
  - apply v5_connack_read, Hs.
  - apply v5_publish_read, Hs.
  - apply v5_puback_read, Hs.
  - apply v5_pubrec_read, Hs.
  - apply v5_pubrel_read, Hs.
  - apply v5_pubcomp_read, Hs.
  - apply v5_subscribe_read, Hs.
  - apply v5_suback_read, Hs.
  - apply v5_unsubscribe_read, Hs.
  - apply v5_unsuback_read, Hs.
  - apply v5_disconnect_read, Hs.
Qed.
Lemma v4_read_same s max : blen s <= usize_max -> fst (V4Mod.read s max) <> Panic ->
  RelV4Mod.read s max = V4Mod.read s max.
Proof.
  intros Hs Hp. unfold RelV4Mod.read, V4Mod.read in *.
  destruct (check_same s max Hs) as [E|E]; [rewrite E in Hp; contradiction|]. rewrite E. clear E.
  destruct (check s max) as [h| | |]; [|reflexivity..].
  destruct (frame_length_same h) as [E|E]; [rewrite E in Hp; contradiction|]. rewrite E. clear E.
  destruct (frame_length h) as [n| | |]; cbn [obind] in *; [|reflexivity..].
  destruct (split_to n s) as [[f r]| | |] eqn:Ef; [|reflexivity..]. apply split_to_len in Ef.
  destruct (v4_frame_same h f) as [E|E]; [lia|contradiction|]. rewrite E. reflexivity.
Qed.
Lemma v5_read_same s max : blen s <= half -> fst (V5Mod.read s max) <> Panic ->
  RelV5Mod.read s max = V5Mod.read s max.
Proof.
  intros Hs Hp. unfold RelV5Mod.read, V5Mod.read in *.
  pose proof usize_half as U. destruct (check_same s max ltac:(lia)) as [E|E]; [rewrite E in Hp; contradiction|]. rewrite E. clear E.
  destruct (check s max) as [h| | |]; [|reflexivity..].
  destruct (frame_length_same h) as [E|E]; [rewrite E in Hp; contradiction|]. rewrite E. clear E.
  destruct (frame_length h) as [n| | |]; cbn [obind] in *; [|reflexivity..].
  destruct (split_to n s) as [[f r]| | |] eqn:Ef; [|reflexivity..]. apply split_to_len in Ef.
  rewrite v5_frame_eq by lia. reflexivity.
Qed.

End WithBuild.

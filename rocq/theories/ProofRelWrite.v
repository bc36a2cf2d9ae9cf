(** ProofRelWrite.v -- packet lengths and writers without overflow checks. *)
From Verif Require Import ProofBase Lib ProofLib ProofRelBase ProofRelSets.
From Verif Require Release RelLib RelV5Property V5Property V4Mod V5Mod RelV4Mod RelV5Mod.

Section WithBuild.
Context {build : Release.Build}.

Lemma add_props_wraps l' l p' p : wraps l' l -> p' = p ->
  wraps (RelV5Property.add_props_len l' p') (V5Property.add_props_len l p).
Proof.
  intros H ->. unfold RelV5Property.add_props_len, V5Property.add_props_len.
  apply wraps_add; [exact H|]. apply wraps_add; apply wraps_refl.
Qed.
Lemma total_ok c n : c <= 4 -> n <= max_len -> Release.wadd (Release.wadd 1 c) n = 1 + c + n.
Proof.
  intros Hc Hn. unfold max_len in Hn. pose proof usize_big.
  rewrite (wadd_small 1 c), wadd_small by lia. reflexivity.
Qed.
Lemma flags_index_ok c : c <= 4 ->
  Release.wadd (Release.wadd (Release.wadd (Release.wadd 1 c) 2) 4) 1 = 1 + c + 2 + 4 + 1.
Proof.
  intros Hc. pose proof usize_big.
  rewrite (wadd_small 1 c), (wadd_small (1 + c) 2), (wadd_small (1 + c + 2) 4), wadd_small by lia. reflexivity.
Qed.
(** `by_set`: the lemma about the packet's property set *)
Ltac pw by_set := cbv beta zeta;
  lazymatch goal with
  | |- wbind (RelLib.write_remaining_length _) _ _ = _ =>
      apply wbind_eq; [apply write_rem_eq | let E := fresh "E" in intros ? ? E; apply write_rem_bound in E as [? ?]; pw by_set]
  | |- wbind _ _ _ = wbind _ _ _ => apply wbind_eq; [pw by_set | intros ? ? _; pw by_set]
  | |- when_some _ _ _ = _ => apply when_some_eq; intros ? ? ?; pw by_set
  | |- for_each _ _ _ = _ => apply for_each_eq; intros ? ?; pw by_set
  | |- RelLib.write_remaining_length _ _ = _ => apply write_rem_eq
  | |- wret (Release.wadd (Release.wadd 1 _) _) _ = _ => rewrite total_ok by assumption; reflexivity
  | |- set_index _ _ _ = _ => rewrite flags_index_ok by assumption; reflexivity
  | |- (match ?o with _ => _ end) _ = _ => destruct o eqn:?; pw by_set
  | |- ?x = ?x => reflexivity
  | |- _ => by_set
  end.
Ltac plens := cbv beta;
  lazymatch goal with
  | |- wraps (let x := ?A in @?B x) (let y := ?C in @?D y) =>
      apply (wraps_let A C B D); [plens | let a := fresh "x" in let b := fresh "y" in intros a b ?; cbv beta; plens]
  | |- wraps (Release.wadd _ _) (_ + _) => apply wraps_add; plens
  | |- wraps (RelV5Property.add_props_len _ _) _ => apply add_props_wraps; [plens | auto]
  | |- wraps (fold_left _ _ _) (fold_left _ _ _) => apply wraps_fold; [plens | intros ? ? ? ?; plens]
  | |- wraps (match ?o with _ => _ end) _ => destruct o eqn:?; plens
  | H : wraps ?a ?b |- wraps ?a ?b => exact H
  | |- wraps ?a ?a => apply wraps_refl
  | |- _ => idtac
  end.
Ltac no_set := fail 1.

(** ** 3.1.1 *)
Lemma v4_lw_wraps w : wraps (RelV4Connect.lw_len w) (V4Connect.lw_len w).
Proof. cbv beta delta [RelV4Connect.lw_len V4Connect.lw_len]. plens. Qed.
Lemma v4_login_wraps w : wraps (RelV4Connect.login_len w) (V4Connect.login_len w).
Proof. cbv beta delta [RelV4Connect.login_len V4Connect.login_len]. plens. Qed.
Lemma v4_connect_wraps p : wraps (RelV4Connect.len p) (V4Connect.len p).
Proof. cbv beta delta [RelV4Connect.len V4Connect.len]. plens; [apply v4_lw_wraps|apply v4_login_wraps]. Qed.
Lemma v4_connack_wraps p : wraps (RelV4ConnAck.len p) (V4ConnAck.len p).
Proof. cbv beta delta [RelV4ConnAck.len V4ConnAck.len]. plens. Qed.
Lemma v4_publish_wraps p : wraps (RelV4Publish.len p) (V4Publish.len p).
Proof. cbv beta delta [RelV4Publish.len V4Publish.len]. plens. Qed.
Lemma v4_subscribe_wraps p : wraps (RelV4Subscribe.len p) (V4Subscribe.len p).
Proof.
  cbv beta delta [RelV4Subscribe.len V4Subscribe.len RelV4Subscribe.filter_len V4Subscribe.filter_len]. plens.
Qed.
Lemma v4_suback_wraps p : wraps (RelV4SubAck.len p) (V4SubAck.len p).
Proof. cbv beta delta [RelV4SubAck.len V4SubAck.len]. plens. Qed.

Lemma v4_connect_write p b : V4Connect.len p <= usize_max -> RelV4Connect.write p b = V4Connect.write p b.
Proof.
  intros H. cbv beta delta [RelV4Connect.write V4Connect.write].
  rewrite (wraps_eq _ _ (v4_connect_wraps p) H). pw no_set.
Qed.

Lemma v4_connack_write p b : V4ConnAck.len p <= usize_max -> RelV4ConnAck.write p b = V4ConnAck.write p b.
Proof.
  intros H. cbv beta delta [RelV4ConnAck.write V4ConnAck.write].
  rewrite (wraps_eq _ _ (v4_connack_wraps p) H). pw no_set.
Qed.

Lemma v4_publish_write p b : V4Publish.len p <= usize_max -> RelV4Publish.write p b = V4Publish.write p b.
Proof.
  intros H. cbv beta delta [RelV4Publish.write V4Publish.write].
  rewrite (wraps_eq _ _ (v4_publish_wraps p) H). pw no_set.
Qed.

Lemma v4_subscribe_write p b : V4Subscribe.len p <= usize_max -> RelV4Subscribe.write p b = V4Subscribe.write p b.
Proof.
  intros H. cbv beta delta [RelV4Subscribe.write V4Subscribe.write].
  rewrite (wraps_eq _ _ (v4_subscribe_wraps p) H). pw no_set.
Qed.

Lemma v4_suback_write p b : V4SubAck.len p <= usize_max -> RelV4SubAck.write p b = V4SubAck.write p b.
Proof.
  intros H. cbv beta delta [RelV4SubAck.write V4SubAck.write].
  rewrite (wraps_eq _ _ (v4_suback_wraps p) H). pw no_set.
Qed.

Lemma v4_puback_write p b : RelV4PubAck.write p b = V4PubAck.write p b.
Proof. cbv beta delta [RelV4PubAck.write V4PubAck.write]. pw no_set. Qed.

Lemma v4_pubrec_write p b : RelV4PubRec.write p b = V4PubRec.write p b.
Proof. cbv beta delta [RelV4PubRec.write V4PubRec.write]. pw no_set. Qed.

Lemma v4_pubrel_write p b : RelV4PubRel.write p b = V4PubRel.write p b.
Proof. cbv beta delta [RelV4PubRel.write V4PubRel.write]. pw no_set. Qed.

Lemma v4_pubcomp_write p b : RelV4PubComp.write p b = V4PubComp.write p b.
Proof. cbv beta delta [RelV4PubComp.write V4PubComp.write]. pw no_set. Qed.

Definition v4_unsubscribe_len (p : V4Unsubscribe.Unsubscribe) : N :=
  2 + fold_left (fun s topic => s + blen topic + 2) (V4Unsubscribe.topics p) 0.
Lemma v4_unsubscribe_write p b : v4_unsubscribe_len p <= usize_max ->
  RelV4Unsubscribe.write p b = V4Unsubscribe.write p b.
Proof.
  intros H. cbv beta delta [RelV4Unsubscribe.write V4Unsubscribe.write].
  match goal with |- context [let remaining_len := Release.wadd 2 ?f in _] =>
    assert (Release.wadd 2 f = v4_unsubscribe_len p) as -> by (apply wraps_eq; [unfold v4_unsubscribe_len; plens|exact H])
  end.
  fold (v4_unsubscribe_len p). pw no_set.
Qed.

(** ** 5.0 *)

Lemma v5_connack_set p r : V5ConnAck.len p <= usize_max -> V5ConnAck.properties p = Some r -> V5ConnAck.props_len r <= usize_max.
Proof.
  intros H E. unfold V5ConnAck.len in H. rewrite E in H. cbn [is_none is_some negb] in H.
  rewrite ?andb_false_r in H. unfold V5Property.add_props_len in H. lia.
Qed.
Lemma v5_connack_wraps p : V5ConnAck.len p <= usize_max -> wraps (RelV5ConnAck.len p) (V5ConnAck.len p).
Proof.
  intros H. assert (S := fun r => v5_connack_set p r H). clear H.
  cbv beta delta [RelV5ConnAck.len V5ConnAck.len]. plens; apply connack_len, S; first [assumption|reflexivity].
Qed.
Lemma v5_connack_write p b : V5ConnAck.len p <= usize_max -> RelV5ConnAck.write p b = V5ConnAck.write p b.
Proof.
  intros H. assert (S := fun r => v5_connack_set p r H).
  cbv beta delta [RelV5ConnAck.write V5ConnAck.write]. rewrite (wraps_eq _ _ (v5_connack_wraps p H) H). clear H.
  pw ltac:(apply connack_write, S; first [assumption|reflexivity]).
Qed.

Lemma v5_publish_set p r : V5Publish.len p <= usize_max -> V5Publish.properties p = Some r -> V5Publish.props_len r <= usize_max.
Proof.
  intros H E. unfold V5Publish.len in H. rewrite E in H. cbn [is_none is_some negb] in H.
  rewrite ?andb_false_r in H. unfold V5Property.add_props_len in H. lia.
Qed.
Lemma v5_publish_wraps p : V5Publish.len p <= usize_max -> wraps (RelV5Publish.len p) (V5Publish.len p).
Proof.
  intros H. assert (S := fun r => v5_publish_set p r H). clear H.
  cbv beta delta [RelV5Publish.len V5Publish.len]. plens; apply publish_len, S; first [assumption|reflexivity].
Qed.
Lemma v5_publish_write p b : V5Publish.len p <= usize_max -> RelV5Publish.write p b = V5Publish.write p b.
Proof.
  intros H. assert (S := fun r => v5_publish_set p r H).
  cbv beta delta [RelV5Publish.write V5Publish.write]. rewrite (wraps_eq _ _ (v5_publish_wraps p H) H). clear H.
  pw ltac:(apply publish_write, S; first [assumption|reflexivity]).
Qed.

Lemma v5_puback_set p r : V5PubAck.len p <= usize_max -> V5PubAck.properties p = Some r -> V5PubAck.props_len r <= usize_max.
Proof.
  intros H E. unfold V5PubAck.len in H. rewrite E in H. cbn [is_none is_some negb] in H.
  rewrite ?andb_false_r in H. unfold V5Property.add_props_len in H. lia.
Qed.
Lemma v5_puback_wraps p : V5PubAck.len p <= usize_max -> wraps (RelV5PubAck.len p) (V5PubAck.len p).
Proof.
  intros H. assert (S := fun r => v5_puback_set p r H). clear H.
  cbv beta delta [RelV5PubAck.len V5PubAck.len]. plens; apply puback_len, S; first [assumption|reflexivity].
Qed.
Lemma v5_puback_write p b : V5PubAck.len p <= usize_max -> RelV5PubAck.write p b = V5PubAck.write p b.
Proof.
  intros H. assert (S := fun r => v5_puback_set p r H).
  cbv beta delta [RelV5PubAck.write V5PubAck.write]. rewrite (wraps_eq _ _ (v5_puback_wraps p H) H). clear H.
  pw ltac:(apply puback_write, S; first [assumption|reflexivity]).
Qed.

Lemma v5_pubrec_set p r : V5PubRec.len p <= usize_max -> V5PubRec.properties p = Some r -> V5PubRec.props_len r <= usize_max.
Proof.
  intros H E. unfold V5PubRec.len in H. rewrite E in H. cbn [is_none is_some negb] in H.
  rewrite ?andb_false_r in H. unfold V5Property.add_props_len in H. lia.
Qed.
Lemma v5_pubrec_wraps p : V5PubRec.len p <= usize_max -> wraps (RelV5PubRec.len p) (V5PubRec.len p).
Proof.
  intros H. assert (S := fun r => v5_pubrec_set p r H). clear H.
  cbv beta delta [RelV5PubRec.len V5PubRec.len]. plens; apply pubrec_len, S; first [assumption|reflexivity].
Qed.
Lemma v5_pubrec_write p b : V5PubRec.len p <= usize_max -> RelV5PubRec.write p b = V5PubRec.write p b.
Proof.
  intros H. assert (S := fun r => v5_pubrec_set p r H).
  cbv beta delta [RelV5PubRec.write V5PubRec.write]. rewrite (wraps_eq _ _ (v5_pubrec_wraps p H) H). clear H.
  pw ltac:(apply pubrec_write, S; first [assumption|reflexivity]).
Qed.

Lemma v5_pubrel_set p r : V5PubRel.len p <= usize_max -> V5PubRel.properties p = Some r -> V5PubRel.props_len r <= usize_max.
Proof.
  intros H E. unfold V5PubRel.len in H. rewrite E in H. cbn [is_none is_some negb] in H.
  rewrite ?andb_false_r in H. unfold V5Property.add_props_len in H. lia.
Qed.
Lemma v5_pubrel_wraps p : V5PubRel.len p <= usize_max -> wraps (RelV5PubRel.len p) (V5PubRel.len p).
Proof.
  intros H. assert (S := fun r => v5_pubrel_set p r H). clear H.
  cbv beta delta [RelV5PubRel.len V5PubRel.len]. plens; apply pubrel_len, S; first [assumption|reflexivity].
Qed.
Lemma v5_pubrel_write p b : V5PubRel.len p <= usize_max -> RelV5PubRel.write p b = V5PubRel.write p b.
Proof.
  intros H. assert (S := fun r => v5_pubrel_set p r H).
  cbv beta delta [RelV5PubRel.write V5PubRel.write]. rewrite (wraps_eq _ _ (v5_pubrel_wraps p H) H). clear H.
  pw ltac:(apply pubrel_write, S; first [assumption|reflexivity]).
Qed.

Lemma v5_pubcomp_set p r : V5PubComp.len p <= usize_max -> V5PubComp.properties p = Some r -> V5PubComp.props_len r <= usize_max.
Proof.
  intros H E. unfold V5PubComp.len in H. rewrite E in H. cbn [is_none is_some negb] in H.
  rewrite ?andb_false_r in H. unfold V5Property.add_props_len in H. lia.
Qed.
Lemma v5_pubcomp_wraps p : V5PubComp.len p <= usize_max -> wraps (RelV5PubComp.len p) (V5PubComp.len p).
Proof.
  intros H. assert (S := fun r => v5_pubcomp_set p r H). clear H.
  cbv beta delta [RelV5PubComp.len V5PubComp.len]. plens; apply pubcomp_len, S; first [assumption|reflexivity].
Qed.
Lemma v5_pubcomp_write p b : V5PubComp.len p <= usize_max -> RelV5PubComp.write p b = V5PubComp.write p b.
Proof.
  intros H. assert (S := fun r => v5_pubcomp_set p r H).
  cbv beta delta [RelV5PubComp.write V5PubComp.write]. rewrite (wraps_eq _ _ (v5_pubcomp_wraps p H) H). clear H.
  pw ltac:(apply pubcomp_write, S; first [assumption|reflexivity]).
Qed.

Lemma v5_subscribe_set p r : V5Subscribe.len p <= usize_max -> V5Subscribe.properties p = Some r -> V5Subscribe.props_len r <= usize_max.
Proof.
  intros H E. unfold V5Subscribe.len in H. rewrite E in H. cbn [is_none is_some negb] in H.
  rewrite ?andb_false_r in H. unfold V5Property.add_props_len in H. lia.
Qed.
Lemma v5_subscribe_wraps p : V5Subscribe.len p <= usize_max -> wraps (RelV5Subscribe.len p) (V5Subscribe.len p).
Proof.
  intros H. assert (S := fun r => v5_subscribe_set p r H). clear H.
  cbv beta delta [RelV5Subscribe.len V5Subscribe.len RelV5Subscribe.filter_len V5Subscribe.filter_len]. plens; apply subscribe_len, S; first [assumption|reflexivity].
Qed.
Lemma v5_subscribe_write p b : V5Subscribe.len p <= usize_max -> RelV5Subscribe.write p b = V5Subscribe.write p b.
Proof.
  intros H. assert (S := fun r => v5_subscribe_set p r H).
  cbv beta delta [RelV5Subscribe.write V5Subscribe.write]. rewrite (wraps_eq _ _ (v5_subscribe_wraps p H) H). clear H.
  pw ltac:(apply subscribe_write, S; first [assumption|reflexivity]).
Qed.

Lemma v5_suback_set p r : V5SubAck.len p <= usize_max -> V5SubAck.properties p = Some r -> V5SubAck.props_len r <= usize_max.
Proof.
  intros H E. unfold V5SubAck.len in H. rewrite E in H. cbn [is_none is_some negb] in H.
  rewrite ?andb_false_r in H. unfold V5Property.add_props_len in H. lia.
Qed.
Lemma v5_suback_wraps p : V5SubAck.len p <= usize_max -> wraps (RelV5SubAck.len p) (V5SubAck.len p).
Proof.
  intros H. assert (S := fun r => v5_suback_set p r H). clear H.
  cbv beta delta [RelV5SubAck.len V5SubAck.len]. plens; apply suback_len, S; first [assumption|reflexivity].
Qed.
Lemma v5_suback_write p b : V5SubAck.len p <= usize_max -> RelV5SubAck.write p b = V5SubAck.write p b.
Proof.
  intros H. assert (S := fun r => v5_suback_set p r H).
  cbv beta delta [RelV5SubAck.write V5SubAck.write]. rewrite (wraps_eq _ _ (v5_suback_wraps p H) H). clear H.
  pw ltac:(apply suback_write, S; first [assumption|reflexivity]).
Qed.

Lemma v5_unsubscribe_set p r : V5Unsubscribe.len p <= usize_max -> V5Unsubscribe.properties p = Some r -> V5Unsubscribe.props_len r <= usize_max.
Proof.
  intros H E. unfold V5Unsubscribe.len in H. rewrite E in H. cbn [is_none is_some negb] in H.
  rewrite ?andb_false_r in H. unfold V5Property.add_props_len in H. lia.
Qed.
Lemma v5_unsubscribe_wraps p : V5Unsubscribe.len p <= usize_max -> wraps (RelV5Unsubscribe.len p) (V5Unsubscribe.len p).
Proof.
  intros H. assert (S := fun r => v5_unsubscribe_set p r H). clear H.
  cbv beta delta [RelV5Unsubscribe.len V5Unsubscribe.len]. plens; apply unsubscribe_len, S; first [assumption|reflexivity].
Qed.
Lemma v5_unsubscribe_write p b : V5Unsubscribe.len p <= usize_max -> RelV5Unsubscribe.write p b = V5Unsubscribe.write p b.
Proof.
  intros H. assert (S := fun r => v5_unsubscribe_set p r H).
  cbv beta delta [RelV5Unsubscribe.write V5Unsubscribe.write]. rewrite (wraps_eq _ _ (v5_unsubscribe_wraps p H) H). clear H.
  pw ltac:(apply unsubscribe_write, S; first [assumption|reflexivity]).
Qed.

Lemma v5_unsuback_set p r : V5UnsubAck.len p <= usize_max -> V5UnsubAck.properties p = Some r -> V5UnsubAck.props_len r <= usize_max.
Proof.
  intros H E. unfold V5UnsubAck.len in H. rewrite E in H. cbn [is_none is_some negb] in H.
  rewrite ?andb_false_r in H. unfold V5Property.add_props_len in H. lia.
Qed.
Lemma v5_unsuback_wraps p : V5UnsubAck.len p <= usize_max -> wraps (RelV5UnsubAck.len p) (V5UnsubAck.len p).
Proof.
  intros H. assert (S := fun r => v5_unsuback_set p r H). clear H.
  cbv beta delta [RelV5UnsubAck.len V5UnsubAck.len]. plens; apply unsuback_len, S; first [assumption|reflexivity].
Qed.
Lemma v5_unsuback_write p b : V5UnsubAck.len p <= usize_max -> RelV5UnsubAck.write p b = V5UnsubAck.write p b.
Proof.
  intros H. assert (S := fun r => v5_unsuback_set p r H).
  cbv beta delta [RelV5UnsubAck.write V5UnsubAck.write]. rewrite (wraps_eq _ _ (v5_unsuback_wraps p H) H). clear H.
  pw ltac:(apply unsuback_write, S; first [assumption|reflexivity]).
Qed.

Lemma v5_disconnect_set p r : V5Disconnect.len p <= usize_max -> V5Disconnect.properties p = Some r -> V5Disconnect.props_len r <= usize_max.
Proof.
  intros H E. unfold V5Disconnect.len in H. rewrite E in H. cbn [is_none is_some negb] in H.
  rewrite ?andb_false_r in H. unfold V5Property.add_props_len in H. lia.
Qed.
Lemma v5_disconnect_wraps p : V5Disconnect.len p <= usize_max -> wraps (RelV5Disconnect.len p) (V5Disconnect.len p).
Proof.
  intros H. assert (S := fun r => v5_disconnect_set p r H). clear H.
  cbv beta delta [RelV5Disconnect.len V5Disconnect.len]. plens; apply disconnect_len, S; first [assumption|reflexivity].
Qed.
Lemma v5_disconnect_write p b : V5Disconnect.len p <= usize_max -> RelV5Disconnect.write p b = V5Disconnect.write p b.
Proof.
  intros H. assert (S := fun r => v5_disconnect_set p r H).
  cbv beta delta [RelV5Disconnect.write V5Disconnect.write]. rewrite (wraps_eq _ _ (v5_disconnect_wraps p H) H). clear H.
  pw ltac:(apply disconnect_write, S; first [assumption|reflexivity]).
Qed.

Lemma v5_connect_sets p : V5Connect.len p <= usize_max ->
  (forall r, V5Connect.properties p = Some r -> V5Connect.cp_props_len r <= usize_max) /\
  (forall w, V5Connect.last_will p = Some w -> V5Connect.lw_len w <= usize_max) /\
  (forall l, V5Connect.login p = Some l -> V5Connect.login_len l <= usize_max).
Proof.
  intros H. unfold V5Connect.len, V5Property.add_props_len in H.
  split; [|split]; intros q E; rewrite E in H;
    destruct (V5Connect.properties p), (V5Connect.last_will p), (V5Connect.login p); try discriminate;
    injection E as <- ; lia.
Qed.
Lemma v5_will_set w r : V5Connect.lw_len w <= usize_max -> V5Connect.lw_properties w = Some r ->
  V5Connect.wp_props_len r <= usize_max.
Proof. intros H E. unfold V5Connect.lw_len in H. rewrite E in H. unfold V5Property.add_props_len in H. lia. Qed.
Lemma v5_will_wraps w : V5Connect.lw_len w <= usize_max -> wraps (RelV5Connect.lw_len w) (V5Connect.lw_len w).
Proof.
  intros H. assert (S := fun r => v5_will_set w r H). clear H.
  cbv beta delta [RelV5Connect.lw_len V5Connect.lw_len]. plens. apply wp_len, S. first [assumption|reflexivity].
Qed.
Lemma v5_login_wraps w : wraps (RelV5Connect.login_len w) (V5Connect.login_len w).
Proof. cbv beta delta [RelV5Connect.login_len V5Connect.login_len]. plens. Qed.
Lemma v5_connect_wraps p : V5Connect.len p <= usize_max -> wraps (RelV5Connect.len p) (V5Connect.len p).
Proof.
  intros H. destruct (v5_connect_sets p H) as (S1 & S2 & S3). clear H.
  cbv beta delta [RelV5Connect.len V5Connect.len]. plens.
  - apply cp_len, S1. first [assumption|reflexivity].
  - apply v5_will_wraps, S2. first [assumption|reflexivity].
  - apply v5_login_wraps.
Qed.
Lemma v5_will_write w b : V5Connect.lw_len w <= usize_max -> RelV5Connect.lw_write w b = V5Connect.lw_write w b.
Proof.
  intros H. assert (S := fun r => v5_will_set w r H). clear H.
  cbv beta delta [RelV5Connect.lw_write V5Connect.lw_write].
  pw ltac:(apply wp_write, S; first [assumption|reflexivity]).
Qed.
Lemma v5_connect_write p b : V5Connect.len p <= usize_max -> RelV5Connect.write p b = V5Connect.write p b.
Proof.
  intros H. destruct (v5_connect_sets p H) as (S1 & S2 & _).
  cbv beta delta [RelV5Connect.write V5Connect.write]. rewrite (wraps_eq _ _ (v5_connect_wraps p H) H). clear H.
  pw ltac:(first [apply cp_write, S1; first [assumption|reflexivity]
                 |apply v5_will_write, S2; first [assumption|reflexivity]]).
Qed.
End WithBuild.

(** PropLen.v -- property theorems about the public `len` methods: C52. *)
From Verif Require Import ProofBase Lib ProofLib SpecFrame ProofRead.
From Verif Require SpecProps SpecV4 SpecV5 V4Mod V5Mod ProofV4Write ProofV5Write ProofV4 ProofV5 ProofPropSets SampleV4 SampleV5.

(** the packets with a public `len` *)
Definition v4_len (p : V4Mod.Packet) : option N :=
  match p with
  | V4Mod.Connect c => Some (V4Connect.len c)
  | V4Mod.Publish c => Some (V4Publish.len c)
  | V4Mod.Subscribe c => Some (V4Subscribe.len c)
  | V4Mod.SubAck c => Some (V4SubAck.len c)
  | _ => None
  end.
Definition v5_len (p : V5Mod.Packet) : option N :=
  match p with
  | V5Mod.Connect c => Some (V5Connect.len c)
  | V5Mod.Publish c => Some (V5Publish.len c)
  | V5Mod.Subscribe c => Some (V5Subscribe.len c)
  | V5Mod.SubAck c => Some (V5SubAck.len c)
  | V5Mod.Unsubscribe c => Some (V5Unsubscribe.len c)
  | V5Mod.UnsubAck c => Some (V5UnsubAck.len c)
  | _ => None
  end.
(** the packets that carry a property set with a public `len`: how many bytes of the body
    come before the property section, and the set's `len` *)
Definition v5_set_len (p : V5Mod.Packet) : option (N * N) :=
  match p with
  | V5Mod.ConnAck c => option_map (fun r => (2, V5ConnAck.props_len r)) (V5ConnAck.properties c)
  | V5Mod.PubAck c => option_map (fun r => (3, V5PubAck.props_len r)) (V5PubAck.properties c)
  | V5Mod.PubRec c => option_map (fun r => (3, V5PubRec.props_len r)) (V5PubRec.properties c)
  | V5Mod.PubRel c => option_map (fun r => (3, V5PubRel.props_len r)) (V5PubRel.properties c)
  | V5Mod.PubComp c => option_map (fun r => (3, V5PubComp.props_len r)) (V5PubComp.properties c)
  | V5Mod.Subscribe c => option_map (fun r => (2, V5Subscribe.props_len r)) (V5Subscribe.properties c)
  | V5Mod.SubAck c => option_map (fun r => (2, V5SubAck.props_len r)) (V5SubAck.properties c)
  | V5Mod.UnsubAck c => option_map (fun r => (2, V5UnsubAck.props_len r)) (V5UnsubAck.properties c)
  | _ => None
  end.

(** ** C52: `len` is the declared remaining length, on the wire and in the size check *)
Lemma v4_len_declared p k : v4_len p = Some k -> k = SpecV4.declared_len p.
Proof.
  destruct p; cbn [v4_len]; intros H; inversion H; subst; clear H.
  - apply ProofV4Write.connect_len.
  - apply ProofV4Write.publish_declared.
  - apply ProofV4Write.subscribe_len.
  - apply ProofV4Write.suback_len.
Qed.
Lemma v4_written p n out : V4Mod.write p [] = (Ok n, out) ->
  out = SpecV4.wire p /\ SpecV4.declared_len p = blen (SpecV4.body p).
Proof.
  intros H. destruct (ProofV4.write_outcome p []) as (_ & _ & Ho & _).
  assert (E : exists n, fst (V4Mod.write p []) = Ok n) by (exists n; rewrite H; reflexivity).
  apply Ho in E as [Hl Hi]. split.
  - destruct p;
      first [rewrite ProofV4Write.connect_write_empty in H by exact Hl; injection H as _ <-; reflexivity
            |match goal with |- _ = SpecV4.wire ?q => rewrite (ProofV4Write.write_ok q I Hi Hl []) in H end;
             cbn [app] in H; injection H as _ <-; reflexivity].

  - destruct p; try reflexivity. unfold SpecV4.has_id in Hi. unfold SpecV4.declared_len.
    destruct (positive_qos (V4Publish.qos p)); [|reflexivity].
    replace (V4Publish.pkid p =? 0) with false by lia. reflexivity.
Qed.
Theorem C52_v4_len : forall p k, v4_len p = Some k ->
  (forall n out, V4Mod.write p [] = (Ok n, out) ->
     exists b1 bd, out = b1 :: varint k ++ bd /\ blen bd = k) /\
  (forall buf, fst (V4Mod.write p buf) = Err PayloadTooLong <-> max_len < k).
Proof.
  intros p k Hk. apply v4_len_declared in Hk. subst k. split.
  - intros n out H. apply v4_written in H as [-> E]. rewrite E.
    exists (SpecV4.first_byte p), (SpecV4.body p). split; reflexivity.
  - intros buf. apply ProofV4.write_outcome.
Qed.

Lemma v5_len_declared p k : v5_len p = Some k -> k = SpecV5.declared_len p.
Proof.
  destruct p; cbn [v5_len]; intros H; inversion H; subst; clear H.
  - apply ProofV5Write.connect_len.
  - apply ProofV5Write.publish_declared.
  - apply ProofV5Write.subscribe_len.
  - apply ProofV5Write.suback_len.
  - apply ProofV5Write.unsubscribe_len.
  - apply ProofV5Write.unsuback_len.
Qed.
Lemma v5_written p n out : V5Mod.write p [] = (Ok n, out) ->
  out = SpecV5.written_wire p /\ SpecV5.declared_len p = blen (SpecV5.written p).
Proof.
  intros H. destruct (ProofV5.write_outcome p []) as (_ & _ & Ho & _).
  assert (E : exists n, fst (V5Mod.write p []) = Ok n) by (exists n; rewrite H; reflexivity).
  apply Ho in E as (Hl & Hi & Hs). split.
  - destruct p;
      first [rewrite ProofV5Write.connect_write_empty in H by assumption; injection H as _ <-; reflexivity
            |match goal with |- _ = SpecV5.written_wire ?q => rewrite (ProofV5Write.write_ok q I Hi Hs Hl []) in H end;
             cbn [app] in H; injection H as _ <-; reflexivity].

  - apply ProofV5Write.has_id_declared, Hi.
Qed.
Theorem C52_v5_len : forall p k, v5_len p = Some k ->
  (forall n out, V5Mod.write p [] = (Ok n, out) ->
     exists b1 bd, out = b1 :: varint k ++ bd /\ blen bd = k) /\
  (forall buf, max_len < k -> fst (V5Mod.write p buf) = Err PayloadTooLong) /\
  (forall buf, SpecV5.small_ids p -> fst (V5Mod.write p buf) = Err PayloadTooLong -> max_len < k).
Proof.
  intros p k Hk. apply v5_len_declared in Hk. subst k. split; [|split].
  - intros n out H. apply v5_written in H as [-> E]. rewrite E.
    exists (SpecV5.first_byte p), (SpecV5.written p). split; reflexivity.
  - intros buf H. apply ProofV5.write_outcome. left; exact H.
  - intros buf Hs H. apply ProofV5.write_outcome in H. tauto.
Qed.

Lemma section_form b1 bd front its tail k l :
  bd = front ++ (varint (blen its) ++ its) ++ tail -> blen front = k -> l = blen its ->
  exists b fr props tl,
    b1 :: varint (blen bd) ++ bd
    = b :: varint (blen (fr ++ varint l ++ props ++ tl)) ++ fr ++ varint l ++ props ++ tl /\
    blen fr = k /\ blen props = l.
Proof.
  intros -> Hk ->. exists b1, front, its, tail. rewrite <- !app_assoc. auto.
Qed.

(** ** C52: a property set's `len` is its property length on the wire *)
Theorem C52_v5_sets : forall p k l n out, v5_set_len p = Some (k, l) ->
  V5Mod.write p [] = (Ok n, out) ->
  exists b1 front props tail,
    out = b1 :: varint (blen (front ++ varint l ++ props ++ tail)) ++ front ++ varint l ++ props ++ tail /\
    blen front = k /\ blen props = l.
Proof.
  intros p k l n out Hk H. apply v5_written in H as [-> _].
  destruct p; cbn [v5_set_len] in Hk; try discriminate Hk;
    match type of Hk with option_map _ ?o = _ => destruct o as [r|] eqn:E; [|discriminate Hk] end;
    cbn [option_map] in Hk; inversion Hk; subst k l; clear Hk;
    unfold SpecV5.written_wire, frame; cbn [SpecV5.written SpecV5.body]; rewrite ?E;
    unfold SpecV5.ack_body; cbn [SpecV5.opt_items]; unfold SpecProps.section_bytes.
  - eapply (section_form _ _ [_; _] (SpecProps.items_bytes (SpecPropSets.connack_items r)) []); [rewrite app_nil_r; reflexivity|reflexivity|apply (ProofPropSets.connack_props_len r)].
  - eapply (section_form _ _ (be16 _ ++ [_]) (SpecProps.items_bytes (SpecPropSets.puback_items r)) []); [rewrite app_nil_r; reflexivity|reflexivity|apply (ProofPropSets.puback_props_len r)].
  - eapply (section_form _ _ (be16 _ ++ [_]) (SpecProps.items_bytes (SpecPropSets.pubrec_items r)) []); [rewrite app_nil_r; reflexivity|reflexivity|apply (ProofPropSets.pubrec_props_len r)].
  - eapply (section_form _ _ (be16 _ ++ [_]) (SpecProps.items_bytes (SpecPropSets.pubrel_items r)) []); [rewrite app_nil_r; reflexivity|reflexivity|apply (ProofPropSets.pubrel_props_len r)].
  - eapply (section_form _ _ (be16 _ ++ [_]) (SpecProps.items_bytes (SpecPropSets.pubcomp_items r)) []); [rewrite app_nil_r; reflexivity|reflexivity|apply (ProofPropSets.pubcomp_props_len r)].
  - eapply (section_form _ _ (be16 _) (SpecProps.items_bytes (SpecPropSets.subscribe_items r)) _); [reflexivity|reflexivity|apply (ProofPropSets.subscribe_props_len r)].
  - eapply (section_form _ _ (be16 _) (SpecProps.items_bytes (SpecPropSets.suback_items r)) _); [reflexivity|reflexivity|apply (ProofPropSets.suback_props_len r)].
  - eapply (section_form _ _ (be16 _) (SpecProps.items_bytes (SpecPropSets.unsuback_items r)) _); [reflexivity|reflexivity|apply (ProofPropSets.unsuback_props_len r)].
Qed.

(** ** C52: a filter's `len` is what it adds *)
Theorem C52_filters :
  (forall id fs f, V4Subscribe.len (V4Subscribe.mkSubscribe id (fs ++ [f]))
     = V4Subscribe.len (V4Subscribe.mkSubscribe id fs) + V4Subscribe.filter_len f) /\
  (forall id fs f o, V5Subscribe.len (V5Subscribe.mkSubscribe id (fs ++ [f]) o)
     = V5Subscribe.len (V5Subscribe.mkSubscribe id fs o) + V5Subscribe.filter_len f).
Proof.
  split.
  - intros. unfold V4Subscribe.len. cbn. rewrite fold_left_app. cbn. lia.
  - intros. unfold V5Subscribe.len. cbn [V5Subscribe.filters V5Subscribe.properties]. rewrite fold_left_app.
    cbn [fold_left]. cbv zeta. destruct o; unfold V5Property.add_props_len; lia.
Qed.

(** ** The cases *)
Example C52_case :
  v4_len SampleV4.ex_connect = Some 26 /\ v5_len SampleV5.ex_publish5 = Some 41 /\
  v5_set_len SampleV5.ex_connack5 = Some (2, 13) /\
  (exists n, fst (V4Mod.write SampleV4.ex_connect []) = Ok n) /\
  (exists n, fst (V5Mod.write SampleV5.ex_publish5 []) = Ok n) /\
  (exists n, fst (V5Mod.write SampleV5.ex_connack5 []) = Ok n).
Proof.
  split; [vm_compute; reflexivity|]. split; [vm_compute; reflexivity|]. split; [vm_compute; reflexivity|].
  split; [exists 26; vm_compute; reflexivity|]. split; [exists 43; vm_compute; reflexivity|].
  exists 18; vm_compute; reflexivity.
Qed.
Print Assumptions C52_v4_len.
Print Assumptions C52_v5_len.
Print Assumptions C52_v5_sets.
Print Assumptions C52_filters.

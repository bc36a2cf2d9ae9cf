(** PropRelease.v -- C64 (no result depends on what an overflowing operation returns) and C65
    (the decoders called directly in a build without overflow checks). *)
From Verif Require Import ProofBase Lib ProofLib ProofRead SpecProps SpecPropSets ProofPropSets SpecErrors ProofErrors SpecDirect SpecRelease.
From Verif Require Import ProofRelBase ProofRelSets ProofRelWrite ProofRelRead.
From Verif Require V4Mod V5Mod SpecV5 Release RelLib RelV4Mod RelV5Mod PropFrame PropDirect ProofV4Read PropV4 PropV5 SampleV4 SampleV5.

Lemma total_cons {A} (f : A -> N) x l : total f (x :: l) = f x + total f l.
Proof. reflexivity. Qed.
Lemma total_app {A} (f : A -> N) a b : total f (a ++ b) = total f a + total f b.
Proof. induction a as [|x a IH]; [reflexivity|]. cbn [app]. rewrite !total_cons, IH. lia. Qed.
Lemma items_memory its : blen (items_bytes its) <= total property_memory its.
Proof.
  induction its as [|[i v] its IH]; [apply N.le_refl|].
  change (items_bytes ((i, v) :: its)) with ((i :: value_bytes v) ++ items_bytes its).
  change (total property_memory ((i, v) :: its)) with (property_memory (i, v) + total property_memory its).
  rewrite blen_app, blen_cons. unfold property_memory. cbn [snd].
  assert (blen (value_bytes v) + 1 <= property_memory (i, v)); [|unfold property_memory in *; cbn [snd] in *; lia].
  unfold property_memory. cbn [snd]. destruct v; cbn [value_bytes]; rewrite ?blen_app, ?blen_field;
    try (change (blen (@nil N)) with 0); rewrite ?blen_cons; try (pose proof (varint_len_bound n)); unfold be16, be32, blen in *; cbn [List.length] in *; lia.
Qed.
Lemma fold_sum {A} (f g : A -> N) (step : N -> A -> N) l : (forall n x, step n x = n + f x) ->
  (forall x, f x <= g x) -> forall i, fold_left step l i <= i + total g l.
Proof.
  intros Hs Hg. induction l as [|x l IH]; intros i; cbn [fold_left total fold_right]; [lia|].
  fold (total g l). specialize (IH (step i x)). rewrite Hs in IH at 2. pose proof (Hg x). lia.
Qed.
Lemma len_len_4 n : 1 <= len_len n <= 4.
Proof. unfold len_len. repeat (destruct (_ <=? _); [lia|]); lia. Qed.
Lemma blen_total {A} (l : list A) : blen l = total (fun _ => 1) l.
Proof. induction l as [|x l IH]; [reflexivity|]. rewrite blen_cons, IH. reflexivity. Qed.

(** ** lengths are at most what the packet takes in memory, plus a constant *)
Lemma login_len_4 l : V4Connect.login_len l <= 4 + blen (V4Connect.username l) + blen (V4Connect.password l).
Proof. unfold V4Connect.login_len. destruct (negb _), (negb _); lia. Qed.
Lemma login_len_5 l : V5Connect.login_len l <= 4 + blen (V5Connect.username l) + blen (V5Connect.password l).
Proof. unfold V5Connect.login_len. destruct (negb _), (negb _); lia. Qed.
Lemma v4_bound build p a n : In (a, n) (v4_lens build p) -> n <= v4_memory p + 50.
Proof.
  destruct p as [c|c|q|x|x|x|x|s|s|u|u| | |]; cbn [v4_lens In]; intros H;
    repeat match type of H with _ \/ _ => destruct H as [H|H] end; try contradiction;
    apply (f_equal snd) in H; cbn [snd] in H; subst n; cbn [v4_memory].
  - unfold V4Connect.len. change (blen V4Connect.mqtt_name) with 4.
    destruct (V4Connect.last_will c) as [w|], (V4Connect.login c) as [l|]; cbn [of_option]; unfold V4Connect.lw_len;
      try (pose proof (login_len_4 l)); lia.
  - unfold V4ConnAck.len. lia.
  - unfold V4Publish.len. destruct (_ && _); lia.
  - unfold V4Subscribe.len.
    pose proof (fold_sum V4Subscribe.filter_len (fun f => 32 + blen (V4Subscribe.path f))
      (fun s t => s + V4Subscribe.filter_len t) (V4Subscribe.filters s) (fun _ _ => eq_refl)
      ltac:(intros; unfold V4Subscribe.filter_len; lia) 0). lia.
  - unfold V4SubAck.len. rewrite blen_total. lia.
Qed.
Lemma v4_unsubscribe_bound u : v4_unsubscribe_len u <= v4_memory (V4Mod.Unsubscribe u) + 50.
Proof.
  unfold v4_unsubscribe_len. cbn [v4_memory].
  pose proof (fold_sum (fun t => blen t + 2) (fun t => 24 + blen t)
    (fun s topic => s + blen topic + 2) (V4Unsubscribe.topics u)
      ltac:(cbv beta; intros; lia) ltac:(cbv beta; intros; lia) 0). lia.
Qed.

Lemma opt_bound {R} (items : R -> list item) (pl : R -> N) (o : option R) r :
  (forall r, pl r = blen (items_bytes (items r))) -> o = Some r -> pl r <= total property_memory (SpecV5.opt_items items o).
Proof. intros H ->. rewrite H. apply items_memory. Qed.
Lemma add_bound l p : V5Property.add_props_len l p <= l + p + 4.
Proof. unfold V5Property.add_props_len. pose proof (len_len_4 p). lia. Qed.
Lemma simple_bound {R} (items : R -> list item) (pl pl' : R -> N) (o : option R) (l l' m a n : N) :
  (forall r, pl r = blen (items_bytes (items r))) ->
  l <= (match o with Some r => pl r | None => 0 end) + m ->
  In (a, n) ((l', l) :: set_lens pl' pl o) -> n <= total property_memory (SpecV5.opt_items items o) + m.
Proof.
  intros Hp Hl [H|H].
  - apply (f_equal snd) in H; cbn [snd] in H; subst n. destruct o as [r|].
    + pose proof (opt_bound items pl (Some r) r Hp eq_refl). lia.
    + lia.
  - destruct o as [r|]; [|contradiction]. destruct H as [H|[]].
    apply (f_equal snd) in H; cbn [snd] in H; subst n. pose proof (opt_bound items pl (Some r) r Hp eq_refl). lia.
Qed.
Lemma v5_bound build p a n : In (a, n) (v5_lens build p) -> n <= v5_memory p + 100.
Proof.
  destruct p as [c|c|q|x|x|x|x|s|s|u|u| | |d]; cbn [v5_lens]; intros H; try contradiction.
  - assert (Hlen : V5Connect.len c <= v5_memory (V5Mod.Connect c) + 100 /\
      (forall r, V5Connect.properties c = Some r -> V5Connect.cp_props_len r <= v5_memory (V5Mod.Connect c) + 100) /\
      (forall w, V5Connect.last_will c = Some w -> V5Connect.lw_len w <= v5_memory (V5Mod.Connect c) + 100) /\
      (forall l, V5Connect.login c = Some l -> V5Connect.login_len l <= v5_memory (V5Mod.Connect c) + 100)).
    { unfold v5_memory. cbn [SpecV5.packet_items]. rewrite total_app. unfold SpecV5.will_props.
      assert (B1 := fun r => opt_bound connect_items _ (V5Connect.properties c) r connect_props_len).
      assert (B2 : forall w, V5Connect.last_will c = Some w -> V5Connect.lw_len w <=
        total property_memory (SpecV5.opt_items will_items (V5Connect.lw_properties w)) +
        blen (V5Connect.lw_topic w) + blen (V5Connect.lw_message w) + 10).
      { intros w _. unfold V5Connect.lw_len. destruct (V5Connect.lw_properties w) as [r|] eqn:E.
        - pose proof (opt_bound will_items _ _ r will_props_len E) as B. rewrite E in B.
          pose proof (add_bound 0 (V5Connect.wp_props_len r)). lia.
        - lia. }
      assert (B3 := login_len_5).
      unfold V5Connect.len. change (blen V5Connect.mqtt_name) with 4.
      destruct (V5Connect.properties c) as [r|]; destruct (V5Connect.last_will c) as [w|];
        destruct (V5Connect.login c) as [l|]; cbn [of_option];
        try (specialize (B1 _ eq_refl); pose proof (add_bound (2 + 4 + 1 + 1 + 2) (V5Connect.cp_props_len r)));
        try specialize (B2 _ eq_refl); try specialize (B3 l); cbn [SpecV5.opt_items] in *;
        (split; [lia|split; [|split]]; intros y Ey; try discriminate; injection Ey as <-; lia). }
    destruct Hlen as (H1 & H2 & H3 & H4). destruct H as [H|H]; [apply (f_equal snd) in H; cbn [snd] in H; subst n; exact H1|].
    apply in_app_or in H as [H|H]; [|apply in_app_or in H as [H|H]].
    + destruct (V5Connect.properties c); cbn [set_lens In] in H; [|contradiction]. destruct H as [H|[]].
      apply (f_equal snd) in H; cbn [snd] in H; subst n. auto.
    + destruct (V5Connect.last_will c); cbn [set_lens In] in H; [|contradiction]. destruct H as [H|[]].
      apply (f_equal snd) in H; cbn [snd] in H; subst n. auto.
    + destruct (V5Connect.login c); cbn [set_lens In] in H; [|contradiction]. destruct H as [H|[]].
      apply (f_equal snd) in H; cbn [snd] in H; subst n. auto.
  - unfold v5_memory. cbn [SpecV5.packet_items]. rewrite <- N.add_assoc.
    refine (simple_bound connack_items _ _ _ _ _ _ a n connack_props_len _ H). clear H.
    unfold V5ConnAck.len. destruct (V5ConnAck.properties c) as [r|]; [pose proof (add_bound (1 + 1) (V5ConnAck.props_len r))|]; lia.
  - unfold v5_memory. cbn [SpecV5.packet_items]. rewrite <- N.add_assoc.
    refine (simple_bound publish_items _ _ _ _ _ _ a n publish_props_len _ H). clear H.
    unfold V5Publish.len. destruct (_ && _), (V5Publish.properties q) as [r|]; unfold V5Property.add_props_len; try pose proof (len_len_4 (V5Publish.props_len r)); lia.
  - unfold v5_memory. cbn [SpecV5.packet_items]. rewrite <- N.add_assoc.
    refine (simple_bound puback_items _ _ _ _ _ _ a n puback_props_len _ H). clear H.
    unfold V5PubAck.len. destruct (_ && _); [lia|destruct (V5PubAck.properties x) as [r|]; [pose proof (add_bound (2 + 1) (V5PubAck.props_len r)); lia|lia]].
  - unfold v5_memory. cbn [SpecV5.packet_items]. rewrite <- N.add_assoc.
    refine (simple_bound pubrec_items _ _ _ _ _ _ a n pubrec_props_len _ H). clear H.
    unfold V5PubRec.len. destruct (_ && _); [lia|destruct (V5PubRec.properties x) as [r|]; [pose proof (add_bound (2 + 1) (V5PubRec.props_len r)); lia|lia]].
  - unfold v5_memory. cbn [SpecV5.packet_items]. rewrite <- N.add_assoc.
    refine (simple_bound pubrel_items _ _ _ _ _ _ a n pubrel_props_len _ H). clear H.
    unfold V5PubRel.len. destruct (_ && _); [lia|destruct (V5PubRel.properties x) as [r|]; [pose proof (add_bound (2 + 1) (V5PubRel.props_len r)); lia|lia]].
  - unfold v5_memory. cbn [SpecV5.packet_items]. rewrite <- N.add_assoc.
    refine (simple_bound pubcomp_items _ _ _ _ _ _ a n pubcomp_props_len _ H). clear H.
    unfold V5PubComp.len. destruct (_ && _); [lia|destruct (V5PubComp.properties x) as [r|]; [pose proof (add_bound (2 + 1) (V5PubComp.props_len r)); lia|lia]].
  - unfold v5_memory. cbn [SpecV5.packet_items]. rewrite <- N.add_assoc.
    refine (simple_bound subscribe_items _ _ _ _ _ _ a n subscribe_props_len _ H). clear H.
    unfold V5Subscribe.len. pose proof (fold_sum V5Subscribe.filter_len (fun f => 32 + blen (V5Subscribe.path f))
      (fun s t => s + V5Subscribe.filter_len t) (V5Subscribe.filters s) (fun _ _ => eq_refl)
      ltac:(intros; unfold V5Subscribe.filter_len; lia) 0).
    destruct (V5Subscribe.properties s) as [r|]; unfold V5Property.add_props_len; try pose proof (len_len_4 (V5Subscribe.props_len r)); lia.
  - unfold v5_memory. cbn [SpecV5.packet_items]. rewrite <- N.add_assoc.
    refine (simple_bound suback_items _ _ _ _ _ _ a n suback_props_len _ H). clear H.
    unfold V5SubAck.len. rewrite blen_total. destruct (V5SubAck.properties s) as [r|]; unfold V5Property.add_props_len; try pose proof (len_len_4 (V5SubAck.props_len r)); lia.
  - unfold v5_memory. cbn [SpecV5.packet_items]. rewrite <- N.add_assoc.
    refine (simple_bound unsubscribe_items _ _ _ _ _ _ a n unsubscribe_props_len _ H). clear H.
    unfold V5Unsubscribe.len. pose proof (fold_sum (fun t => blen t + 2) (fun t => 24 + blen t)
      (fun s t => 2 + s + blen t) (V5Unsubscribe.filters u) ltac:(cbv beta; intros; lia) ltac:(cbv beta; intros; lia) 0).
    destruct (V5Unsubscribe.properties u) as [r|]; unfold V5Property.add_props_len; try pose proof (len_len_4 (V5Unsubscribe.props_len r)); lia.
  - unfold v5_memory. cbn [SpecV5.packet_items]. rewrite <- N.add_assoc.
    refine (simple_bound unsuback_items _ _ _ _ _ _ a n unsuback_props_len _ H). clear H.
    unfold V5UnsubAck.len. rewrite blen_total. destruct (V5UnsubAck.properties u) as [r|]; unfold V5Property.add_props_len; try pose proof (len_len_4 (V5UnsubAck.props_len r)); lia.
  - unfold v5_memory. cbn [SpecV5.packet_items]. rewrite <- N.add_assoc.
    refine (simple_bound disconnect_items _ _ _ _ _ _ a n disconnect_props_len _ H). clear H.
    unfold V5Disconnect.len. destruct (_ && _); [lia|destruct (V5Disconnect.properties d) as [r|]; [pose proof (add_bound (0 + 1) (V5Disconnect.props_len r)); lia|destruct (V5Disconnect.reason_eqb _ _); lia]].
Qed.

(** ** C64 *)
Lemma small_half n : n < 2 ^ 63 -> n <= half.
Proof. rewrite half_val. apply N.lt_le_incl. Qed.
Lemma small_usize n : n < 2 ^ 63 -> n <= usize_max.
Proof. intros H. apply small_half in H. pose proof usize_half as U. lia. Qed.
Lemma memory_usize n : n <= 2 ^ 63 + 100 -> n <= usize_max.
Proof. rewrite <- half_val. intros H. pose proof usize_half as U. lia. Qed.

Theorem C64_check : forall build s max, bytes_ok s -> blen s < 2 ^ 63 ->
  @RelLib.check build s max = check s max.
Proof.
  intros build s max Hb Hs. destruct (check_same (build := build) s max (small_usize _ Hs)) as [H|H]; [|exact H].
  exfalso. destruct (PropFrame.C02_check_total s max Hb) as [[h E]|[e E]]; rewrite E in H; discriminate H.
Qed.
Theorem C64_v4_read : forall build s max, bytes_ok s -> blen s < 2 ^ 63 ->
  @RelV4Mod.read build s max = V4Mod.read s max.
Proof.
  intros build s max Hb Hs. apply v4_read_same; [apply small_usize, Hs|].
  intros H. destruct (PropV4.C06_v4_total s max Hb) as [[p E]|[e E]]; rewrite E in H; discriminate H.
Qed.
Theorem C64_v5_read : forall build s max, bytes_ok s -> blen s < 2 ^ 63 ->
  @RelV5Mod.read build s max = V5Mod.read s max.
Proof.
  intros build s max Hb Hs. apply v5_read_same; [apply small_half, Hs|].
  intros H. destruct (PropV5.C07_v5_total s max Hb) as [[p E]|[e E]]; rewrite E in H; discriminate H.
Qed.
Theorem C64_v4_lens : forall build p a n, In (a, n) (v4_lens build p) -> v4_memory p <= 2 ^ 63 ->
  a = n /\ n <= v4_memory p + 100.
Proof.
  intros build p a n Hin Hm. pose proof (v4_bound build p a n Hin) as B. split; [|lia].
  assert (Hn : n <= usize_max) by (apply memory_usize; lia). clear B Hm.
  destruct p as [c|c|q|x|x|x|x|s|s|u|u| | |]; cbn [v4_lens In] in Hin;
    repeat match type of Hin with _ \/ _ => destruct Hin as [Hin|Hin] end; try contradiction;
    injection Hin as <- <-.
  - apply v4_connect_wraps, Hn.
  - apply v4_connack_wraps, Hn.
  - apply v4_publish_wraps, Hn.
  - apply v4_subscribe_wraps, Hn.
  - apply v4_suback_wraps, Hn.
Qed.
Theorem C64_v4_write : forall build p buf, v4_memory p <= 2 ^ 63 ->
  @RelV4Mod.write build p buf = V4Mod.write p buf.
Proof.
  intros build p buf Hm.
  assert (B : forall a n, In (a, n) (v4_lens build p) -> n <= usize_max).
  { intros a n Hin. apply memory_usize. pose proof (v4_bound build p a n Hin). lia. }
  destruct p as [c|c|q|x|x|x|x|s|s|u|u| | |]; cbn [RelV4Mod.write V4Mod.write].
  - apply v4_connect_write, (B _ _ (or_introl eq_refl)).
  - apply v4_connack_write, (B _ _ (or_introl eq_refl)).
  - apply v4_publish_write, (B _ _ (or_introl eq_refl)).
  - apply v4_puback_write.
  - apply v4_pubrec_write.
  - apply v4_pubrel_write.
  - apply v4_pubcomp_write.
  - apply v4_subscribe_write, (B _ _ (or_introl eq_refl)).
  - apply v4_suback_write, (B _ _ (or_introl eq_refl)).
  - apply v4_unsubscribe_write. apply memory_usize. pose proof (v4_unsubscribe_bound u). lia.
  - reflexivity.
  - reflexivity.
  - reflexivity.
  - reflexivity.
Qed.
Theorem C64_v5_lens : forall build p a n, In (a, n) (v5_lens build p) -> v5_memory p <= 2 ^ 63 ->
  a = n /\ n <= v5_memory p + 100.
Proof.
  intros build p a n Hin Hm. pose proof (v5_bound build p a n Hin) as B. split; [|lia].
  assert (Hn : n <= usize_max) by (apply memory_usize; lia). clear B Hm.
  destruct p as [c|c|q|x|x|x|x|s|s|u|u| | |d]; cbn [v5_lens] in Hin; try contradiction;
    (destruct Hin as [Hin|Hin]; [injection Hin as <- <-|]).
  - apply v5_connect_wraps; exact Hn.
  - apply in_app_or in Hin as [H|H]; [|apply in_app_or in H as [H|H]].
    + destruct (V5Connect.properties c); [|contradiction]. destruct H as [H|[]]. injection H as <- <-. apply cp_wraps, Hn.
    + destruct (V5Connect.last_will c); [|contradiction]. destruct H as [H|[]]. injection H as <- <-. apply v5_will_wraps; exact Hn.
    + destruct (V5Connect.login c); [|contradiction]. destruct H as [H|[]]. injection H as <- <-. apply v5_login_wraps, Hn.
  - apply v5_connack_wraps; exact Hn.
  - destruct (V5ConnAck.properties c); [|contradiction]. destruct Hin as [Hin|[]]. injection Hin as <- <-. apply connack_wraps, Hn.
  - apply v5_publish_wraps; exact Hn.
  - destruct (V5Publish.properties q); [|contradiction]. destruct Hin as [Hin|[]]. injection Hin as <- <-. apply publish_wraps, Hn.
  - apply v5_puback_wraps; exact Hn.
  - destruct (V5PubAck.properties x); [|contradiction]. destruct Hin as [Hin|[]]. injection Hin as <- <-. apply puback_wraps, Hn.
  - apply v5_pubrec_wraps; exact Hn.
  - destruct (V5PubRec.properties x); [|contradiction]. destruct Hin as [Hin|[]]. injection Hin as <- <-. apply pubrec_wraps, Hn.
  - apply v5_pubrel_wraps; exact Hn.
  - destruct (V5PubRel.properties x); [|contradiction]. destruct Hin as [Hin|[]]. injection Hin as <- <-. apply pubrel_wraps, Hn.
  - apply v5_pubcomp_wraps; exact Hn.
  - destruct (V5PubComp.properties x); [|contradiction]. destruct Hin as [Hin|[]]. injection Hin as <- <-. apply pubcomp_wraps, Hn.
  - apply v5_subscribe_wraps; exact Hn.
  - destruct (V5Subscribe.properties s); [|contradiction]. destruct Hin as [Hin|[]]. injection Hin as <- <-. apply subscribe_wraps, Hn.
  - apply v5_suback_wraps; exact Hn.
  - destruct (V5SubAck.properties s); [|contradiction]. destruct Hin as [Hin|[]]. injection Hin as <- <-. apply suback_wraps, Hn.
  - apply v5_unsubscribe_wraps; exact Hn.
  - destruct (V5Unsubscribe.properties u); [|contradiction]. destruct Hin as [Hin|[]]. injection Hin as <- <-. apply unsubscribe_wraps, Hn.
  - apply v5_unsuback_wraps; exact Hn.
  - destruct (V5UnsubAck.properties u); [|contradiction]. destruct Hin as [Hin|[]]. injection Hin as <- <-. apply unsuback_wraps, Hn.
  - apply v5_disconnect_wraps; exact Hn.
  - destruct (V5Disconnect.properties d); [|contradiction]. destruct Hin as [Hin|[]]. injection Hin as <- <-. apply disconnect_wraps, Hn.
Qed.
Theorem C64_v5_write : forall build p buf, v5_memory p <= 2 ^ 63 ->
  @RelV5Mod.write build p buf = V5Mod.write p buf.
Proof.
  intros build p buf Hm.
  assert (B : forall a n, In (a, n) (v5_lens build p) -> n <= usize_max).
  { intros a n Hin. apply memory_usize. pose proof (v5_bound build p a n Hin). lia. }
  destruct p as [c|c|q|x|x|x|x|s|s|u|u| | |d]; cbn [RelV5Mod.write V5Mod.write].
  - apply v5_connect_write, (B _ _ (or_introl eq_refl)).
  - apply v5_connack_write, (B _ _ (or_introl eq_refl)).
  - apply v5_publish_write, (B _ _ (or_introl eq_refl)).
  - apply v5_puback_write, (B _ _ (or_introl eq_refl)).
  - apply v5_pubrec_write, (B _ _ (or_introl eq_refl)).
  - apply v5_pubrel_write, (B _ _ (or_introl eq_refl)).
  - apply v5_pubcomp_write, (B _ _ (or_introl eq_refl)).
  - apply v5_subscribe_write, (B _ _ (or_introl eq_refl)).
  - apply v5_suback_write, (B _ _ (or_introl eq_refl)).
  - apply v5_unsubscribe_write, (B _ _ (or_introl eq_refl)).
  - apply v5_unsuback_write, (B _ _ (or_introl eq_refl)).
  - reflexivity.
  - reflexivity.
  - apply v5_disconnect_write, (B _ _ (or_introl eq_refl)).
Qed.

(** ** C65 *)
Theorem C65_header : forall b ll rl, ll < 2 ^ 64 -> rl < 2 ^ 64 ->
  @RelLib.new_fixed_header Release.release b ll rl = Ok (mkFixedHeader b ((ll + 1) mod 2 ^ 64) rl) /\
  @RelLib.frame_length Release.release (mkFixedHeader b ll rl) = Ok ((ll + rl) mod 2 ^ 64).
Proof.
  intros b ll rl Hl Hr. pose proof usize_val as U.
  assert (W : forall a c, @Release.wadd Release.release a c = (a + c) mod 2 ^ 64).
  { intros a c. unfold Release.wadd, Release.release, Release.overflowed. rewrite U.
    destruct (a + c <=? usize_max) eqn:E; [|reflexivity]. symmetry. apply N.mod_small. lia. }
  unfold RelLib.new_fixed_header, RelLib.frame_length, Release.usize_add. cbn [obind fixed_header_len remaining_len].
  rewrite !W. split; reflexivity.
Qed.
Theorem C65_v5_direct : forall build t rd' rd, In (t, rd') (v5_readers_in build) -> In (t, rd) v5_readers ->
  forall h s, blen s < 2 ^ 63 -> rd' h s = rd h s.
Proof.
  intros build t rd' rd Hin' Hin h s Hs. apply small_half in Hs.
  cbn [v5_readers_in In] in Hin'. repeat match type of Hin' with _ \/ _ => destruct Hin' as [Hin'|Hin'] end; try contradiction;
    injection Hin' as <- <-; cbn [v5_readers In] in Hin;
    repeat match type of Hin with _ \/ _ => destruct Hin as [Hin|Hin] end; try contradiction;
    match type of Hin with (?a, _) = (?b, _) => tryif constr_eq a b then idtac else (apply (f_equal fst) in Hin; discriminate Hin) end;
    apply (f_equal snd) in Hin; cbn [snd] in Hin; subst rd; f_equal.
  - apply v5_connect_read, Hs.
  - apply v5_connack_read, Hs.
  - apply v5_publish_read, Hs.
  - apply v5_puback_read, Hs.
  - apply v5_pubrec_read, Hs.
  - apply v5_pubrel_read, Hs.
  - apply v5_pubcomp_read, Hs.
  - apply v5_subscribe_read, Hs.
  - apply v5_suback_read, Hs.
  - apply v5_unsubscribe_read, Hs.
  - apply v5_unsuback_read, Hs.
  - apply v5_disconnect_read, Hs.
Qed.
Theorem C65_v4_direct : forall build t rd' rd, In (t, rd') (v4_readers_in build) -> In (t, rd) v4_readers ->
  forall h s, blen s < 2 ^ 63 ->
  t <> PT_Unsubscribe \/ blen s < fixed_header_len h \/ rd h s <> Panic ->
  rd' h s = rd h s.
Proof.
  intros build t rd' rd Hin' Hin h s Hs Hc. apply small_usize in Hs.
  cbn [v4_readers_in In] in Hin'. repeat match type of Hin' with _ \/ _ => destruct Hin' as [Hin'|Hin'] end; try contradiction;
    injection Hin' as <- <-; cbn [v4_readers In] in Hin;
    repeat match type of Hin with _ \/ _ => destruct Hin as [Hin|Hin] end; try contradiction;
    match type of Hin with (?a, _) = (?b, _) => tryif constr_eq a b then idtac else (apply (f_equal fst) in Hin; discriminate Hin) end;
    apply (f_equal snd) in Hin; cbn [snd] in Hin; subst rd;
    lazymatch goal with |- context [RelV4Unsubscribe.read] => idtac | |- _ => reflexivity end.
  destruct Hc as [Hc|[Hc|Hc]].
  - contradiction.
  - f_equal. unfold RelV4Unsubscribe.read, V4Unsubscribe.read. rewrite !PropDirect.rbind_short by exact Hc. reflexivity.
  - destruct (v4_unsubscribe_read (build := build) h s Hs) as [E|E]; [|rewrite E; reflexivity].
    rewrite E in Hc. contradiction.
Qed.

(** a number announced that is more than what follows is never used up *)
Lemma loop_exhausts {build : Release.Build} fuel : forall n acc s, bytes_ok s -> blen s <= half ->
  (List.length s < fuel)%nat -> blen s < n ->
  exists ts s' e, Forall (fun t => is_utf8 t /\ short t) ts /\ s = flat_map field ts ++ s' /\ lacks WString s' e /\
    RelV4Unsubscribe.topics_loop fuel n acc s = Err e.
Proof.
  pose proof usize_half as U.
  induction fuel as [|fuel IH]; intros n acc s Hs Hh Hl Hn; [lia|].
  cbn [RelV4Unsubscribe.topics_loop]. replace (0 <? n) with true by lia.
  assert (W := wp_want_string (lacks WString s) s (fun v r => s = field v ++ r /\ is_utf8 v /\ short v /\ bytes_ok r) Hs).
  unfold rbind at 1. destruct (read_mqtt_string s) as [[t r]|e| |] eqn:Er.
  - assert (W' : s = field t ++ r /\ is_utf8 t /\ short t /\ bytes_ok r).
    { apply W; auto. } destruct W' as (-> & Hu & Hsh & Hr). autorewrite with blen in Hn, Hh.
    rewrite PropDirect.rlift_first. unfold Release.usize_sub.
    rewrite wadd_small by lia. rewrite wsub_small by lia.
    rewrite app_length in Hl. assert (Hf : (2 <= List.length (field t))%nat) by (unfold field, be16; cbn; lia).
    destruct (IH (n - (blen t + 2)) (acc ++ [t]) r Hr) as (ts & s' & e & HF & -> & HL & E); [lia|lia|lia|].
    exists (t :: ts), s', e. cbn [flat_map]. rewrite <- app_assoc. auto.
  - exists [], s, e. cbn [flat_map app]. repeat split; auto.
    assert (W' : lacks WString s e) by (apply W; auto; intros; repeat split; auto). exact W'.
  - exfalso. exact (W (fun e H => H) (fun v r E H1 H2 H3 => conj E (conj H2 (conj H1 H3)))).
  - exfalso. exact (W (fun e H => H) (fun v r E H1 H2 H3 => conj E (conj H2 (conj H1 H3)))).
Qed.
Lemma release_under a b : a < b -> b <= half -> half <= @Release.wsub Release.release a b.
Proof.
  intros H1 H2. unfold Release.wsub. replace (b <=? a) with false by lia. unfold Release.release, Release.underflowed.
  pose proof usize_val as U. rewrite half_val in *. change (2 ^ 64) with 18446744073709551616 in U.
  change (2 ^ 63) with 9223372036854775808 in *. rewrite U. rewrite N.mod_small by lia. lia.
Qed.
Lemma release_loop fuel : forall n acc s, bytes_ok s -> blen s < half -> (List.length s < fuel)%nat ->
  V4Unsubscribe.topics_loop fuel n acc s = Panic ->
  exists ts s' e, Forall (fun t => is_utf8 t /\ short t) ts /\ s = flat_map field ts ++ s' /\ lacks WString s' e /\
    @RelV4Unsubscribe.topics_loop Release.release fuel n acc s = Err e.
Proof.
  pose proof usize_half as U.
  induction fuel as [|fuel IH]; intros n acc s Hs Hh Hl; [lia|].
  cbn [RelV4Unsubscribe.topics_loop V4Unsubscribe.topics_loop]. destruct (0 <? n) eqn:E0; [|discriminate].
  assert (W := wp_want_string (lacks WString s) s (fun v r => s = field v ++ r /\ is_utf8 v /\ short v /\ bytes_ok r) Hs).
  unfold rbind at 1. unfold rbind at 2. destruct (read_mqtt_string s) as [[t r]|e| |] eqn:Er; [|discriminate| |discriminate].
  - assert (W' : s = field t ++ r /\ is_utf8 t /\ short t /\ bytes_ok r).
    { apply W; auto. } destruct W' as (-> & Hu & Hsh & Hr). autorewrite with blen in Hh.
    rewrite !PropDirect.rlift_first. unfold Release.usize_sub, usize_sub. rewrite wadd_small by lia.
    rewrite app_length in Hl. assert (Hf : (2 <= List.length (field t))%nat) by (unfold field, be16; cbn; lia).
    destruct (blen t + 2 <=? n) eqn:En; intros Hp.
    + rewrite wsub_small by lia.
      destruct (IH (n - (blen t + 2)) (acc ++ [t]) r Hr) as (ts & s' & e & HF & -> & HL & E); [lia|lia|exact Hp|].
      exists (t :: ts), s', e. cbn [flat_map]. rewrite <- app_assoc. auto.
    + assert (B := release_under n (blen t + 2) ltac:(lia) ltac:(lia)).
      destruct (loop_exhausts (build := Release.release) fuel (@Release.wsub Release.release n (blen t + 2)) (acc ++ [t]) r Hr)
        as (ts & s' & e & HF & -> & HL & E); [lia|lia|lia|].
      exists (t :: ts), s', e. cbn [flat_map]. rewrite <- app_assoc. auto.
  - exfalso. exact (W (fun e H => H) (fun v r E H1 H2 H3 => conj E (conj H2 (conj H1 H3)))).
Qed.
Theorem C65_v4_unsubscribe : forall b hdr rl bd, bytes_ok bd -> blen bd < 2 ^ 63 ->
  unsubscribe_answer rl bd Panic ->
  exists id ts s e, id < 65536 /\ Forall (fun t => is_utf8 t /\ short t) ts /\ lacks WString s e /\
    bd = be16 id ++ flat_map field ts ++ s /\
    @RelV4Unsubscribe.read Release.release (mkFixedHeader b (blen hdr) rl) (hdr ++ bd) = Err e.
Proof.
  intros b hdr rl bd Hb Hs Ha. rewrite <- half_val in Hs. pose proof usize_half as U.
  assert (Hp := proj1 (PropDirect.C51_v4_unsubscribe b hdr rl bd Panic Hb) Ha).
  unfold V4Unsubscribe.read in Hp. unfold RelV4Unsubscribe.read. cbn [byte1 fixed_header_len remaining_len] in *.
  rewrite PropDirect.rbind_advance in Hp by reflexivity. rewrite PropDirect.rbind_advance by reflexivity.
  assert (Hid : exists id r, id < 65536 /\ bd = be16 id ++ r) by (clear - Ha; inversion Ha; subst; eauto).
  destruct Hid as (id & r & Hid & ->). apply bytes_ok_app in Hb as [_ Hr]. autorewrite with blen in Hs.
  rewrite (ProofV4Read.rbind_ok _ _ _ _ _ (read_u16_be16 _ _ Hid)) in Hp. rewrite (ProofV4Read.rbind_ok _ _ _ _ _ (read_u16_be16 _ _ Hid)).
  rewrite PropDirect.rlift_first in Hp. rewrite PropDirect.rlift_first. unfold Release.usize_sub, usize_sub in *.
  assert (D : exists ts s e, Forall (fun t => is_utf8 t /\ short t) ts /\ r = flat_map field ts ++ s /\ lacks WString s e /\
    @RelV4Unsubscribe.topics_loop Release.release (S (List.length r)) (@Release.wsub Release.release rl 2) [] r = Err e).
  { destruct (2 <=? rl) eqn:E2.
    - rewrite wsub_small by lia. apply release_loop; auto; [lia|].
      unfold rbind at 1 in Hp. destruct (V4Unsubscribe.topics_loop _ (rl - 2) [] r) as [[ts r']| | |]; try discriminate. reflexivity.
    - apply loop_exhausts; auto; [lia|]. pose proof (release_under rl 2 ltac:(lia) ltac:(rewrite half_val; cbv; discriminate)). lia. }
  destruct D as (ts & s & e & HF & -> & HL & E). exists id, ts, s, e. repeat split; auto.
  unfold rbind at 1. rewrite E. reflexivity.
Qed.

(** concrete: the length of a topic and payload; a header that announces less than an
    UNSUBSCRIBE has panics with overflow checks and is an error without; so does a frame
    length beyond the machine's integers *)
Example C64_case :
  let q := V5Mod.Publish (V5Publish.mkPublish false AtLeastOnce false [97; 47; 98] 7
    (Some (V5Publish.mkPublishProperties None None None None None [([107], [118])] [5] None)) [1; 2; 3]) in
  v5_memory q = 64 /\ @RelV5Mod.write Release.release q [] = V5Mod.write q [] /\ fst (V5Mod.write q []) = Ok 22 /\
  In (20, 20) (v5_lens Release.release q) /\
  @RelV5Mod.read Release.release (snd (V5Mod.write q [])) 100 = (Ok q, []).
Proof. vm_compute. repeat split; auto. Qed.
Example C65_case :
  V4Unsubscribe.read (mkFixedHeader 0xA2 2 4) [0xA2; 5; 0; 7; 0; 1; 97] = Panic /\
  @RelV4Unsubscribe.read Release.release (mkFixedHeader 0xA2 2 4) [0xA2; 5; 0; 7; 0; 1; 97] = Err MalformedPacket /\
  unsubscribe_answer 4 [0; 7; 0; 1; 97] Panic /\
  frame_length (mkFixedHeader 0x30 2 (2 ^ 64 - 1)) = Panic /\
  @RelLib.frame_length Release.release (mkFixedHeader 0x30 2 (2 ^ 64 - 1)) = Ok 1.
Proof.
  split; [vm_compute; reflexivity|]. split; [vm_compute; reflexivity|]. split; [|split; vm_compute; reflexivity].
  apply (PropDirect.C51_v4_unsubscribe 0xA2 [0xA2; 5]); [repeat constructor|vm_compute; reflexivity].
Qed.
Print Assumptions C64_check.
Print Assumptions C64_v4_read.
Print Assumptions C64_v5_read.
Print Assumptions C64_v4_lens.
Print Assumptions C64_v4_write.
Print Assumptions C64_v5_lens.
Print Assumptions C64_v5_write.
Print Assumptions C65_header.
Print Assumptions C65_v5_direct.
Print Assumptions C65_v4_direct.
Print Assumptions C65_v4_unsubscribe.

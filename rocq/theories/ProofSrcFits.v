(** ProofSrcFits.v -- a packet that fits one MQTT frame is far below the memory bound of
    [SpecRelease.v4_memory]/[v5_memory]. *)
From Verif Require Import Base SpecWire SpecProps SpecPropSets SpecRelease ProofBase ProofLib.
From Verif Require V4Mod V5Mod SpecV4 SpecV5.

Lemma total_bytes {A} (f : A -> N) (g : A -> bytes) l : (forall x, f x <= 12 * blen (g x)) -> total f l <= 12 * blen (flat_map g l).
Proof.
  intros H. induction l as [|x l IH]; [cbn; lia|]. cbn [total fold_right flat_map]. rewrite blen_app. specialize (H x).
  change (fold_right (fun x n => f x + n) 0 l) with (total f l). lia.
Qed.
Lemma total_map {A} (g : A -> N) l : total (fun _ => 1) l = blen (map g l).
Proof.
  induction l as [|x l IH]; [reflexivity|]. cbn [map]. rewrite blen_cons, <- IH. cbn [total fold_right]. reflexivity.
Qed.
Lemma total_app {A} (f : A -> N) l l' : total f (l ++ l') = total f l + total f l'.
Proof. induction l as [|x l IH]; [reflexivity|]. cbn [app total fold_right] in *. unfold total in IH. rewrite IH. apply N.add_assoc. Qed.
Lemma be16_len n : blen (be16 n) = 2. Proof. reflexivity. Qed.
Lemma field_len s : blen (field s) = 2 + blen s.
Proof. unfold field. rewrite blen_app. cbn [blen]. reflexivity. Qed.
Lemma items_memory its : total property_memory its <= 12 * blen (items_bytes its).
Proof.
  apply total_bytes. intros [i v]. unfold property_memory, item_bytes. cbn [fst snd]. rewrite blen_cons.
  destruct v; cbn [value_bytes]; rewrite ?blen_app, ?field_len; try change (blen _) with 1 at 1; try lia.
Qed.
Lemma section_memory its : total property_memory its <= 12 * blen (section_bytes its).
Proof. pose proof (items_memory its). unfold section_bytes. rewrite blen_app. lia. Qed.
Lemma opt_section {R} (items : R -> list item) o : total property_memory (SpecV5.opt_items items o) <= 12 * blen (section_bytes (SpecV5.opt_items items o)).
Proof. apply section_memory. Qed.
Lemma written_field s : blen s <= blen (if nonempty s then field s else []).
Proof. destruct s; cbn [nonempty]; [reflexivity|]. rewrite field_len. lia. Qed.

Lemma body_memory4 p : v4_memory p <= 12 * blen (SpecV4.body p).
Proof.
  destruct p as [c|c|q|x|x|x|x|s|s|u|u| | |]; cbn [v4_memory SpecV4.body]; rewrite ?blen_app, ?field_len, ?be16_len; try lia.
  - destruct (V4Connect.last_will c) as [w|], (V4Connect.login c) as [l|]; cbn [of_option opt];
      unfold SpecV4.will_bytes, SpecV4.login_bytes; rewrite ?blen_app, ?field_len;
      try pose proof (written_field (V4Connect.username l)); try pose proof (written_field (V4Connect.password l)); lia.
  - etransitivity; [apply (total_bytes _ (fun f => field (V4Subscribe.path f) ++ [qos_num (V4Subscribe.qos f)]))|lia].
    intros f. rewrite blen_app, field_len, blen_cons. lia.
  - rewrite (total_map SpecV4.suback_code). lia.
  - etransitivity; [apply (total_bytes _ field)|lia]. intros t. rewrite field_len. lia.
Qed.
Lemma ack_memory {R} (items : R -> list item) id code o :
  total property_memory (SpecV5.opt_items items o) <= 12 * blen (SpecV5.ack_body items id code o).
Proof.
  unfold SpecV5.ack_body. rewrite blen_app. destruct o as [r|]; cbn [SpecV5.opt_items]; [|cbn; lia].
  pose proof (section_memory (items r)). rewrite blen_cons. lia.
Qed.
Lemma written_memory5 p : v5_memory p <= 12 * blen (SpecV5.written p).
Proof.
  destruct p as [c|c|q|x|x|x|x|s|s|u|u| | |d]; unfold v5_memory; cbn [SpecV5.packet_items SpecV5.written SpecV5.body];
    rewrite ?N.add_0_r; try apply ack_memory; rewrite ?total_app, ?blen_app, ?field_len, ?be16_len; try (cbn; lia).
  - pose proof (opt_section connect_items (V5Connect.properties c)). unfold SpecV5.will_props.
    destruct (V5Connect.last_will c) as [w|], (V5Connect.login c) as [l|]; cbn [of_option opt];
      unfold SpecV5.will_bytes, SpecV5.login_bytes; rewrite ?blen_app, ?field_len;
      try pose proof (opt_section will_items (V5Connect.lw_properties w));
      try pose proof (written_field (V5Connect.username l)); try pose proof (written_field (V5Connect.password l)); cbn [total fold_right] in *; lia.
  - destruct (V5ConnAck.properties c) as [r|]; cbn [SpecV5.opt_items]; [|cbn; lia]. pose proof (section_memory (connack_items r)). lia.
  - pose proof (opt_section publish_items (V5Publish.properties q)). lia.
  - pose proof (opt_section subscribe_items (V5Subscribe.properties s)).
    pose proof (total_bytes (fun f => 32 + blen (V5Subscribe.path f)) (fun f => field (V5Subscribe.path f) ++ [SpecV5.options f]) (V5Subscribe.filters s)) as H0.
    assert (forall f, 32 + blen (V5Subscribe.path f) <= 12 * blen (field (V5Subscribe.path f) ++ [SpecV5.options f])) by (intros f; rewrite blen_app, field_len, blen_cons; lia).
    specialize (H0 H1). lia.
  - pose proof (opt_section suback_items (V5SubAck.properties s)). rewrite (total_map SpecV5.suback_code). lia.
  - pose proof (opt_section unsubscribe_items (V5Unsubscribe.properties u)).
    pose proof (total_bytes (fun t => 24 + blen t) field (V5Unsubscribe.filters u)) as H0.
    assert (forall t, 24 + blen t <= 12 * blen (field t)) by (intros f; rewrite field_len; lia). specialize (H0 H1). eapply N.le_trans; [apply N.add_le_mono; [exact H|exact H0]|]. rewrite <- N.mul_add_distr_l. apply N.mul_le_mono_l, N.le_add_l.
  - pose proof (opt_section unsuback_items (V5UnsubAck.properties u)). rewrite (total_map SpecV5.unsuback_code). lia.
  - destruct (V5Disconnect.properties d) as [r|]; cbn [SpecV5.opt_items]; [|cbn; lia].
    pose proof (section_memory (disconnect_items r)). destruct (disconnect_items r) as [|it its]; [cbn; lia|]. rewrite blen_cons. lia.
Qed.

Lemma small4 p : blen (SpecV4.body p) <= max_len -> v4_memory p <= 2 ^ 63.
Proof. intros H. pose proof (body_memory4 p). unfold max_len in H. lia. Qed.
Lemma small5 p : blen (SpecV5.written p) <= max_len -> v5_memory p <= 2 ^ 63.
Proof. intros H. pose proof (written_memory5 p). unfold max_len in H. lia. Qed.
Lemma fits4 p : SpecV4.fits p -> v4_memory p <= 2 ^ 63.
Proof. intros (_ & _ & _ & H). apply small4, H. Qed.
Lemma fits5 p : SpecV5.fits p -> v5_memory p <= 2 ^ 63.
Proof. intros (_ & _ & _ & _ & H). apply small5, H. Qed.

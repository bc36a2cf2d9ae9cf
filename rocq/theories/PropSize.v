(** PropSize.v -- property theorems about the size of decoded packets: C56. *)
From Verif Require Import ProofBase Lib ProofLib SpecWire SpecFrame SpecProps ProofRead ProofV5Write.
From Verif Require SpecPropSets SpecV4 SpecV5 V4Mod V5Mod ProofV4 ProofV4Read ProofV5 SampleV4 SampleV5.

(** ** What a packet value holds on the heap *)
(** its strings and byte strings *)
Definition texts4 (p : V4Mod.Packet) : list bytes :=
  match p with
  | V4Mod.Connect c =>
      [V4Connect.client_id c]
      ++ match V4Connect.last_will c with
         | Some w => [V4Connect.lw_topic w; V4Connect.lw_message w] | None => []
         end
      ++ match V4Connect.login c with
         | Some l => [V4Connect.username l; V4Connect.password l] | None => []
         end
  | V4Mod.Publish p => [V4Publish.topic p; V4Publish.payload p]
  | V4Mod.Subscribe s => map V4Subscribe.path (V4Subscribe.filters s)
  | V4Mod.Unsubscribe u => V4Unsubscribe.topics u
  | _ => []
  end.
(** the number of elements of its vectors *)
Definition elements4 (p : V4Mod.Packet) : N :=
  match p with
  | V4Mod.Subscribe s => blen (V4Subscribe.filters s)
  | V4Mod.SubAck s => blen (V4SubAck.return_codes s)
  | V4Mod.Unsubscribe u => blen (V4Unsubscribe.topics u)
  | _ => 0
  end.
Definition held4 (p : V4Mod.Packet) : N := blen (concat (texts4 p)) + elements4 p.

Definition value_texts (v : pval) : list bytes :=
  match v with VStr s | VBin s => [s] | VPair k v => [k; v] | _ => [] end.
Definition item_texts (it : item) : list bytes := value_texts (snd it).
Definition texts5 (p : V5Mod.Packet) : list bytes :=
  match p with
  | V5Mod.Connect c =>
      [V5Connect.client_id c]
      ++ match V5Connect.last_will c with
         | Some w => [V5Connect.lw_topic w; V5Connect.lw_message w] | None => []
         end
      ++ match V5Connect.login c with
         | Some l => [V5Connect.username l; V5Connect.password l] | None => []
         end
  | V5Mod.Publish p => [V5Publish.topic p; V5Publish.payload p]
  | V5Mod.Subscribe s => map V5Subscribe.path (V5Subscribe.filters s)
  | V5Mod.Unsubscribe u => V5Unsubscribe.filters u
  | _ => []
  end ++ flat_map item_texts (SpecV5.packet_items p).
(** the number of properties (in particular the elements of the vectors of user properties
    and subscription identifiers) and of elements of the other vectors *)
Definition elements5 (p : V5Mod.Packet) : N :=
  match p with
  | V5Mod.Subscribe s => blen (V5Subscribe.filters s)
  | V5Mod.SubAck s => blen (V5SubAck.return_codes s)
  | V5Mod.Unsubscribe u => blen (V5Unsubscribe.filters u)
  | V5Mod.UnsubAck u => blen (V5UnsubAck.reasons u)
  | _ => 0
  end + blen (SpecV5.packet_items p).
Definition held5 (p : V5Mod.Packet) : N := blen (concat (texts5 p)) + elements5 p.

(** ** Packets hold no more than their encoding *)
Lemma fields_len ts : blen (flat_map field ts) = 2 * blen ts + blen (concat ts).
Proof. induction ts; cbn [flat_map concat]; autorewrite with blen; [reflexivity|lia]. Qed.
Lemma filters_len {F} (path : F -> bytes) (o : F -> N) fs :
  blen (flat_map (fun f => field (path f) ++ [o f]) fs) = 3 * blen fs + blen (concat (map path fs)).
Proof. induction fs; cbn [flat_map concat map]; autorewrite with blen; [reflexivity|lia]. Qed.
Lemma flat_app {A B} (f : A -> list B) a b : flat_map f (a ++ b) = flat_map f a ++ flat_map f b.
Proof. apply flat_map_app. Qed.
Lemma items_hold (its : list item) : blen (concat (flat_map item_texts its)) + blen its
  <= blen (items_bytes its).
Proof.
  unfold items_bytes. induction its as [|[id v] its IH]; cbn [flat_map concat].
  - autorewrite with blen. lia.
  - rewrite concat_app. unfold item_bytes at 1, item_texts at 1. autorewrite with blen. cbn [fst snd].
    assert (Hv : blen (concat (value_texts v)) <= blen (value_bytes v)).
    { destruct v; cbn [value_texts value_bytes concat]; autorewrite with blen; try lia; apply N.le_0_l. }
    lia.
Qed.

Lemma held4_body p : held4 p <= blen (SpecV4.body p).
Proof.
  unfold held4. destruct p as [c|c|p|p|p|p|p|s|s|u|u| | |];
    cbn [texts4 elements4 concat]; try (autorewrite with blen; apply N.le_0_l); cbn [SpecV4.body].
  - rewrite !concat_app. autorewrite with blen. cbn [concat]. autorewrite with blen.
    destruct (V4Connect.last_will c) as [w|]; cbn [concat opt]; unfold SpecV4.will_bytes;
    (destruct (V4Connect.login c) as [l|]; cbn [concat opt]; unfold SpecV4.login_bytes;
     [destruct (V4Connect.username l), (V4Connect.password l); cbn [nonempty]|]);
    autorewrite with blen; lia.
  - autorewrite with blen. lia.
  - rewrite blen_app, (filters_len V4Subscribe.path (fun f => qos_num (V4Subscribe.qos f))). autorewrite with blen. lia.
  - autorewrite with blen. lia.
  - rewrite blen_app, fields_len. autorewrite with blen. lia.
Qed.
Theorem C56_v4_no_amplification : forall s max p rest, bytes_ok s ->
  V4Mod.read s max = (Ok p, rest) ->
  held4 p <= max /\ held4 p + 2 + blen rest <= blen s.
Proof.
  intros s max p rest Hb H.
  apply (ProofV4Read.read_iff s max p rest Hb) in H as (b1 & bd & (f & Es & Hf & Hl) & Hm & Hd).
  rewrite Es in Hb. apply bytes_ok_cons in Hb as [_ Hb]. apply bytes_ok_app in Hb as [_ Hb]. apply bytes_ok_app in Hb as [Hb _].
  destruct (ProofV4.decodes_fits b1 bd p Hb (lenfield_bound f _ Hf Hl) Hd) as (_ & _ & _ & H1).
  assert (H2 := held4_body p). split; [lia|]. rewrite Es. autorewrite with blen.
  assert (0 < blen f) by (destruct Hf; autorewrite with blen; lia). lia.
Qed.

Lemma held5_connect c : held5 (V5Mod.Connect c) + 4 <= blen (SpecV5.written (V5Mod.Connect c)).
Proof.
  unfold held5, texts5, elements5. cbn [SpecV5.packet_items SpecV5.written].
  rewrite !concat_app, !flat_app, !concat_app. autorewrite with blen.
  cbn [concat]. autorewrite with blen. unfold SpecV5.will_props.
  assert (H1 := items_hold (SpecV5.opt_items SpecPropSets.connect_items (V5Connect.properties c))).
  destruct (V5Connect.last_will c) as [w|]; cbn [concat opt flat_map]; unfold SpecV5.will_bytes;
  try assert (H2 := items_hold (SpecV5.opt_items SpecPropSets.will_items (V5Connect.lw_properties w)));
  (destruct (V5Connect.login c) as [l|]; cbn [concat opt]; unfold SpecV5.login_bytes;
   [destruct (V5Connect.username l), (V5Connect.password l); cbn [nonempty]|]);
  autorewrite with blen; lia.
Qed.
Lemma ack_hold {R} (items : R -> list item) id code o :
  blen (concat (flat_map item_texts (SpecV5.opt_items items o)))
  + blen (SpecV5.opt_items items o) + 2 <= blen (SpecV5.ack_body items id code o).
Proof.
  unfold SpecV5.ack_body. destruct o as [r|]; cbn [SpecV5.opt_items flat_map concat].
  - assert (H := items_hold (items r)). autorewrite with blen. lia.
  - autorewrite with blen. lia.
Qed.
Lemma held5_written p : held5 p = 0 \/
  held5 p + (match p with V5Mod.Connect _ => 4 | _ => 2 end) <= blen (SpecV5.written p).
Proof.
  destruct p as [c|c|p|p|p|p|p|s|s|u|u| | |d]; try (left; reflexivity); [right; apply held5_connect|..];
    unfold held5, texts5, elements5; cbn [app]; cbn [SpecV5.packet_items SpecV5.written SpecV5.body].
  - destruct (V5ConnAck.properties c) as [r|]; cbn [SpecV5.opt_items flat_map concat]; [right|left; reflexivity].
    assert (H := items_hold (SpecPropSets.connack_items r)). autorewrite with blen. lia.
  - right. cbn [concat]. assert (H := items_hold (SpecV5.opt_items SpecPropSets.publish_items (V5Publish.properties p))).
    autorewrite with blen. lia.
  - right. apply (ack_hold SpecPropSets.puback_items).
  - right. apply (ack_hold SpecPropSets.pubrec_items).
  - right. apply (ack_hold SpecPropSets.pubrel_items).
  - right. apply (ack_hold SpecPropSets.pubcomp_items).
  - right. rewrite concat_app. assert (H := items_hold (SpecV5.opt_items SpecPropSets.subscribe_items (V5Subscribe.properties s))).
    autorewrite with blen. rewrite (filters_len V5Subscribe.path SpecV5.options). lia.
  - right. assert (H := items_hold (SpecV5.opt_items SpecPropSets.suback_items (V5SubAck.properties s))).
    autorewrite with blen. lia.
  - right. rewrite concat_app. assert (H := items_hold (SpecV5.opt_items SpecPropSets.unsubscribe_items (V5Unsubscribe.properties u))).
    autorewrite with blen. rewrite fields_len. lia.
  - right. assert (H := items_hold (SpecV5.opt_items SpecPropSets.unsuback_items (V5UnsubAck.properties u))).
    autorewrite with blen. lia.
  - destruct (V5Disconnect.properties d) as [r|]; cbn [SpecV5.opt_items flat_map concat]; [|left; reflexivity].
    assert (H := items_hold (SpecPropSets.disconnect_items r)).
    destruct (SpecPropSets.disconnect_items r) as [|i its] eqn:E; [left; reflexivity|right].
    rewrite blen_cons. autorewrite with blen in *. assert (Hv := varint_len_bound (blen (items_bytes (i :: its)))). lia.
Qed.
Theorem C56_v5_no_amplification : forall s max p rest, bytes_ok s ->
  V5Mod.read s max = (Ok p, rest) ->
  held5 p <= max /\ held5 p + 2 + blen rest <= blen s.
Proof.
  intros s max p rest Hb H.
  destruct (ProofV5.read_decoded s max p rest Hb H) as (b1 & bd & (f & Es & Hf & Hl) & Hm & H3 & H4 & _ & Hd).
  destruct (ProofV5.decodes_fits b1 bd p H4 H3 Hd) as (_ & _ & _ & _ & _ & H1).
  assert (H2 := held5_written p).
  assert (held5 p <= blen bd) by (destruct p; lia).
  split; [lia|]. rewrite Es. autorewrite with blen.
  assert (0 < blen f) by (destruct Hf; autorewrite with blen; lia). lia.
Qed.

(** a PUBLISH with topic, payload, a user property and a subscription identifier *)
Example C56_case : exists p,
  V5Mod.read [0x30; 17; 0; 2; 97; 98; 10; 38; 0; 1; 107; 0; 2; 118; 119; 11; 5; 1; 2; 9] 17 = (Ok p, [9]) /\
  held5 p = 9 /\ texts5 p = [[97; 98]; [1; 2]; [107]; [118; 119]].
Proof. eexists. split; [vm_compute; reflexivity|]. split; reflexivity. Qed.
Example C56_v4_case : exists p,
  V4Mod.read [0x82; 10; 0; 1; 0; 1; 97; 0; 0; 1; 98; 1] 10 = (Ok p, []) /\
  held4 p = 4 /\ texts4 p = [[97]; [98]].
Proof. eexists. split; [vm_compute; reflexivity|]. split; reflexivity. Qed.

Print Assumptions C56_v4_no_amplification.
Print Assumptions C56_v5_no_amplification.

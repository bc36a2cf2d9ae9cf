(** PropMemory.v -- C56: what a decoded packet takes in memory, the headers of its strings and the slots of its vectors
    included (24 bytes for a `String`, 32 for a `SubscribeFilter` or a `Bytes`, ...; SpecRelease.v). *)
From Verif Require Import ProofBase Lib ProofLib SpecWire SpecFrame SpecProps SpecRelease ProofRead ProofV5Write.
From Verif Require ProofUtf8 SpecPropSets SpecV4 SpecV5 V4Mod V5Mod ProofV4 ProofV4Read ProofV5 PropV4 PropV5 PropSourceStream.
From Verif Require Import SpecSource.

Lemma total_cons {A} (f : A -> N) x l : total f (x :: l) = f x + total f l.
Proof. reflexivity. Qed.
Lemma total_const {A} (k : N) (l : list A) : total (fun _ => k) l = k * blen l.
Proof. induction l as [|x l IH]; [change (0 = k * 0); lia|]. rewrite total_cons, blen_cons, IH. lia. Qed.
Lemma total_fields ts : total (fun t => 24 + blen t) ts <= 12 * blen (flat_map field ts).
Proof.
  induction ts as [|t ts IH]; cbn [flat_map]; [apply N.le_0_l|]. rewrite total_cons.
  autorewrite with blen. lia.
Qed.
Lemma total_filters {F} (path : F -> bytes) (o : F -> N) fs :
  total (fun f => 32 + blen (path f)) fs <= 12 * blen (flat_map (fun f => field (path f) ++ [o f]) fs).
Proof.
  induction fs as [|f fs IH]; cbn [flat_map]; [apply N.le_0_l|].
  rewrite total_cons.
  autorewrite with blen. lia.
Qed.
Lemma items_memory (its : list item) : total property_memory its <= 12 * blen (items_bytes its).
Proof.
  unfold items_bytes. induction its as [|[id v] its IH]; cbn [flat_map]; [apply N.le_0_l|].
  rewrite total_cons.
  unfold item_bytes at 1. autorewrite with blen. cbn [fst snd].
  assert (Hv : property_memory (id, v) <= 12 + 12 * blen (value_bytes v)).
  { destruct v; unfold property_memory; cbn [snd value_bytes]; autorewrite with blen; try lia. }
  lia.
Qed.

Lemma memory4 p : v4_memory p <= 12 * blen (SpecV4.body p).
Proof.
  destruct p as [c|c|p|p|p|p|p|s|s|u|u| | |]; cbn [v4_memory]; try apply N.le_0_l; cbn [SpecV4.body].
  - autorewrite with blen. destruct (V4Connect.last_will c) as [w|]; cbn [of_option opt]; unfold SpecV4.will_bytes;
    (destruct (V4Connect.login c) as [l|]; cbn [of_option opt]; unfold SpecV4.login_bytes;
     [destruct (V4Connect.username l), (V4Connect.password l); cbn [nonempty]|]);
    autorewrite with blen; lia.
  - autorewrite with blen. lia.
  - assert (H := total_filters V4Subscribe.path (fun f => qos_num (V4Subscribe.qos f)) (V4Subscribe.filters s)). rewrite blen_app. lia.
  - rewrite total_const. autorewrite with blen. lia.
  - assert (H := total_fields (V4Unsubscribe.topics u)). rewrite blen_app. lia.
Qed.
Theorem C56_v4_memory : forall s max p rest, bytes_ok s ->
  V4Mod.read s max = (Ok p, rest) ->
  v4_memory p <= 12 * max /\ v4_memory p + 24 + 12 * blen rest <= 12 * blen s.
Proof.
  intros s max p rest Hb H.
  apply (ProofV4Read.read_iff s max p rest Hb) in H as (b1 & bd & (f & Es & Hf & Hl) & Hm & Hd).
  rewrite Es in Hb. apply bytes_ok_cons in Hb as [_ Hb]. apply bytes_ok_app in Hb as [_ Hb]. apply bytes_ok_app in Hb as [Hb _].
  destruct (ProofV4.decodes_fits b1 bd p Hb (lenfield_bound f _ Hf Hl) Hd) as (_ & _ & _ & H1).
  assert (H2 := memory4 p). split; [lia|]. rewrite Es. autorewrite with blen.
  assert (0 < blen f) by (destruct Hf; autorewrite with blen; lia). lia.
Qed.

Lemma memory5_connect c : v5_memory (V5Mod.Connect c) + 48 <= 12 * blen (SpecV5.written (V5Mod.Connect c)).
Proof.
  unfold v5_memory. cbn [SpecV5.packet_items SpecV5.written].
  assert (T : forall a b, total property_memory (a ++ b) = total property_memory a + total property_memory b).
  { induction a as [|x a IH]; intros b; [reflexivity|]. cbn [app]. rewrite !total_cons, IH. lia. }
  rewrite !T. autorewrite with blen. unfold SpecV5.will_props.
  assert (H1 := items_memory (SpecV5.opt_items SpecPropSets.connect_items (V5Connect.properties c))).
  destruct (V5Connect.last_will c) as [w|]; cbn [of_option opt]; unfold SpecV5.will_bytes;
  try assert (H2 := items_memory (SpecV5.opt_items SpecPropSets.will_items (V5Connect.lw_properties w)));
  (destruct (V5Connect.login c) as [l|]; cbn [of_option opt]; unfold SpecV5.login_bytes;
   [destruct (V5Connect.username l), (V5Connect.password l); cbn [nonempty]|]);
  autorewrite with blen; try change (total property_memory []) with 0; lia.
Qed.
Lemma ack_memory {R} (items : R -> list item) id code o :
  total property_memory (SpecV5.opt_items items o) + 24 <= 12 * blen (SpecV5.ack_body items id code o).
Proof.
  unfold SpecV5.ack_body. destruct o as [r|]; cbn [SpecV5.opt_items].
  - assert (H := items_memory (items r)). autorewrite with blen. lia.
  - change (total property_memory []) with 0. autorewrite with blen. lia.
Qed.
Lemma memory5_written p : v5_memory p = 0 \/
  v5_memory p + (match p with V5Mod.Connect _ => 48 | _ => 24 end) <= 12 * blen (SpecV5.written p).
Proof.
  destruct p as [c|c|p|p|p|p|p|s|s|u|u| | |d]; try (left; reflexivity); [right; apply memory5_connect|..];
    unfold v5_memory; cbn [SpecV5.packet_items SpecV5.written SpecV5.body].
  - destruct (V5ConnAck.properties c) as [r|]; cbn [SpecV5.opt_items]; [right|left; reflexivity].
    assert (H := items_memory (SpecPropSets.connack_items r)). autorewrite with blen. lia.
  - right. assert (H := items_memory (SpecV5.opt_items SpecPropSets.publish_items (V5Publish.properties p))).
    autorewrite with blen. lia.
  - right. rewrite N.add_0_r. apply (ack_memory SpecPropSets.puback_items).
  - right. rewrite N.add_0_r. apply (ack_memory SpecPropSets.pubrec_items).
  - right. rewrite N.add_0_r. apply (ack_memory SpecPropSets.pubrel_items).
  - right. rewrite N.add_0_r. apply (ack_memory SpecPropSets.pubcomp_items).
  - right. assert (H := items_memory (SpecV5.opt_items SpecPropSets.subscribe_items (V5Subscribe.properties s))).
    assert (H' := total_filters V5Subscribe.path SpecV5.options (V5Subscribe.filters s)). rewrite !blen_app. autorewrite with blen in *. lia.
  - right. assert (H := items_memory (SpecV5.opt_items SpecPropSets.suback_items (V5SubAck.properties s))).
    rewrite total_const. autorewrite with blen. lia.
  - right. assert (H := items_memory (SpecV5.opt_items SpecPropSets.unsubscribe_items (V5Unsubscribe.properties u))).
    assert (H' := total_fields (V5Unsubscribe.filters u)). rewrite !blen_app. autorewrite with blen in *. lia.
  - right. assert (H := items_memory (SpecV5.opt_items SpecPropSets.unsuback_items (V5UnsubAck.properties u))).
    rewrite total_const. autorewrite with blen. lia.
  - destruct (V5Disconnect.properties d) as [r|]; cbn [SpecV5.opt_items]; [|left; reflexivity].
    assert (H := items_memory (SpecPropSets.disconnect_items r)).
    destruct (SpecPropSets.disconnect_items r) as [|i its] eqn:E; [left; reflexivity|right].
    rewrite blen_cons. autorewrite with blen in *. assert (Hv := varint_len_bound (blen (items_bytes (i :: its)))). lia.
Qed.
Theorem C56_v5_memory : forall s max p rest, bytes_ok s ->
  V5Mod.read s max = (Ok p, rest) ->
  v5_memory p <= 12 * max /\ v5_memory p + 24 + 12 * blen rest <= 12 * blen s.
Proof.
  intros s max p rest Hb H.
  destruct (ProofV5.read_decoded s max p rest Hb H) as (b1 & bd & (f & Es & Hf & Hl) & Hm & H3 & H4 & _ & Hd).
  destruct (ProofV5.decodes_fits b1 bd p H4 H3 Hd) as (_ & _ & _ & _ & _ & H1).
  assert (H2 := memory5_written p).
  assert (v5_memory p <= 12 * blen bd) by (destruct p; lia).
  split; [lia|]. rewrite Es. autorewrite with blen.
  assert (0 < blen f) by (destruct Hf; autorewrite with blen; lia). lia.
Qed.

(** the factor is reached: an UNSUBSCRIBE with [k] empty filters *)
Lemma empties_len k : blen (flat_map field (repeat [] k)) = 2 * N.of_nat k.
Proof. induction k as [|k IH]; [reflexivity|]. cbn [repeat flat_map]. autorewrite with blen. change (blen []) with 0. lia. Qed.
Lemma empties_total k : total (fun t : bytes => 24 + blen t) (repeat [] k) = 24 * N.of_nat k.
Proof. induction k as [|k IH]; [reflexivity|]. cbn [repeat]. rewrite total_cons, IH. change (blen []) with 0. lia. Qed.
Lemma empties {P : bytes -> Prop} k : P [] -> Forall P (repeat [] k).
Proof. intros H. induction k; constructor; assumption. Qed.
Lemma empty_string : is_string [] /\ short [].
Proof. split; [apply ProofUtf8.utf8_ok_spec; reflexivity|unfold short; rewrite blen_nil; lia]. Qed.
Theorem C56_v4_memory_reached : forall k, 2 + 2 * N.of_nat k <= max_len ->
  exists s p, bytes_ok s /\ V4Mod.read s (2 + 2 * N.of_nat k) = (Ok p, []) /\ v4_memory p + 24 = 12 * (2 + 2 * N.of_nat k).
Proof.
  intros k Hk. set (p := V4Mod.Unsubscribe (V4Unsubscribe.mkUnsubscribe 1 (repeat [] k))).
  assert (Hl : blen (SpecV4.body p) = 2 + 2 * N.of_nat k).
  { cbn [p SpecV4.body V4Unsubscribe.pkid V4Unsubscribe.topics]. rewrite blen_app, empties_len. reflexivity. }
  assert (Hf : SpecV4.fits p).
  { split; [split; [reflexivity|apply empties, empty_string]|]. split; [apply (empties (P := short)), empty_string|].
    split; [exact I|]. rewrite Hl. exact Hk. }
  destruct (PropV4.C18_v4_round_trip_identity p [] (2 + 2 * N.of_nat k) Hf I I bytes_ok_nil) as (n & out & Hw & Hr); [lia|].
  rewrite app_nil_r in Hr. exists out, p. split; [|split; [exact Hr|]].
  - assert (E := PropV4.C12_v4_encoding p Hf). destruct E as [m E]. rewrite E in Hw. injection Hw as _ <-.
    apply (ProofV4.wire_bytes p Hf).
  - cbn [p v4_memory V4Unsubscribe.topics]. rewrite empties_total. lia.
Qed.
Theorem C56_v5_memory_reached : forall k, 3 + 2 * N.of_nat k <= max_len ->
  exists s p, bytes_ok s /\ V5Mod.read s (3 + 2 * N.of_nat k) = (Ok p, []) /\ v5_memory p + 36 = 12 * (3 + 2 * N.of_nat k).
Proof.
  intros k Hk. set (p := V5Mod.Unsubscribe (V5Unsubscribe.mkUnsubscribe 1 (repeat [] k) None)).
  assert (Hl : blen (SpecV5.written p) = 3 + 2 * N.of_nat k).
  { cbn [p SpecV5.written SpecV5.body V5Unsubscribe.pkid V5Unsubscribe.filters V5Unsubscribe.properties SpecV5.opt_items]. rewrite !blen_app, empties_len. change (blen (be16 1)) with 2. change (blen (section_bytes [])) with 1. lia. }
  assert (Hf : SpecV5.fits p).
  { split; [split; [split; [reflexivity|apply empties, empty_string]|constructor]|].
    split; [split; [apply (empties (P := short)), empty_string|constructor]|].
    split; [constructor|]. split; [exact I|]. rewrite Hl. exact Hk. }
  destruct (PropV5.C19_v5_round_trip_identity p [] (3 + 2 * N.of_nat k) Hf I eq_refl bytes_ok_nil) as (n & out & Hw & Hr); [lia|].
  rewrite app_nil_r in Hr. exists out, p. split; [|split; [exact Hr|]].
  - destruct (ProofV5.write_fits p Hf) as [m E]. rewrite E in Hw. injection Hw as _ <-. apply (ProofV5.wire_bytes p Hf).
  - change (v5_memory p) with (0 + total (fun t => 24 + blen t) (repeat (@nil N) k)). rewrite empties_total. lia.
Qed.

(** the same two packets as in C56_case and C56_v4_case (PropSize.v), and an UNSUBSCRIBE with three empty filters *)
Example C56_memory_case : exists p,
  V5Mod.read [0x30; 17; 0; 2; 97; 98; 10; 38; 0; 1; 107; 0; 2; 118; 119; 11; 5; 1; 2; 9] 17 = (Ok p, [9]) /\ v5_memory p = 63.
Proof. eexists. split; [vm_compute; reflexivity|reflexivity]. Qed.
Example C56_v4_memory_case : exists p,
  V4Mod.read [0xA2; 8; 0; 1; 0; 0; 0; 0; 0; 0] 8 = (Ok p, []) /\ v4_memory p = 72.
Proof. eexists. split; [vm_compute; reflexivity|reflexivity]. Qed.

(** the same of the translated text *)
Theorem C56_source_v4_memory : forall s max p rest, bytes_ok s -> blen s < 2 ^ 63 ->
  v4_reads s max = (Ok p, rest) ->
  v4_memory p <= 12 * max /\ v4_memory p + 24 + 12 * blen rest <= 12 * blen s.
Proof. intros s max p rest Hb Hl H. rewrite PropSourceStream.v4_reads_eq in H by (assumption || lia). exact (C56_v4_memory s max p rest Hb H). Qed.
Theorem C56_source_v5_memory : forall s max p rest, bytes_ok s -> blen s < 2 ^ 63 ->
  v5_reads s max = (Ok p, rest) ->
  v5_memory p <= 12 * max /\ v5_memory p + 24 + 12 * blen rest <= 12 * blen s.
Proof. intros s max p rest Hb Hl H. rewrite PropSourceStream.v5_reads_eq in H by (assumption || lia). exact (C56_v5_memory s max p rest Hb H). Qed.

Print Assumptions C56_v4_memory.
Print Assumptions C56_v5_memory.
Print Assumptions C56_v4_memory_reached.
Print Assumptions C56_v5_memory_reached.
Print Assumptions C56_source_v4_memory.
Print Assumptions C56_source_v5_memory.

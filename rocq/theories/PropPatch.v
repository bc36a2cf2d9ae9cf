(** PropPatch.v -- C82: one PUBLISH, encoded once, for many receivers. *)
From Verif Require Import ProofBase Utf8 ProofUtf8 Lib ProofLib SpecFrame SpecWire SpecProps SpecPropSets SpecPatch SpecStream SpecRelease SpecSource.
From Verif Require V4Publish V5Publish V4Mod V5Mod SpecV4 SpecV5 PropV4 PropV5 ProofV5 PropSource ProofSrcFits.

Lemma poke_app x a rest : forall pre, poke (blen pre) x (pre ++ a :: rest) = pre ++ x :: rest.
Proof.
  intros pre. unfold poke, blen. rewrite Nnat.Nat2N.id, firstn_app, skipn_app, firstn_all, skipn_all, Nat.sub_diag.
  cbn [firstn skipn app]. rewrite app_nil_r. reflexivity.
Qed.
Lemma poke_two hi lo a b rest pre i : i = blen pre -> poke (i + 1) lo (poke i hi (pre ++ a :: b :: rest)) = pre ++ hi :: lo :: rest.
Proof.
  intros ->. rewrite poke_app. replace (blen pre + 1) with (blen (pre ++ [hi])) by (rewrite blen_app; reflexivity).
  change (hi :: b :: rest) with ([hi] ++ b :: rest). rewrite app_assoc, poke_app, <- app_assoc. reflexivity.
Qed.
Lemma patch_frame d r b1 q topic k k' tl : u16 k' ->
  let mid k := (if positive_qos q then be16 k else []) ++ tl in
  let bd k := field topic ++ mid k in
  patched d r (if positive_qos q then Some (id_place (blen (bd k)) (blen topic), k') else None) (frame b1 (bd k)) =
  frame (flags_set d r b1) (bd k').
Proof.
  intros Hk mid bd. subst mid bd. cbv beta. unfold frame, patched. destruct (positive_qos q) eqn:Q; [|reflexivity].
  assert (L : forall j, blen (field topic ++ be16 j ++ tl) = 4 + blen topic + blen tl).
  { intros j. unfold field, be16. autorewrite with blen. change (@blen N []) with 0. lia. }
  rewrite !L. set (v := varint (4 + blen topic + blen tl)).
  replace (flags_set d r b1 :: v ++ field topic ++ be16 k ++ tl) with
    ((flags_set d r b1 :: v ++ field topic) ++ (k / 256 mod 256) :: (k mod 256) :: tl) by (cbn; rewrite <- app_assoc; reflexivity).
  rewrite poke_two.
  - assert (E : k' / 256 mod 256 = k' / 256) by (apply N.mod_small; unfold u16 in Hk; lia).
    cbn [app]. rewrite <- app_assoc. unfold be16. rewrite E. reflexivity.
  - unfold id_place. fold v. unfold field, be16. autorewrite with blen. change (@blen N []) with 0. lia.
Qed.
Lemma flags_first d r d0 r0 q : flags_set d r (0x30 + 8 * SpecWire.bit d0 + 2 * qos_num q + SpecWire.bit r0) = 0x30 + 8 * SpecWire.bit d + 2 * qos_num q + SpecWire.bit r.
Proof. destruct d, r, d0, r0, q; reflexivity. Qed.

Lemma readdress4_facts p d r k : SpecV4.fits (V4Mod.Publish p) -> u16 k -> (positive_qos (V4Publish.qos p) = true -> k <> 0) ->
  SpecV4.fits (V4Mod.Publish (readdress4 d r k p)).
Proof.
  intros (T & S & I & L) Hk Hz. destruct p as [d0 q r0 t k0 pl].
  unfold readdress4. cbn [V4Publish.qos V4Publish.topic V4Publish.payload] in *.
  unfold SpecV4.fits. cbn [SpecV4.typed SpecV4.short_fields SpecV4.has_id SpecV4.body V4Publish.qos V4Publish.topic V4Publish.payload V4Publish.pkid V4Publish.dup V4Publish.retain] in *.
  split; [destruct T as (T1 & T2 & T3); split; [exact T1|split; [exact Hk|exact T3]]|].
  split; [exact S|]. split; [exact Hz|].
  revert L. unfold be16. destruct (positive_qos q); [|exact (fun L => L)]. rewrite !blen_app. intros L. exact L.
Qed.
Lemma wire4 p : SpecV4.wire (V4Mod.Publish p) =
  frame (0x30 + 8 * SpecWire.bit (V4Publish.dup p) + 2 * qos_num (V4Publish.qos p) + SpecWire.bit (V4Publish.retain p))
    (field (V4Publish.topic p) ++ (if positive_qos (V4Publish.qos p) then be16 (V4Publish.pkid p) else []) ++ V4Publish.payload p).
Proof. reflexivity. Qed.
Lemma wire5 p : SpecV5.written_wire (V5Mod.Publish p) =
  frame (0x30 + 8 * SpecWire.bit (V5Publish.dup p) + 2 * qos_num (V5Publish.qos p) + SpecWire.bit (V5Publish.retain p))
    (field (V5Publish.topic p) ++ (if positive_qos (V5Publish.qos p) then be16 (V5Publish.pkid p) else []) ++
     section_bytes (SpecV5.opt_items publish_items (V5Publish.properties p)) ++ V5Publish.payload p).
Proof. reflexivity. Qed.
Lemma same_place q (t tl : bytes) k k' :
  blen (field t ++ (if positive_qos q then be16 k else []) ++ tl) = blen (field t ++ (if positive_qos q then be16 k' else []) ++ tl).
Proof. rewrite !blen_app. destruct (positive_qos q); reflexivity. Qed.
Lemma same_len b b' q t k k' tl :
  blen (frame b (field t ++ (if positive_qos q then be16 k else []) ++ tl)) = blen (frame b' (field t ++ (if positive_qos q then be16 k' else []) ++ tl)).
Proof. unfold frame. rewrite !blen_cons, !(blen_app (varint _)), (same_place q t tl k k'). reflexivity. Qed.
Lemma readdress5_facts p d r k : SpecV5.fits (V5Mod.Publish p) -> u16 k -> (positive_qos (V5Publish.qos p) = true -> k <> 0) ->
  SpecV5.fits (V5Mod.Publish (readdress5 d r k p)).
Proof.
  intros (T & S & M & I & L) Hk Hz. destruct p as [d0 q r0 t k0 pr pl]. unfold readdress5.
  cbn [V5Publish.qos V5Publish.topic V5Publish.payload V5Publish.properties] in *.
  split; [|split; [|split; [|split]]].
  - destruct T as ((T1 & T2 & T3) & T4). split; [split; [exact T1|split; [exact Hk|exact T3]]|exact T4].
  - exact S.
  - exact M.
  - exact Hz.
  - revert L. cbn [SpecV5.written SpecV5.body V5Publish.qos V5Publish.topic V5Publish.payload V5Publish.pkid V5Publish.properties V5Publish.dup V5Publish.retain].
    rewrite (same_place q t _ k0 k). exact (fun L => L).
Qed.
(** ** what the crate writes for another receiver is what it wrote for the first, patched in three bytes at most *)
Theorem C82_v4_patch : forall p d r k, SpecV4.fits (V4Mod.Publish p) -> u16 k -> (positive_qos (V4Publish.qos p) = true -> k <> 0) ->
  exists n out, V4Mod.write (V4Mod.Publish p) [] = (Ok n, out) /\
    V4Mod.write (V4Mod.Publish (readdress4 d r k p)) [] =
      (Ok n, patched d r (if positive_qos (V4Publish.qos p) then Some (id_place (blen (SpecV4.body (V4Mod.Publish p))) (blen (V4Publish.topic p)), k) else None) out).
Proof.
  intros p d r k Hf Hk Hz. assert (Hf' := readdress4_facts p d r k Hf Hk Hz).
  destruct (PropV4.C12_v4_encoding _ Hf) as [n H]. destruct (PropV4.C12_v4_encoding _ Hf') as [n' H'].
  assert (N1 := PropV4.C15_v4_size_except_connect (V4Mod.Publish p) _ _ _ (fun x => x) H).
  assert (N2 := PropV4.C15_v4_size_except_connect (V4Mod.Publish (readdress4 d r k p)) _ _ _ (fun x => x) H').
  change (@blen N []) with 0 in N1, N2. rewrite N.add_0_l in N1, N2.
  rewrite wire4 in H, H', N1, N2. destruct p as [d0 q r0 t k0 pl]. unfold readdress4 in *.
  cbn [V4Publish.qos V4Publish.topic V4Publish.payload V4Publish.pkid V4Publish.dup V4Publish.retain] in *.
  exists n. eexists. split; [exact H|].
  assert (E := patch_frame d r (48 + 8 * SpecWire.bit d0 + 2 * qos_num q + SpecWire.bit r0) q t k0 k pl Hk). cbv zeta in E.
  rewrite flags_first in E.
  change (SpecV4.body (V4Mod.Publish (V4Publish.mkPublish d0 q r0 t k0 pl))) with (field t ++ (if positive_qos q then be16 k0 else []) ++ pl).
  rewrite E, H'. f_equal. f_equal. rewrite <- N1, <- N2. apply same_len.
Qed.
Theorem C82_v5_patch : forall p d r k, SpecV5.fits (V5Mod.Publish p) -> u16 k -> (positive_qos (V5Publish.qos p) = true -> k <> 0) ->
  exists n out, V5Mod.write (V5Mod.Publish p) [] = (Ok n, out) /\
    V5Mod.write (V5Mod.Publish (readdress5 d r k p)) [] =
      (Ok n, patched d r (if positive_qos (V5Publish.qos p) then Some (id_place (blen (SpecV5.written (V5Mod.Publish p))) (blen (V5Publish.topic p)), k) else None) out).
Proof.
  intros p d r k Hf Hk Hz. assert (Hf' := readdress5_facts p d r k Hf Hk Hz).
  destruct (ProofV5.write_fits _ Hf) as [n H]. destruct (ProofV5.write_fits _ Hf') as [n' H'].
  assert (N1 := PropV5.C15_v5_size_except_connect (V5Mod.Publish p) _ _ _ (fun x => x) H).
  assert (N2 := PropV5.C15_v5_size_except_connect (V5Mod.Publish (readdress5 d r k p)) _ _ _ (fun x => x) H').
  change (@blen N []) with 0 in N1, N2. rewrite N.add_0_l in N1, N2.
  rewrite wire5 in H, H', N1, N2. destruct p as [d0 q r0 t k0 pr pl]. unfold readdress5 in *.
  cbn [V5Publish.qos V5Publish.topic V5Publish.payload V5Publish.pkid V5Publish.dup V5Publish.retain V5Publish.properties] in *.
  exists n. eexists. split; [exact H|].
  assert (E := patch_frame d r (48 + 8 * SpecWire.bit d0 + 2 * qos_num q + SpecWire.bit r0) q t k0 k
    (section_bytes (SpecV5.opt_items publish_items pr) ++ pl) Hk). cbv zeta in E.
  rewrite flags_first in E.
  change (SpecV5.written (V5Mod.Publish (V5Publish.mkPublish d0 q r0 t k0 pr pl))) with
    (field t ++ (if positive_qos q then be16 k0 else []) ++ section_bytes (SpecV5.opt_items publish_items pr) ++ pl).
  rewrite E, H'. f_equal. f_equal. rewrite <- N1, <- N2. apply same_len.
Qed.

(** ** all other bytes are the same bytes *)
Lemma nth_patch (b : N) : forall m j buf, j <> m ->
  nth_error (firstn m buf ++ match skipn m buf with [] => [] | _ :: rest => b :: rest end) j = nth_error buf j.
Proof.
  induction m as [|m IH]; intros j [|a buf] H; cbn [firstn skipn app]; try reflexivity.
  - destruct j as [|j]; [contradiction|reflexivity].
  - destruct j as [|j]; [reflexivity|]. cbn [nth_error]. apply IH. lia.
Qed.
Theorem C82_elsewhere : forall d r i k buf j, j <> 0%nat -> N.of_nat j <> i -> N.of_nat j <> i + 1 ->
  nth_error (patched d r (Some (i, k)) buf) j = nth_error buf j /\ nth_error (patched d r None buf) j = nth_error buf j.
Proof.
  intros d r i k buf j H0 H1 H2. unfold patched, poke. rewrite !nth_patch by lia.
  destruct buf as [|b buf]; [split; reflexivity|]. destruct j as [|j]; [contradiction|]. split; reflexivity.
Qed.

(** ** and the other receiver reads the readdressed message (an identifier goes with QoS 1 and 2 only) *)
Theorem C82_v4_arrives : forall p d r k rest max n out, SpecV4.fits (V4Mod.Publish p) -> u16 k ->
  (positive_qos (V4Publish.qos p) = true <-> k <> 0) -> bytes_ok rest -> blen (SpecV4.body (V4Mod.Publish p)) <= max ->
  V4Mod.write (V4Mod.Publish p) [] = (Ok n, out) ->
  V4Mod.read (patched d r (if positive_qos (V4Publish.qos p) then Some (id_place (blen (SpecV4.body (V4Mod.Publish p))) (blen (V4Publish.topic p)), k) else None) out ++ rest) max =
    (Ok (V4Mod.Publish (readdress4 d r k p)), rest).
Proof.
  intros p d r k rest max n out Hf Hk Hz Hr Hm W. assert (Hf' := readdress4_facts p d r k Hf Hk (proj1 Hz)).
  destruct (C82_v4_patch p d r k Hf Hk (proj1 Hz)) as (n' & out' & H1 & H2). rewrite W in H1. injection H1 as _ <-.
  assert (L : blen (SpecV4.body (V4Mod.Publish (readdress4 d r k p))) <= max).
  { revert Hm. destruct p as [d0 q r0 t k0 pl]. unfold readdress4. cbn [V4Publish.qos V4Publish.topic V4Publish.payload SpecV4.body V4Publish.pkid].
    rewrite (same_place q t pl k0 k). exact (fun L => L). }
  assert (C : SpecV4.canonical (V4Mod.Publish (readdress4 d r k p))).
  { cbn [SpecV4.canonical readdress4 V4Publish.qos V4Publish.pkid]. unfold readdress4. cbn [V4Publish.qos V4Publish.pkid].
    intros Q. destruct (N.eq_dec k 0) as [E|E]; [exact E|]. apply Hz in E. congruence. }
  destruct (PropV4.C18_v4_round_trip_identity _ rest max Hf' I C Hr L) as (m & o & W' & R). rewrite H2 in W'. injection W' as _ <-. exact R.
Qed.
Theorem C82_v5_arrives : forall p d r k rest max n out, SpecV5.fits (V5Mod.Publish p) -> u16 k ->
  (positive_qos (V5Publish.qos p) = true <-> k <> 0) -> SpecV5.readable (V5Mod.Publish p) -> bytes_ok rest -> blen (SpecV5.written (V5Mod.Publish p)) <= max ->
  V5Mod.write (V5Mod.Publish p) [] = (Ok n, out) ->
  V5Mod.read (patched d r (if positive_qos (V5Publish.qos p) then Some (id_place (blen (SpecV5.written (V5Mod.Publish p))) (blen (V5Publish.topic p)), k) else None) out ++ rest) max =
    (Ok (SpecV5.canon (V5Mod.Publish (readdress5 d r k p))), rest).
Proof.
  intros p d r k rest max n out Hf Hk Hz Hi Hr Hm W. assert (Hf' := readdress5_facts p d r k Hf Hk (proj1 Hz)).
  destruct (C82_v5_patch p d r k Hf Hk (proj1 Hz)) as (n' & out' & H1 & H2). rewrite W in H1. injection H1 as _ <-.
  assert (L : blen (SpecV5.written (V5Mod.Publish (readdress5 d r k p))) <= max).
  { revert Hm. destruct p as [d0 q r0 t k0 pr pl]. unfold readdress5.
    cbn [SpecV5.written V5Publish.qos V5Publish.topic V5Publish.payload SpecV5.body V5Publish.pkid V5Publish.properties].
    rewrite (same_place q t _ k0 k). exact (fun L => L). }
  destruct (PropV5.C19_v5_round_trip _ rest max Hf' Hi Hr L) as (m & o & W' & R). rewrite H2 in W'. injection W' as _ <-. exact R.
Qed.

(** ** retransmission (MQTT-4.4): only the first byte changes, and in it only bit 3 *)
Theorem C82_v4_again : forall p, SpecV4.fits (V4Mod.Publish p) -> V4Publish.dup p = false ->
  exists n b1 t, V4Mod.write (V4Mod.Publish p) [] = (Ok n, b1 :: t) /\
    V4Mod.write (V4Mod.Publish (readdress4 true (V4Publish.retain p) (V4Publish.pkid p) p)) [] = (Ok n, b1 + 8 :: t).
Proof.
  intros p Hf Hd. assert (Hf0 := Hf). destruct Hf as (T & S & I & L). assert (Hk : u16 (V4Publish.pkid p)) by apply T.
  destruct (C82_v4_patch p true (V4Publish.retain p) (V4Publish.pkid p) Hf0 Hk I) as (n & out & H1 & H2).
  assert (Hf' := readdress4_facts p true (V4Publish.retain p) (V4Publish.pkid p) Hf0 Hk I).
  destruct (PropV4.C12_v4_encoding _ Hf0) as [n1 W1]. destruct (PropV4.C12_v4_encoding _ Hf') as [n2 W2].
  assert (E1 : n1 = n) by congruence. assert (E2 : n2 = n) by congruence. subst n1 n2. clear H1 H2. rename W1 into H1, W2 into H2.
  rewrite wire4 in H1, H2. destruct p as [d0 q r0 t k0 pl]. cbn [V4Publish.dup] in Hd. subst d0. unfold readdress4 in *.
  cbn [V4Publish.qos V4Publish.topic V4Publish.payload V4Publish.pkid V4Publish.dup V4Publish.retain] in *.
  unfold frame in H1, H2. eexists n, _, _. split; [exact H1|]. rewrite H2. f_equal. f_equal. cbn [SpecWire.bit]. lia.
Qed.
Theorem C82_v5_again : forall p, SpecV5.fits (V5Mod.Publish p) -> V5Publish.dup p = false ->
  exists n b1 t, V5Mod.write (V5Mod.Publish p) [] = (Ok n, b1 :: t) /\
    V5Mod.write (V5Mod.Publish (readdress5 true (V5Publish.retain p) (V5Publish.pkid p) p)) [] = (Ok n, b1 + 8 :: t).
Proof.
  intros p Hf Hd. assert (Hf0 := Hf). destruct Hf as (T & S & M & I & L). assert (Hk : u16 (V5Publish.pkid p)) by apply T.
  destruct (C82_v5_patch p true (V5Publish.retain p) (V5Publish.pkid p) Hf0 Hk I) as (n & out & H1 & H2).
  assert (Hf' := readdress5_facts p true (V5Publish.retain p) (V5Publish.pkid p) Hf0 Hk I).
  destruct (ProofV5.write_fits _ Hf0) as [n1 W1]. destruct (ProofV5.write_fits _ Hf') as [n2 W2].
  assert (E1 : n1 = n) by congruence. assert (E2 : n2 = n) by congruence. subst n1 n2. clear H1 H2. rename W1 into H1, W2 into H2.
  rewrite wire5 in H1, H2. destruct p as [d0 q r0 t k0 pr pl]. cbn [V5Publish.dup] in Hd. subst d0. unfold readdress5 in *.
  cbn [V5Publish.qos V5Publish.topic V5Publish.payload V5Publish.pkid V5Publish.dup V5Publish.retain V5Publish.properties] in *.
  unfold frame in H1, H2. eexists n, _, _. split; [exact H1|]. rewrite H2. f_equal. f_equal. cbn [SpecWire.bit]. lia.
Qed.

(** ** the translated source *)
Theorem C82_source_v4 : forall fuel p d r k, (5 <= fuel)%nat -> SpecV4.fits (V4Mod.Publish p) -> u16 k ->
  (positive_qos (V4Publish.qos p) = true -> k <> 0) ->
  exists n out, v4_write fuel (V4Mod.Publish p) [] = (Ok n, out) /\
    v4_write fuel (V4Mod.Publish (readdress4 d r k p)) [] =
      (Ok n, patched d r (if positive_qos (V4Publish.qos p) then Some (id_place (blen (SpecV4.body (V4Mod.Publish p))) (blen (V4Publish.topic p)), k) else None) out).
Proof.
  intros fuel p d r k F Hf Hk Hz. assert (Hf' := readdress4_facts p d r k Hf Hk Hz).
  rewrite !PropSource.v4_write_src by (exact F || apply ProofSrcFits.fits4; assumption). apply C82_v4_patch; assumption.
Qed.
Theorem C82_source_v5 : forall fuel p d r k, (5 <= fuel)%nat -> SpecV5.fits (V5Mod.Publish p) -> u16 k ->
  (positive_qos (V5Publish.qos p) = true -> k <> 0) ->
  exists n out, v5_write fuel (V5Mod.Publish p) [] = (Ok n, out) /\
    v5_write fuel (V5Mod.Publish (readdress5 d r k p)) [] =
      (Ok n, patched d r (if positive_qos (V5Publish.qos p) then Some (id_place (blen (SpecV5.written (V5Mod.Publish p))) (blen (V5Publish.topic p)), k) else None) out).
Proof.
  intros fuel p d r k F Hf Hk Hz. assert (Hf' := readdress5_facts p d r k Hf Hk Hz).
  rewrite !PropSource.v5_write_src by (exact F || apply ProofSrcFits.fits5; assumption). apply C82_v5_patch; assumption.
Qed.

(** the cases below can be written *)
Lemma small_fits p : utf8_ok (V4Publish.topic p) = true -> (blen (V4Publish.topic p) <? 1000) && (blen (V4Publish.payload p) <? 1000) && (V4Publish.pkid p <? 2 ^ 16) = true ->
  bytes_ok (V4Publish.payload p) -> V4Publish.pkid p <> 0 -> SpecV4.fits (V4Mod.Publish p).
Proof.
  intros T H B Z. apply andb_prop in H as [H H3]. apply andb_prop in H as [H1 H2]. change (2 ^ 16) with 65536 in H3.
  split; [|split; [|split]].
  - split; [apply utf8_ok_spec, T|split; [unfold u16; lia|exact B]].
  - cbn [SpecV4.short_fields]. unfold short. lia.
  - intros _. exact Z.
  - cbn [SpecV4.body]. unfold field, be16. rewrite !blen_app.
    assert (L : blen (if positive_qos (V4Publish.qos p) then [V4Publish.pkid p / 256 mod 256; V4Publish.pkid p mod 256] else []) <= 2) by (destruct (positive_qos (V4Publish.qos p)); cbv; discriminate).
    set (x := blen (if positive_qos (V4Publish.qos p) then _ else [])) in *. autorewrite with blen. change (@blen N []) with 0. unfold max_len. lia.
Qed.
(** ** without the restriction on the identifier: an identifier 0 patched in is read as an error, and `write` refuses it *)
Theorem C82_id_zero_refuted : exists p n out, SpecV4.fits (V4Mod.Publish p) /\ V4Mod.write (V4Mod.Publish p) [] = (Ok n, out) /\
  fst (V4Mod.write (V4Mod.Publish (readdress4 false false 0 p)) []) = Err PacketIdZero /\
  fst (V4Mod.read (patched false false (Some (id_place (blen (SpecV4.body (V4Mod.Publish p))) (blen (V4Publish.topic p)), 0)) out) 100) = Err PacketIdZero.
Proof.
  exists (V4Publish.mkPublish false AtLeastOnce false [116] 7 [1; 2]). eexists. eexists.
  split; [|split; [vm_compute; reflexivity|split; vm_compute; reflexivity]].
  apply small_fits; [reflexivity|vm_compute; reflexivity|repeat constructor; cbv; reflexivity|discriminate].
Qed.
(** ** cases: QoS 1 with a remaining length of two bytes; QoS 0 *)
Definition ex_many : V4Publish.Publish := V4Publish.mkPublish false AtLeastOnce true [116; 47; 49] 1 (repeat 65 200).
Example C82_case : exists n out, SpecV4.fits (V4Mod.Publish ex_many) /\
  V4Mod.write (V4Mod.Publish ex_many) [] = (Ok n, out) /\
  firstn 10 out = [0x33; 207; 1; 0; 3; 116; 47; 49; 0; 1] /\
  firstn 10 (patched true false (Some (id_place (blen (SpecV4.body (V4Mod.Publish ex_many))) 3, 0xABCD)) out) = [0x3A; 207; 1; 0; 3; 116; 47; 49; 0xAB; 0xCD].
Proof.
  eexists. eexists. split; [|split; [vm_compute; reflexivity|split; vm_compute; reflexivity]].
  apply small_fits; [reflexivity|vm_compute; reflexivity|repeat constructor; cbv; reflexivity|discriminate].
Qed.
Print Assumptions C82_v4_patch.
Print Assumptions C82_v5_patch.
Print Assumptions C82_elsewhere.
Print Assumptions C82_v4_arrives.
Print Assumptions C82_v5_arrives.
Print Assumptions C82_v4_again.
Print Assumptions C82_v5_again.
Print Assumptions C82_source_v4.
Print Assumptions C82_source_v5.
Print Assumptions C82_id_zero_refuted.

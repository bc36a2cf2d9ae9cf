(** PropSourceForward4.v -- C60, C74 said of the Rust text of the MQTT 3.1.1 module: what a relay that reads a message and
    writes the packet it got sends on ([v4_reads], [v4_write], SpecSource.v). *)
From Verif Require Import Base Lib SpecWire SpecRelease ProofBase ProofLib V4Mod SpecV4 SpecStd311 SpecForward4 SpecSource PropSourceStream ProofSrcFits.
From Verif Require PropSource ProofV4 PropForward4 PropMeaning4.

Local Lemma wsrc p buf : fits p -> v4_write 5 p buf = V4Mod.write p buf.
Proof. intros H. apply PropSource.v4_write_src; [lia|apply fits4, H]. Qed.

Theorem C60_source_v4_same_packet_same_meaning : forall m m' s s' rest rest' max p p', bytes_ok s -> bytes_ok s' ->
  blen s < 2 ^ 63 -> blen s' < 2 ^ 63 -> conforms m -> conforms m' ->
  starts_with_frame s (header_byte m) (content m) rest -> starts_with_frame s' (header_byte m') (content m') rest' ->
  v4_reads s max = (Ok p, rest) -> v4_reads s' max = (Ok p', rest') ->
  (p = p' <->
   m = m' \/ exists cl ka id w u u' pw pw',
     m = M_CONNECT cl ka id w u pw /\ m' = M_CONNECT cl ka id w u' pw' /\
     or_empty u = or_empty u' /\ or_empty pw = or_empty pw').
Proof.
  intros m m' s s' rest rest' max p p' Hb Hb' Hl Hl' Hm Hm' Hs Hs' H H'.
  rewrite v4_reads_eq in H by exact Hl. rewrite v4_reads_eq in H' by exact Hl'.
  exact (PropMeaning4.C60_v4_same_packet_same_meaning m m' s s' rest rest' max p p' Hb Hb' Hm Hm' Hs Hs' H H').
Qed.
Theorem C74_source_v4_forwarded : forall m s rest max p, bytes_ok s -> blen s < 2 ^ 63 -> conforms m ->
  starts_with_frame s (header_byte m) (content m) rest -> v4_reads s max = (Ok p, rest) -> ~ nameless m ->
  exists n, v4_write 5 p [] = (Ok n, frame (header_byte (relayed m)) (content (relayed m))) /\
    conforms (relayed m) /\ as_packet (relayed m) = p /\ blen (content (relayed m)) <= blen (content m).
Proof.
  intros m s rest max p Hb Hl Hm Hs H Hn. rewrite v4_reads_eq in H by exact Hl.
  rewrite wsrc by apply (ProofV4.read_well_formed s max p rest Hb H). eapply PropForward4.C74_v4_forwarded; eassumption.
Qed.
Theorem C74_source_v4_nameless_not_forwarded : forall m s rest max p, bytes_ok s -> blen s < 2 ^ 63 -> conforms m ->
  starts_with_frame s (header_byte m) (content m) rest -> v4_reads s max = (Ok p, rest) -> nameless m ->
  exists n out, v4_write 5 p [] = (Ok n, out) /\
    ~ exists m', conforms m' /\ blen (content m') <= max_len /\ out = frame (header_byte m') (content m').
Proof.
  intros m s rest max p Hb Hl Hm Hs H Hn. rewrite v4_reads_eq in H by exact Hl.
  rewrite wsrc by apply (ProofV4.read_well_formed s max p rest Hb H). eapply PropForward4.C74_v4_nameless_not_forwarded; eassumption.
Qed.
(** the messages of C60_v4_meaning_case and C74_v4_case *)
Example C74_source_v4_case :
  let c1 := [0x10; 18; 0; 4; 77; 81; 84; 84; 4; 0xC2; 0; 60; 0; 1; 99; 0; 1; 117; 0; 0] in
  let c2 := [0x10; 18; 0; 4; 77; 81; 84; 84; 4; 0xC2; 0; 60; 0; 1; 99; 0; 0; 0; 1; 112] in
  c1 = 0x10 :: 18 :: content (M_CONNECT true 60 [99] None (Some [117]) (Some [])) /\
  c2 = 0x10 :: 18 :: content (M_CONNECT true 60 [99] None (Some []) (Some [112])) /\
  (exists p, v4_reads c1 99 = (Ok p, []) /\ v4_write 5 p [] = (Ok 16, [0x10; 16; 0; 4; 77; 81; 84; 84; 4; 0x82; 0; 60; 0; 1; 99; 0; 1; 117])) /\
  exists p, v4_reads c2 99 = (Ok p, []) /\ v4_write 5 p [] = (Ok 16, [0x10; 16; 0; 4; 77; 81; 84; 84; 4; 0x42; 0; 60; 0; 1; 99; 0; 1; 112]).
Proof.
  cbv zeta. split; [reflexivity|]. split; [reflexivity|]. split; eexists; (split; [vm_compute; reflexivity|vm_compute; reflexivity]).
Qed.
(** C60_source_v4_same_packet_same_meaning: the same streams as in C60_v4_meaning_case *)
Print Assumptions C60_source_v4_same_packet_same_meaning.
Print Assumptions C74_source_v4_forwarded.
Print Assumptions C74_source_v4_nameless_not_forwarded.

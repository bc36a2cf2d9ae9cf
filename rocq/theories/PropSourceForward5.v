(** PropSourceForward5.v -- C62, C74 said of the Rust text of the MQTT 5 module: what a relay that reads a message and
    writes the packet it got sends on ([v5_reads], [v5_write], SpecSource.v). *)
From Verif Require Import Base Lib SpecWire SpecRelease SpecProps ProofBase ProofLib V5Mod SpecV5 SpecStd5 SpecStd5Mean SpecSource PropSourceStream ProofSrcFits.
From Verif Require PropSource PropForward5 PropMeaning V5ConnAck.

Local Lemma wsrc p buf : fits p -> v5_write 5 p buf = V5Mod.write p buf.
Proof. intros H. apply PropSource.v5_write_src; [lia|apply fits5, H]. Qed.

Theorem C62_source_v5_same_packet_same_meaning : forall m m' s s' rest rest' max p p', bytes_ok s -> bytes_ok s' ->
  blen s < 2 ^ 63 -> blen s' < 2 ^ 63 -> conforms m -> conforms m' -> ~ misread m -> ~ misread m' ->
  starts_with_frame s (header_byte m) (content m) rest -> starts_with_frame s' (header_byte m') (content m') rest' ->
  v5_reads s max = (Ok p, rest) -> v5_reads s' max = (Ok p', rest') ->
  (p = p' <-> same_message m m').
Proof.
  intros m m' s s' rest rest' max p p' Hb Hb' Hl Hl' Hm Hm' Hr Hr' Hs Hs' H H'.
  rewrite v5_reads_eq in H by exact Hl. rewrite v5_reads_eq in H' by exact Hl'.
  exact (PropMeaning.C62_v5_same_packet_same_meaning m m' s s' rest rest' max p p' Hb Hb' Hm Hm' Hr Hr' Hs Hs' H H').
Qed.
Theorem C74_source_v5_forwarded : forall m s rest max p, bytes_ok s -> blen s < 2 ^ 63 -> conforms m -> ~ misread m ->
  starts_with_frame s (header_byte m) (content m) rest -> v5_reads s max = (Ok p, rest) ->
  (forall sp code, m <> M_CONNACK sp code []) ->
  exists n m', v5_write 5 p [] = (Ok n, frame (header_byte m') (content m')) /\
    conforms m' /\ same_message m m' /\ as_packet m' = Some p /\ blen (content m') <= blen (content m).
Proof.
  intros m s rest max p Hb Hl Hm Hr Hs H Hn. rewrite v5_reads_eq in H by exact Hl.
  rewrite wsrc by exact (PropForward5.forwarded_fits m s rest max p Hb Hm Hr Hs H). eapply PropForward5.C74_v5_forwarded; eassumption.
Qed.
Theorem C74_source_v5_connack_not_forwarded : forall sp code s rest max p, bytes_ok s -> blen s < 2 ^ 63 ->
  let m := M_CONNACK sp code [] in conforms m ->
  starts_with_frame s (header_byte m) (content m) rest -> v5_reads s max = (Ok p, rest) ->
  exists n out, v5_write 5 p [] = (Ok n, out) /\
    ~ exists m', conforms m' /\ blen (content m') <= max_len /\ out = frame (header_byte m') (content m').
Proof.
  intros sp code s rest max p Hb Hl m Hm Hs H. rewrite v5_reads_eq in H by exact Hl.
  assert (Hr : ~ misread m) by (intros (pre & x & E & _); destruct pre; discriminate E).
  rewrite wsrc by exact (PropForward5.forwarded_fits m s rest max p Hb Hm Hr Hs H).
  eapply PropForward5.C74_v5_connack_not_forwarded; eassumption.
Qed.
(** the messages of C62_v5_meaning_case and C74_v5_case *)
Example C74_source_v5_case :
  let s := [0x3A; 12; 0; 1; 116; 0; 7; 5; 35; 0; 5; 1; 1; 9] in
  s = 0x3A :: 12 :: content (M_PUBLISH false true false [116] 7 [(35, VTwo 5); (1, VByte 1)] [9]) /\
  (exists p, v5_reads s 99 = (Ok p, []) /\ v5_write 5 p [] = (Ok 14, [0x3A; 12; 0; 1; 116; 0; 7; 5; 1; 1; 35; 0; 5; 9])) /\
  (exists p, v5_reads [0x40; 4; 0; 7; 0; 0] 99 = (Ok p, []) /\ v5_reads [0x40; 2; 0; 7] 99 = (Ok p, []) /\ v5_write 5 p [] = (Ok 4, [0x40; 2; 0; 7])) /\
  exists p, v5_reads [0x20; 3; 1; 0; 0] 99 = (Ok p, []) /\ v5_write 5 p [] = (Ok 4, [0x20; 2; 1; 0]).
Proof.
  cbv zeta. split; [reflexivity|]. split; [eexists; (split; [vm_compute; reflexivity|vm_compute; reflexivity])|].
  split; [eexists; (split; [vm_compute; reflexivity|split; vm_compute; reflexivity])|].
  eexists; (split; [vm_compute; reflexivity|vm_compute; reflexivity]).
Qed.
(** C62_source_v5_same_packet_same_meaning: the same streams as in C62_v5_meaning_case *)
Print Assumptions C62_source_v5_same_packet_same_meaning.
Print Assumptions C74_source_v5_forwarded.
Print Assumptions C74_source_v5_connack_not_forwarded.

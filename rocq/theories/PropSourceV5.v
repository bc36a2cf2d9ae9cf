(** PropSourceV5.v -- what the Rust text of the MQTT 5 module does with every stream and every
    packet: the theorems of PropV5.v, PropV5Props.v, PropSize.v, PropSession.v and PropStandard5*.v
    said of the mechanical translation ([v5_reads], [v5_write], SpecSource.v). *)
From Coq Require Import Permutation.
From Verif Require Import Base Lib SpecWire SpecFrame SpecRelease ProofBase ProofLib SpecProps SpecPropSets SpecV5 SpecPlaces SpecCross V5Mod SpecSource PropSourceStream ProofSrcFits.
From Verif Require ProofSrcBase ProofV5 PropV5 PropV5Props PropErrorsV5 SpecErrorsV5 SpecErrors PropSize PropSession PropStandard5 PropStandard5W SpecStd5 SpecStd5Dev SpecStd5Write PropSource PropSourceV4 SampleV4 SampleV5 V4Mod SpecV4.

Local Lemma wsrc p buf : fits p -> v5_write 5 p buf = V5Mod.write p buf.
Proof. intros H. apply PropSource.v5_write_src; [lia|apply fits5, H]. Qed.
Local Ltac go H := intros; rewrite ?v5_reads_eq in * by (assumption || lia); eapply H; eassumption.
Local Lemma wire_small p rest : fits p -> blen rest < 2 ^ 62 -> blen (written_wire p ++ rest) < 2 ^ 63.
Proof.
  intros (_ & _ & _ & _ & H) Hr. rewrite blen_app. unfold written_wire, frame. rewrite blen_cons, blen_app.
  pose proof (varint_len_bound (blen (written p))). unfold max_len in H. lia.
Qed.
Local Lemma model_written_is p n out : fits p -> V5Mod.write p [] = (Ok n, out) -> out = written_wire p.
Proof. intros Hp H. destruct (PropV5.C13_v5_written p Hp) as [k E]. rewrite E in H. injection H as _ <-. reflexivity. Qed.
Local Lemma written_is p n out : fits p -> v5_write 5 p [] = (Ok n, out) -> out = written_wire p.
Proof. intros Hp H. rewrite wsrc in H by exact Hp. eapply model_written_is; eassumption. Qed.
(** a statement about what the written bytes are read as, carried over *)
Local Lemma both p rest max (R : outcome Packet * bytes -> Prop) : fits p -> blen rest < 2 ^ 62 ->
  (exists n out, V5Mod.write p [] = (Ok n, out) /\ R (V5Mod.read (out ++ rest) max)) ->
  exists n out, v5_write 5 p [] = (Ok n, out) /\ R (v5_reads (out ++ rest) max).
Proof.
  intros Hp Hl (n & out & W & H). exists n, out. rewrite wsrc by exact Hp. split; [exact W|].
  rewrite v5_reads_eq; [exact H|]. rewrite (model_written_is p n out Hp W). apply wire_small; assumption.
Qed.

(** ** C05: the limit is enforced before the body is looked at *)
Theorem C05_source_v5_limit_rejects : forall b1 f n r max,
  bytes_ok (b1 :: f ++ r) -> blen (b1 :: f ++ r) < 2 ^ 63 -> lenfield f n -> blen f <= 4 -> max < n ->
  v5_reads (b1 :: f ++ r) max = (Err (PayloadSizeLimitExceeded n), b1 :: f ++ r).
Proof. go PropV5.C05_v5_limit_rejects. Qed.
Theorem C05_source_v5_limit_respected : forall s max r rest, bytes_ok s -> blen s < 2 ^ 63 ->
  v5_reads s max = (r, rest) -> rest <> s ->
  exists b1 bd, starts_with_frame s b1 bd rest /\ blen bd <= max.
Proof. go PropV5.C05_v5_limit_respected. Qed.

(** ** C08, C09: one frame at a time *)
Theorem C08_source_v5_consumes_one_frame : forall s max, bytes_ok s -> blen s < 2 ^ 63 ->
  match SrcLib.check s max with
  | Ok h => exists fr, s = fr ++ snd (v5_reads s max) /\ blen fr = fixed_header_len h + remaining_len h
  | Err e => v5_reads s max = (Err e, s)
  | Panic | Diverge => False
  end.
Proof. intros. rewrite ProofSrcBase.check_eq, v5_reads_eq by assumption. apply PropV5.C08_v5_consumes_one_frame. assumption. Qed.
Theorem C09_source_v5_frame_isolation : forall s max h fr rest rest',
  bytes_ok s -> bytes_ok rest' -> blen s < 2 ^ 63 -> blen (fr ++ rest') < 2 ^ 63 -> SrcLib.check s max = Ok h ->
  s = fr ++ rest -> blen fr = fixed_header_len h + remaining_len h ->
  snd (v5_reads s max) = rest /\ v5_reads (fr ++ rest') max = (fst (v5_reads s max), rest').
Proof.
  intros s max h fr rest rest' Hb Hb' Hl Hl' Hc E F. rewrite ProofSrcBase.check_eq in Hc. rewrite !v5_reads_eq by assumption.
  eapply PropV5.C09_v5_frame_isolation; eassumption.
Qed.

(** ** C11: "more bytes needed" also comes for a frame that is already consumed *)
Theorem C11_source_v5_insufficient : forall s max n s', bytes_ok s -> blen s < 2 ^ 63 ->
  v5_reads s max = (Err (InsufficientBytes n), s') ->
  (s' = s /\ SrcLib.check s max = Err (InsufficientBytes n)) \/
  (n = 1 /\ exists b1 bd, starts_with_frame s b1 bd s' /\ blen bd <= max).
Proof.
  intros s max n s' Hb Hl H. rewrite ProofSrcBase.check_eq. rewrite v5_reads_eq in H by assumption.
  eapply PropV5.C11_v5_insufficient_exact; eassumption.
Qed.

(** ** C19: exactly which packets come back *)
Theorem C19_source_v5_exact : forall p rest max,
  fits p -> bytes_ok rest -> blen (written p) <= max -> blen rest < 2 ^ 62 ->
  exists n out, v5_write 5 p [] = (Ok n, out) /\
    (v5_reads (out ++ rest) max = (Ok (canon p), rest) <-> readable p \/ blank_311 p).
Proof. intros p rest max Hp Hr Hx Hl. apply (both p rest max (fun o => o = _ <-> _) Hp Hl). apply PropV5.C19_v5_exact; assumption. Qed.
Theorem C19_source_v5_empty_codes : forall p rest max,
  match p with
  | SubAck s => V5SubAck.return_codes s = []
  | UnsubAck u => V5UnsubAck.reasons u = []
  | _ => False
  end ->
  fits p -> bytes_ok rest -> blen (written p) <= max -> blen rest < 2 ^ 62 ->
  exists n out, v5_write 5 p [] = (Ok n, out) /\ v5_reads (out ++ rest) max = (Err MalformedPacket, rest).
Proof. intros p rest max He Hp Hr Hx Hl. apply (both p rest max (fun o => o = _) Hp Hl). apply PropV5.C19_v5_empty_codes_rejected; assumption. Qed.

(** ** C21: encodings do not run into each other *)
Theorem C21_source_v5_prefix_free : forall p q r r' n m out out',
  fits p -> fits q -> readable p -> readable q -> canonical p -> canonical q ->
  v5_write 5 p [] = (Ok n, out) -> v5_write 5 q [] = (Ok m, out') ->
  bytes_ok r -> bytes_ok r' -> out ++ r = out' ++ r' -> p = q /\ r = r'.
Proof.
  intros p q r r' n m out out' Hp Hq P1 P2 C1 C2 W1 W2 Hr Hr' E.
  apply (written_is p n out Hp) in W1. apply (written_is q m out' Hq) in W2. subst. eapply PropV5.C21_v5_prefix_free; eassumption.
Qed.
Theorem C21_source_v5_proper_prefix_waits : forall p n out pre suf max,
  fits p -> blen (written p) <= max -> v5_write 5 p [] = (Ok n, out) -> out = pre ++ suf -> suf <> [] ->
  exists n, v5_reads pre max = (Err (InsufficientBytes n), pre) /\ 1 <= n /\ n <= blen suf.
Proof.
  intros p k out pre suf max Hp Hx W E Hs. apply (written_is p k out Hp) in W. subst out.
  assert (blen pre < 2 ^ 63).
  { pose proof (wire_small p [] Hp) as H. rewrite app_nil_r, E, blen_app in H. cbn [blen] in H. specialize (H eq_refl). lia. }
  rewrite v5_reads_eq by assumption. eapply PropV5.C21_v5_proper_prefix_waits; eassumption.
Qed.

(** ** C26, C28: what comes out of the decoder *)
Theorem C26_source_v5_well_formed : forall s max p rest, bytes_ok s -> blen s < 2 ^ 63 -> v5_reads s max = (Ok p, rest) ->
  typed p /\ short_fields p /\ small_ids p /\ has_id p /\ canonical p /\
  match p with
  | SubAck s => V5SubAck.return_codes s <> []
  | UnsubAck u => V5UnsubAck.reasons u <> []
  | _ => True
  end /\
  exists b1 t, s = b1 :: t /\ b1 / 16 = kind p.
Proof. go PropV5.C26_v5_well_formed. Qed.
Theorem C28_source_v5_reencode : forall s max p rest, bytes_ok s -> blen s < 2 ^ 63 -> v5_reads s max = (Ok p, rest) ->
  (exists n out, v5_write 5 p [] = (Ok n, out) /\
     forall rest' max', bytes_ok rest' -> blen (written p) <= max' -> blen rest' < 2 ^ 62 ->
       (v5_reads (out ++ rest') max' = (Ok p, rest') <-> readable p \/ blank_311 p)) \/
  (exists out, v5_write 5 p [] = (Err PayloadTooLong, out) /\ max_len < blen (written p)).
Proof.
  intros s max p rest Hb Hl H. rewrite v5_reads_eq in H by exact Hl.
  destruct (PropV5.C28_v5_reencode_size s max p rest Hb H) as (b1 & bd & Hs & _ & Hz).
  assert (Hm : v5_memory p <= 2 ^ 63).
  { pose proof (written_memory5 p) as M. destruct Hs as (f & _ & Hf & Hf4). pose proof (lenfield_bound _ _ Hf Hf4) as Hbd. unfold max_len in Hbd. destruct p; lia. }
  destruct (PropV5.C28_v5_reencode_exact s max p rest Hb H) as [(n & out & W & R)|(out & W & L)].
  - left. assert (Hp : fits p).
    { destruct (PropV5.C26_v5_well_formed s max p rest Hb H) as (T & S & I & D & _). split; [exact T|]. split; [exact S|]. split; [exact I|]. split; [exact D|].
      destruct (PropV5.C16_v5_exact p []) as (_ & _ & X & _). apply X. exists n. rewrite W. reflexivity. }
    exists n, out. rewrite wsrc by exact Hp. split; [exact W|]. intros rest' max' Hr Hx Hl'. rewrite v5_reads_eq; [apply R; assumption|].
    rewrite (model_written_is p n out Hp W). apply wire_small; assumption.
  - right. exists out. rewrite PropSource.v5_write_src by (exact Hm || lia). split; assumption.
Qed.

(** ** C36, C37, C42: property sections *)
Theorem C36_source_v5_misplaced : forall s pl b1 pre f plen its bs c id suf rest max,
  bytes_ok s -> blen s < 2 ^ 63 -> leads_to pl b1 pre -> lenfield f plen -> blen f <= 4 ->
  reads (allowed_at pl) plen 0 its bs c -> c < plen -> ~ In id (allowed_at pl) ->
  starts_with_frame s b1 (pre ++ f ++ bs ++ id :: suf) rest ->
  blen (pre ++ f ++ bs ++ id :: suf) <= max ->
  v5_reads s max = (Err (InvalidPropertyType id), rest).
Proof. intros. rewrite v5_reads_eq by assumption. eapply PropV5Props.C36_v5_misplaced_rejected; eassumption. Qed.
Theorem C37_source_v5_same_set : forall s s' pl b1 pre f plen its bs f' plen' its' bs' suf rest max,
  bytes_ok s -> bytes_ok s' -> blen s < 2 ^ 63 -> blen s' < 2 ^ 63 -> leads_to pl b1 pre ->
  lenfield f plen -> blen f <= 4 -> 0 < plen -> section (allowed_at pl) plen its bs ->
  lenfield f' plen' -> blen f' <= 4 -> 0 < plen' -> section (allowed_at pl) plen' its' bs' ->
  same_props its its' ->
  starts_with_frame s b1 (pre ++ f ++ bs ++ suf) rest -> blen (pre ++ f ++ bs ++ suf) <= max ->
  starts_with_frame s' b1 (pre ++ f' ++ bs' ++ suf) rest -> blen (pre ++ f' ++ bs' ++ suf) <= max ->
  v5_reads s max = v5_reads s' max.
Proof. intros. rewrite !v5_reads_eq by assumption. eapply PropV5Props.C37_v5_same_set with (f := f) (f' := f'); eassumption. Qed.
Theorem C37_source_v5_any_order : forall s s' pl b1 pre its its' suf rest max,
  bytes_ok s -> bytes_ok s' -> blen s < 2 ^ 63 -> blen s' < 2 ^ 63 -> leads_to pl b1 pre ->
  its <> [] -> Forall item_ok its -> Forall (fun it => In (fst it) (allowed_at pl) /\ fst it <> 11) its ->
  NoDup (map fst its) -> Permutation its its' ->
  starts_with_frame s b1 (pre ++ section_bytes its ++ suf) rest -> blen (pre ++ section_bytes its ++ suf) <= max ->
  starts_with_frame s' b1 (pre ++ section_bytes its' ++ suf) rest -> v5_reads s max = v5_reads s' max.
Proof. intros. rewrite !v5_reads_eq by assumption. eapply PropV5Props.C37_v5_any_order with (its := its); eassumption. Qed.
Theorem C42_source_v5_length_tolerance : forall s s' pl b1 pre f plen its bs f' plen' suf rest max,
  bytes_ok s -> bytes_ok s' -> blen s < 2 ^ 63 -> blen s' < 2 ^ 63 -> leads_to pl b1 pre ->
  lenfield f plen -> blen f <= 4 -> 0 < plen -> section (allowed_at pl) plen its bs ->
  starts_with_frame s b1 (pre ++ f ++ bs ++ suf) rest -> blen (pre ++ f ++ bs ++ suf) <= max ->
  exists its0 it bs0 vb,
    its = its0 ++ [it] /\ bs = bs0 ++ fst it :: vb /\ value_enc (snd it) vb /\
    blen bs0 + blen (all_ids its0) < plen /\ plen <= blen bs + blen (all_ids its) /\
    (lenfield f' plen' -> blen f' <= 4 ->
     blen bs0 + blen (all_ids its0) < plen' -> plen' <= blen bs + blen (all_ids its) ->
     starts_with_frame s' b1 (pre ++ f' ++ bs ++ suf) rest -> blen (pre ++ f' ++ bs ++ suf) <= max ->
     v5_reads s' max = v5_reads s max).
Proof. intros. rewrite !v5_reads_eq by assumption. eapply PropV5Props.C42_v5_length_tolerance; eassumption. Qed.

(** ** C38, C39, C40, C41: packets that do not survive *)
Theorem C38_source_v5_exact : forall p rest max,
  fits (Publish p) -> bytes_ok rest -> blen (written (Publish p)) <= max -> blen rest < 2 ^ 62 ->
  exists n out, v5_write 5 (Publish p) [] = (Ok n, out) /\
    (v5_reads (out ++ rest) max = (Ok (canon (Publish p)), rest) <-> ids_fit p).
Proof. intros p rest max Hp Hr Hx Hl. apply (both (Publish p) rest max (fun o => o = _ <-> _) Hp Hl). apply PropV5Props.C38_v5_exact; assumption. Qed.
Theorem C38_source_v5_read_back : forall p r a b rest max,
  fits (Publish p) -> V5Publish.properties p = Some r -> publish_items r <> [] ->
  split_props (blen (items_bytes (publish_items r))) 0 (publish_items r) = (a, b) ->
  bytes_ok rest -> blen (written (Publish p)) <= max -> blen rest < 2 ^ 62 ->
  exists n out, v5_write 5 (Publish p) [] = (Ok n, out) /\
    v5_reads (out ++ rest) max =
    (Ok (Publish (V5Publish.mkPublish (V5Publish.dup p) (V5Publish.qos p) (V5Publish.retain p) (V5Publish.topic p)
           (if positive_qos (V5Publish.qos p) then V5Publish.pkid p else 0)
           (Some (publish_record a)) (items_bytes b ++ V5Publish.payload p))), rest).
Proof. intros p r a b rest max Hp E1 E2 E3 Hr Hx Hl. apply (both (Publish p) rest max (fun o => o = _) Hp Hl). eapply PropV5Props.C38_v5_read_back; eassumption. Qed.
Theorem C39_source_v5_connack : forall c rest max,
  V5ConnAck.properties c = None -> bytes_ok rest -> 2 <= max -> blen rest < 2 ^ 62 ->
  exists n out, v5_write 5 (ConnAck c) [] = (Ok n, out) /\
    v5_reads (out ++ rest) max = (Err (InsufficientBytes 1), rest).
Proof.
  intros c rest max Hc Hr Hx Hl. apply (both (ConnAck c) rest max (fun o => o = _)); [|exact Hl|apply PropV5Props.C39_v5_connack_exact; assumption].
  unfold fits, typed, short_fields, small_ids. cbn [packet_items written]. rewrite Hc. cbn [opt_items]. repeat split; try constructor. vm_compute. discriminate.
Qed.
Theorem C39_source_v5_disconnect : forall d rest max,
  opt_items disconnect_items (V5Disconnect.properties d) = [] -> bytes_ok rest -> 1 <= max -> blen rest < 2 ^ 62 ->
  exists n out, v5_write 5 (Disconnect d) [] = (Ok n, out) /\
    v5_reads (out ++ rest) max =
    (Err match V5Disconnect.properties d with
         | Some _ => PayloadRequired
         | None => if disconnect_code (V5Disconnect.reason_code d) =? 0 then PayloadRequired
                   else InsufficientBytes 1
         end, rest).
Proof.
  intros d rest max Hd Hr Hx Hl. apply (both (Disconnect d) rest max (fun o => o = _)); [|exact Hl|apply PropV5Props.C39_v5_disconnect_exact; assumption].
  unfold fits, typed, short_fields, small_ids. cbn [packet_items written body]. rewrite Hd. repeat split; try constructor.
  destruct (V5Disconnect.properties d) as [r|]; cbn [opt_items] in Hd; [rewrite Hd; vm_compute; discriminate|].
  destruct (_ =? 0); vm_compute; discriminate.
Qed.
Theorem C40_source_v5_level4 : forall c rest max,
  fits (Connect c) -> V5Connect.protocol c = V4 -> bytes_ok rest -> blen (written (Connect c)) <= max -> blen rest < 2 ^ 62 ->
  exists n out, v5_write 5 (Connect c) [] = (Ok n, out) /\
    (v5_reads (out ++ rest) max = (Ok (canon (Connect c)), rest) <-> blank_311 (Connect c)).
Proof. intros c rest max Hp Hc Hr Hx Hl. apply (both (Connect c) rest max (fun o => o = _ <-> _) Hp Hl). apply PropV5Props.C40_v5_level4_exact; assumption. Qed.
Theorem C41_source_v5_exact : forall p, typed p -> has_id p -> small_ids p -> blen (written p) <= max_len ->
  ~ short_fields p ->
  exists n out, v5_write 5 p [] = (Ok n, out) /\
    forall s max q rest, bytes_ok s -> blen s < 2 ^ 63 -> v5_reads s max = (Ok q, rest) -> q <> p /\ q <> canon p.
Proof.
  intros p H1 H2 H3 H4 H5. destruct (PropV5Props.C41_v5_exact p H1 H2 H3 H4 H5) as (n & out & W & R).
  rewrite <- (PropSource.v5_write_src 5 p []) in W by (lia || apply small5, H4). exists n, out. split; [exact W|].
  intros s max q rest Hb Hl H. rewrite v5_reads_eq in H by exact Hl. eapply R; eassumption.
Qed.

(** ** C44, C46, C47: the accepted language, empty bodies, progress *)
Theorem C44_source_v5_zero_length : forall b1 f rest max, bytes_ok (b1 :: f ++ rest) -> blen (b1 :: f ++ rest) < 2 ^ 63 ->
  lenfield f 0 -> blen f <= 4 -> v5_reads (b1 :: f ++ rest) max = (zero_length_result b1, rest).
Proof. go PropV5.C44_v5_zero_length. Qed.
Theorem C46_source_v5_progress : forall s max p rest, bytes_ok s -> blen s < 2 ^ 63 -> v5_reads s max = (Ok p, rest) ->
  2 + blen rest <= blen s.
Proof. go PropV5.C46_v5_progress. Qed.
Theorem C46_source_v5_stuck : forall s max e t, bytes_ok (s ++ t) -> blen (s ++ t) < 2 ^ 63 -> v5_reads s max = (Err e, s) ->
  (forall n, e <> InsufficientBytes n) -> v5_reads (s ++ t) max = (Err e, s ++ t).
Proof.
  intros s max e t Hb Hl H Hn. pose proof Hl as Hl'. rewrite blen_app in Hl'. rewrite v5_reads_eq in * by lia.
  eapply PropV5.C46_v5_stuck; eassumption.
Qed.
Theorem C47_source_v5_language : forall s max p rest, bytes_ok s -> blen s < 2 ^ 63 ->
  (v5_reads s max = (Ok p, rest) <->
   exists b1 bd, starts_with_frame s b1 bd rest /\ blen bd <= max /\ decodes_body b1 bd p).
Proof. intros. rewrite v5_reads_eq by assumption. apply PropV5.C47_v5_language. assumption. Qed.
Theorem C47_source_v5_rest_rejected : forall s b1 bd rest max, bytes_ok s -> blen s < 2 ^ 63 ->
  starts_with_frame s b1 bd rest -> blen bd <= max -> (forall p, ~ decodes_body b1 bd p) ->
  exists e, v5_reads s max = (Err e, rest).
Proof. go PropV5.C47_v5_rest_rejected. Qed.

(** ** C56, C57: sizes and limits *)
Theorem C56_source_v5_no_amplification : forall s max p rest, bytes_ok s -> blen s < 2 ^ 63 ->
  v5_reads s max = (Ok p, rest) -> PropSize.held5 p <= max /\ PropSize.held5 p + 2 + blen rest <= blen s.
Proof. go PropSize.C56_v5_no_amplification. Qed.
Theorem C57_source_v5_limits : forall s max max', bytes_ok s -> blen s < 2 ^ 63 ->
  ((forall n, PropSession.declares s n -> n <= max /\ n <= max') -> v5_reads s max = v5_reads s max') /\
  (forall n, PropSession.declares s n -> max < n -> v5_reads s max = (Err (PayloadSizeLimitExceeded n), s)) /\
  (max <= max' -> forall p rest, v5_reads s max = (Ok p, rest) -> v5_reads s max' = (Ok p, rest)).
Proof.
  intros s max max' Hb Hl. rewrite !v5_reads_eq by exact Hl. split; [|split].
  - intros H. apply PropSession.C57_v5_same_under_every_limit; assumption.
  - intros n H H'. apply PropSession.C57_v5_over_limit; assumption.
  - intros H. destruct (PropSession.C57_monotone s max max' Hb H) as [_ X]. exact X.
Qed.

(** ** C62, C63: the standard *)
Theorem C62_source_v5_unsupported : forall m e s rest max, bytes_ok s -> blen s < 2 ^ 63 ->
  SpecStd5.conforms m -> starts_with_frame s (SpecStd5.header_byte m) (SpecStd5.content m) rest -> blen (SpecStd5.content m) <= max ->
  SpecStd5.unsupported m e -> v5_reads s max = (Err e, rest).
Proof. intros. rewrite v5_reads_eq by assumption. eapply PropStandard5.C62_v5_unsupported; eassumption. Qed.
Theorem C62_source_v5_misread : forall m s rest max, bytes_ok s -> blen s < 2 ^ 63 ->
  SpecStd5.conforms m -> starts_with_frame s (SpecStd5.header_byte m) (SpecStd5.content m) rest -> blen (SpecStd5.content m) <= max ->
  SpecStd5.misread m ->
  exists a b p, SpecStd5.message_props m = a ++ b /\ b <> [] /\
    blen (items_bytes (SpecStd5.message_props m)) <= blen (items_bytes a) + SpecStd5.identifiers a /\
    (forall a1 x a2, a = a1 ++ x :: a2 -> blen (items_bytes a1) + SpecStd5.identifiers a1 < blen (items_bytes (SpecStd5.message_props m))) /\
    SpecStd5.as_packet (SpecStd5.cut m a b) = Some p /\ SpecStd5.as_packet m <> Some p /\ v5_reads s max = (Ok p, rest).
Proof. intros. rewrite v5_reads_eq by assumption. apply PropStandard5.C62_v5_misread; assumption. Qed.
Theorem C62_source_v5_leniency : forall s max p rest b1 bd, bytes_ok s -> blen s < 2 ^ 63 ->
  v5_reads s max = (Ok p, rest) -> starts_with_frame s b1 bd rest ->
  (exists m, SpecStd5.conforms m /\ b1 = SpecStd5.header_byte m /\ bd = SpecStd5.content m /\ SpecStd5.as_packet m = Some p /\
     ~ SpecStd5.misread m /\ ~ SpecStd5Dev.deviates b1 bd p) \/
  (SpecStd5Dev.deviates b1 bd p /\
   forall m, SpecStd5.conforms m -> b1 = SpecStd5.header_byte m -> bd = SpecStd5.content m -> SpecStd5.misread m).
Proof. go PropStandard5.C62_v5_leniency_exact. Qed.
Theorem C63_source_v5_writes_standard : forall p n out, fits p -> v5_write 5 p [] = (Ok n, out) ->
  (SpecStd5Write.standard_value p <->
   exists m, SpecStd5.conforms m /\ SpecStd5.as_packet m = Some (canon p) /\ blen (SpecStd5.content m) <= max_len /\
     out = frame (SpecStd5.header_byte m) (SpecStd5.content m)).
Proof. intros p n out Hp H. rewrite wsrc in H by exact Hp. eapply PropStandard5W.C63_v5_writes_standard; eassumption. Qed.
Theorem C63_source_v5_writes_the_message : forall p n out m, fits p -> v5_write 5 p [] = (Ok n, out) ->
  SpecStd5.conforms m -> blen (SpecStd5.content m) <= max_len -> out = frame (SpecStd5.header_byte m) (SpecStd5.content m) ->
  SpecStd5.as_packet m = Some (canon p) \/
  (m = SpecStd5.M_DISCONNECT SpecStd5.Nothing /\
   exists code, p = Disconnect (V5Disconnect.mkDisconnect code (Some (disconnect_record []))) /\
     code <> V5Disconnect.NormalDisconnection).
Proof. intros p n out m Hp H. rewrite wsrc in H by exact Hp. intros. eapply PropStandard5W.C63_v5_writes_the_message; eassumption. Qed.

(** ** The cases *)
Example C47_source_case :
  let s := [0x40; 6; 0; 7; 0x10; 2; 31; 0; 0x90; 3; 0; 9] in
  bytes_ok s /\ blen s < 2 ^ 63 /\ v5_reads s 10 = (Err MalformedPacket, [0x90; 3; 0; 9]) /\
  v5_reads [0x40; 4; 0; 7; 0x10; 0; 1] 10 = (Ok (PubAck (V5PubAck.mkPubAck 7 V5PubAck.NoMatchingSubscribers None)), [1]) /\
  starts_with_frame [0x40; 4; 0; 7; 0x10; 0; 1] 0x40 [0; 7; 0x10; 0] [1] /\
  v5_reads [0x40; 6; 0; 7; 0; 2; 3; 1; 1] 10 = (Err (InvalidPropertyType 3), [1]) /\
  v5_reads [0x20; 2; 0; 0] 10 = (Err (InsufficientBytes 1), []).
Proof.
  cbv zeta. split; [repeat constructor|]. split; [reflexivity|]. split; [vm_compute; reflexivity|]. split; [vm_compute; reflexivity|].
  split; [exists [4]; repeat split; try discriminate; apply lf_last; reflexivity|]. split; vm_compute; reflexivity.
Qed.
Example C38_source_case : fits SampleV5.ex_publish5 /\ blen (written SampleV5.ex_publish5) <= 100 /\
  (exists n, v5_write 5 SampleV5.ex_publish5 [] = (Ok n, written_wire SampleV5.ex_publish5)) /\
  v5_reads (written_wire SampleV5.ex_publish5 ++ [1]) 100 = (Ok SampleV5.ex_publish5, [1]).
Proof.
  split; [exact SampleV5.ex_publish5_fits|]. split; [vm_compute; discriminate|]. split; [eexists; vm_compute; reflexivity|]. vm_compute. reflexivity.
Qed.
Example C39_source_case : v5_write 5 (ConnAck (V5ConnAck.mkConnAck true V5ConnAck.Success None)) [] = (Ok 4, [0x20; 2; 1; 0]) /\
  v5_reads [0x20; 2; 1; 0; 9] 10 = (Err (InsufficientBytes 1), [9]).
Proof. split; vm_compute; reflexivity. Qed.

Print Assumptions C05_source_v5_limit_rejects.
Print Assumptions C05_source_v5_limit_respected.
Print Assumptions C08_source_v5_consumes_one_frame.
Print Assumptions C09_source_v5_frame_isolation.
Print Assumptions C11_source_v5_insufficient.
Print Assumptions C19_source_v5_exact.
Print Assumptions C19_source_v5_empty_codes.
Print Assumptions C21_source_v5_prefix_free.
Print Assumptions C21_source_v5_proper_prefix_waits.
Print Assumptions C26_source_v5_well_formed.
Print Assumptions C28_source_v5_reencode.
Print Assumptions C36_source_v5_misplaced.
Print Assumptions C37_source_v5_same_set.
Print Assumptions C37_source_v5_any_order.
Print Assumptions C42_source_v5_length_tolerance.
Print Assumptions C38_source_v5_exact.
Print Assumptions C38_source_v5_read_back.
Print Assumptions C39_source_v5_connack.
Print Assumptions C39_source_v5_disconnect.
Print Assumptions C40_source_v5_level4.
Print Assumptions C41_source_v5_exact.
Print Assumptions C44_source_v5_zero_length.
Print Assumptions C46_source_v5_progress.
Print Assumptions C46_source_v5_stuck.
Print Assumptions C47_source_v5_language.
Print Assumptions C47_source_v5_rest_rejected.
Print Assumptions C56_source_v5_no_amplification.
Print Assumptions C57_source_v5_limits.
Print Assumptions C62_source_v5_unsupported.
Print Assumptions C62_source_v5_misread.
Print Assumptions C62_source_v5_leniency.
Print Assumptions C63_source_v5_writes_standard.
Print Assumptions C63_source_v5_writes_the_message.

(** PropSourceRest.v -- the remaining public functions of the Rust text (its translation Src*.v):
    length fields, `check`, strings, topics and filters, whole sessions, the two versions together. *)
From Verif Require Import Base Lib SpecWire SpecFrame SpecRelease SpecStream SpecTopic Utf8 ProofBase ProofLib SpecSource PropSourceStream ProofSrcFits ProofSrcBase ProofSrcTop.
From Verif Require SampleV4 PropV4 PropV5 ProofV4 ProofV5 ProofRead PropFrame PropTopic PropSession SpecSession PropInterop PropLen PropV5Props SpecCross PropSource V4Mod V5Mod SpecV4 SpecV5.
From Verif Require SrcLib SrcTopic.

(** ** C01: length fields *)
Theorem C01_source_written : forall fuel n buf, (5 <= fuel)%nat -> n <= max_len ->
  SrcLib.write_remaining_length fuel n buf = (Ok (blen (varint n)), buf ++ varint n) /\
  SrcLib.len_len n = Ok (blen (varint n)) /\
  (forall rest, SrcLib.length (varint n ++ rest) = Ok (blen (varint n), n)).
Proof.
  intros fuel n buf Hf Hn. rewrite write_remaining_length_eq by exact Hf. rewrite len_len_eq.
  rewrite PropFrame.C01_written_form, PropFrame.C01_size_prediction by exact Hn. split; [reflexivity|]. split; [reflexivity|].
  intros rest. rewrite length_eq. apply PropFrame.C01_read_back, Hn.
Qed.
Theorem C01_source_too_long : forall fuel n buf, (5 <= fuel)%nat -> max_len < n ->
  SrcLib.write_remaining_length fuel n buf = (Err PayloadTooLong, buf).
Proof. intros fuel n buf Hf Hn. rewrite write_remaining_length_eq by exact Hf. apply PropFrame.C01_too_long, Hn. Qed.
Theorem C01_source_read_any : forall f n rest, lenfield f n -> blen f <= 4 -> SrcLib.length (f ++ rest) = Ok (blen f, n).
Proof. intros. rewrite length_eq. apply PropFrame.C01_read_any; assumption. Qed.

(** ** C03, C04: waiting for more input *)
Theorem C03_source_lower_bound : forall s max n,
  bytes_ok s -> SrcLib.check s max = Err (InsufficientBytes n) ->
  1 <= n /\
  forall t, bytes_ok t -> blen t < n -> exists m, SrcLib.check (s ++ t) max = Err (InsufficientBytes m).
Proof.
  intros s max n Hb H. rewrite check_eq in H. destruct (PropFrame.C03_insufficient_is_lower_bound s max n Hb H) as [H1 H2].
  split; [exact H1|]. intros t Ht Hn. rewrite check_eq. apply H2; assumption.
Qed.
Theorem C04_source_stable : forall s max t r, bytes_ok (s ++ t) -> SrcLib.check s max = r ->
  (forall n, r <> Err (InsufficientBytes n)) -> SrcLib.check (s ++ t) max = r.
Proof. intros s max t r. rewrite !check_eq. apply PropFrame.C04_verdict_stable. Qed.

(** ** C29: strings *)
Theorem C29_source_string : forall s, bytes_ok s ->
  match SrcLib.read_mqtt_string s with
  | (Ok v, rest) => PropFrame.string_verdict s (Ok (v, rest))
  | (Err e, _) => PropFrame.string_verdict s (Err e)
  | _ => False
  end.
Proof.
  intros s Hb. pose proof (PropFrame.C29_string_field s Hb) as V. pose proof (sim_string s) as S. unfold sim in S.
  destruct (SrcLib.read_mqtt_string s) as [[v|e| |] rest]; cbn [fst snd] in S; destruct (read_mqtt_string s) as [[v' rest']|e'| |]; try contradiction.
  - cbn [fst snd] in S. destruct S as (-> & <- & _). exact V.
  - cbn [fst] in S. subst. exact V.
  - destruct V as [[_ V]|[(? & ? & _ & _ & _ & V)|[(? & ? & _ & _ & _ & V)|(? & ? & _ & _ & _ & V)]]]; discriminate V.
  - destruct V as [[_ V]|[(? & ? & _ & _ & _ & V)|[(? & ? & _ & _ & _ & V)|(? & ? & _ & _ & _ & V)]]]; discriminate V.
Qed.

(** ** C30, C33, C34: topics *)
Local Ltac m := rewrite ?matches_eq by (apply ProofRead.is_utf8_bytes; assumption).
Theorem C30_source_valid : forall topic filter ts fs,
  is_utf8 topic -> ~ multibyte_first topic -> ~ starts_with_dollar topic ->
  levels topic ts -> levels filter fs ->
  SrcTopic.valid_filter filter = Ok true -> ~ In [HASH] ts ->
  (SrcTopic.matches topic filter = Ok true <-> accepts fs ts) /\
  (SrcTopic.matches topic filter = Ok false <-> ~ accepts fs ts).
Proof.
  intros topic filter ts fs Hu Hm Hd Ht Hf Hv Hn. m. rewrite valid_filter_eq in Hv. injection Hv as Hv.
  apply PropTopic.C30_matches_valid; assumption.
Qed.
Theorem C30_source_dollar : forall topic filter, is_utf8 topic -> starts_with_dollar topic ->
  SrcTopic.matches topic filter = Ok false.
Proof. intros topic filter Hu Hd. m. apply PropTopic.C30_dollar_never; assumption. Qed.
Theorem C33_source_covering_sound : forall f1 f2 topic, is_utf8 f1 -> is_utf8 topic ->
  SrcTopic.matches f1 f2 = Ok true -> SrcTopic.matches topic f1 = Ok true -> SrcTopic.matches topic f2 = Ok true.
Proof. intros f1 f2 topic H1 H2. m. apply PropTopic.C33_covering_sound. Qed.
Theorem C33_source_covering_order : forall f g, is_utf8 f -> is_utf8 g ->
  SrcTopic.valid_filter f = Ok true -> SrcTopic.valid_filter g = Ok true ->
  (~ multibyte_first f -> ~ starts_with_dollar f -> SrcTopic.matches f f = Ok true) /\
  (SrcTopic.matches f g = Ok true -> SrcTopic.matches g f = Ok true -> f = g).
Proof.
  intros f g Hf Hg. m. rewrite !valid_filter_eq. intros Vf Vg. apply PropTopic.C33_covering_order; assumption || (injection Vf; injection Vg; auto).
Qed.
Theorem C33_source_covering_exact : forall f1 f2,
  is_utf8 f1 -> ~ multibyte_first f1 -> ~ starts_with_dollar f1 ->
  SrcTopic.valid_filter f1 = Ok true -> plus_whole_level f1 ->
  ((forall topic, is_utf8 topic -> SrcTopic.valid_topic topic = Ok true ->
      SrcTopic.matches topic f1 = Ok true -> SrcTopic.matches topic f2 = Ok true) <->
   SrcTopic.matches f1 f2 = Ok true \/ f1 = [HASH] /\ exists more, levels f2 ([PLUS] :: [HASH] :: more)).
Proof.
  intros f1 f2 Hu Hm Hd Hv Hp. m. rewrite valid_filter_eq in Hv. injection Hv as Hv.
  rewrite <- (PropTopic.C33_covering_exact f1 f2 Hu Hm Hd Hv Hp). split; intros H topic Ht Hw; specialize (H topic Ht).
  - rewrite valid_topic_eq, Hw in H. specialize (H eq_refl). revert H. m. auto.
  - rewrite valid_topic_eq in Hw. injection Hw as Hw. m. apply H, Hw.
Qed.
Theorem C34_source_wildcards : forall s,
  (SrcTopic.has_wildcards s = Ok true <-> In PLUS s \/ In HASH s) /\
  (SrcTopic.has_wildcards s = Ok false <-> ~ (In PLUS s \/ In HASH s)) /\
  (SrcTopic.valid_topic s = Ok true <-> ~ (In PLUS s \/ In HASH s)) /\
  (SrcTopic.valid_topic s = Ok false <-> In PLUS s \/ In HASH s).
Proof.
  intros s. rewrite has_wildcards_eq, valid_topic_eq. destruct (PropTopic.C34_has_wildcards s) as [H ->]. rewrite <- H.
  destruct (Topic.has_wildcards s); cbn [negb]; repeat split; intros; try reflexivity; try discriminate; try congruence.
Qed.
Theorem C34_source_plain_filter : forall topic filter,
  is_utf8 topic -> ~ multibyte_first topic -> ~ starts_with_dollar topic ->
  SrcTopic.has_wildcards filter = Ok false ->
  (SrcTopic.matches topic filter = Ok true <-> topic = filter).
Proof. intros topic filter Hu Hm Hd H. m. rewrite has_wildcards_eq in H. injection H as H. apply PropTopic.C34_plain_filter; assumption. Qed.

(** ** C52: `len` and the bytes written *)
Definition framed_by (r : outcome N) (out : bytes) : Prop :=
  exists k b1 bd, r = Ok k /\ out = b1 :: varint k ++ bd /\ blen bd = k.
Theorem C52_source_v4 : forall p n out, v4_memory p <= 2 ^ 63 -> v4_write 5 p [] = (Ok n, out) ->
  match p with
  | V4Mod.Connect x => framed_by (SrcV4Connect.Connect_len x) out
  | V4Mod.Publish x => framed_by (SrcV4Publish.Publish_len x) out
  | V4Mod.Subscribe x => framed_by (SrcV4Subscribe.Subscribe_len x) out
  | V4Mod.SubAck x => framed_by (SrcV4SubAck.SubAck_len x) out
  | _ => True
  end.
Proof.
  intros p n out Hm H. rewrite PropSource.v4_write_src in H by (exact Hm || lia).
  assert (G : forall r, In (r, SpecV4.declared_len p) (v4_lens p) -> (exists k, PropLen.v4_len p = Some k) -> framed_by r out).
  { intros r I [k E]. pose proof (PropSource.C66_v4_len_in_memory p _ _ I Hm) as ->. destruct (PropLen.C52_v4_len p k E) as [X _].
    destruct (X n out H) as (b1 & bd & E1 & E2). rewrite (PropLen.v4_len_declared p k E) in *. exists (SpecV4.declared_len p), b1, bd. auto. }
  destruct p; try exact I; apply G; try (left; reflexivity); eexists; reflexivity.
Qed.
Theorem C52_source_v5 : forall p n out, v5_memory p <= 2 ^ 63 -> v5_write 5 p [] = (Ok n, out) ->
  match p with
  | V5Mod.Connect x => framed_by (SrcV5Connect.Connect_len x) out
  | V5Mod.Publish x => framed_by (SrcV5Publish.Publish_len x) out
  | V5Mod.Subscribe x => framed_by (SrcV5Subscribe.Subscribe_len x) out
  | V5Mod.SubAck x => framed_by (SrcV5SubAck.SubAck_len x) out
  | V5Mod.Unsubscribe x => framed_by (SrcV5Unsubscribe.Unsubscribe_len x) out
  | V5Mod.UnsubAck x => framed_by (SrcV5UnsubAck.UnsubAck_len x) out
  | _ => True
  end.
Proof.
  intros p n out Hm H. rewrite PropSource.v5_write_src in H by (exact Hm || lia).
  assert (G : forall r, In (r, SpecV5.declared_len p) (v5_lens p) -> (exists k, PropLen.v5_len p = Some k) -> framed_by r out).
  { intros r I [k E]. pose proof (PropSource.C66_v5_len_in_memory p _ _ I Hm) as ->. destruct (PropLen.C52_v5_len p k E) as [X _].
    destruct (X n out H) as (b1 & bd & E1 & E2). rewrite (PropLen.v5_len_declared p k E) in *. exists (SpecV5.declared_len p), b1, bd. auto. }
  destruct p; try exact I; apply G; try (left; reflexivity); eexists; reflexivity.
Qed.

(** ** C53, C40: the vocabulary of the interoperability theorems (PropInterop.v) means the Rust text *)
Theorem C53_source : forall out rest max, blen (out ++ rest) < 2 ^ 63 ->
  (forall p, SpecV4.fits p -> (PropInterop.sent4 p out <-> exists n, v4_write 5 p [] = (Ok n, out))) /\
  (forall p, SpecV5.fits p -> (PropInterop.sent5 p out <-> exists n, v5_write 5 p [] = (Ok n, out))) /\
  (forall q, PropInterop.v4_gets out rest max q <-> v4_reads (out ++ rest) max = (Ok q, rest)) /\
  (forall q, PropInterop.v5_gets out rest max q <-> v5_reads (out ++ rest) max = (Ok q, rest)) /\
  (PropInterop.v4_refuses out rest max <-> exists e, v4_reads (out ++ rest) max = (Err e, rest)) /\
  (PropInterop.v5_refuses out rest max <-> exists e, v5_reads (out ++ rest) max = (Err e, rest)).
Proof.
  intros out rest max Hl. rewrite v4_reads_eq, v5_reads_eq by exact Hl. split; [|split; [|repeat split; auto]].
  - intros p Hp. rewrite PropSource.v4_write_src by (lia || apply fits4, Hp). reflexivity.
  - intros p Hp. rewrite PropSource.v5_write_src by (lia || apply fits5, Hp). reflexivity.
Qed.

(** ** C59: whole sessions *)
Section Senders.
  Context {P : Type}.
  Variables (w w' : P -> bytes -> outcome N * bytes).
  Lemma run_same ops : (forall p, In p (SpecSession.packets ops) -> forall buf, w p buf = w' p buf) ->
    SpecSession.run w ops = SpecSession.run w' ops.
  Proof.
    unfold SpecSession.run. generalize (SpecSession.mkSender (P := P) [] [] []).
    induction ops as [|[p|k] ops IH]; intros s H; [reflexivity| |]; cbn [fold_left].
    - cbn [SpecSession.step]. rewrite (H p) by (left; reflexivity). apply IH. intros q I. apply H. right. exact I.
    - apply IH. exact H.
  Qed.
  Lemma filter_same l : (forall p, In p l -> forall buf, w p buf = w' p buf) -> filter (SpecSession.succeeds w) l = filter (SpecSession.succeeds w') l.
  Proof.
    intros H. induction l as [|p l IH]; [reflexivity|]. cbn [filter]. rewrite IH by (intros q I; apply H; right; exact I).
    replace (SpecSession.succeeds w p) with (SpecSession.succeeds w' p); [reflexivity|]. unfold SpecSession.succeeds. rewrite (H p) by (left; reflexivity). reflexivity.
  Qed.
  Lemma flat_same l : (forall p, In p l -> forall buf, w p buf = w' p buf) -> flat_map (fun p => snd (w p [])) l = flat_map (fun p => snd (w' p [])) l.
  Proof.
    intros H. induction l as [|p l IH]; [reflexivity|]. cbn [flat_map]. rewrite (H p) by (left; reflexivity).
    rewrite IH by (intros q I; apply H; right; exact I). reflexivity.
  Qed.
End Senders.
Import SpecSession.
Theorem C59_source_v4_buffer : forall first ops,
  Forall (fun p => ~ SpecV4.is_connect p) (packets ops) -> Forall (fun p => v4_memory p <= 2 ^ 63) (first :: packets ops) ->
  let s := run (v4_write 5) (Send first :: ops) in
  accepted s = filter (succeeds (v4_write 5)) (first :: packets ops) /\
  transport s ++ buffer s = flat_map (fun p => snd (v4_write 5 p [])) (accepted s).
Proof.
  intros first ops Hc Hm. rewrite Forall_forall in Hm.
  assert (E : forall p, In p (first :: packets ops) -> forall buf, v4_write 5 p buf = V4Mod.write p buf).
  { intros p I buf. apply PropSource.v4_write_src; [lia|apply Hm, I]. }
  cbv zeta. rewrite (run_same _ V4Mod.write) by exact E. destruct (PropSession.C59_v4_buffer first ops Hc) as [H1 H2].
  rewrite (filter_same _ V4Mod.write) by exact E. split; [exact H1|]. rewrite (flat_same _ V4Mod.write); [exact H2|].
  rewrite H1. intros p I. apply filter_In in I as [I _]. apply E, I.
Qed.
Theorem C59_source_v5_buffer : forall first ops,
  Forall (fun p => ~ SpecV5.is_connect p) (packets ops) -> Forall (fun p => v5_memory p <= 2 ^ 63) (first :: packets ops) ->
  let s := run (v5_write 5) (Send first :: ops) in
  accepted s = filter (succeeds (v5_write 5)) (first :: packets ops) /\
  transport s ++ buffer s = flat_map (fun p => snd (v5_write 5 p [])) (accepted s).
Proof.
  intros first ops Hc Hm. rewrite Forall_forall in Hm.
  assert (E : forall p, In p (first :: packets ops) -> forall buf, v5_write 5 p buf = V5Mod.write p buf).
  { intros p I buf. apply PropSource.v5_write_src; [lia|apply Hm, I]. }
  cbv zeta. rewrite (run_same _ V5Mod.write) by exact E. destruct (PropSession.C59_v5_buffer first ops Hc) as [H1 H2].
  rewrite (filter_same _ V5Mod.write) by exact E. split; [exact H1|]. rewrite (flat_same _ V5Mod.write); [exact H2|].
  rewrite H1. intros p I. apply filter_In in I as [I _]. apply E, I.
Qed.
Theorem C59_source_v4_session : forall first ops chunks max,
  Forall (fun p => ~ SpecV4.is_connect p) (packets ops) ->
  Forall (fun p => SpecV4.typed p /\ SpecV4.short_fields p /\ SpecV4.has_payload p /\ SpecV4.canonical p /\
                   v4_memory p <= 2 ^ 63 /\ blen (SpecV4.body p) <= max) (first :: packets ops) ->
  let s := run (v4_write 5) (Send first :: ops) in
  buffer s = [] -> concat chunks = transport s -> blen (transport s) < 2 ^ 63 ->
  receive v4_reads max false (Waiting, []) chunks =
    (map Ok (filter (succeeds (v4_write 5)) (first :: packets ops)), (Waiting, [])).
Proof.
  intros first ops chunks max Hc HF.
  assert (E : forall p, In p (first :: packets ops) -> forall buf, v4_write 5 p buf = V4Mod.write p buf).
  { intros p I buf. rewrite Forall_forall in HF. apply PropSource.v4_write_src; [lia|apply HF, I]. }
  cbv zeta. rewrite (run_same _ V4Mod.write) by exact E. rewrite (filter_same _ V4Mod.write) by exact E. intros Hb Ht Hl.
  assert (Hk : bytes_ok (transport (run V4Mod.write (Send first :: ops)))).
  { destruct (PropSession.C59_v4_buffer first ops Hc) as [H1 H2]. rewrite Hb, app_nil_r in H2. rewrite H2, H1. clear - HF.
    induction HF as [|p l (A & B & _) _ IH]; [constructor|]. cbn [filter]. replace (succeeds V4Mod.write p) with (match fst (V4Mod.write p []) with Ok _ => true | _ => false end) by reflexivity.
    destruct (V4Mod.write p []) as [r o] eqn:W. cbn [fst]. destruct r as [n|e| |]; try exact IH. cbn [flat_map]. apply bytes_ok_app. split; [|exact IH].
    assert (S : exists n, fst (V4Mod.write p []) = Ok n) by (rewrite W; exists n; reflexivity). destruct (PropV4.C16_v4_exact p []) as (_ & _ & X & _); apply X in S as [S1 S2].
    assert (Hf : SpecV4.fits p) by (unfold SpecV4.fits; auto 6). destruct (PropV4.C12_v4_encoding p Hf) as [k ->]. exact (ProofV4.wire_bytes p Hf). }
  rewrite v4_receive_eq; [|apply concat_bytes_ok; rewrite Ht; exact Hk|rewrite Ht; exact Hl].
  apply PropSession.C59_v4_session; try assumption. eapply Forall_impl; [|exact HF]. intros p (A & B & C & D & _ & F). auto.
Qed.
Theorem C59_source_v5_session : forall first ops chunks max careful,
  Forall (fun p => ~ SpecV5.is_connect p) (packets ops) ->
  Forall (fun p => SpecV5.typed p /\ SpecV5.short_fields p /\ SpecV5.readable p /\ SpecV5.canonical p /\
                   v5_memory p <= 2 ^ 63 /\ blen (SpecV5.written p) <= max) (first :: packets ops) ->
  let s := run (v5_write 5) (Send first :: ops) in
  buffer s = [] -> concat chunks = transport s -> blen (transport s) < 2 ^ 63 ->
  receive v5_reads max careful (Waiting, []) chunks =
    (map Ok (filter (succeeds (v5_write 5)) (first :: packets ops)), (Waiting, [])).
Proof.
  intros first ops chunks max careful Hc HF.
  assert (E : forall p, In p (first :: packets ops) -> forall buf, v5_write 5 p buf = V5Mod.write p buf).
  { intros p I buf. rewrite Forall_forall in HF. apply PropSource.v5_write_src; [lia|apply HF, I]. }
  cbv zeta. rewrite (run_same _ V5Mod.write) by exact E. rewrite (filter_same _ V5Mod.write) by exact E. intros Hb Ht Hl.
  assert (Hk : bytes_ok (transport (run V5Mod.write (Send first :: ops)))).
  { destruct (PropSession.C59_v5_buffer first ops Hc) as [H1 H2]. rewrite Hb, app_nil_r in H2. rewrite H2, H1. clear - HF.
    induction HF as [|p l (A & B & _) _ IH]; [constructor|]. cbn [filter]. replace (succeeds V5Mod.write p) with (match fst (V5Mod.write p []) with Ok _ => true | _ => false end) by reflexivity.
    destruct (V5Mod.write p []) as [r o] eqn:W. cbn [fst]. destruct r as [n|e| |]; try exact IH. cbn [flat_map]. apply bytes_ok_app. split; [|exact IH].
    assert (S : exists n, fst (V5Mod.write p []) = Ok n) by (rewrite W; exists n; reflexivity). destruct (PropV5.C16_v5_exact p []) as (_ & _ & X & _); apply X in S as (S1 & S2 & S3).
    assert (Hf : SpecV5.fits p) by (unfold SpecV5.fits; auto 6). destruct (PropV5.C13_v5_written p Hf) as [k ->]. exact (ProofV5.wire_bytes p Hf). }
  rewrite v5_receive_eq; [|apply concat_bytes_ok; rewrite Ht; exact Hk|rewrite Ht; exact Hl].
  apply PropSession.C59_v5_session; try assumption. eapply Forall_impl; [|exact HF]. intros p (A & B & C & D & _ & F). auto.
Qed.
(** ** The cases *)
Example C03_source_case : SrcLib.check [0x30; 0x83] 1000 = Err (InsufficientBytes 1) /\
  SrcLib.check [0x30; 0x83; 1] 1000 = Err (InsufficientBytes 131) /\ SrcLib.length [0x83; 1; 7] = Ok (2, 131) /\
  SrcLib.write_remaining_length 5 131 [7] = (Ok 2, [7; 0x83; 1]).
Proof. repeat split; vm_compute; reflexivity. Qed.
Example C29_source_case : SrcLib.read_mqtt_string [0; 2; 0xC3; 0xA9; 5] = (Ok [0xC3; 0xA9], [5]) /\
  fst (SrcLib.read_mqtt_string [0; 1; 0xC3; 0xA9; 5]) = Err TopicNotUtf8.
Proof. split; vm_compute; reflexivity. Qed.
(** "a/+" covers "a/b"; "a/b" has no wildcards *)
Example C33_source_case : SrcTopic.matches [97; SLASH; PLUS] [97; SLASH; HASH] = Ok true /\
  SrcTopic.matches [97; SLASH; 98] [97; SLASH; PLUS] = Ok true /\ SrcTopic.valid_filter [97; SLASH; PLUS] = Ok true /\
  SrcTopic.has_wildcards [97; SLASH; 98] = Ok false /\ SrcTopic.matches [97; SLASH; 98] [97; SLASH; 98] = Ok true /\
  SrcTopic.matches [36; 83] [HASH] = Ok false.
Proof. repeat split; vm_compute; reflexivity. Qed.
(** a session: CONNECT, a PUBLISH that fails (QoS 1 without identifier), half of the buffer flushed, a PUBACK *)
Example C59_source_case :
  let first := SampleV4.ex_connect in
  let bad := V4Mod.Publish (V4Publish.mkPublish false AtLeastOnce false [97] 0 [1]) in
  let ops := [Send bad; Flush 10; Send (V4Mod.PubAck (V4PubAck.mkPubAck 7)); Flush 100] in
  buffer (run (v4_write 5) (Send first :: ops)) = [] /\
  accepted (run (v4_write 5) (Send first :: ops)) = [first; V4Mod.PubAck (V4PubAck.mkPubAck 7)] /\
  transport (run (v4_write 5) (Send first :: ops)) = SpecV4.wire first ++ [0x40; 2; 0; 7].
Proof. repeat split; vm_compute; reflexivity. Qed.

Print Assumptions C01_source_written.
Print Assumptions C01_source_too_long.
Print Assumptions C01_source_read_any.
Print Assumptions C03_source_lower_bound.
Print Assumptions C04_source_stable.
Print Assumptions C29_source_string.
Print Assumptions C30_source_valid.
Print Assumptions C30_source_dollar.
Print Assumptions C33_source_covering_sound.
Print Assumptions C33_source_covering_exact.
Print Assumptions C33_source_covering_order.
Print Assumptions C34_source_wildcards.
Print Assumptions C34_source_plain_filter.
Print Assumptions C52_source_v4.
Print Assumptions C52_source_v5.
Print Assumptions C53_source.
Print Assumptions C59_source_v4_buffer.
Print Assumptions C59_source_v5_buffer.
Print Assumptions C59_source_v4_session.
Print Assumptions C59_source_v5_session.

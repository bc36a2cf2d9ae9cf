(** PropSourceV4.v -- what the Rust text of the 3.1.1 module does with every stream and every
    packet: the theorems of PropV4.v, PropSize.v, PropSession.v and PropStandard.v said of the
    mechanical translation ([v4_reads], [v4_write], SpecSource.v). *)
From Verif Require Import Base Lib SpecWire SpecFrame SpecRelease ProofBase ProofLib SpecV4 V4Mod SpecSource PropSourceStream ProofSrcFits.
From Verif Require ProofSrcBase ProofV4 PropV4 PropV5Props PropSize PropSession SpecSession PropStandard SpecStd311 PropSource PropLen SampleV4.

(** the results of the writer are those of the model for everything that fits a frame *)
Local Lemma wsrc p buf : fits p -> v4_write 5 p buf = V4Mod.write p buf.
Proof. intros H. apply PropSource.v4_write_src; [lia|apply fits4, H]. Qed.
Local Ltac go H := intros; rewrite ?v4_reads_eq in * by (assumption || lia); rewrite ?wsrc in * by assumption; eapply H; eassumption.

Local Lemma wire_small p rest : fits p -> blen rest < 2 ^ 62 -> blen (wire p ++ rest) < 2 ^ 63.
Proof.
  intros (_ & _ & _ & H) Hr. rewrite blen_app. unfold wire, frame. rewrite blen_cons, blen_app. pose proof (varint_len_bound (blen (body p))). unfold max_len in H. lia.
Qed.
Local Lemma written_is p n out : fits p -> v4_write 5 p [] = (Ok n, out) -> out = wire p.
Proof. intros Hp H. rewrite wsrc in H by exact Hp. destruct (PropV4.C12_v4_encoding p Hp) as [k E]. rewrite E in H. injection H as _ <-. reflexivity. Qed.

(** ** C05: the limit is enforced before the body is looked at *)
Theorem C05_source_v4_limit_rejects : forall b1 f n r max,
  bytes_ok (b1 :: f ++ r) -> blen (b1 :: f ++ r) < 2 ^ 63 -> lenfield f n -> blen f <= 4 -> max < n ->
  v4_reads (b1 :: f ++ r) max = (Err (PayloadSizeLimitExceeded n), b1 :: f ++ r).
Proof. go PropV4.C05_v4_limit_rejects. Qed.
Theorem C05_source_v4_limit_respected : forall s max r rest, bytes_ok s -> blen s < 2 ^ 63 ->
  v4_reads s max = (r, rest) -> rest <> s ->
  exists b1 bd, starts_with_frame s b1 bd rest /\ blen bd <= max.
Proof. go PropV4.C05_v4_limit_respected. Qed.

(** ** C08, C09: one frame at a time *)
Theorem C08_source_v4_consumes_one_frame : forall s max, bytes_ok s -> blen s < 2 ^ 63 ->
  match SrcLib.check s max with
  | Ok h => exists fr, s = fr ++ snd (v4_reads s max) /\ blen fr = fixed_header_len h + remaining_len h
  | Err e => v4_reads s max = (Err e, s)
  | Panic | Diverge => False
  end.
Proof. intros. rewrite ProofSrcBase.check_eq, v4_reads_eq by assumption. apply PropV4.C08_v4_consumes_one_frame. assumption. Qed.
Theorem C09_source_v4_frame_isolation : forall s max h fr rest rest',
  bytes_ok s -> bytes_ok rest' -> blen s < 2 ^ 63 -> blen (fr ++ rest') < 2 ^ 63 -> SrcLib.check s max = Ok h ->
  s = fr ++ rest -> blen fr = fixed_header_len h + remaining_len h ->
  snd (v4_reads s max) = rest /\ v4_reads (fr ++ rest') max = (fst (v4_reads s max), rest').
Proof.
  intros s max h fr rest rest' Hb Hb' Hl Hl' Hc E F. rewrite ProofSrcBase.check_eq in Hc. rewrite !v4_reads_eq by assumption.
  eapply PropV4.C09_v4_frame_isolation; eassumption.
Qed.

(** ** C10: "more bytes needed" leaves the stream alone, and so does nothing else *)
Theorem C10_source_v4_insufficient : forall s max n s', bytes_ok s -> blen s < 2 ^ 63 ->
  v4_reads s max = (Err (InsufficientBytes n), s') -> s' = s /\ SrcLib.check s max = Err (InsufficientBytes n).
Proof. intros s max n s' Hb Hl H. rewrite ProofSrcBase.check_eq. rewrite v4_reads_eq in H by assumption. eapply PropV4.C10_v4_insufficient_keeps_stream; eassumption. Qed.

(** ** C18: what is read back when the packet is not in canonical form, or has an empty payload *)
Theorem C18_source_v4_canonical : forall p rest max,
  fits p -> has_payload p -> bytes_ok rest -> blen (body p) <= max -> blen rest < 2 ^ 62 ->
  exists n out, v4_write 5 p [] = (Ok n, out) /\ v4_reads (out ++ rest) max = (Ok (canon p), rest).
Proof.
  intros p rest max Hp Hy Hr Hx Hl. destruct (PropV4.C18_v4_round_trip p rest max Hp Hy Hr Hx) as (n & out & H1 & H2).
  rewrite <- (wsrc p []) in H1 by exact Hp. exists n, out. split; [exact H1|]. rewrite (written_is p n out Hp H1) in *.
  rewrite v4_reads_eq; [exact H2|]. apply wire_small; assumption.
Qed.
Theorem C18_source_v4_empty_payload : forall p rest max,
  fits p -> ~ has_payload p -> bytes_ok rest -> blen (body p) <= max -> blen rest < 2 ^ 62 ->
  exists n out e, v4_write 5 p [] = (Ok n, out) /\ v4_reads (out ++ rest) max = (Err e, rest) /\
    e = match p with Subscribe _ => EmptySubscription | _ => MalformedPacket end.
Proof.
  intros p rest max Hp Hy Hr Hx Hl. destruct (PropV4.C18_v4_empty_payload_rejected p rest max Hp Hy Hr Hx) as (e & H2 & H3).
  destruct (PropV4.C12_v4_encoding p Hp) as [n H1]. exists n, (wire p), e. rewrite wsrc by exact Hp. split; [exact H1|].
  rewrite v4_reads_eq; [split; assumption|]. apply wire_small; assumption.
Qed.

(** ** C20: encodings do not run into each other *)
Theorem C20_source_v4_prefix_free : forall p q r r' n m out out',
  fits p -> fits q -> has_payload p -> has_payload q -> canonical p -> canonical q ->
  v4_write 5 p [] = (Ok n, out) -> v4_write 5 q [] = (Ok m, out') ->
  bytes_ok r -> bytes_ok r' -> out ++ r = out' ++ r' -> p = q /\ r = r'.
Proof.
  intros p q r r' n m out out' Hp Hq P1 P2 C1 C2 W1 W2 Hr Hr' E.
  apply (written_is p n out Hp) in W1. apply (written_is q m out' Hq) in W2. subst. eapply PropV4.C20_v4_prefix_free; eassumption.
Qed.
Theorem C20_source_v4_proper_prefix_waits : forall p n out pre suf max,
  fits p -> blen (body p) <= max -> v4_write 5 p [] = (Ok n, out) -> out = pre ++ suf -> suf <> [] ->
  exists n, v4_reads pre max = (Err (InsufficientBytes n), pre) /\ 1 <= n /\ n <= blen suf.
Proof.
  intros p k out pre suf max Hp Hx W E Hs. apply (written_is p k out Hp) in W. subst out.
  assert (blen pre < 2 ^ 63).
  { pose proof (wire_small p [] Hp) as H. rewrite app_nil_r, E, blen_app in H. cbn [blen] in H. specialize (H eq_refl). lia. }
  rewrite v4_reads_eq by assumption. eapply PropV4.C20_v4_proper_prefix_waits; eassumption.
Qed.

(** ** C25, C27: what comes out of the decoder *)
Theorem C25_source_v4_well_formed : forall s max p rest, bytes_ok s -> blen s < 2 ^ 63 -> v4_reads s max = (Ok p, rest) ->
  fits p /\ has_payload p /\ canonical p /\ exists b1 t, s = b1 :: t /\ b1 / 16 = kind p.
Proof. go PropV4.C25_v4_well_formed. Qed.
Theorem C27_source_v4_reencode : forall s max p rest, bytes_ok s -> blen s < 2 ^ 63 -> v4_reads s max = (Ok p, rest) ->
  exists n out, v4_write 5 p [] = (Ok n, out) /\ blen out + blen rest <= blen s /\
    forall rest', bytes_ok rest' -> blen rest' < 2 ^ 62 -> v4_reads (out ++ rest') max = (Ok p, rest').
Proof.
  intros s max p rest Hb Hl H. rewrite v4_reads_eq in H by exact Hl.
  destruct (PropV4.C25_v4_well_formed s max p rest Hb H) as (Hp & _).
  destruct (PropV4.C27_v4_reencode s max p rest Hb H) as (n & out & H1 & H2 & H3). rewrite <- wsrc in H1 by exact Hp.
  exists n, out. split; [exact H1|]. split; [exact H2|]. intros rest' Hr Hl'. rewrite v4_reads_eq; [apply H3, Hr|].
  rewrite (written_is p n out Hp H1). apply wire_small; assumption.
Qed.

(** ** C41: over-long fields *)
Theorem C41_source_v4_exact : forall p, typed p -> has_id p -> blen (body p) <= max_len -> ~ short_fields p ->
  exists n out, v4_write 5 p [] = (Ok n, out) /\
    forall s max q rest, bytes_ok s -> blen s < 2 ^ 63 -> v4_reads s max = (Ok q, rest) -> q <> p /\ q <> canon p.
Proof.
  intros p H1 H2 H3 H4. destruct (PropV5Props.C41_v4_exact p H1 H2 H3 H4) as (n & out & W & R).
  rewrite <- (PropSource.v4_write_src 5 p []) in W by (lia || apply small4, H3). exists n, out. split; [exact W|].
  intros s max q rest Hb Hl H. rewrite v4_reads_eq in H by exact Hl. eapply R; eassumption.
Qed.

(** ** C43, C44, C46: the accepted language, empty bodies, progress *)
Theorem C43_source_v4_language : forall s max p rest, bytes_ok s -> blen s < 2 ^ 63 ->
  (v4_reads s max = (Ok p, rest) <->
   exists b1 bd, starts_with_frame s b1 bd rest /\ blen bd <= max /\ decodes_body b1 bd p).
Proof. intros. rewrite v4_reads_eq by assumption. apply PropV4.C43_v4_language. assumption. Qed.
Theorem C43_source_v4_rest_rejected : forall s b1 bd rest max, bytes_ok s -> blen s < 2 ^ 63 ->
  starts_with_frame s b1 bd rest -> blen bd <= max -> (forall p, ~ decodes_body b1 bd p) ->
  exists e, v4_reads s max = (Err e, rest).
Proof. go PropV4.C43_v4_rest_rejected. Qed.
Theorem C44_source_v4_zero_length : forall b1 f rest max, bytes_ok (b1 :: f ++ rest) -> blen (b1 :: f ++ rest) < 2 ^ 63 ->
  lenfield f 0 -> blen f <= 4 -> v4_reads (b1 :: f ++ rest) max = (zero_length_result b1, rest).
Proof. go PropV4.C44_v4_zero_length. Qed.
Theorem C46_source_v4_progress : forall s max p rest, bytes_ok s -> blen s < 2 ^ 63 -> v4_reads s max = (Ok p, rest) ->
  2 + blen rest <= blen s.
Proof. go PropV4.C46_v4_progress. Qed.
Theorem C46_source_v4_stuck : forall s max e t, bytes_ok (s ++ t) -> blen (s ++ t) < 2 ^ 63 -> v4_reads s max = (Err e, s) ->
  (forall n, e <> InsufficientBytes n) -> v4_reads (s ++ t) max = (Err e, s ++ t).
Proof.
  intros s max e t Hb Hl H Hn. pose proof Hl as Hl'. rewrite blen_app in Hl'. rewrite v4_reads_eq in * by lia.
  eapply PropV4.C46_v4_stuck; eassumption.
Qed.

(** ** C56, C57: sizes and limits *)
Theorem C56_source_v4_no_amplification : forall s max p rest, bytes_ok s -> blen s < 2 ^ 63 ->
  v4_reads s max = (Ok p, rest) -> PropSize.held4 p <= max /\ PropSize.held4 p + 2 + blen rest <= blen s.
Proof. go PropSize.C56_v4_no_amplification. Qed.
Theorem C57_source_v4_limits : forall s max max', bytes_ok s -> blen s < 2 ^ 63 ->
  ((forall n, PropSession.declares s n -> n <= max /\ n <= max') -> v4_reads s max = v4_reads s max') /\
  (forall n, PropSession.declares s n -> max < n -> v4_reads s max = (Err (PayloadSizeLimitExceeded n), s)) /\
  (max <= max' -> forall p rest, v4_reads s max = (Ok p, rest) -> v4_reads s max' = (Ok p, rest)).
Proof.
  intros s max max' Hb Hl. rewrite !v4_reads_eq by exact Hl. split; [|split].
  - intros H. apply PropSession.C57_v4_same_under_every_limit; assumption.
  - intros n H H'. apply PropSession.C57_v4_over_limit; assumption.
  - intros H. destruct (PropSession.C57_monotone s max max' Hb H) as [X _]. exact X.
Qed.

(** ** C60, C61: the standard *)
Theorem C60_source_v4_leniency : forall s max p rest b1 bd, bytes_ok s -> blen s < 2 ^ 63 ->
  v4_reads s max = (Ok p, rest) -> starts_with_frame s b1 bd rest ->
  (exists m, SpecStd311.conforms m /\ b1 = SpecStd311.header_byte m /\ bd = SpecStd311.content m /\
     p = SpecStd311.as_packet m /\ ~ SpecStd311.deviates b1 bd p) \/
  (SpecStd311.deviates b1 bd p /\ ~ SpecStd311.standard_frame b1 bd).
Proof. go PropStandard.C60_v4_leniency_exact. Qed.
Theorem C60_source_v4_binary_password : forall cl ka id w u pw s rest max, bytes_ok s -> blen s < 2 ^ 63 ->
  let m := SpecStd311.M_CONNECT cl ka id w u (Some pw) in
  SpecStd311.conforms m -> starts_with_frame s (SpecStd311.header_byte m) (SpecStd311.content m) rest ->
  blen (SpecStd311.content m) <= max ->
  ~ is_string pw -> v4_reads s max = (Err TopicNotUtf8, rest).
Proof. intros. rewrite v4_reads_eq by assumption. eapply PropStandard.C60_v4_binary_password_refused; eassumption. Qed.
Theorem C61_source_v4_writes_standard : forall p n out, fits p -> v4_write 5 p [] = (Ok n, out) ->
  (SpecStd311.standard_value p <->
   exists b1 bd, SpecStd311.standard_frame b1 bd /\ blen bd <= max_len /\ out = frame b1 bd).
Proof. intros p n out Hp H. rewrite wsrc in H by exact Hp. eapply PropStandard.C61_v4_writes_standard; eassumption. Qed.

(** ** The cases *)
(** a stream with a packet that is accepted, one that is refused, one that is incomplete, one over the limit *)
Example C43_source_case :
  let s := [0x40; 2; 0; 7; 0x90; 3; 0; 9] in
  bytes_ok s /\ blen s < 2 ^ 63 /\
  v4_reads s 10 = (Ok (PubAck (V4PubAck.mkPubAck 7)), [0x90; 3; 0; 9]) /\
  starts_with_frame s 0x40 [0; 7] [0x90; 3; 0; 9] /\
  v4_reads [0x90; 3; 0; 9] 10 = (Err (InsufficientBytes 1), [0x90; 3; 0; 9]) /\
  v4_reads [0x90; 3; 0; 9; 7; 1] 10 = (Err (InvalidSubscribeReasonCode 7), [1]) /\
  v4_reads [0x90; 3; 0; 9; 7; 1] 2 = (Err (PayloadSizeLimitExceeded 3), [0x90; 3; 0; 9; 7; 1]) /\
  PropSession.declares [0x90; 3; 0; 9; 7; 1] 3.
Proof.
  cbv zeta. split; [repeat constructor|]. split; [reflexivity|]. split; [vm_compute; reflexivity|].
  split; [exists [2]; repeat split; try discriminate; apply lf_last; reflexivity|].
  split; [vm_compute; reflexivity|]. split; [vm_compute; reflexivity|]. split; [vm_compute; reflexivity|].
  exists 0x90, [3], [0; 9; 7; 1]. repeat split; try discriminate. apply lf_last. reflexivity.
Qed.
Example C20_source_case : fits SampleV4.ex_subscribe /\ has_payload SampleV4.ex_subscribe /\ canonical SampleV4.ex_subscribe /\
  (exists n, v4_write 5 SampleV4.ex_subscribe [] = (Ok n, wire SampleV4.ex_subscribe)) /\
  v4_reads (wire SampleV4.ex_subscribe ++ [1]) 20 = (Ok SampleV4.ex_subscribe, [1]) /\
  v4_reads (firstn 5 (wire SampleV4.ex_subscribe)) 20 = (Err (InsufficientBytes 10), firstn 5 (wire SampleV4.ex_subscribe)).
Proof.
  split; [exact SampleV4.ex_subscribe_fits|]. split; [discriminate|]. split; [exact I|].
  split; [eexists; vm_compute; reflexivity|]. split; vm_compute; reflexivity.
Qed.

Print Assumptions C05_source_v4_limit_rejects.
Print Assumptions C05_source_v4_limit_respected.
Print Assumptions C08_source_v4_consumes_one_frame.
Print Assumptions C09_source_v4_frame_isolation.
Print Assumptions C10_source_v4_insufficient.
Print Assumptions C18_source_v4_canonical.
Print Assumptions C18_source_v4_empty_payload.
Print Assumptions C20_source_v4_prefix_free.
Print Assumptions C20_source_v4_proper_prefix_waits.
Print Assumptions C25_source_v4_well_formed.
Print Assumptions C27_source_v4_reencode.
Print Assumptions C41_source_v4_exact.
Print Assumptions C43_source_v4_language.
Print Assumptions C43_source_v4_rest_rejected.
Print Assumptions C44_source_v4_zero_length.
Print Assumptions C46_source_v4_progress.
Print Assumptions C46_source_v4_stuck.
Print Assumptions C56_source_v4_no_amplification.
Print Assumptions C57_source_v4_limits.
Print Assumptions C60_source_v4_leniency.
Print Assumptions C60_source_v4_binary_password.
Print Assumptions C61_source_v4_writes_standard.

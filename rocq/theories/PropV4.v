(** PropV4.v -- property theorems about the v4 module.  `read` and `write` are the
    model of src/v4 (V4Mod); `wire`, `fits`, `canon`, `decodes_body`, ... are the
    specification of SpecV4. *)
From Verif Require Import ProofBase Lib ProofLib SpecFrame ProofCheck ProofRead SpecStream ProofStream
  SpecV4 ProofV4Write ProofV4Read ProofV4 SampleV4.

(** ** C05: the size limit *)
Theorem C05_v4_limit_rejects : forall b1 f n r max,
  bytes_ok (b1 :: f ++ r) -> lenfield f n -> blen f <= 4 -> max < n ->
  read (b1 :: f ++ r) max = (Err (PayloadSizeLimitExceeded n), b1 :: f ++ r).
Proof.
  intros b1 f n r max Hb Hf Hl Hm. apply read_no_frame. apply check_iff; [exact Hb|].
  eapply v_limit; eauto.
Qed.
Theorem C05_v4_limit_respected : forall s max r rest, bytes_ok s ->
  read s max = (r, rest) -> rest <> s ->
  exists b1 bd, starts_with_frame s b1 bd rest /\ blen bd <= max.
Proof.
  intros s max r rest Hb H Hne.
  destruct (g_cases read_frame s max Hb) as [e _ E|b1 f bd rest' Es Hf Hl Hm _ _ _ _ _ E];
    rewrite read_gread, E in H; injection H as <- <-.
  - contradiction.
  - exists b1, bd. split; [exists f; auto|exact Hm].
Qed.
Theorem C05_v4_no_packet_over_limit : forall s max p rest, bytes_ok s ->
  read s max = (Ok p, rest) ->
  exists b1 bd, starts_with_frame s b1 bd rest /\ blen bd <= max.
Proof.
  intros s max p rest Hb H. apply read_iff in H as (b1 & bd & H1 & H2 & _); eauto.
Qed.
Example C05_v4_case : lenfield [200; 1] 200 /\ read [0x30; 200; 1] 199 = (Err (PayloadSizeLimitExceeded 200), [0x30; 200; 1]).
Proof.
  split; [|reflexivity]. change 200 with (72 + 128 * 1) at 2. change 200 with (128 + 72).
  repeat constructor; lia.
Qed.

(** ** C06: no panic, termination *)
Theorem C06_v4_total : forall s max, bytes_ok s ->
  (exists p, fst (read s max) = Ok p) \/ (exists e, fst (read s max) = Err e).
Proof.
  intros s max Hb.
  destruct (g_cases read_frame s max Hb) as [e _ E|b1 f bd rest _ _ _ _ Hb1 Hbf Hbd _ _ E];
    rewrite read_gread, E; cbn [fst]; [eauto|].
  assert (Hs := frame_sound b1 (b1 :: f) bd Hb1 Hbd). unfold hd in Hs. cbn [app] in Hs.
  rewrite blen_cons in Hs. unfold rframe.
  destruct (read_frame _ _) as [p|e| |]; eauto; contradiction.
Qed.
Example C06_v4_case : read [0x82; 5; 0; 1; 255; 255; 0] 10 = (Err (BoundaryCrossed 65535), []).
Proof. reflexivity. Qed.

(** ** C08: exactly one frame is consumed *)
Theorem C08_v4_consumes_one_frame : forall s max, bytes_ok s ->
  match check s max with
  | Ok h => exists fr, s = fr ++ snd (read s max) /\ blen fr = fixed_header_len h + remaining_len h
  | Err e => read s max = (Err e, s)
  | Panic | Diverge => False
  end.
Proof.
  intros s max Hb.
  destruct (g_cases read_frame s max Hb) as [e Hc E|b1 f bd rest Es _ _ _ _ _ _ _ Hc E];
    rewrite Hc, read_gread, E; [reflexivity|].
  exists (b1 :: f ++ bd). cbn [snd fixed_header_len remaining_len]. split.
  - rewrite Es. cbn [app]. rewrite <- app_assoc. reflexivity.
  - autorewrite with blen. lia.
Qed.
Example C08_v4_case : read (0x40 :: 2 :: 0 :: 7 :: [1; 2; 3]) 10 = (Ok (PubAck (V4PubAck.mkPubAck 7)), [1; 2; 3]) /\
  read (0x40 :: 1 :: 7 :: [1; 2; 3]) 10 = (Err MalformedPacket, [1; 2; 3]).
Proof. split; reflexivity. Qed.

(** ** C09: frame isolation *)
Theorem C09_v4_frame_isolation : forall s max h fr rest rest',
  bytes_ok s -> bytes_ok rest' -> check s max = Ok h ->
  s = fr ++ rest -> blen fr = fixed_header_len h + remaining_len h ->
  snd (read s max) = rest /\ read (fr ++ rest') max = (fst (read s max), rest').
Proof.
  intros s max h fr rest rest' Hb Hb' Hc Es Hlen.
  destruct (g_cases read_frame s max Hb) as [e Hc' _|b1 f bd rest0 Es' Hf Hl Hm Hb1 Hbf Hbd Hr Hc' E];
    rewrite Hc' in Hc; [discriminate|]. injection Hc as <-. cbn [fixed_header_len remaining_len] in Hlen.
  rewrite read_gread, E. cbn [fst snd].
  assert (Hsplit : fr = b1 :: f ++ bd /\ rest = rest0).
  { assert (Heq : fr ++ rest = (b1 :: f ++ bd) ++ rest0)
      by (rewrite <- Es, Es'; cbn [app]; rewrite <- app_assoc; reflexivity).
    assert (Hll : List.length fr = List.length (b1 :: f ++ bd)).
    { rewrite <- !to_nat_blen. f_equal. rewrite Hlen. autorewrite with blen. lia. }
    apply (f_equal (firstn (List.length fr))) in Heq as H1.
    rewrite firstn_app_exact in H1 by reflexivity. rewrite firstn_app_exact in H1 by exact Hll.
    subst fr. apply app_inv_head in Heq. auto. }
  destruct Hsplit as [-> ->]. split; [reflexivity|].
  replace ((b1 :: f ++ bd) ++ rest') with (b1 :: f ++ bd ++ rest') by (cbn [app]; rewrite <- app_assoc; reflexivity).
  rewrite read_gread. apply g_frame; auto.
  apply bytes_ok_cons. split; [assumption|]. apply bytes_ok_app. split; [assumption|]. apply bytes_ok_app. auto.
Qed.
Example C09_v4_case : exists h, check [0x40; 2; 0; 7; 99] 10 = Ok h /\ fixed_header_len h + remaining_len h = 4.
Proof. eexists; split; reflexivity. Qed.

(** ** C10 *)
Theorem C10_v4_insufficient_keeps_stream : forall s max n s', bytes_ok s ->
  read s max = (Err (InsufficientBytes n), s') -> s' = s /\ check s max = Err (InsufficientBytes n).
Proof.
  intros s max n s' Hb H.
  destruct (g_cases read_frame s max Hb) as [e Hc E|b1 f bd rest _ _ _ _ Hb1 Hbf Hbd _ _ E];
    rewrite read_gread, E in H.
  - injection H as -> <-. auto.
  - injection H as H _. exfalso.
    assert (Hs := frame_sound b1 (b1 :: f) bd Hb1 Hbd). unfold hd in Hs. cbn [app] in Hs.
    rewrite blen_cons in Hs. unfold rframe in H. rewrite H in Hs. exact (Hs n eq_refl).
Qed.
Example C10_v4_case : read [0x82; 5; 0; 1] 10 = (Err (InsufficientBytes 3), [0x82; 5; 0; 1]).
Proof. reflexivity. Qed.

(** ** C12: the writers emit the MQTT 3.1.1 encoding *)
Theorem C12_v4_encoding : forall p, fits p ->
  exists n, write p [] = (Ok n, wire p).
Proof.
  intros p (_ & _ & Hi & Hl). destruct (write_empty p Hl Hi) as [H1 [n H2]]. exists n.
  destruct (write p []) as [r out]. cbn [fst snd] in *. congruence.
Qed.
Example C12_v4_case : fits ex_connect /\
  wire ex_connect = [0x10; 0x1A; 0; 4; 77; 81; 84; 84; 4; 0xAE; 1; 44; 0; 2; 99; 49; 0; 3; 119; 47; 116; 0; 2; 222; 173; 0; 1; 117].
Proof. split; [apply ex_connect_fits|reflexivity]. Qed.

(** ** C14: writers append *)
(** every packet except CONNECT, successful or not *)
Theorem C14_v4_append_except_connect : forall p, ~ is_connect p ->
  exists r out, forall buf, write p buf = (r, buf ++ out).
Proof. exact write_appends. Qed.
(** CONNECT appends a frame whose flags byte only carries the clean-session bit and
    then overwrites the byte at a fixed index from the start of the buffer *)
Theorem C14_v4_connect_exact : forall c buf, blen (body (Connect c)) <= max_len ->
  write (Connect c) buf =
    (Ok (blen (body (Connect c))),
     overwrite (8 + blen (varint (blen (body (Connect c))))) (connect_flags c)
       (buf ++ frame 0x10 (connect_body_with (2 * bit (V4Connect.clean_session c)) c))).
Proof. exact connect_write_general. Qed.
(** so it corrupts data already in the buffer *)
Theorem C14_v4_refuted : exists p buf, fits p /\ bytes_ok buf /\
  (exists n, fst (write p buf) = Ok n) /\ forall out, snd (write p buf) <> buf ++ out.
Proof.
  exists ex_connect, (repeat 7 20). split; [apply ex_connect_fits|]. split; [repeat constructor|].
  split; [eexists; vm_compute; reflexivity|]. intros out.
  replace (snd (write ex_connect (repeat 7 20))) with
    (repeat 7 9 ++ 174 :: repeat 7 10 ++ frame 0x10 (connect_body_with 2
       (match ex_connect with Connect c => c | _ => V4Connect.new [] end)))
    by (vm_compute; reflexivity).
  vm_compute. discriminate.
Qed.
(** ... and even a frame appended behind earlier data is itself wrong *)
Theorem C14_v4_connect_frame_refuted : exists c buf, fits (Connect c) /\ bytes_ok buf /\
  (exists n, fst (write (Connect c) buf) = Ok n) /\
  forall pre, blen pre = blen buf -> snd (write (Connect c) buf) <> pre ++ wire (Connect c).
Proof.
  destruct ex_connect as [c| | | | | | | | | | | | |] eqn:E; try discriminate.
  exists c, (repeat 7 20). rewrite <- E. split; [apply ex_connect_fits|]. split; [repeat constructor|].
  split; [eexists; vm_compute; reflexivity|]. intros pre Hpre H.
  assert (H1 : skipn 20 (snd (write ex_connect (repeat 7 20))) = wire ex_connect).
  { rewrite H. apply skipn_app_exact. change (blen (repeat 7 20)) with 20 in Hpre. unfold blen in Hpre. lia. }
  vm_compute in H1. discriminate.
Qed.

(** ** C15: the returned size *)
Theorem C15_v4_size_except_connect : forall p buf n buf', ~ is_connect p ->
  write p buf = (Ok n, buf') -> blen buf' = blen buf + n.
Proof. exact write_size. Qed.
(** CONNECT returns the remaining length instead *)
Theorem C15_v4_connect_exact : forall c buf n buf', write (Connect c) buf = (Ok n, buf') ->
  n = blen (body (Connect c)) /\ blen buf' = blen buf + 1 + blen (varint n) + n.
Proof. exact connect_size. Qed.
Theorem C15_v4_refuted : exists p n out, fits p /\ write p [] = (Ok n, out) /\ n <> blen out.
Proof.
  exists ex_connect. eexists. eexists. split; [apply ex_connect_fits|].
  split; [vm_compute; reflexivity|]. vm_compute. discriminate.
Qed.
Example C15_v4_case : ~ is_connect ex_publish /\ exists n out, write ex_publish [9] = (Ok n, 9 :: out) /\ n = 12.
Proof. split; [exact (fun H => H)|]. eexists; eexists; split; [vm_compute; reflexivity|]. vm_compute. reflexivity. Qed.

(** ** C16: when and how writes fail *)
Theorem C16_v4_exact : forall p buf,
  (fst (write p buf) = Err PayloadTooLong <-> max_len < declared_len p) /\
  (fst (write p buf) = Err PacketIdZero <-> declared_len p <= max_len /\ ~ has_id p) /\
  ((exists n, fst (write p buf) = Ok n) <-> blen (body p) <= max_len /\ has_id p) /\
  (fst (write p buf) = Err PayloadTooLong \/ fst (write p buf) = Err PacketIdZero \/
   exists n, fst (write p buf) = Ok n).
Proof. exact write_outcome. Qed.
Example C16_v4_case :
  let p := Publish (V4Publish.mkPublish false AtLeastOnce false [97] 0 []) in
  declared_len p <= max_len /\ ~ has_id p.
Proof. split; [vm_compute; discriminate|]. cbn. intros H. apply H; reflexivity. Qed.

(** ** C17: a failed write leaves part of the packet in the buffer *)
Theorem C17_v4_exact : forall p buf e buf', write p buf = (Err e, buf') ->
  (e = PayloadTooLong /\ max_len < declared_len p /\ buf' = buf ++ [first_byte p]) \/
  (e = PacketIdZero /\ ~ has_id p /\ buf' = buf ++ id_zero_output p).
Proof. exact write_failed. Qed.
(** every failing write, so the property fails whenever it applies *)
Theorem C17_v4_always_dirty : forall p buf e buf', write p buf = (Err e, buf') ->
  exists out, out <> [] /\ buf' = buf ++ out.
Proof. exact write_failed_dirty. Qed.
Theorem C17_v4_refuted : exists p e buf', typed p /\ write p [] = (Err e, buf') /\ buf' <> [].
Proof.
  exists (Publish (V4Publish.mkPublish false AtLeastOnce false [97] 0 [])). eexists; eexists.
  split; [repeat split; try (apply ProofUtf8.utf8_ok_spec; reflexivity); repeat constructor|].
  split; [vm_compute; reflexivity|discriminate].
Qed.

(** ** C18: round trip *)
Theorem C18_v4_round_trip : forall p rest max,
  fits p -> has_payload p -> bytes_ok rest -> blen (body p) <= max ->
  exists n out, write p [] = (Ok n, out) /\ read (out ++ rest) max = (Ok (canon p), rest).
Proof.
  intros p rest max Hf Hp Hr Hm. destruct (C12_v4_encoding p Hf) as [n Hn].
  exists n, (wire p). split; [exact Hn|]. apply read_wire; assumption.
Qed.
(** the packet itself comes back when it carries no redundant information *)
Theorem C18_v4_round_trip_identity : forall p rest max,
  fits p -> has_payload p -> canonical p -> bytes_ok rest -> blen (body p) <= max ->
  exists n out, write p [] = (Ok n, out) /\ read (out ++ rest) max = (Ok p, rest).
Proof.
  intros p rest max Hf Hp Hc Hr Hm.
  destruct (C18_v4_round_trip p rest max Hf Hp Hr Hm) as (n & out & H1 & H2).
  rewrite (canonical_canon p Hc) in H2. eauto.
Qed.
(** without a payload SUBSCRIBE and SUBACK are written but rejected on reading *)
Theorem C18_v4_empty_payload_rejected : forall p rest max,
  fits p -> ~ has_payload p -> bytes_ok rest -> blen (body p) <= max ->
  exists e, read (wire p ++ rest) max = (Err e, rest) /\
    e = match p with Subscribe _ => EmptySubscription | _ => MalformedPacket end.
Proof. exact empty_payload_rejected. Qed.
Example C18_v4_case : fits ex_connect /\ has_payload ex_connect /\ canonical ex_connect /\
  (exists n out, write ex_connect [] = (Ok n, out) /\ read (out ++ [1; 2]) 100 = (Ok ex_connect, [1; 2])) /\
  ~ has_payload (Subscribe (V4Subscribe.mkSubscribe 1 [])).
Proof.
  repeat split; try apply ex_connect_fits.
  - eexists; eexists; split; [vm_compute; reflexivity|]. vm_compute. reflexivity.
  - intros H. apply H; reflexivity.
Qed.

(** ** C20: encodings are injective and prefix-free *)
Theorem C20_v4_prefix_free : forall p q r r',
  fits p -> fits q -> has_payload p -> has_payload q -> canonical p -> canonical q ->
  bytes_ok r -> bytes_ok r' -> wire p ++ r = wire q ++ r' -> p = q /\ r = r'.
Proof. exact wire_prefix_free. Qed.
Theorem C20_v4_proper_prefix_waits : forall p pre suf max,
  fits p -> blen (body p) <= max -> wire p = pre ++ suf -> suf <> [] ->
  exists n, read pre max = (Err (InsufficientBytes n), pre) /\ 1 <= n /\ n <= blen suf.
Proof. exact wire_prefix. Qed.
Example C20_v4_case : fits ex_publish /\ fits ex_subscribe /\ canonical ex_publish /\
  wire ex_publish = [0x3C; 10; 0; 3; 97; 47; 98; 2; 1; 1] ++ [2; 3].
Proof. repeat split; try apply ex_publish_fits; try apply ex_subscribe_fits; discriminate. Qed.

(** ** C22: reassembly of a written packet sequence from arbitrary chunks *)
Theorem C22_v4_reassembly : forall ps chunks max,
  Forall (fun p => fits p /\ has_payload p /\ canonical p /\ blen (body p) <= max) ps ->
  concat chunks = flat_map (fun p => snd (write p [])) ps ->
  receive read max false (Waiting, []) chunks = (map Ok ps, (Waiting, [])).
Proof.
  intros ps chunks max HF E. apply stream_packets; [exact HF|]. rewrite E.
  clear - HF. induction HF as [|p l (Hf & _) _ IH]; [reflexivity|]. cbn [flat_map]. rewrite IH. f_equal.
  destruct (C12_v4_encoding p Hf) as [n Hn]. rewrite Hn. reflexivity.
Qed.
Example C22_v4_case :
  Forall (fun p => fits p /\ has_payload p /\ canonical p /\ blen (body p) <= 100) ex_session /\
  exists a b c, concat [a; []; b; c] = flat_map (fun p => snd (write p [])) ex_session /\
    a = [0x10] /\ blen b = 40.
Proof.
  split; [exact ex_session_ok|].
  exists [0x10], (firstn 40 (skipn 1 (flat_map (fun p => snd (write p [])) ex_session))),
    (skipn 41 (flat_map (fun p => snd (write p [])) ex_session)).
  vm_compute. auto.
Qed.

(** ** C24: arbitrary bytes, arbitrary chunking *)
Theorem C24_v4_chunking_irrelevant : forall chunks chunks' max,
  Forall bytes_ok chunks -> concat chunks = concat chunks' ->
  receive read max false (Waiting, []) chunks = receive read max false (Waiting, []) chunks'.
Proof. exact stream_chunks. Qed.
(** the loop of the receiver is not cut short by its call budget: whenever it is
    waiting, `read` really asks for more bytes *)
Theorem C24_v4_receiver_exhausts : forall chunks max, Forall bytes_ok chunks ->
  match snd (receive read max false (Waiting, []) chunks) with
  | (Waiting, buf) => exists n, check buf max = Err (InsufficientBytes n)
  | (Stopped, _) => True
  end.
Proof. exact receiver_exhausts. Qed.
Example C24_v4_case :
  receive read 50 false (Waiting, []) [[0x40; 2; 0]; [7; 0x40]; [1; 7; 0xC0; 0; 0x30; 60; 1]]
  = ([Ok (PubAck (V4PubAck.mkPubAck 7)); Err MalformedPacket; Ok PingReq; Err (PayloadSizeLimitExceeded 60)],
     (Stopped, [0x30; 60; 1])).
Proof. reflexivity. Qed.

(** ** C25: what is read is well-formed *)
Theorem C25_v4_well_formed : forall s max p rest, bytes_ok s -> read s max = (Ok p, rest) ->
  fits p /\ has_payload p /\ canonical p /\
  exists b1 t, s = b1 :: t /\ b1 / 16 = kind p.
Proof. exact read_well_formed. Qed.
Example C25_v4_case : exists p, read (wire ex_subscribe) 100 = (Ok p, []).
Proof. eexists. vm_compute. reflexivity. Qed.

(** ** C27: decode / re-encode / decode *)
Theorem C27_v4_reencode : forall s max p rest, bytes_ok s -> read s max = (Ok p, rest) ->
  exists n out, write p [] = (Ok n, out) /\ blen out + blen rest <= blen s /\
    forall rest', bytes_ok rest' -> read (out ++ rest') max = (Ok p, rest').
Proof. exact reencode. Qed.
(** a non-minimal length field, trailing bytes and reserved bits do not survive *)
Example C27_v4_case :
  read [0x4F; 0x84; 0; 0; 7; 9; 9] 10 = (Ok (PubAck (V4PubAck.mkPubAck 7)), []) /\
  write (PubAck (V4PubAck.mkPubAck 7)) [] = (Ok 4, [0x40; 2; 0; 7]).
Proof. split; reflexivity. Qed.

(** ** C43: the accepted language *)
Theorem C43_v4_language : forall s max p rest, bytes_ok s ->
  (read s max = (Ok p, rest) <->
   exists b1 bd, starts_with_frame s b1 bd rest /\ blen bd <= max /\ decodes_body b1 bd p).
Proof. exact read_iff. Qed.
(** a complete frame outside the language of every packet is an error *)
Theorem C43_v4_rest_rejected : forall s b1 bd rest max, bytes_ok s ->
  starts_with_frame s b1 bd rest -> blen bd <= max -> (forall p, ~ decodes_body b1 bd p) ->
  exists e, read s max = (Err e, rest).
Proof. exact read_rejects. Qed.
Example C43_v4_case : decodes_body 0x4F [0; 7; 9; 9] (PubAck (V4PubAck.mkPubAck 7)) /\
  starts_with_frame [0x4F; 4; 0; 7; 9; 9; 1] 0x4F [0; 7; 9; 9] [1].
Proof.
  split.
  - repeat split. exists [9; 9]. reflexivity.
  - exists [4]. repeat split; [apply (lf_last 4); lia|cbv; discriminate].
Qed.

(** ** C44: frames of length zero *)
Theorem C44_v4_zero_length : forall b1 f rest max, bytes_ok (b1 :: f ++ rest) -> lenfield f 0 -> blen f <= 4 ->
  read (b1 :: f ++ rest) max = (zero_length_result b1, rest).
Proof. exact read_zero. Qed.
Example C44_v4_case : lenfield [0] 0 /\ lenfield [128; 0] 0 /\ zero_length_result 0xC5 = Ok PingReq /\
  zero_length_result 0x30 = Err PayloadRequired /\ zero_length_result 0xF3 = Err (InvalidPacketType 15).
Proof.
  repeat split; try reflexivity; [constructor; lia|].
  change 0 with (0 + 128 * 0) at 2. change 128 with (128 + 0) at 1. repeat constructor; lia.
Qed.

(** ** C46: progress or stuck *)
Theorem C46_v4_progress : forall s max p rest, bytes_ok s -> read s max = (Ok p, rest) ->
  2 + blen rest <= blen s.
Proof.
  intros s max p rest Hb H.
  destruct (g_cases read_frame s max Hb) as [e _ E|b1 f bd rest' Es Hf _ _ _ _ _ _ _ E];
    rewrite read_gread, E in H; [discriminate|]. injection H as _ <-.
  rewrite Es. assert (Hx := g_frame_len b1 f bd rest' Hf). lia.
Qed.
Theorem C46_v4_stuck : forall s max e t, bytes_ok (s ++ t) -> read s max = (Err e, s) ->
  (forall n, e <> InsufficientBytes n) -> read (s ++ t) max = (Err e, s ++ t).
Proof.
  intros s max e t Hb H Hn. assert (Hs : bytes_ok s) by (apply bytes_ok_app in Hb; apply Hb).
  destruct (g_cases read_frame s max Hs) as [e' Hc E|b1 f bd rest' Es Hf _ _ _ _ _ _ _ E];
    rewrite read_gread, E in H.
  - injection H as ->. apply read_no_frame. apply check_stable; [exact Hb|exact Hc|].
    intros n Hx. injection Hx as Hx. exact (Hn n Hx).
  - exfalso. injection H as _ H. assert (Hx := g_frame_len b1 f bd rest' Hf).
    rewrite <- Es, <- H in Hx. lia.
Qed.
Example C46_v4_case : read [0x30; 255; 255; 255; 255] 10 = (Err MalformedRemainingLength, [0x30; 255; 255; 255; 255]).
Proof. reflexivity. Qed.

Print Assumptions C05_v4_limit_rejects.
Print Assumptions C05_v4_limit_respected.
Print Assumptions C05_v4_no_packet_over_limit.
Print Assumptions C06_v4_total.
Print Assumptions C08_v4_consumes_one_frame.
Print Assumptions C09_v4_frame_isolation.
Print Assumptions C10_v4_insufficient_keeps_stream.
Print Assumptions C12_v4_encoding.
Print Assumptions C14_v4_append_except_connect.
Print Assumptions C14_v4_connect_exact.
Print Assumptions C14_v4_refuted.
Print Assumptions C14_v4_connect_frame_refuted.
Print Assumptions C15_v4_size_except_connect.
Print Assumptions C15_v4_connect_exact.
Print Assumptions C15_v4_refuted.
Print Assumptions C16_v4_exact.
Print Assumptions C17_v4_exact.
Print Assumptions C17_v4_always_dirty.
Print Assumptions C17_v4_refuted.
Print Assumptions C18_v4_round_trip.
Print Assumptions C18_v4_round_trip_identity.
Print Assumptions C18_v4_empty_payload_rejected.
Print Assumptions C20_v4_prefix_free.
Print Assumptions C20_v4_proper_prefix_waits.
Print Assumptions C22_v4_reassembly.
Print Assumptions C24_v4_chunking_irrelevant.
Print Assumptions C24_v4_receiver_exhausts.
Print Assumptions C25_v4_well_formed.
Print Assumptions C27_v4_reencode.
Print Assumptions C43_v4_language.
Print Assumptions C43_v4_rest_rejected.
Print Assumptions C44_v4_zero_length.
Print Assumptions C46_v4_progress.
Print Assumptions C46_v4_stuck.

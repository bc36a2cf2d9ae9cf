(** PropV5.v -- property theorems about the v5 module.  `read` and `write` are the
    model of src/v5 (V5Mod); `wire`, `written`, `fits`, `readable`, `canon`,
    `decodes_body`, ... are the specification of SpecV5, SpecProps, SpecPropSets. *)
From Verif Require Import ProofBase Lib ProofLib SpecFrame ProofCheck ProofRead SpecStream ProofStream
  SpecProps SpecPropSets SpecV5 SpecPlaces ProofV5Write ProofV5Read ProofV5 ProofV5Back ProofPlaces SampleV5.
From Verif Require ProofV4Read.

(** ** C05: the size limit *)
Theorem C05_v5_limit_rejects : forall b1 f n r max,
  bytes_ok (b1 :: f ++ r) -> lenfield f n -> blen f <= 4 -> max < n ->
  read (b1 :: f ++ r) max = (Err (PayloadSizeLimitExceeded n), b1 :: f ++ r).
Proof.
  intros b1 f n r max Hb Hf Hl Hm. rewrite read_gread. apply g_no_frame. apply check_iff; [exact Hb|].
  eapply v_limit; eauto.
Qed.
Theorem C05_v5_limit_respected : forall s max r rest, bytes_ok s ->
  read s max = (r, rest) -> rest <> s ->
  exists b1 bd, starts_with_frame s b1 bd rest /\ blen bd <= max.
Proof.
  intros s max r rest Hb H Hne.
  destruct (g_cases read_frame s max Hb) as [e _ E|b1 f bd rest' Es Hf Hl Hm _ _ _ _ _ E];
    rewrite read_gread, E in H; injection H as <- <-.
  - contradiction.
  - exists b1, bd. split; [exists f; auto|exact Hm].
Qed.
Theorem C05_v5_no_packet_over_limit : forall s max p rest, bytes_ok s ->
  read s max = (Ok p, rest) ->
  exists b1 bd, starts_with_frame s b1 bd rest /\ blen bd <= max.
Proof.
  intros s max p rest Hb H. apply read_iff in H as (b1 & bd & H1 & H2 & _); eauto.
Qed.
Example C05_v5_case : lenfield [200; 1] 200 /\ read [0x30; 200; 1] 199 = (Err (PayloadSizeLimitExceeded 200), [0x30; 200; 1]).
Proof.
  split; [|reflexivity]. change 200 with (72 + 128 * 1) at 2. change 200 with (128 + 72).
  repeat constructor; lia.
Qed.


(** ** C07: no panic, termination *)
Theorem C07_v5_total : forall s max, bytes_ok s ->
  (exists p, fst (read s max) = Ok p) \/ (exists e, fst (read s max) = Err e).
Proof.
  intros s max Hb.
  destruct (g_cases read_frame s max Hb) as [e _ E|b1 f bd rest _ Hf Hl _ Hb1 Hbf Hbd _ _ E];
    rewrite read_gread, E; cbn [fst]; [eauto|].
  assert (Hm : blen bd <= ProofProps.huge) by (apply ProofProps.le_huge; eapply lenfield_bound; eauto).
  assert (Hs := frame_sound b1 (b1 :: f) bd Hb1 Hbd Hm). unfold ProofV4Read.hd in Hs. cbn [app] in Hs.
  rewrite blen_cons in Hs. unfold rframe.
  destruct (read_frame _ _) as [p|e| |]; eauto; contradiction.
Qed.
Example C07_v5_case : read [0x30; 9; 0; 1; 97; 200; 1; 11; 255; 255; 255] 10 = (Err (InsufficientBytes 1), []) /\
  read [0x82; 5; 0; 1; 0; 255; 255] 10 = (Err (BoundaryCrossed 65535), []).
Proof. split; reflexivity. Qed.

(** ** C08: exactly one frame is consumed *)
Theorem C08_v5_consumes_one_frame : forall s max, bytes_ok s ->
  match check s max with
  | Ok h => exists fr, s = fr ++ snd (read s max) /\ blen fr = fixed_header_len h + remaining_len h
  | Err e => read s max = (Err e, s)
  | Panic | Diverge => False
  end.
Proof.
  intros s max Hb.
  destruct (g_cases read_frame s max Hb) as [e Hc E|b1 f bd rest Es _ _ _ _ _ _ _ Hc E];
    rewrite Hc, read_gread, E; [reflexivity|].
  exists (b1 :: f ++ bd). cbn [snd fixed_header_len remaining_len]. split.
  - rewrite Es. cbn [app]. rewrite <- app_assoc. reflexivity.
  - autorewrite with blen. lia.
Qed.
Example C08_v5_case : read (0x40 :: 3 :: 0 :: 7 :: 0x10 :: [1; 2; 3]) 10
    = (Ok (PubAck (V5PubAck.mkPubAck 7 V5PubAck.NoMatchingSubscribers None)), [1; 2; 3]) /\
  read (0x40 :: 1 :: 7 :: [1; 2; 3]) 10 = (Err MalformedPacket, [1; 2; 3]).
Proof. split; reflexivity. Qed.

(** ** C09: frame isolation *)
Theorem C09_v5_frame_isolation : forall s max h fr rest rest',
  bytes_ok s -> bytes_ok rest' -> check s max = Ok h ->
  s = fr ++ rest -> blen fr = fixed_header_len h + remaining_len h ->
  snd (read s max) = rest /\ read (fr ++ rest') max = (fst (read s max), rest').
Proof.
  intros s max h fr rest rest' Hb Hb' Hc Es Hlen.
  destruct (g_cases read_frame s max Hb) as [e Hc' _|b1 f bd rest0 Es' Hf Hl Hm Hb1 Hbf Hbd Hr Hc' E];
    rewrite Hc' in Hc; [discriminate|]. injection Hc as <-. cbn [fixed_header_len remaining_len] in Hlen.
  rewrite read_gread, E. cbn [fst snd].
  assert (Hsplit : fr = b1 :: f ++ bd /\ rest = rest0).
  { assert (Heq : fr ++ rest = (b1 :: f ++ bd) ++ rest0)
      by (rewrite <- Es, Es'; cbn [app]; rewrite <- app_assoc; reflexivity).
    assert (Hll : List.length fr = List.length (b1 :: f ++ bd)).
    { rewrite <- !to_nat_blen. f_equal. rewrite Hlen. autorewrite with blen. lia. }
    apply (f_equal (firstn (List.length fr))) in Heq as H1.
    rewrite firstn_app_exact in H1 by reflexivity. rewrite firstn_app_exact in H1 by exact Hll.
    subst fr. apply app_inv_head in Heq. auto. }
  destruct Hsplit as [-> ->]. split; [reflexivity|].
  replace ((b1 :: f ++ bd) ++ rest') with (b1 :: f ++ bd ++ rest') by (cbn [app]; rewrite <- app_assoc; reflexivity).
  rewrite read_gread. apply g_frame; auto.
  apply bytes_ok_cons. split; [assumption|]. apply bytes_ok_app. split; [assumption|]. apply bytes_ok_app. auto.
Qed.
Example C09_v5_case : exists h, check [0x40; 2; 0; 7; 99] 10 = Ok h /\ fixed_header_len h + remaining_len h = 4.
Proof. eexists; split; reflexivity. Qed.


(** ** C11: InsufficientBytes *)
(** an InsufficientBytes that does leave the stream alone is the framing verdict; one
    that does not has consumed exactly one complete frame and is InsufficientBytes(1) *)
Theorem C11_v5_insufficient_exact : forall s max n s', bytes_ok s ->
  read s max = (Err (InsufficientBytes n), s') ->
  (s' = s /\ check s max = Err (InsufficientBytes n)) \/
  (n = 1 /\ exists b1 bd, starts_with_frame s b1 bd s' /\ blen bd <= max).
Proof.
  intros s max n s' Hb H.
  destruct (g_cases read_frame s max Hb) as [e Hc E|b1 f bd rest Es Hf Hl Hm Hb1 Hbf Hbd _ _ E];
    rewrite read_gread, E in H.
  - injection H as -> <-. auto.
  - injection H as H <-. right.
    assert (Hx : blen bd <= ProofProps.huge) by (apply ProofProps.le_huge; eapply lenfield_bound; eauto).
    assert (Hs := frame_sound b1 (b1 :: f) bd Hb1 Hbd Hx). unfold ProofV4Read.hd in Hs. cbn [app] in Hs.
    rewrite blen_cons in Hs. unfold rframe in H. rewrite H in Hs. split; [exact (Hs n eq_refl)|].
    exists b1, bd. split; [exists f; auto|exact Hm].
Qed.
(** a CONNACK as the crate itself writes it, followed by a PINGRESP: the caller is told
    to wait, but the frame is gone *)
Theorem C11_v5_refuted : exists p rest s', fits p /\ ~ deviates rest /\
  read (snd (write p []) ++ snd (write rest [])) 100 = (Err (InsufficientBytes 1), s') /\
  s' = snd (write rest []) /\ s' <> snd (write p []) ++ snd (write rest []).
Proof.
  exists (ConnAck (V5ConnAck.mkConnAck false V5ConnAck.Success None)), PingResp. eexists.
  split; [sample5|]. split; [exact (fun H => H)|]. split; [vm_compute; reflexivity|]. split; [reflexivity|].
  vm_compute. discriminate.
Qed.

(** ** C13: the writers emit the MQTT 5 encoding *)
Theorem C13_v5_encoding : forall p, fits p -> ~ deviates p ->
  exists n, write p [] = (Ok n, wire p).
Proof.
  intros p Hf Hd. destruct (write_fits p Hf) as [n Hn]. exists n. rewrite Hn. f_equal.
  unfold written_wire, wire. rewrite (written_body p Hd). reflexivity.
Qed.
(** where the code deviates the output is another one: of another length *)
Theorem C13_v5_deviations_exact : forall p, fits p ->
  ((exists n, write p [] = (Ok n, wire p)) <-> ~ deviates p).
Proof.
  intros p Hf. split; [|apply C13_v5_encoding; exact Hf].
  intros [n H] Hd. destruct (write_fits p Hf) as [m Hm]. rewrite Hm in H. injection H as _ H.
  apply (written_other p Hd). unfold written_wire, wire, frame in H.
  assert (E := f_equal blen H). rewrite !blen_app in E. change (blen [first_byte p]) with 1 in E.
  destruct (N.lt_trichotomy (blen (written p)) (blen (body p))) as [Hlt|[Heq|Hlt]]; [|exact Heq|]; exfalso.
  - assert (Hv := varint_mono (blen (written p)) (blen (body p))). lia.
  - assert (Hv := varint_mono (blen (body p)) (blen (written p))). lia.
Qed.
(** what is written in every case *)
Theorem C13_v5_written : forall p, fits p -> exists n, write p [] = (Ok n, written_wire p).
Proof. exact write_fits. Qed.
Example C13_v5_case : fits ex_publish5 /\ ~ deviates ex_publish5 /\
  wire ex_publish5 = [0x3C; 41; 0; 3; 97; 47; 98; 2; 1; 30; 1; 1; 2; 0; 0; 0; 4; 8; 0; 1; 114; 9; 0; 1; 9;
    38; 0; 1; 107; 0; 0; 11; 5; 11; 172; 2; 3; 0; 1; 116; 1; 2; 3].
Proof. split; [apply ex_publish5_fits|]. split; [exact (fun H => H)|]. vm_compute. reflexivity. Qed.
Example C13_v5_case_deviates : fits ex_connect54 /\ deviates ex_connect54.
Proof. split; [apply ex_connect54_fits|reflexivity]. Qed.

(** ** C14: writers append *)
Theorem C14_v5_append_except_connect : forall p, ~ is_connect p ->
  exists r out, forall buf, write p buf = (r, buf ++ out).
Proof. exact write_appends. Qed.
(** CONNECT overwrites the byte at a fixed index from the start of the buffer *)
Theorem C14_v5_connect_exact : forall c buf, blen (written (Connect c)) <= max_len ->
  write (Connect c) buf =
    (Ok (blen (written (Connect c))),
     overwrite (8 + blen (varint (blen (written (Connect c))))) (connect_flags c)
       (buf ++ frame 0x10 (connect_body_with (2 * bit (V5Connect.clean_session c)) c))).
Proof. exact connect_write_general. Qed.
Theorem C14_v5_refuted : exists p buf, fits p /\ bytes_ok buf /\
  (exists n, fst (write p buf) = Ok n) /\ forall out, snd (write p buf) <> buf ++ out.
Proof.
  exists ex_connect5, (repeat 7 20). split; [apply ex_connect5_fits|]. split; [repeat constructor|].
  split; [eexists; vm_compute; reflexivity|]. intros out H.
  apply (f_equal (firstn 20)) in H. rewrite firstn_app_exact in H by reflexivity.
  vm_compute in H. discriminate H.
Qed.
Example C14_v5_case : ~ is_connect ex_puback5 /\
  write ex_puback5 [9; 9] = (Ok 17, [9; 9] ++ written_wire ex_puback5).
Proof. split; [exact (fun H => H)|vm_compute; reflexivity]. Qed.

(** ** C15: the returned size *)
Theorem C15_v5_size_except_connect : forall p buf n buf', ~ is_connect p ->
  write p buf = (Ok n, buf') -> blen buf' = blen buf + n.
Proof. exact write_size. Qed.
Theorem C15_v5_connect_exact : forall c buf n buf', write (Connect c) buf = (Ok n, buf') ->
  n = blen (written (Connect c)) /\ blen buf' = blen buf + 1 + blen (varint n) + n.
Proof. exact connect_size. Qed.
Theorem C15_v5_refuted : exists p n out, fits p /\ write p [] = (Ok n, out) /\ n <> blen out.
Proof.
  exists ex_connect5. eexists. eexists. split; [apply ex_connect5_fits|].
  split; [vm_compute; reflexivity|]. vm_compute. discriminate.
Qed.

(** ** C16: when and how writes fail *)
Theorem C16_v5_exact : forall p buf,
  (fst (write p buf) = Err PayloadTooLong <-> max_len < declared_len p \/ has_id p /\ ~ small_ids p) /\
  (fst (write p buf) = Err PacketIdZero <-> declared_len p <= max_len /\ ~ has_id p) /\
  ((exists n, fst (write p buf) = Ok n) <-> blen (written p) <= max_len /\ has_id p /\ small_ids p) /\
  (fst (write p buf) = Err PayloadTooLong \/ fst (write p buf) = Err PacketIdZero \/
   exists n, fst (write p buf) = Ok n).
Proof. exact write_outcome. Qed.
Definition ex_big_id5 : Packet :=
  Publish (V5Publish.mkPublish false AtMostOnce false [97] 0
    (Some (V5Publish.mkPublishProperties None None None None None [] [3; 268435456; 4] None)) [1]).
Example C16_v5_case : typed ex_big_id5 /\ has_id ex_big_id5 /\ ~ small_ids ex_big_id5 /\
  let p := Publish (V5Publish.mkPublish false AtLeastOnce false [97] 0 None []) in
  declared_len p <= max_len /\ ~ has_id p.
Proof.
  split; [sample5|]. split; [discriminate|]. split.
  { intros H. inversion_clear H as [|? ? _ H1]. inversion_clear H1 as [|? ? H2 _]. apply H2. reflexivity. }
  split; [vm_compute; discriminate|]. intros H. apply H; reflexivity.
Qed.

(** ** C17: a failed write leaves part of the packet in the buffer *)
Theorem C17_v5_exact : forall p buf e buf', write p buf = (Err e, buf') ->
  (e = PayloadTooLong /\ max_len < declared_len p /\ buf' = buf ++ [first_byte p]) \/
  (e = PacketIdZero /\ ~ has_id p /\ buf' = buf ++ id_zero_output p) \/
  (e = PayloadTooLong /\ ~ small_ids p /\ buf' = buf ++ big_id_output p).
Proof. exact write_failed. Qed.
Theorem C17_v5_always_dirty : forall p buf e buf', write p buf = (Err e, buf') ->
  exists out, out <> [] /\ buf' = buf ++ out.
Proof. exact write_failed_dirty. Qed.
Theorem C17_v5_refuted : exists p e buf', typed p /\ write p [] = (Err e, buf') /\ buf' <> [].
Proof.
  exists ex_big_id5. eexists. eexists. split; [apply C16_v5_case|]. split; [vm_compute; reflexivity|discriminate].
Qed.
Example C17_v5_case : write ex_big_id5 [7] =
  (Err PayloadTooLong, [7; 0x30; 14; 0; 1; 97; 9; 11; 3; 11]).
Proof. vm_compute. reflexivity. Qed.

(** ** C19: round trip *)
Theorem C19_v5_round_trip : forall p rest max,
  fits p -> readable p -> bytes_ok rest -> blen (written p) <= max ->
  exists n out, write p [] = (Ok n, out) /\ read (out ++ rest) max = (Ok (canon p), rest).
Proof.
  intros p rest max Hf Hp Hr Hm. destruct (write_fits p Hf) as [n Hn].
  exists n, (written_wire p). split; [exact Hn|]. apply read_wire; assumption.
Qed.
Theorem C19_v5_round_trip_identity : forall p rest max,
  fits p -> readable p -> canonical p -> bytes_ok rest -> blen (written p) <= max ->
  exists n out, write p [] = (Ok n, out) /\ read (out ++ rest) max = (Ok p, rest).
Proof.
  intros p rest max Hf Hp Hc Hr Hm.
  destruct (C19_v5_round_trip p rest max Hf Hp Hr Hm) as (n & out & H1 & H2). rewrite Hc in H2. eauto.
Qed.
(** exactly the readable packets come back (and the level-4 CONNECT that says nothing) *)
Theorem C19_v5_exact : forall p rest max,
  fits p -> bytes_ok rest -> blen (written p) <= max ->
  exists n out, write p [] = (Ok n, out) /\
    (read (out ++ rest) max = (Ok (canon p), rest) <-> readable p \/ blank_311 p).
Proof.
  intros p rest max Hf Hr Hm. destruct (write_fits p Hf) as [n Hn].
  exists n, (written_wire p). split; [exact Hn|]. apply read_back_exact; assumption.
Qed.
(** acknowledgements without codes are written but rejected on reading *)
Theorem C19_v5_empty_codes_rejected : forall p rest max,
  match p with
  | SubAck s => V5SubAck.return_codes s = []
  | UnsubAck u => V5UnsubAck.reasons u = []
  | _ => False
  end ->
  fits p -> bytes_ok rest -> blen (written p) <= max ->
  exists n out, write p [] = (Ok n, out) /\ read (out ++ rest) max = (Err MalformedPacket, rest).
Proof.
  intros p rest max Hp Hf Hr Hm. destruct (write_fits p Hf) as [n Hn].
  exists n, (written_wire p). split; [exact Hn|].
  destruct p; try contradiction; [apply suback_empty|apply unsuback_empty]; assumption.
Qed.
Example C19_v5_case : Forall (fun p => fits p /\ readable p /\ canonical p /\ blen (written p) <= 150) ex_session5 /\
  read (written_wire ex_subscribe5 ++ [1; 2]) 100 = (Ok ex_subscribe5, [1; 2]) /\
  read [0x90; 3; 0; 7; 0; 1] 100 = (Err MalformedPacket, [1]).
Proof. split; [exact ex_session5_ok|]. split; vm_compute; reflexivity. Qed.

(** ** C21: encodings are injective and prefix-free *)
Theorem C21_v5_prefix_free : forall p q r r',
  fits p -> fits q -> readable p -> readable q -> canonical p -> canonical q ->
  bytes_ok r -> bytes_ok r' -> written_wire p ++ r = written_wire q ++ r' -> p = q /\ r = r'.
Proof. exact wire_prefix_free. Qed.
Theorem C21_v5_proper_prefix_waits : forall p pre suf max,
  fits p -> blen (written p) <= max -> written_wire p = pre ++ suf -> suf <> [] ->
  exists n, read pre max = (Err (InsufficientBytes n), pre) /\ 1 <= n /\ n <= blen suf.
Proof. exact wire_prefix. Qed.
(** without the reader's restriction it fails: a DISCONNECT with an empty property set
    is written like a normal one, whatever its reason *)
Theorem C21_v5_disconnect_collision_refuted : exists p q, fits p /\ fits q /\ p <> q /\
  V5Mod.write p [] = V5Mod.write q [] /\ canon p <> canon q.
Proof.
  exists (Disconnect (V5Disconnect.mkDisconnect V5Disconnect.ServerBusy (Some (V5Disconnect.mkDisconnectProperties None None [] None)))),
    (Disconnect (V5Disconnect.mkDisconnect V5Disconnect.NormalDisconnection None)).
  split; [sample5|]. split; [sample5|]. split; [discriminate|]. split; [vm_compute; reflexivity|discriminate].
Qed.
Example C21_v5_case : fits ex_pubrel5 /\ readable ex_pubrel5 /\ canonical ex_pubrel5 /\
  written_wire ex_pubrel5 = [0x62; 3; 2] ++ [1; 0x92].
Proof. split; [apply ex_pubrel5_fits|]. repeat split. Qed.

(** ** C23: reassembly of a written packet sequence from arbitrary chunks *)
Theorem C23_v5_reassembly : forall ps chunks max careful,
  Forall (fun p => fits p /\ readable p /\ canonical p /\ blen (written p) <= max) ps ->
  concat chunks = flat_map (fun p => snd (write p [])) ps ->
  receive read max careful (Waiting, []) chunks = (map Ok ps, (Waiting, [])).
Proof.
  intros ps chunks max careful HF E. apply stream_packets; [exact HF|]. rewrite E.
  clear - HF. induction HF as [|p l (Hf & _) _ IH]; [reflexivity|]. cbn [flat_map]. rewrite IH. f_equal.
  destruct (write_fits p Hf) as [n Hn]. rewrite Hn. reflexivity.
Qed.
Example C23_v5_case :
  Forall (fun p => fits p /\ readable p /\ canonical p /\ blen (written p) <= 150) ex_session5 /\
  exists a b c, concat [a; []; b; c] = flat_map (fun p => snd (write p [])) ex_session5 /\
    a = [0x10] /\ blen b = 40.
Proof.
  split; [exact ex_session5_ok|].
  exists [0x10], (firstn 40 (skipn 1 (flat_map (fun p => snd (write p [])) ex_session5))),
    (skipn 41 (flat_map (fun p => snd (write p [])) ex_session5)).
  vm_compute. auto.
Qed.

(** ** C26: what is read is well-formed *)
Theorem C26_v5_well_formed : forall s max p rest, bytes_ok s -> read s max = (Ok p, rest) ->
  typed p /\ short_fields p /\ small_ids p /\ has_id p /\ canonical p /\
  match p with
  | SubAck s => V5SubAck.return_codes s <> []
  | UnsubAck u => V5UnsubAck.reasons u <> []
  | _ => True
  end /\
  exists b1 t, s = b1 :: t /\ b1 / 16 = kind p.
Proof.
  intros s max p rest Hb H. destruct (read_well_formed s max p rest Hb H) as (H1 & H2 & H3 & H4 & H5 & H6).
  repeat (split; [assumption|]). split; [|exact H6].
  apply read_iff in H as (b1 & bd & _ & _ & Hd); [|exact Hb]. destruct p; auto; apply Hd.
Qed.
Example C26_v5_case : exists p, read (written_wire ex_publish5) 100 = (Ok p, []).
Proof. eexists. vm_compute. reflexivity. Qed.

(** ** C28: decode / re-encode / decode *)
(** what was read can be written again unless the encoding has become too long, and is
    read back as the same packet exactly when that packet is of a readable shape *)
Theorem C28_v5_reencode_exact : forall s max p rest, bytes_ok s -> read s max = (Ok p, rest) ->
  (exists n out, write p [] = (Ok n, out) /\
     forall rest' max', bytes_ok rest' -> blen (written p) <= max' ->
       (read (out ++ rest') max' = (Ok p, rest') <-> readable p \/ blank_311 p)) \/
  (exists out, write p [] = (Err PayloadTooLong, out) /\ max_len < blen (written p)).
Proof.
  intros s max p rest Hb H. destruct (read_well_formed s max p rest Hb H) as (H1 & H2 & H3 & H4 & H5 & _).
  destruct (reencode s max p rest Hb H) as [(n & Hn & Hl)|?]; [left|right; assumption].
  exists n, (written_wire p). split; [exact Hn|]. intros rest' max' Hr' Hm'.
  assert (Hf : fits p) by (repeat (split; [assumption|]); assumption).
  rewrite <- (read_back_exact p rest' max' Hf Hr' Hm'). rewrite H5. reflexivity.
Qed.
(** the encoding grows by at most four bytes (CONNECT) or two bytes *)
Theorem C28_v5_reencode_size : forall s max p rest, bytes_ok s -> read s max = (Ok p, rest) ->
  exists b1 bd, starts_with_frame s b1 bd rest /\ blen bd <= max /\
    blen (written p) <= blen bd + (match p with Connect _ => 4 | _ => 2 end).
Proof.
  intros s max p rest Hb H. destruct (read_decoded s max p rest Hb H) as (b1 & bd & H1 & H2 & H3 & H4 & H5 & H6).
  exists b1, bd. split; [exact H1|]. split; [exact H2|]. destruct (decodes_fits b1 bd p H4 H3 H6) as (_ & _ & _ & _ & _ & H7).
  destruct p; exact H7.
Qed.
(** so forwarding decoded packets can fail: this CONNACK is re-encoded unreadably *)
Theorem C28_v5_refuted : exists s p n out, bytes_ok s /\ read s 100 = (Ok p, []) /\
  write p [] = (Ok n, out) /\ forall q, fst (read out 100) <> Ok q.
Proof.
  exists [0x20; 3; 1; 0; 0]. eexists. eexists. eexists. split; [repeat constructor|].
  split; [vm_compute; reflexivity|]. split; [vm_compute; reflexivity|]. vm_compute. discriminate.
Qed.
Example C28_v5_case : exists p, read [0x6F; 0x84; 0; 0; 7; 0; 0; 9] 10 = (Ok p, [9]) /\ readable p /\
  snd (write p []) = [0x62; 2; 0; 7].
Proof. eexists. split; [vm_compute; reflexivity|]. split; [exact I|reflexivity]. Qed.

(** ** C44: frames of length zero *)
Theorem C44_v5_zero_length : forall b1 f rest max, bytes_ok (b1 :: f ++ rest) -> lenfield f 0 -> blen f <= 4 ->
  read (b1 :: f ++ rest) max = (zero_length_result b1, rest).
Proof. exact read_zero. Qed.
Example C44_v5_case : lenfield [0] 0 /\ zero_length_result 0xC5 = Ok PingReq /\
  zero_length_result 0xE0 = Err PayloadRequired /\ zero_length_result 0xF3 = Err (InvalidPacketType 15).
Proof. repeat split; try reflexivity. constructor; lia. Qed.

(** ** C46: progress or stuck *)
Theorem C46_v5_progress : forall s max p rest, bytes_ok s -> read s max = (Ok p, rest) ->
  2 + blen rest <= blen s.
Proof.
  intros s max p rest Hb H.
  destruct (g_cases read_frame s max Hb) as [e _ E|b1 f bd rest' Es Hf _ _ _ _ _ _ _ E];
    rewrite read_gread, E in H; [discriminate|]. injection H as _ <-.
  rewrite Es. assert (Hx := g_frame_len b1 f bd rest' Hf). lia.
Qed.
Theorem C46_v5_stuck : forall s max e t, bytes_ok (s ++ t) -> read s max = (Err e, s) ->
  (forall n, e <> InsufficientBytes n) -> read (s ++ t) max = (Err e, s ++ t).
Proof.
  intros s max e t Hb H Hn. assert (Hs : bytes_ok s) by (apply bytes_ok_app in Hb; apply Hb).
  destruct (g_cases read_frame s max Hs) as [e' Hc E|b1 f bd rest' Es Hf _ _ _ _ _ _ _ E];
    rewrite read_gread, E in H.
  - injection H as ->. rewrite read_gread. apply g_no_frame. apply check_stable; [exact Hb|exact Hc|].
    intros n Hx. injection Hx as Hx. exact (Hn n Hx).
  - exfalso. injection H as _ H. assert (Hx := g_frame_len b1 f bd rest' Hf).
    rewrite <- Es, <- H in Hx. lia.
Qed.
Example C46_v5_case : read [0x30; 255; 255; 255; 255] 10 = (Err MalformedRemainingLength, [0x30; 255; 255; 255; 255]).
Proof. reflexivity. Qed.


(** ** C47: the accepted language *)
Theorem C47_v5_language : forall s max p rest, bytes_ok s ->
  (read s max = (Ok p, rest) <->
   exists b1 bd, starts_with_frame s b1 bd rest /\ blen bd <= max /\ decodes_body b1 bd p).
Proof. exact read_iff. Qed.
Theorem C47_v5_rest_rejected : forall s b1 bd rest max, bytes_ok s ->
  starts_with_frame s b1 bd rest -> blen bd <= max -> (forall p, ~ decodes_body b1 bd p) ->
  exists e, read s max = (Err e, rest).
Proof. exact read_rejects. Qed.
Example C47_v5_case : decodes_body 0x4F [0; 7; 0x10; 0x80; 0; 9] (PubAck (V5PubAck.mkPubAck 7 V5PubAck.NoMatchingSubscribers None)) /\
  starts_with_frame [0x4F; 6; 0; 7; 0x10; 0x80; 0; 9; 1] 0x4F [0; 7; 0x10; 0x80; 0; 9] [1].
Proof.
  split.
  - split; [reflexivity|]. split; [reflexivity|]. right. right. exists [0x80; 0], [9]. split; [reflexivity|].
    split; [|discriminate]. change 0 with (0 + 128 * 0) at 2. change 128 with (128 + 0) at 1. repeat constructor; lia.
  - exists [6]. repeat split; [apply (lf_last 6); lia|cbv; discriminate].
Qed.

(** ** C48: arbitrary bytes, arbitrary chunking *)
(** a receiver that does not take InsufficientBytes at its word when bytes were consumed *)
Theorem C48_v5_chunking_irrelevant : forall chunks chunks' max,
  Forall bytes_ok chunks -> concat chunks = concat chunks' ->
  receive read max true (Waiting, []) chunks = receive read max true (Waiting, []) chunks'.
Proof. exact stream_chunks. Qed.
Theorem C48_v5_receiver_exhausts : forall chunks max, Forall bytes_ok chunks ->
  match snd (receive read max true (Waiting, []) chunks) with
  | (Waiting, buf) => exists n, check buf max = Err (InsufficientBytes n)
  | (Stopped, _) => True
  end.
Proof. exact receiver_exhausts. Qed.
(** the documented receiver sees the same as long as the careful one never sees an
    InsufficientBytes *)
Theorem C48_v5_documented_receiver : forall chunks max st,
  Forall (fun r => is_insufficient r = false) (fst (receive read max true st chunks)) ->
  receive read max false st chunks = receive read max true st chunks.
Proof. intros chunks max st. exact (receive_naive read max chunks st). Qed.
(** in general it does not: what it sees depends on the chunking *)
Theorem C48_v5_documented_receiver_refuted : exists chunks chunks' max,
  Forall bytes_ok chunks /\ concat chunks = concat chunks' /\
  fst (receive read max false (Waiting, []) chunks) <> fst (receive read max false (Waiting, []) chunks').
Proof.
  exists [[0x20; 2; 0; 0; 0xC0; 0]], [[0x20; 2; 0; 0]; [0xC0; 0]], 100.
  split; [repeat constructor|]. split; [reflexivity|]. vm_compute. discriminate.
Qed.
Example C48_v5_case :
  receive read 50 true (Waiting, []) [[0x40; 2; 0]; [7; 0x20]; [2; 0; 0; 0xC0; 0; 0x30; 60; 1]]
  = ([Ok (PubAck (V5PubAck.mkPubAck 7 V5PubAck.Success None)); Err (InsufficientBytes 1); Ok PingReq; Err (PayloadSizeLimitExceeded 60)],
     (Stopped, [0x30; 60; 1])).
Proof. reflexivity. Qed.

Print Assumptions C05_v5_limit_rejects.
Print Assumptions C05_v5_limit_respected.
Print Assumptions C05_v5_no_packet_over_limit.
Print Assumptions C07_v5_total.
Print Assumptions C08_v5_consumes_one_frame.
Print Assumptions C09_v5_frame_isolation.
Print Assumptions C11_v5_insufficient_exact.
Print Assumptions C11_v5_refuted.
Print Assumptions C13_v5_encoding.
Print Assumptions C13_v5_deviations_exact.
Print Assumptions C13_v5_written.
Print Assumptions C14_v5_append_except_connect.
Print Assumptions C14_v5_connect_exact.
Print Assumptions C14_v5_refuted.
Print Assumptions C15_v5_size_except_connect.
Print Assumptions C15_v5_connect_exact.
Print Assumptions C15_v5_refuted.
Print Assumptions C16_v5_exact.
Print Assumptions C17_v5_exact.
Print Assumptions C17_v5_always_dirty.
Print Assumptions C17_v5_refuted.
Print Assumptions C19_v5_round_trip.
Print Assumptions C19_v5_round_trip_identity.
Print Assumptions C19_v5_exact.
Print Assumptions C19_v5_empty_codes_rejected.
Print Assumptions C21_v5_prefix_free.
Print Assumptions C21_v5_proper_prefix_waits.
Print Assumptions C21_v5_disconnect_collision_refuted.
Print Assumptions C23_v5_reassembly.
Print Assumptions C26_v5_well_formed.
Print Assumptions C28_v5_reencode_exact.
Print Assumptions C28_v5_reencode_size.
Print Assumptions C28_v5_refuted.
Print Assumptions C44_v5_zero_length.
Print Assumptions C46_v5_progress.
Print Assumptions C46_v5_stuck.
Print Assumptions C47_v5_language.
Print Assumptions C47_v5_rest_rejected.
Print Assumptions C48_v5_chunking_irrelevant.
Print Assumptions C48_v5_receiver_exhausts.
Print Assumptions C48_v5_documented_receiver.
Print Assumptions C48_v5_documented_receiver_refuted.

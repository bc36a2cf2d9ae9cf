(** PropSession.v -- property theorems about whole connections: the size limit, one verdict
    per frame, one buffer for all packets. *)
From Verif Require Import ProofBase Lib SpecFrame SpecStream SpecSession ProofLib ProofCheck ProofStream SampleV4 SampleV5.
From Verif Require V4Connect V4PubAck V4Publish V4Mod SpecV4 ProofV4 PropV4.
From Verif Require V5Connect V5Publish V5PubAck V5Mod SpecV5 ProofV5 PropV5.

(** ** C57: the size limit decides acceptance, nothing else *)
(** the length a stream declares, if its length field is complete *)
Definition declares (s : bytes) (n : N) : Prop :=
  exists b1 f r, s = b1 :: f ++ r /\ lenfield f n /\ blen f <= 4.

Lemma check_limit s max max' : bytes_ok s ->
  (forall n, declares s n -> n <= max /\ n <= max') -> check s max = check s max'.
Proof.
  intros Hb Hd. symmetry. apply check_iff; [exact Hb|].
  destruct (check_verdict s max Hb) as [H|b1 r -> H1 H2 H3|b1 a b c d r -> H|b1 f n r -> H1 H2 H3|b1 f n r -> H1 H2 H3 H4|b1 f n r -> H1 H2 H3 H4].
  - apply v_tiny; assumption.
  - eapply v_open; eauto.
  - eapply v_malformed; eauto.
  - destruct (Hd n) as [H _]; [exists b1, f, r; auto|lia].
  - eapply v_partial; eauto. apply (Hd n). exists b1, f, r; auto.
  - eapply v_complete; eauto. apply (Hd n). exists b1, f, r; auto.
Qed.
Lemma gread_limit {P} (rf : FixedHeader -> bytes -> outcome P) s max max' : check s max = check s max' ->
  gread rf s max = gread rf s max'.
Proof. intros H. unfold gread. rewrite H. reflexivity. Qed.
Lemma gread_over {P} (rf : FixedHeader -> bytes -> outcome P) s max n : bytes_ok s -> declares s n -> max < n ->
  gread rf s max = (Err (PayloadSizeLimitExceeded n), s).
Proof.
  intros Hb (b1 & f & r & Hs & Hf & Hl) Hm. apply g_no_frame. apply check_iff; [exact Hb|].
  eapply v_limit; eauto.
Qed.

(** two limits that both admit the declared length (or a stream that declares none yet)
    give the same result and the same stream *)
Theorem C57_v4_same_under_every_limit : forall s max max', bytes_ok s ->
  (forall n, declares s n -> n <= max /\ n <= max') -> V4Mod.read s max = V4Mod.read s max'.
Proof. intros s max max' Hb Hd. rewrite !ProofV4.read_gread. apply gread_limit, check_limit; assumption. Qed.
Theorem C57_v5_same_under_every_limit : forall s max max', bytes_ok s ->
  (forall n, declares s n -> n <= max /\ n <= max') -> V5Mod.read s max = V5Mod.read s max'.
Proof. intros s max max' Hb Hd. rewrite !ProofV5.read_gread. apply gread_limit, check_limit; assumption. Qed.
(** one that does not is the only other case, whatever bytes follow *)
Theorem C57_v4_over_limit : forall s n max, bytes_ok s -> declares s n -> max < n ->
  V4Mod.read s max = (Err (PayloadSizeLimitExceeded n), s).
Proof. intros s n max Hb Hd Hm. rewrite ProofV4.read_gread. apply gread_over; assumption. Qed.
Theorem C57_v5_over_limit : forall s n max, bytes_ok s -> declares s n -> max < n ->
  V5Mod.read s max = (Err (PayloadSizeLimitExceeded n), s).
Proof. intros s n max Hb Hd Hm. rewrite ProofV5.read_gread. apply gread_over; assumption. Qed.
(** hence a larger limit accepts more and changes nothing that was accepted *)
Theorem C57_monotone : forall s max max', bytes_ok s -> max <= max' ->
  (forall p rest, V4Mod.read s max = (Ok p, rest) -> V4Mod.read s max' = (Ok p, rest)) /\
  (forall p rest, V5Mod.read s max = (Ok p, rest) -> V5Mod.read s max' = (Ok p, rest)).
Proof.
  intros s max max' Hb Hm.
  assert (H : (exists n, declares s n /\ max < n) \/ forall n, declares s n -> n <= max /\ n <= max').
  { destruct (check_verdict s max Hb) as [H|b1 r Hs H1 H2 H3|b1 a b c d r Hs H|b1 f n r Hs H1 H2 H3|b1 f n r Hs H1 H2 H3 H4|b1 f n r Hs H1 H2 H3 H4];
      [right|right|right|left; exists n; split; [exists b1, f, r; auto|exact H3]|right|right]; intros m (b' & f' & r' & Hs' & Hf' & Hl').
    - exfalso. rewrite Hs' in H. inversion Hf'; subst; autorewrite with blen in H; lia.
    - exfalso. rewrite Hs in Hs'. injection Hs' as <- ->. clear - H3 Hf'. revert H3. induction Hf' as [b H|b l n H Hf IH]; cbn [app]; intros H3.
      + apply Forall_inv in H3. unfold has_cont in H3. lia.
      + apply Forall_inv_tail in H3. auto.
    - exfalso. rewrite Hs in Hs'. injection Hs' as <- E. clear - H Hf' Hl' E.
      assert (Hx : forall l n, lenfield l n -> forall p r k, l ++ r = p ++ k -> Forall has_cont p -> blen p < blen l).
      { clear. induction 1 as [b Hb|b l n Hb Hf IH]; intros p r k E H.
        - destruct p as [|x p]; autorewrite with blen; [cbn; lia|]. injection E as -> _. apply Forall_inv in H. unfold has_cont in H. lia.
        - destruct p as [|x p]; autorewrite with blen; [change (@blen N []) with 0; lia|]. injection E as _ E. apply Forall_inv_tail in H. specialize (IH _ _ _ E H). lia. }
      assert (Hy := Hx f' m Hf' [a; b; c; d] r' r (eq_sym E) H). change (blen [a; b; c; d]) with 4 in Hy. lia.
    - rewrite Hs in Hs'. injection Hs' as _ E. destruct (lenfield_det _ _ _ _ _ _ H1 Hf' E) as (-> & -> & _). lia.
    - rewrite Hs in Hs'. injection Hs' as _ E. destruct (lenfield_det _ _ _ _ _ _ H1 Hf' E) as (-> & -> & _). lia. }
  split; intros p rest Hr.
  - destruct H as [(n & Hd & Hn)|H]; [rewrite (C57_v4_over_limit s n max Hb Hd Hn) in Hr; discriminate|].
    rewrite <- Hr. symmetry. apply C57_v4_same_under_every_limit; assumption.
  - destruct H as [(n & Hd & Hn)|H]; [rewrite (C57_v5_over_limit s n max Hb Hd Hn) in Hr; discriminate|].
    rewrite <- Hr. symmetry. apply C57_v5_same_under_every_limit; assumption.
Qed.
Example C57_case : declares [0x30; 6; 0; 1; 97; 1; 2; 3] 6 /\
  V4Mod.read [0x30; 6; 0; 1; 97; 1; 2; 3] 6 = V4Mod.read [0x30; 6; 0; 1; 97; 1; 2; 3] 100 /\
  V4Mod.read [0x30; 6; 0; 1; 97; 1; 2; 3] 5 = (Err (PayloadSizeLimitExceeded 6), [0x30; 6; 0; 1; 97; 1; 2; 3]).
Proof.
  split; [|split; reflexivity]. exists 0x30, [6], [0; 1; 97; 1; 2; 3]. split; [reflexivity|]. split; [constructor; lia|cbv; discriminate].
Qed.

(** ** C58: one verdict per frame *)
(** a complete frame within the limit, its body well-formed or not *)
Definition complete_frame (max : N) (x : bytes) : Prop :=
  bytes_ok x /\ exists b1 bd, starts_with_frame x b1 bd [] /\ blen bd <= max.

Section Verdicts.
  Context {P : Type}.
  Variable rf : FixedHeader -> bytes -> outcome P.
  Variable max : N.
  Variable careful : bool.
  Hypothesis waits_ok : careful = true \/
    forall b1 f bd, b1 < 256 -> bytes_ok bd -> is_insufficient (rframe rf b1 f bd) = false.
  Notation rd := (gread rf).

  Lemma frames_bytes frames : Forall (complete_frame max) frames -> bytes_ok (concat frames).
  Proof. induction 1 as [|x l [H _] _ IH]; cbn [concat]; [constructor|apply bytes_ok_app; auto]. Qed.

  Lemma drain_verdicts : forall frames tail fuel,
    Forall (complete_frame max) frames -> bytes_ok tail -> (List.length (concat frames ++ tail) < fuel)%nat ->
    drain rd max careful fuel (concat frames ++ tail) =
      (let (evs, st) := drain rd max careful (S (List.length tail)) tail in
       (map (fun x => fst (rd x max)) frames ++ evs, st)).
  Proof.
    induction frames as [|x frames IH]; intros tail fuel HF Ht Hl; cbn [concat map app] in *.
    - rewrite (drain_fuel rf max careful waits_ok fuel (S (List.length tail)) tail Ht Hl) by lia.
      destruct (drain _ _ _ _ tail); reflexivity.
    - apply Forall_cons_iff in HF as [[Hb (b1 & bd & (f & Hx & Hf & Hfl) & Hm)] HF].
      assert (Hrest := frames_bytes frames HF).
      destruct fuel as [|fuel]; [lia|]. rewrite app_nil_r in Hx. subst x.
      assert (E : ((b1 :: f ++ bd) ++ concat frames) ++ tail = b1 :: f ++ bd ++ (concat frames ++ tail))
        by (cbn [app]; rewrite <- !app_assoc; reflexivity).
      rewrite E in *.
      assert (Hb2 : bytes_ok (b1 :: f ++ bd ++ (concat frames ++ tail))).
      { rewrite <- E. apply bytes_ok_app. split; [apply bytes_ok_app; auto|exact Ht]. }
      rewrite (drain_frame rf max careful waits_ok) by assumption.
      assert (Hg := g_frame_len b1 f bd (concat frames ++ tail) Hf). unfold blen in Hg.
      rewrite (IH tail fuel HF Ht) by lia.
      assert (G := g_frame rf b1 f bd [] max). rewrite app_nil_r in G. rewrite G by assumption. cbn [fst].
      destruct (drain _ _ _ _ tail); reflexivity.
  Qed.

  Lemma receive_verdicts frames tail chunks :
    Forall (complete_frame max) frames -> bytes_ok tail -> concat chunks = concat frames ++ tail ->
    receive rd max careful (Waiting, []) chunks =
      (let (evs, st) := receive rd max careful (Waiting, []) [tail] in
       (map (fun x => fst (rd x max)) frames ++ evs, st)).
  Proof.
    intros HF Ht E.
    assert (Hok : bytes_ok (concat chunks)) by (rewrite E; apply bytes_ok_app; auto using frames_bytes).
    assert (HC : Forall bytes_ok chunks).
    { clear - Hok. induction chunks as [|c cs IH]; [constructor|].
      cbn [concat] in Hok. apply bytes_ok_app in Hok as [H1 H2]. constructor; auto. }
    rewrite (receive_concat rf max careful waits_ok chunks) by (auto using start_settled, bytes_ok_nil).
    rewrite (receive_concat rf max careful waits_ok [tail]) by (auto using start_settled, bytes_ok_nil).
    cbn [concat feed app]. rewrite app_nil_r, E. apply drain_verdicts; [exact HF|exact Ht|lia].
  Qed.
End Verdicts.

(** the receiver sees exactly what each frame alone gives, in order, then what the tail
    alone gives *)
Theorem C58_v4_one_verdict_per_frame : forall frames tail chunks max,
  Forall (complete_frame max) frames -> bytes_ok tail -> concat chunks = concat frames ++ tail ->
  let (evs, st) := receive V4Mod.read max false (Waiting, []) [tail] in
  receive V4Mod.read max false (Waiting, []) chunks = (map (fun x => fst (V4Mod.read x max)) frames ++ evs, st).
Proof.
  intros frames tail chunks max HF Ht E.
  assert (H := receive_verdicts V4Mod.read_frame max false (or_intror (fun b1 f bd => ProofV4.no_insufficient b1 f bd)) frames tail chunks HF Ht E).
  change (gread V4Mod.read_frame) with V4Mod.read in H.
  destruct (receive V4Mod.read max false (Waiting, []) [tail]). exact H.
Qed.
Theorem C58_v5_one_verdict_per_frame : forall frames tail chunks max,
  Forall (complete_frame max) frames -> bytes_ok tail -> concat chunks = concat frames ++ tail ->
  let (evs, st) := receive V5Mod.read max true (Waiting, []) [tail] in
  receive V5Mod.read max true (Waiting, []) chunks = (map (fun x => fst (V5Mod.read x max)) frames ++ evs, st).
Proof.
  intros frames tail chunks max HF Ht E.
  assert (H := receive_verdicts V5Mod.read_frame max true (or_introl eq_refl) frames tail chunks HF Ht E).
  change (gread V5Mod.read_frame) with V5Mod.read in H.
  destruct (receive V5Mod.read max true (Waiting, []) [tail]). exact H.
Qed.
(** whole frames only: nothing is left over *)
Theorem C58_v4_frames_only : forall frames chunks max,
  Forall (complete_frame max) frames -> concat chunks = concat frames ->
  receive V4Mod.read max false (Waiting, []) chunks = (map (fun x => fst (V4Mod.read x max)) frames, (Waiting, [])).
Proof.
  intros frames chunks max HF E.
  assert (H := C58_v4_one_verdict_per_frame frames [] chunks max HF bytes_ok_nil).
  rewrite app_nil_r in H. specialize (H E).
  change (receive V4Mod.read max false (Waiting, []) [[]]) with (@nil (outcome V4Mod.Packet), (Waiting, @nil N)) in H. cbv beta iota in H.
  rewrite app_nil_r in H. exact H.
Qed.
Theorem C58_v5_frames_only : forall frames chunks max,
  Forall (complete_frame max) frames -> concat chunks = concat frames ->
  receive V5Mod.read max true (Waiting, []) chunks = (map (fun x => fst (V5Mod.read x max)) frames, (Waiting, [])).
Proof.
  intros frames chunks max HF E.
  assert (H := C58_v5_one_verdict_per_frame frames [] chunks max HF bytes_ok_nil).
  rewrite app_nil_r in H. specialize (H E).
  change (receive V5Mod.read max true (Waiting, []) [[]]) with (@nil (outcome V5Mod.Packet), (Waiting, @nil N)) in H. cbv beta iota in H.
  rewrite app_nil_r in H. exact H.
Qed.
(** an unfinished frame at the end is kept for later *)
Lemma tail_waits {P} (rf : FixedHeader -> bytes -> outcome P) max careful (tail suf : bytes) :
  complete_frame max (tail ++ suf) -> suf <> [] ->
  receive (gread rf) max careful (Waiting, []) [tail] = ([], (Waiting, tail)).
Proof.
  intros [Hb (b1 & bd & (f & Hx & Hf & Hfl) & Hm)] Hs. rewrite app_nil_r in Hx.
  assert (Ht : bytes_ok tail) by (apply bytes_ok_app in Hb; apply Hb).
  cbn [receive feed app drain].
  destruct (g_prefix rf b1 f bd tail suf max) as [n [Hn _]]; try assumption.
  { rewrite <- Hx. exact Hb. } { auto. }
  rewrite Hn. cbn [is_insufficient]. rewrite N.ltb_irrefl, andb_false_r. reflexivity.
Qed.
Theorem C58_unfinished_frame_kept : forall (frames : list bytes) (tail suf : bytes) (chunks : list bytes) max,
  Forall (complete_frame max) frames -> complete_frame max (tail ++ suf) -> suf <> [] ->
  concat chunks = concat frames ++ tail ->
  receive V4Mod.read max false (Waiting, []) chunks = (map (fun x => fst (V4Mod.read x max)) frames, (Waiting, tail)) /\
  receive V5Mod.read max true (Waiting, []) chunks = (map (fun x => fst (V5Mod.read x max)) frames, (Waiting, tail)).
Proof.
  intros frames tail suf chunks max HF Hc Hs E.
  assert (Ht : bytes_ok tail) by (destruct Hc as [Hb _]; apply bytes_ok_app in Hb; apply Hb).
  assert (H4 := C58_v4_one_verdict_per_frame frames tail chunks max HF Ht E).
  assert (H5 := C58_v5_one_verdict_per_frame frames tail chunks max HF Ht E).
  assert (T4 := tail_waits V4Mod.read_frame max false tail suf Hc Hs). change (gread V4Mod.read_frame) with V4Mod.read in T4.
  assert (T5 := tail_waits V5Mod.read_frame max true tail suf Hc Hs). change (gread V5Mod.read_frame) with V5Mod.read in T5.
  rewrite T4 in H4. rewrite T5 in H5. rewrite app_nil_r in *. auto.
Qed.
Example C58_case :
  Forall (complete_frame 10) [[0x40; 2; 0; 7]; [0x40; 1; 7]; [0xC0; 0x80; 0]] /\
  map (fun x => fst (V4Mod.read x 10)) [[0x40; 2; 0; 7]; [0x40; 1; 7]; [0xC0; 0x80; 0]] =
    [Ok (V4Mod.PubAck (V4PubAck.mkPubAck 7)); Err MalformedPacket; Ok V4Mod.PingReq] /\
  complete_frame 10 ([0x40; 2; 0] ++ [9]) /\
  receive V4Mod.read 10 false (Waiting, []) [[0x40; 2]; [0; 7; 0x40; 1; 7; 0xC0]; [0x80; 0; 0x40; 2]; [0]] =
    ([Ok (V4Mod.PubAck (V4PubAck.mkPubAck 7)); Err MalformedPacket; Ok V4Mod.PingReq], (Waiting, [0x40; 2; 0])).
Proof.
  assert (L0 : lenfield [0x80; 0] 0).
  { change 0 with (0 + 128 * 0) at 2. change 128 with (128 + 0) at 1. repeat constructor; lia. }
  repeat split; try (vm_compute; reflexivity).
  - repeat constructor; unfold u8; try lia.
    + exists 0x40, [0; 7]. split; [|cbv; discriminate]. exists [2]. repeat split; [apply (lf_last 2); lia|cbv; discriminate].
    + exists 0x40, [7]. split; [|cbv; discriminate]. exists [1]. repeat split; [apply (lf_last 1); lia|cbv; discriminate].
    + exists 0xC0, []. split; [|cbv; discriminate]. exists [0x80; 0]. repeat split; [exact L0|cbv; discriminate].
  - repeat constructor; unfold u8; lia.
  - exists 0x40, [0; 9]. split; [|cbv; discriminate]. exists [2]. repeat split; [apply (lf_last 2); lia|cbv; discriminate].
Qed.

(** ** C59: one buffer for a whole connection *)
Lemma firstn_length_app {A} (l m : list A) : firstn (List.length l) (l ++ m) = l.
Proof. rewrite firstn_app, Nat.sub_diag, firstn_all. apply app_nil_r. Qed.

Section Sending.
  Context {P : Type}.
  Variable wr : P -> bytes -> outcome N * bytes.
  Variable is_connect : P -> Prop.
  Hypothesis appends : forall p, ~ is_connect p -> exists r out, forall buf, wr p buf = (r, buf ++ out).
  Definition enc (p : P) : bytes := snd (wr p []).

  Lemma run_app ops : forall s, Forall (fun p => ~ is_connect p) (packets ops) ->
    transport (fold_left (step wr) ops s) ++ buffer (fold_left (step wr) ops s) =
      transport s ++ buffer s ++ flat_map enc (filter (succeeds wr) (packets ops)) /\
    accepted (fold_left (step wr) ops s) = accepted s ++ filter (succeeds wr) (packets ops).
  Proof.
    induction ops as [|o ops IH]; intros s HF; cbn [fold_left packets flat_map filter app].
    - rewrite !app_nil_r. auto.
    - destruct o as [p|k].
      + cbn [packets flat_map app] in HF. apply Forall_cons_iff in HF as [Hp HF].
        destruct (IH (step wr s (Send p)) HF) as [H1 H2]. rewrite H1, H2. fold (packets ops).
        cbn [filter app]. destruct (appends p Hp) as (r & out & Hw).
        assert (Hs : succeeds wr p = match r with Ok _ => true | _ => false end) by (unfold succeeds; rewrite Hw; reflexivity).
        assert (He : enc p = out) by (unfold enc; rewrite Hw; reflexivity).
        cbn [step]. rewrite Hw, Hs.
        destruct r as [n|e| |]; cbn [transport buffer accepted flat_map app];
          [rewrite He, <- !app_assoc; auto|rewrite firstn_length_app; auto..].
      + destruct (IH (step wr s (Flush k)) HF) as [H1 H2]. rewrite H1, H2. fold (packets ops).
        cbn [step transport buffer accepted filter app]. split; [|reflexivity].
        rewrite <- app_assoc. rewrite (app_assoc (firstn _ _)), firstn_skipn. reflexivity.
  Qed.

  (** a CONNECT may come first, into the empty buffer *)
  Lemma run_session first ops : Forall (fun p => ~ is_connect p) (packets ops) ->
    transport (run wr (Send first :: ops)) ++ buffer (run wr (Send first :: ops)) =
      flat_map enc (filter (succeeds wr) (first :: packets ops)) /\
    accepted (run wr (Send first :: ops)) = filter (succeeds wr) (first :: packets ops).
  Proof.
    intros HF. unfold run. cbn [fold_left]. destruct (run_app ops (step wr (mkSender [] [] []) (Send first)) HF) as [H1 H2].
    rewrite H1, H2. cbn [step filter buffer transport accepted].
    assert (Hs : succeeds wr first = match fst (wr first []) with Ok _ => true | _ => false end) by reflexivity.
    assert (He : enc first = snd (wr first [])) by reflexivity.
    rewrite Hs. destruct (wr first []) as [r out]. cbn [fst snd] in *.
    destruct r as [n|e| |]; cbn [transport buffer accepted flat_map app firstn length]; rewrite ?He; split; reflexivity.
  Qed.
End Sending.

(** the transport and the buffer together hold exactly the encodings of the packets whose
    write succeeds, in order; which ones succeed does not depend on the buffer *)
Theorem C59_v4_buffer : forall first ops,
  Forall (fun p => ~ SpecV4.is_connect p) (packets ops) ->
  let s := run V4Mod.write (Send first :: ops) in
  accepted s = filter (succeeds V4Mod.write) (first :: packets ops) /\
  transport s ++ buffer s = flat_map (fun p => snd (V4Mod.write p [])) (accepted s).
Proof.
  intros first ops HF. cbv zeta.
  destruct (run_session V4Mod.write SpecV4.is_connect ProofV4.write_appends first ops HF) as [H1 H2].
  rewrite H1, H2. split; reflexivity.
Qed.
Theorem C59_v5_buffer : forall first ops,
  Forall (fun p => ~ SpecV5.is_connect p) (packets ops) ->
  let s := run V5Mod.write (Send first :: ops) in
  accepted s = filter (succeeds V5Mod.write) (first :: packets ops) /\
  transport s ++ buffer s = flat_map (fun p => snd (V5Mod.write p [])) (accepted s).
Proof.
  intros first ops HF. cbv zeta.
  destruct (run_session V5Mod.write SpecV5.is_connect ProofV5.write_appends first ops HF) as [H1 H2].
  rewrite H1, H2. split; reflexivity.
Qed.
(** end to end: once everything is flushed the peer, however the transport cuts the bytes,
    receives exactly the accepted packets *)
Theorem C59_v4_session : forall first ops chunks max,
  Forall (fun p => ~ SpecV4.is_connect p) (packets ops) ->
  Forall (fun p => SpecV4.typed p /\ SpecV4.short_fields p /\ SpecV4.has_payload p /\ SpecV4.canonical p /\
                   blen (SpecV4.body p) <= max) (first :: packets ops) ->
  let s := run V4Mod.write (Send first :: ops) in
  buffer s = [] -> concat chunks = transport s ->
  receive V4Mod.read max false (Waiting, []) chunks =
    (map Ok (filter (succeeds V4Mod.write) (first :: packets ops)), (Waiting, [])).
Proof.
  intros first ops chunks max HF HA s Hb E.
  destruct (C59_v4_buffer first ops HF) as [H1 H2]. fold s in H1, H2. rewrite Hb, app_nil_r in H2.
  apply PropV4.C22_v4_reassembly; [|rewrite E, H2, H1; reflexivity].
  rewrite Forall_forall in HA |- *. intros p Hp. apply filter_In in Hp as [Hp Hs].
  destruct (HA p Hp) as (A & B & C & D & F).
  assert (Hw : exists n, fst (V4Mod.write p []) = Ok n).
  { unfold succeeds in Hs. destruct (fst (V4Mod.write p [])); try discriminate. eauto. }
  apply ProofV4.write_outcome in Hw as [Hl Hi]. repeat split; assumption.
Qed.
Theorem C59_v5_session : forall first ops chunks max careful,
  Forall (fun p => ~ SpecV5.is_connect p) (packets ops) ->
  Forall (fun p => SpecV5.typed p /\ SpecV5.short_fields p /\ SpecV5.readable p /\ SpecV5.canonical p /\
                   blen (SpecV5.written p) <= max) (first :: packets ops) ->
  let s := run V5Mod.write (Send first :: ops) in
  buffer s = [] -> concat chunks = transport s ->
  receive V5Mod.read max careful (Waiting, []) chunks =
    (map Ok (filter (succeeds V5Mod.write) (first :: packets ops)), (Waiting, [])).
Proof.
  intros first ops chunks max careful HF HA s Hb E.
  destruct (C59_v5_buffer first ops HF) as [H1 H2]. fold s in H1, H2. rewrite Hb, app_nil_r in H2.
  apply PropV5.C23_v5_reassembly; [|rewrite E, H2, H1; reflexivity].
  rewrite Forall_forall in HA |- *. intros p Hp. apply filter_In in Hp as [Hp Hs].
  destruct (HA p Hp) as (A & B & C & D & F).
  assert (Hw : exists n, fst (V5Mod.write p []) = Ok n).
  { unfold succeeds in Hs. destruct (fst (V5Mod.write p [])); try discriminate. eauto. }
  apply ProofV5.write_outcome in Hw as (Hl & Hi & Hsm). repeat split; try assumption; apply A || apply B.
Qed.
(** a session with a failing write in the middle *)
Definition ex_no_id : V4Mod.Packet := V4Mod.Publish (V4Publish.mkPublish false AtLeastOnce false [97] 0 [1]).
Example C59_case :
  let ops := [Send ex_publish; Flush 3; Send ex_no_id; Send V4Mod.PingReq; Flush 1000] in
  let s := run V4Mod.write (Send ex_connect :: ops) in
  Forall (fun p => ~ SpecV4.is_connect p) (packets ops) /\
  Forall (fun p => SpecV4.typed p /\ SpecV4.short_fields p /\ SpecV4.has_payload p /\ SpecV4.canonical p /\
                   blen (SpecV4.body p) <= 100) (ex_connect :: packets ops) /\
  accepted s = [ex_connect; ex_publish; V4Mod.PingReq] /\ buffer s = [] /\ blen (transport s) = 42.
Proof.
  cbv zeta. split; [repeat constructor; exact (fun H => H)|]. split; [|vm_compute; auto].
  assert (Hu : SpecV4.typed ex_no_id) by (repeat split; try (apply ProofUtf8.utf8_ok_spec; reflexivity); repeat constructor).
  repeat constructor; try apply ex_connect_fits; try apply ex_publish_fits; try apply Hu; try (vm_compute; discriminate).
  all: try (vm_compute; reflexivity).
Qed.

Print Assumptions C57_v4_same_under_every_limit.
Print Assumptions C57_v5_same_under_every_limit.
Print Assumptions C57_v4_over_limit.
Print Assumptions C57_v5_over_limit.
Print Assumptions C57_monotone.
Print Assumptions C58_v4_one_verdict_per_frame.
Print Assumptions C58_v5_one_verdict_per_frame.
Print Assumptions C58_v4_frames_only.
Print Assumptions C58_v5_frames_only.
Print Assumptions C58_unfinished_frame_kept.
Print Assumptions C59_v4_buffer.
Print Assumptions C59_v5_buffer.
Print Assumptions C59_v4_session.
Print Assumptions C59_v5_session.

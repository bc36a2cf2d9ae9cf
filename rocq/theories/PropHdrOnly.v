(** PropHdrOnly.v -- C81: while a frame is incomplete or refused, only its header counts. *)
From Verif Require Import ProofBase Lib ProofLib SpecWire SpecFrame ProofCheck SpecStream SpecSchedule SpecRelease SpecSource.
From Verif Require V4Mod V5Mod ProofV4Read ProofV5Read PropFrame PropV4 PropV5 ProofSrcBase PropSourceStream.

Lemma prefix_of (p r h x : bytes) : p ++ r = h ++ x -> blen p <= blen h -> exists h2, h = p ++ h2 /\ r = h2 ++ x.
Proof.
  revert h. induction p as [|a p IH]; intros h E L; [exists h; auto|].
  destruct h as [|b h]; [exfalso; autorewrite with blen in L; change (@blen N []) with 0 in L; lia|].
  cbn [app] in E. injection E as -> E. autorewrite with blen in L. destruct (IH h E) as (h2 & -> & ->); [lia|]. exists h2. auto.
Qed.
Lemma verdict_header h x x' max r : 5 <= blen h -> blen x = blen x' -> verdict (h ++ x) max r -> verdict (h ++ x') max r.
Proof.
  intros H5 Hl V. inversion V as [Ht|b1 t E H1 H2 H3|b1 a b c d t E H1|b1 f n t E Hf H4 Hm|b1 f n t E Hf H4 Hm Hr|b1 f n t E Hf H4 Hm Hr]; subst.
  - exfalso. rewrite blen_app in Ht. lia.
  - exfalso. assert (L : blen (h ++ x) = blen (b1 :: t)) by congruence. autorewrite with blen in L. lia.
  - destruct (prefix_of [b1; a; b; c; d] t h x (eq_sym E)) as (h2 & -> & ->); [exact H5|].
    apply (v_malformed _ _ b1 a b c d (h2 ++ x')); [reflexivity|exact H1].
  - destruct (prefix_of (b1 :: f) t h x (eq_sym E)) as (h2 & -> & ->); [autorewrite with blen; lia|].
    apply (v_limit _ _ b1 f n (h2 ++ x')); try assumption. cbn [app]. rewrite <- app_assoc. reflexivity.
  - destruct (prefix_of (b1 :: f) t h x (eq_sym E)) as (h2 & -> & ->); [autorewrite with blen; lia|].
    assert (L : blen (h2 ++ x) = blen (h2 ++ x')) by (autorewrite with blen; lia). rewrite L in *.
    apply (v_partial _ _ b1 f n (h2 ++ x')); try assumption. cbn [app]. rewrite <- app_assoc. reflexivity.
  - destruct (prefix_of (b1 :: f) t h x (eq_sym E)) as (h2 & -> & ->); [autorewrite with blen; lia|].
    assert (L : blen (h2 ++ x) = blen (h2 ++ x')) by (autorewrite with blen; lia). rewrite L in *.
    apply (v_complete _ _ b1 f n (h2 ++ x')); try assumption. cbn [app]. rewrite <- app_assoc. reflexivity.
Qed.

(** ** the verdict depends on the first five bytes and the number of the others *)
Theorem C81_check : forall h x x' max, bytes_ok (h ++ x) -> bytes_ok (h ++ x') -> 5 <= blen h -> blen x = blen x' ->
  check (h ++ x) max = check (h ++ x') max.
Proof.
  intros h x x' max Hb Hb' H5 Hl. symmetry. apply check_iff; [exact Hb'|]. apply (verdict_header h x); [exact H5|exact Hl|].
  apply check_iff; [exact Hb|reflexivity].
Qed.
(** fewer do not suffice: a length field may take four *)
Theorem C81_check_five_refuted : exists h x x' max, bytes_ok (h ++ x) /\ bytes_ok (h ++ x') /\ blen h = 4 /\ blen x = blen x' /\
  check (h ++ x) max <> check (h ++ x') max.
Proof.
  exists [0x30; 0x80; 0x80; 0x80], [1], [2], 10000000. repeat split; try (repeat constructor; cbv; reflexivity). vm_compute. discriminate.
Qed.

(** ** both versions, while there is no complete frame within the limit *)
Lemma no_frame s max : bytes_ok s -> (forall b1 bd rest, starts_with_frame s b1 bd rest -> max < blen bd) -> exists e, check s max = Err e.
Proof.
  intros Hb H. destruct (PropFrame.C02_check_total s max Hb) as [[h E]|E]; [|exact E]. exfalso.
  assert (V := proj1 (check_iff s max _ Hb) E). inversion V as [| | | | |b1 f m r Es Hf H4 Hm Hr Eh].
  assert (L : blen (firstn (N.to_nat m) r) = m) by (unfold blen in *; rewrite firstn_length; lia).
  specialize (H b1 (firstn (N.to_nat m) r) (skipn (N.to_nat m) r)). rewrite L in H.
  enough (max < m) by lia. apply H. exists f. rewrite firstn_skipn, L. auto.
Qed.
(** they answer alike, so that the version of a connection need not be known before its first packet has arrived *)
Theorem C81_same_in_both : forall s max, bytes_ok s ->
  (forall b1 bd rest, starts_with_frame s b1 bd rest -> max < blen bd) ->
  exists e, V4Mod.read s max = (Err e, s) /\ V5Mod.read s max = (Err e, s).
Proof.
  intros s max Hb H. destruct (no_frame s max Hb H) as [e E]. exists e. unfold V4Mod.read, V5Mod.read. rewrite E. split; reflexivity.
Qed.
(** and no byte behind the header makes a difference *)
Theorem C81_header_only : forall h x max, bytes_ok (h ++ x) -> 5 <= blen h ->
  (forall b1 bd rest, starts_with_frame (h ++ x) b1 bd rest -> max < blen bd) ->
  exists e, forall x', bytes_ok x' -> blen x' = blen x ->
    V4Mod.read (h ++ x') max = (Err e, h ++ x') /\ V5Mod.read (h ++ x') max = (Err e, h ++ x').
Proof.
  intros h x max Hb H5 H. destruct (no_frame (h ++ x) max Hb H) as [e E]. exists e. intros x' Hb' Hl.
  assert (E' : check (h ++ x') max = Err e).
  { rewrite <- E. symmetry. apply C81_check; auto. apply bytes_ok_app. split; [apply bytes_ok_app in Hb; apply Hb|exact Hb']. }
  unfold V4Mod.read, V5Mod.read. rewrite E'. split; reflexivity.
Qed.
(** ** where the next frame starts is settled by the header too: nothing in a body, however chosen, moves it *)
Theorem C81_framing : forall h x x' max r r', bytes_ok (h ++ x) -> bytes_ok (h ++ x') -> 5 <= blen h -> blen x = blen x' ->
  (snd (V4Mod.read (h ++ x) max) = r -> snd (V4Mod.read (h ++ x') max) = r' -> blen r = blen r') /\
  (snd (V5Mod.read (h ++ x) max) = r -> snd (V5Mod.read (h ++ x') max) = r' -> blen r = blen r').
Proof.
  intros h x x' max r r' Hb Hb' H5 Hl. assert (E := C81_check h x x' max Hb Hb' H5 Hl).
  assert (L : blen (h ++ x) = blen (h ++ x')) by (rewrite !blen_app; lia).
  split; intros <- <-.
  - assert (A := PropV4.C08_v4_consumes_one_frame (h ++ x) max Hb). assert (B := PropV4.C08_v4_consumes_one_frame (h ++ x') max Hb').
    rewrite <- E in B. destruct (check (h ++ x) max) as [hd|e| |]; try contradiction.
    + destruct A as (fr & A1 & A2). destruct B as (fr' & B1 & B2). rewrite A1, B1, !blen_app in L. lia.
    + rewrite A, B. cbn [snd]. exact L.
  - assert (A := PropV5.C08_v5_consumes_one_frame (h ++ x) max Hb). assert (B := PropV5.C08_v5_consumes_one_frame (h ++ x') max Hb').
    rewrite <- E in B. destruct (check (h ++ x) max) as [hd|e| |]; try contradiction.
    + destruct A as (fr & A1 & A2). destruct B as (fr' & B1 & B2). rewrite A1, B1, !blen_app in L. lia.
    + rewrite A, B. cbn [snd]. exact L.
Qed.
(** both versions cut every stream at the same places *)
Theorem C81_same_cut : forall s max, bytes_ok s -> snd (V4Mod.read s max) = snd (V5Mod.read s max).
Proof.
  intros s max Hb. assert (A := PropV4.C08_v4_consumes_one_frame s max Hb). assert (B := PropV5.C08_v5_consumes_one_frame s max Hb).
  destruct (check s max) as [hd|e| |]; try contradiction.
  - destruct A as (fr & A1 & A2). destruct B as (fr' & B1 & B2). rewrite A1 in B1 at 1.
    assert (L : blen fr = blen fr') by lia. clear - B1 L. revert fr' B1 L. induction fr as [|a fr IH]; intros [|b fr'] E L; cbn [app] in E; autorewrite with blen in L; change (@blen N []) with 0 in L; try lia; [exact E|].
    injection E as _ E. apply (IH fr' E). lia.
  - rewrite A, B. reflexivity.
Qed.
(** ** the same, for whole connections *)
Lemma both_reads s max : bytes_ok s -> exists r4 r5 t, V4Mod.read s max = (r4, t) /\ V5Mod.read s max = (r5, t) /\ bytes_ok t /\
  ((t = s /\ exists e, r4 = Err e /\ r5 = Err e) \/ blen t < blen s).
Proof.
  intros Hb. assert (C := C81_same_cut s max Hb). assert (A := PropV4.C08_v4_consumes_one_frame s max Hb).
  destruct (V4Mod.read s max) as [r4 t] eqn:E4, (V5Mod.read s max) as [r5 t5] eqn:E5. cbn [snd] in *. subst t5. exists r4, r5, t.
  split; [reflexivity|]. split; [reflexivity|]. destruct (check s max) as [hd|e| |] eqn:Ec; try contradiction.
  - destruct A as (fr & -> & A2). split; [apply bytes_ok_app in Hb; apply Hb|]. right. rewrite blen_app.
    assert (V := proj1 (check_iff _ _ _ Hb) Ec). inversion V as [| | | | |b1 f n r Es Hf H4 Hm Hr Eh]. subst hd. cbn [fixed_header_len remaining_len] in A2. lia.
  - injection A as -> ->. split; [exact Hb|]. left. split; [reflexivity|]. exists e. split; [reflexivity|].
    unfold V5Mod.read in E5. rewrite Ec in E5. injection E5 as <-. reflexivity.
Qed.
(** arrivals and calls in any order, with any limits: one buffer under the 3.1.1 reader and one under the MQTT 5 reader are the
    same at every call, before and after *)
Theorem C81_histories : forall evs buf, bytes_ok buf -> bytes_ok (arrived evs) ->
  let h4 := history V4Mod.read evs buf in let h5 := history V5Mod.read evs buf in
  snd h4 = snd h5 /\ map before (fst h4) = map before (fst h5) /\ map after (fst h4) = map after (fst h5).
Proof.
  cbv zeta. induction evs as [|ev evs IH]; intros buf Hb Ha; [auto|]. destruct ev as [c|m]; cbn [history].
  - unfold arrived in Ha. cbn [flat_map] in Ha. apply bytes_ok_app in Ha as [Hc Ha]. apply IH; [apply bytes_ok_app; auto|exact Ha].
  - unfold arrived in Ha. cbn [flat_map app] in Ha. destruct (both_reads buf m Hb) as (r4 & r5 & t & -> & -> & Ht & _).
    destruct (IH t Ht Ha) as (I1 & I2 & I3). destruct (history V4Mod.read evs t) as [c4 l4], (history V5Mod.read evs t) as [c5 l5].
    cbn [fst snd map before after] in *. split; [exact I1|]. split; f_equal; assumption.
Qed.
Lemma drain_same max : forall fuel buf, bytes_ok buf ->
  let d4 := drain V4Mod.read max true fuel buf in let d5 := drain V5Mod.read max true fuel buf in
  snd d4 = snd d5 /\ List.length (fst d4) = List.length (fst d5) /\ bytes_ok (snd (snd d4)).
Proof.
  cbv zeta. induction fuel as [|fuel IH]; intros buf Hb; [cbn; auto|]. cbn [drain].
  destruct (both_reads buf max Hb) as (r4 & r5 & t & -> & -> & Ht & [[-> (e & -> & ->)]|L]).
  - rewrite N.ltb_irrefl. destruct (is_insufficient (Err e)); cbn; auto.
  - apply N.ltb_lt in L. rewrite L. cbn [andb negb]. rewrite !Bool.andb_false_r. destruct (IH t Ht) as (I1 & I2 & I3).
    destruct (drain V4Mod.read max true fuel t) as [e4 s4], (drain V5Mod.read max true fuel t) as [e5 s5]. cbn [fst snd List.length] in *. auto.
Qed.
(** a connection received in any pieces: as many answers, the same buffer, and stopped at the same chunk, if at all *)
Theorem C81_receivers : forall max chunks st, bytes_ok (snd st) -> Forall bytes_ok chunks ->
  let d4 := receive V4Mod.read max true st chunks in let d5 := receive V5Mod.read max true st chunks in
  snd d4 = snd d5 /\ List.length (fst d4) = List.length (fst d5).
Proof.
  cbv zeta. intros max. induction chunks as [|c cs IH]; intros st Hb Hc; [auto|]. inversion Hc as [|? ? Hc1 Hc2]; subst. cbn [receive].
  destruct st as [[|] buf]; cbn [feed snd] in *.
  - assert (Hbc : bytes_ok (buf ++ c)) by (apply bytes_ok_app; auto).
    destruct (drain_same max (S (List.length (buf ++ c))) (buf ++ c) Hbc) as (D1 & D2 & D3).
    destruct (drain V4Mod.read max true _ (buf ++ c)) as [e4 s4], (drain V5Mod.read max true _ (buf ++ c)) as [e5 s5]. cbn [fst snd] in *. subst s5.
    destruct (IH s4 D3 Hc2) as (I1 & I2).
    destruct (receive V4Mod.read max true s4 cs) as [f4 t4], (receive V5Mod.read max true s4 cs) as [f5 t5]. cbn [fst snd] in *.
    rewrite !app_length. split; [exact I1|lia].
  - assert (Hbc : bytes_ok (buf ++ c)) by (apply bytes_ok_app; auto).
    destruct (IH (Stopped, buf ++ c) Hbc Hc2) as (I1 & I2).
    destruct (receive V4Mod.read max true (Stopped, buf ++ c) cs) as [f4 t4], (receive V5Mod.read max true (Stopped, buf ++ c) cs) as [f5 t5]. cbn [fst snd] in *. auto.
Qed.
(** non-trivial: a frame over the limit and one that is still arriving, whatever is in them; a complete one, read to different
    answers by the two versions and cut at the same place *)
Example C81_case :
  (forall b1 bd rest, starts_with_frame ([0x30; 9; 0; 1; 97] ++ [1; 2]) b1 bd rest -> 20 < blen bd) /\
  V4Mod.read ([0x30; 9; 0; 1; 97] ++ [1; 2]) 20 = (Err (InsufficientBytes 4), [0x30; 9; 0; 1; 97; 1; 2]) /\
  V5Mod.read ([0x30; 9; 0; 1; 97] ++ [255; 255]) 8 = (Err (PayloadSizeLimitExceeded 9), [0x30; 9; 0; 1; 97; 255; 255]) /\
  snd (V4Mod.read [0x20; 2; 0; 0; 0xC0; 0] 20) = [0xC0; 0] /\ snd (V5Mod.read [0x20; 2; 0; 0; 0xC0; 0] 20) = [0xC0; 0] /\
  fst (V4Mod.read [0x20; 2; 0; 0; 0xC0; 0] 20) = Ok (V4Mod.ConnAck (V4ConnAck.mkConnAck false V4ConnAck.Success)) /\
  fst (V5Mod.read [0x20; 2; 0; 0; 0xC0; 0] 20) = Err (InsufficientBytes 1).
Proof.
  split.
  - intros b1 bd rest (f & E & Hf & _). cbn [app] in E. injection E as <- E. exfalso.
    remember (blen bd) as n eqn:En. destruct Hf as [b Hb|b f n Hb1 Hf]; cbn [app] in E; injection E as E1 E; [|lia].
    assert (L : blen [0; 1; 97; 1; 2] = blen (bd ++ rest)) by congruence. rewrite blen_app in L. change (blen [0; 1; 97; 1; 2]) with 5 in L. lia.
  - repeat split; vm_compute; reflexivity.
Qed.

(** ** the same about the Rust text *)
Theorem C81_source_check : forall h x x' max, bytes_ok (h ++ x) -> bytes_ok (h ++ x') -> 5 <= blen h -> blen x = blen x' ->
  SrcLib.check (h ++ x) max = SrcLib.check (h ++ x') max.
Proof. intros. rewrite !ProofSrcBase.check_eq. apply C81_check; assumption. Qed.
Theorem C81_source_header_only : forall h x max, bytes_ok (h ++ x) -> blen (h ++ x) < 2 ^ 63 -> 5 <= blen h ->
  (forall b1 bd rest, starts_with_frame (h ++ x) b1 bd rest -> max < blen bd) ->
  exists e, forall x', bytes_ok x' -> blen x' = blen x ->
    v4_reads (h ++ x') max = (Err e, h ++ x') /\ v5_reads (h ++ x') max = (Err e, h ++ x').
Proof.
  intros h x max Hb Hs H5 H. destruct (C81_header_only h x max Hb H5 H) as [e G]. exists e. intros x' Hb' Hl.
  assert (Hs' : blen (h ++ x') < 2 ^ 63) by (rewrite blen_app in *; lia).
  rewrite PropSourceStream.v4_reads_eq, PropSourceStream.v5_reads_eq by exact Hs'. exact (G x' Hb' Hl).
Qed.
Theorem C81_source_same_cut : forall s max, bytes_ok s -> blen s < 2 ^ 63 -> snd (v4_reads s max) = snd (v5_reads s max).
Proof. intros s max Hb Hs. rewrite PropSourceStream.v4_reads_eq, PropSourceStream.v5_reads_eq by exact Hs. apply C81_same_cut, Hb. Qed.

Print Assumptions C81_check.
Print Assumptions C81_check_five_refuted.
Print Assumptions C81_same_in_both.
Print Assumptions C81_header_only.
Print Assumptions C81_framing.
Print Assumptions C81_same_cut.
Print Assumptions C81_source_check.
Print Assumptions C81_source_header_only.
Print Assumptions C81_source_same_cut.
Print Assumptions C81_histories.
Print Assumptions C81_receivers.

(** PropSourceDemand.v -- C77 about the Rust text (its translation Src*.v). *)
From Verif Require Import Base SpecWire SpecFrame SpecStream SpecDemand SpecRelease ProofBase ProofLib ProofRelBase ProofSrcBase SpecSource.
From Verif Require V4Mod V5Mod PropSession PropSource PropSourceStream PropDemand.

Section Same.
  Context {P : Type}.
  Variables (rd rd' : bytes -> N -> outcome P * bytes) (max B : N).
  Hypothesis Hrd : forall s, bytes_ok s -> blen s < B -> rd s max = rd' s max.
  Hypothesis Hs : forall s, bytes_ok s -> exists p, s = p ++ snd (rd' s max).
  Lemma pull_same calls : forall buf src, bytes_ok (buf ++ src) -> blen (buf ++ src) < B ->
    pull rd max calls buf src = pull rd' max calls buf src.
  Proof.
    induction calls as [|k IH]; intros buf src Hb Hl; [reflexivity|]. cbn [pull].
    assert (Hbb : bytes_ok buf) by (apply bytes_ok_app in Hb; apply Hb).
    rewrite Hrd; [|exact Hbb|rewrite blen_app in Hl; lia].
    destruct (Hs buf Hbb) as [p E]. destruct (rd' buf max) as [[v|e| |] b]; try reflexivity. destruct e; try reflexivity.
    cbn [snd] in E. destruct (blen src <? _); [reflexivity|].
    apply IH; rewrite <- app_assoc, firstn_skipn; rewrite E, <- app_assoc in *.
    - apply bytes_ok_app in Hb. apply Hb.
    - rewrite (blen_app p) in Hl. lia.
  Qed.
  Lemma pull_all_same packets calls : forall buf src, bytes_ok (buf ++ src) -> blen (buf ++ src) < B ->
    (forall k c b s r b' s', bytes_ok (b ++ s) -> k = c -> pull rd' max c b s = Got r b' s' -> exists p, b ++ s = p ++ (b' ++ s')) ->
    pull_all rd max packets calls buf src = pull_all rd' max packets calls buf src.
  Proof.
    induction packets as [|n IH]; intros buf src Hb Hl Hd; [reflexivity|]. cbn [pull_all]. rewrite pull_same by assumption.
    destruct (pull rd' max calls buf src) as [r b s|m b s|] eqn:E; try reflexivity.
    destruct (Hd calls calls buf src r b s Hb eq_refl E) as [p Ep].
    rewrite IH; [reflexivity| | |exact Hd]; rewrite Ep in *.
    - apply bytes_ok_app in Hb. apply Hb.
    - rewrite (blen_app p) in Hl. lia.
  Qed.
  Lemma pull_drops c : forall b s r b' s', bytes_ok (b ++ s) -> pull rd' max c b s = Got r b' s' -> exists p, b ++ s = p ++ (b' ++ s').
  Proof.
    induction c as [|k IH]; intros b s r b' s' Hb H; [discriminate|]. cbn [pull] in H.
    assert (Hbb : bytes_ok b) by (apply bytes_ok_app in Hb; apply Hb).
    destruct (Hs b Hbb) as [p E]. destruct (rd' b max) as [v b1]. cbn [snd] in E.
    assert (G : Got v b1 s = Got r b' s' -> exists p, b ++ s = p ++ (b' ++ s')).
    { intros G. injection G as _ <- <-. exists p. rewrite E, <- app_assoc. reflexivity. }
    destruct v as [v|e| |]; try (apply G, H). destruct e; try (apply G, H).
    destruct (blen s <? _); [discriminate|]. apply IH in H.
    - destruct H as [p' Hp]. rewrite <- app_assoc, firstn_skipn in Hp. exists (p ++ p'). rewrite E, <- !app_assoc, Hp. reflexivity.
    - rewrite <- app_assoc, firstn_skipn. rewrite E, <- app_assoc in Hb. apply bytes_ok_app in Hb. apply Hb.
  Qed.
  Lemma fetches_same : forall buf src r buf' src' c, fetches rd max buf src r buf' src' c ->
    bytes_ok (buf ++ src) -> blen (buf ++ src) < B -> fetches rd' max buf src r buf' src' c.
  Proof.
    intros buf src r buf' src' c H. induction H as [buf src r buf' Hr Hv|buf src n buf1 more src1 r buf' src' c Hr Hsrc Hm HF IH]; intros Hb Hl.
    - apply fetch_done; [|exact Hv]. rewrite <- Hrd; [exact Hr|apply bytes_ok_app in Hb; apply Hb|rewrite blen_app in Hl; lia].
    - assert (Hbb : bytes_ok buf) by (apply bytes_ok_app in Hb; apply Hb).
      rewrite Hrd in Hr; [|exact Hbb|rewrite blen_app in Hl; lia].
      destruct (Hs buf Hbb) as [p E]. rewrite Hr in E. cbn [snd] in E.
      eapply fetch_more; [exact Hr|exact Hsrc|exact Hm|].
      subst src. rewrite E, <- app_assoc in Hb, Hl. apply IH; rewrite <- app_assoc.
      + apply bytes_ok_app in Hb. apply Hb.
      + rewrite (blen_app p) in Hl. lia.
  Qed.
End Same.

Lemma v4_pull_eq max calls s : bytes_ok s -> blen s < 2 ^ 63 -> pull v4_reads max calls [] s = pull V4Mod.read max calls [] s.
Proof.
  intros Hb Hl. apply (pull_same _ _ max (2 ^ 63)); [intros t _ H; apply PropSourceStream.v4_reads_eq, H|apply PropSourceStream.v4_suffix|exact Hb|exact Hl].
Qed.
Lemma v5_pull_eq max calls s : bytes_ok s -> blen s < 2 ^ 63 -> pull v5_reads max calls [] s = pull V5Mod.read max calls [] s.
Proof.
  intros Hb Hl. apply (pull_same _ _ max (2 ^ 63)); [intros t _ H; apply PropSourceStream.v5_reads_eq, H|apply PropSourceStream.v5_suffix|exact Hb|exact Hl].
Qed.
Lemma v4_pull_all_eq max packets calls s : bytes_ok s -> blen s < 2 ^ 63 ->
  pull_all v4_reads max packets calls [] s = pull_all V4Mod.read max packets calls [] s.
Proof.
  intros Hb Hl. apply (pull_all_same _ _ max (2 ^ 63)); [intros t _ H; apply PropSourceStream.v4_reads_eq, H|apply PropSourceStream.v4_suffix|exact Hb|exact Hl|].
  intros k c b t r b' t' H _. apply (pull_drops V4Mod.read); [apply PropSourceStream.v4_suffix|exact H].
Qed.
Lemma v5_pull_all_eq max packets calls s : bytes_ok s -> blen s < 2 ^ 63 ->
  pull_all v5_reads max packets calls [] s = pull_all V5Mod.read max packets calls [] s.
Proof.
  intros Hb Hl. apply (pull_all_same _ _ max (2 ^ 63)); [intros t _ H; apply PropSourceStream.v5_reads_eq, H|apply PropSourceStream.v5_suffix|exact Hb|exact Hl|].
  intros k c b t r b' t' H _. apply (pull_drops V5Mod.read); [apply PropSourceStream.v5_suffix|exact H].
Qed.

Theorem C77_source_takes_one_frame : forall x rest max calls,
  PropSession.complete_frame max x -> bytes_ok rest -> blen (x ++ rest) < 2 ^ 63 -> (6 <= calls)%nat ->
  pull v4_reads max calls [] (x ++ rest) = Got (fst (v4_reads x max)) [] rest /\
  ((forall n, fst (v5_reads x max) <> Err (InsufficientBytes n)) ->
   pull v5_reads max calls [] (x ++ rest) = Got (fst (v5_reads x max)) [] rest).
Proof.
  intros x rest max calls Hx Hr Hl Hc.
  assert (Hxl : blen x < 2 ^ 63) by (rewrite blen_app in Hl; lia).
  assert (Hb : bytes_ok (x ++ rest)) by (apply bytes_ok_app; split; [apply Hx|exact Hr]).
  rewrite v4_pull_eq, v5_pull_eq, PropSourceStream.v4_reads_eq, PropSourceStream.v5_reads_eq by assumption. split.
  - apply PropDemand.C77_v4_takes_one_frame; assumption.
  - intros Hn. apply PropDemand.C77_v5_takes_one_frame; assumption.
Qed.
Theorem C77_source_connection : forall frames tail packets max calls,
  Forall (PropSession.complete_frame max) frames -> bytes_ok tail -> blen (concat frames ++ tail) < 2 ^ 63 -> (6 <= calls)%nat ->
  (let (rs, d) := pull_all v4_reads max packets calls [] tail in
   pull_all v4_reads max (List.length frames + packets) calls [] (concat frames ++ tail) =
     (map (fun x => fst (v4_reads x max)) frames ++ rs, d)) /\
  (Forall (fun x => forall n, fst (v5_reads x max) <> Err (InsufficientBytes n)) frames ->
   let (rs, d) := pull_all v5_reads max packets calls [] tail in
   pull_all v5_reads max (List.length frames + packets) calls [] (concat frames ++ tail) =
     (map (fun x => fst (v5_reads x max)) frames ++ rs, d)).
Proof.
  intros frames tail packets max calls HF Ht Hl Hc.
  assert (Hb : bytes_ok (concat frames ++ tail)) by (apply bytes_ok_app; split; [exact (PropSession.frames_bytes max frames HF)|exact Ht]).
  assert (Htl : blen tail < 2 ^ 63) by (rewrite blen_app in Hl; lia).
  assert (HL : Forall (fun x => blen x < 2 ^ 63) frames).
  { apply Forall_forall. intros x Hx. apply in_split in Hx as (l1 & l2 & ->). rewrite concat_app in Hl. cbn [concat] in Hl.
    autorewrite with blen in Hl. lia. }
  rewrite !v4_pull_all_eq, !v5_pull_all_eq by assumption.
  assert (E4 : map (fun x => fst (v4_reads x max)) frames = map (fun x => fst (V4Mod.read x max)) frames).
  { clear - HL. induction HL as [|x l H _ IH]; [reflexivity|]. cbn [map]. rewrite IH, (PropSourceStream.v4_reads_eq x max H). reflexivity. }
  assert (E5 : map (fun x => fst (v5_reads x max)) frames = map (fun x => fst (V5Mod.read x max)) frames).
  { clear - HL. induction HL as [|x l H _ IH]; [reflexivity|]. cbn [map]. rewrite IH, (PropSourceStream.v5_reads_eq x max H). reflexivity. }
  rewrite E4, E5. split.
  - apply PropDemand.C77_v4_connection; assumption.
  - intros HN. apply PropDemand.C77_v5_connection; try assumption.
    clear - HL HN. induction HL as [|x l H _ IH]; [constructor|]. apply Forall_cons_iff in HN as [Hn HN]. constructor; [|auto].
    intros n. rewrite <- (PropSourceStream.v5_reads_eq x max H). apply Hn.
Qed.
Theorem C77_source_refusals : forall b1 f n r max calls,
  bytes_ok (b1 :: f ++ r) -> blen (b1 :: f ++ r) < 2 ^ 63 -> lenfield f n -> blen f <= 4 -> max < n -> (6 <= calls)%nat ->
  pull v4_reads max calls [] (b1 :: f ++ r) = Got (Err (PayloadSizeLimitExceeded n)) (b1 :: f) r /\
  pull v5_reads max calls [] (b1 :: f ++ r) = Got (Err (PayloadSizeLimitExceeded n)) (b1 :: f) r.
Proof.
  intros b1 f n r max calls Hb Hs Hf Hl Hm Hc. rewrite v4_pull_eq, v5_pull_eq by assumption.
  apply PropDemand.C77_over_limit_takes_header; assumption.
Qed.
Theorem C77_source_waits_for_this_frame_only : forall pre suf max calls,
  PropSession.complete_frame max (pre ++ suf) -> blen pre < 2 ^ 63 -> suf <> [] -> (6 <= calls)%nat ->
  (exists n buf src, pull v4_reads max calls [] pre = Blocks n buf src /\ buf ++ src = pre /\ blen src < n /\ n - blen src <= blen suf) /\
  (exists n buf src, pull v5_reads max calls [] pre = Blocks n buf src /\ buf ++ src = pre /\ blen src < n /\ n - blen src <= blen suf).
Proof.
  intros pre suf max calls Hx Hl Hs Hc.
  assert (Hb : bytes_ok pre) by (destruct Hx as [Hb _]; apply bytes_ok_app in Hb; apply Hb).
  rewrite v4_pull_eq, v5_pull_eq by assumption.
  exact (PropDemand.C77_waits_for_this_frame_only pre suf max calls Hx Hs Hc).
Qed.
Theorem C77_source_any_fetch : forall x rest buf src max r buf' src' calls,
  PropSession.complete_frame max x -> bytes_ok rest -> buf ++ src = x ++ rest -> blen (x ++ rest) < 2 ^ 63 ->
  (fetches v4_reads max buf src r buf' src' calls -> r = fst (V4Mod.read x max) /\ buf' ++ src' = rest /\ (calls <= 6)%nat).
Proof.
  intros x rest buf src max r buf' src' calls Hx Hr E Hl HF.
  assert (Hb : bytes_ok (x ++ rest)) by (apply bytes_ok_app; split; [apply Hx|exact Hr]).
  apply (fetches_same _ V4Mod.read max (2 ^ 63)) in HF; [| |apply PropSourceStream.v4_suffix|rewrite E; exact Hb|rewrite E; exact Hl].
  - exact (proj2 (PropDemand.C77_v4_any_fetch x rest buf src max Hx Hr E) _ _ _ _ HF).
  - intros t _ H. apply PropSourceStream.v4_reads_eq, H.
Qed.
Theorem C77_source_v5_any_fetch : forall x rest buf src max r buf' src' calls,
  PropSession.complete_frame max x -> bytes_ok rest -> (forall n, fst (V5Mod.read x max) <> Err (InsufficientBytes n)) ->
  buf ++ src = x ++ rest -> blen (x ++ rest) < 2 ^ 63 ->
  (fetches v5_reads max buf src r buf' src' calls -> r = fst (V5Mod.read x max) /\ buf' ++ src' = rest /\ (calls <= 6)%nat).
Proof.
  intros x rest buf src max r buf' src' calls Hx Hr Hn E Hl HF.
  assert (Hb : bytes_ok (x ++ rest)) by (apply bytes_ok_app; split; [apply Hx|exact Hr]).
  apply (fetches_same _ V5Mod.read max (2 ^ 63)) in HF; [| |apply PropSourceStream.v5_suffix|rewrite E; exact Hb|rewrite E; exact Hl].
  - exact (proj2 (PropDemand.C77_v5_any_fetch x rest buf src max Hx Hr Hn E) _ _ _ _ HF).
  - intros t _ H. apply PropSourceStream.v5_reads_eq, H.
Qed.

Print Assumptions C77_source_takes_one_frame.
Print Assumptions C77_source_connection.
Print Assumptions C77_source_refusals.
Print Assumptions C77_source_waits_for_this_frame_only.
Print Assumptions C77_source_any_fetch.
Print Assumptions C77_source_v5_any_fetch.

(** PropBound.v -- C79: the size limit bounds the receive buffer. *)
From Verif Require Import ProofBase Lib SpecFrame SpecStream SpecDemand SpecBound SpecRelease SpecSource ProofLib ProofCheck ProofStream.
From Verif Require V4Mod ProofV4 V5Mod ProofV5 PropV5 ProofDemand PropSourceStream PropSourceDemand.

Lemma ask_bound s max n : bytes_ok s -> check s max = Err (InsufficientBytes n) -> 1 <= n /\ blen s + n <= max + 5.
Proof.
  intros Hb H. split; [apply (check_need s max n Hb H)|]. apply check_iff in H; [|exact Hb].
  inversion H as [Ht|b1 r Es H1 H2 H3| | |b1 f k r Es Hf Hl Hm Hr|]; subst.
  - lia.
  - autorewrite with blen. lia.
  - autorewrite with blen. lia.
Qed.

Section Generic.
  Context {P : Type}.
  Variable rf : FixedHeader -> bytes -> outcome P.
  Variable max : N.
  Notation rd := (gread rf).

  (** one call: what is left, and what is asked for *)
  Lemma read_bound s r s' : bytes_ok s -> rd s max = (r, s') ->
    bytes_ok s' /\ ((s' = s /\ exists e, check s max = Err e /\ r = Err e) \/ blen s' + 2 <= blen s).
  Proof.
    intros Hb H. destruct (g_cases rf s max Hb) as [e Ec Hg|b1 f bd rest Es Hf Hl Hm Hb1 Hbf Hbd Hr Ec Hg]; rewrite Hg in H; injection H as <- <-.
    - split; [exact Hb|]. left. eauto.
    - split; [exact Hr|]. right. subst s. apply lenfield_nonempty in Hf. autorewrite with blen. lia.
  Qed.
  Lemma peak_bound (confused : forall b1 f bd n, bytes_ok (b1 :: f ++ bd) -> lenfield f (blen bd) -> blen f <= 4 -> rframe rf b1 f bd = Err (InsufficientBytes n) -> n = 1) :
    forall calls buf src, bytes_ok (buf ++ src) -> blen buf <= max + 5 ->
    peak rd max calls buf src <= max + 5 /\
    (forall r buf' src', pull rd max calls buf src = Got r buf' src' -> bytes_ok (buf' ++ src') /\ blen buf' <= max + 5).
  Proof.
    induction calls as [|k IH]; intros buf src Hb Hl; [split; [exact Hl|discriminate]|].
    cbn [peak pull]. assert (Hbb := Hb). apply bytes_ok_app in Hbb as [Hbb Hbs].
    destruct (rd buf max) as [r b1] eqn:Er. destruct (read_bound buf r b1 Hbb Er) as [Hb1 Hr].
    assert (Hl1 : blen b1 <= max + 5) by (destruct Hr as [[-> _]|Hr]; lia).
    assert (Stop : N.max (blen buf) (blen b1) <= max + 5 /\ (forall r' buf' src', Got r b1 src = Got r' buf' src' -> bytes_ok (buf' ++ src') /\ blen buf' <= max + 5)).
    { split; [lia|]. intros r' buf' src' E. injection E as <- <- <-. split; [apply bytes_ok_app; auto|exact Hl1]. }
    destruct r as [v|e| |]; try exact Stop. destruct e; try exact Stop.
    destruct (blen src <? n) eqn:El; [split; [lia|discriminate]|].
    assert (Hn : blen b1 + n <= max + 5).
    { destruct Hr as [[-> (e & Ec & Ee)]|Hr].
      - injection Ee as <-. apply (ask_bound buf max n Hbb Ec).
      - destruct (g_cases rf buf max Hbb) as [e Ec Hg|c1 f bd rest Es Hf Hlf Hm Hc1 Hbf Hbd Hrest Ec Hg]; rewrite Hg in Er; injection Er as Er1 Er2; [subst b1; lia|].
        rewrite (confused c1 f bd n) by (try assumption; try (apply bytes_ok_cons; split; [exact Hc1|]; apply bytes_ok_app; auto)). lia. }
    assert (Hnew : bytes_ok ((b1 ++ firstn (N.to_nat n) src) ++ skipn (N.to_nat n) src)).
    { rewrite <- app_assoc, firstn_skipn. apply bytes_ok_app. auto. }
    assert (Hlen : blen (b1 ++ firstn (N.to_nat n) src) <= max + 5).
    { rewrite blen_app. unfold blen at 2. rewrite firstn_length. lia. }
    destruct (IH _ _ Hnew Hlen) as [IH1 IH2]. split; [lia|exact IH2].
  Qed.
  Lemma peak_all_bound (confused : forall b1 f bd n, bytes_ok (b1 :: f ++ bd) -> lenfield f (blen bd) -> blen f <= 4 -> rframe rf b1 f bd = Err (InsufficientBytes n) -> n = 1) :
    forall packets calls buf src, bytes_ok (buf ++ src) -> blen buf <= max + 5 -> peak_all rd max packets calls buf src <= max + 5.
  Proof.
    induction packets as [|p IH]; intros calls buf src Hb Hl; cbn [peak_all]; [exact Hl|].
    destruct (peak_bound confused calls buf src Hb Hl) as [H1 H2].
    destruct (pull rd max calls buf src) as [r b s| |]; [|lia|lia].
    destruct (H2 r b s eq_refl) as [H3 H4]. specialize (IH calls b s H3 H4). lia.
  Qed.
  Lemma receive_bound careful chunks evs buf (waits_ok : careful = true \/
      forall b1 f bd, b1 < 256 -> bytes_ok bd -> is_insufficient (rframe rf b1 f bd) = false) :
    Forall bytes_ok chunks -> receive rd max careful (Waiting, []) chunks = (evs, (Waiting, buf)) -> blen buf < max + 5.
  Proof.
    intros Hc H. rewrite (receive_concat rf max careful waits_ok) in H by (auto using start_settled, bytes_ok_nil).
    assert (Hcc : bytes_ok (concat chunks)) by (apply Forall_concat; exact Hc).
    assert (Hs := feed_settled rf max careful waits_ok (Waiting, []) (concat chunks) bytes_ok_nil Hcc).
    assert (Hb := feed_bytes rf max careful waits_ok (Waiting, []) (concat chunks) bytes_ok_nil Hcc).
    rewrite H in Hs, Hb. cbn [snd] in Hs, Hb. destruct Hs as [n Hn]. destruct (ask_bound buf max n Hb Hn). lia.
  Qed.
End Generic.

Lemma v4_confused b1 f bd n : bytes_ok (b1 :: f ++ bd) -> lenfield f (blen bd) -> blen f <= 4 -> rframe V4Mod.read_frame b1 f bd = Err (InsufficientBytes n) -> n = 1.
Proof.
  intros Hb _ _ H. apply bytes_ok_cons in Hb as [Hb1 Hb]. apply bytes_ok_app in Hb as [_ Hbd].
  assert (N := ProofV4.no_insufficient b1 f bd Hb1 Hbd). rewrite H in N. discriminate.
Qed.
Lemma v5_confused b1 f bd n : bytes_ok (b1 :: f ++ bd) -> lenfield f (blen bd) -> blen f <= 4 -> rframe V5Mod.read_frame b1 f bd = Err (InsufficientBytes n) -> n = 1.
Proof.
  intros Hb Hf Hl H. assert (Hb2 : bytes_ok (b1 :: f ++ bd ++ [])) by (rewrite app_nil_r; exact Hb).
  assert (G := g_frame V5Mod.read_frame b1 f bd [] (blen bd) Hb2 Hf Hl (N.le_refl _)). rewrite H in G.
  destruct (PropV5.C11_v5_insufficient_exact _ (blen bd) n [] Hb2 G) as [[E _]|[E _]]; [discriminate|exact E].
Qed.

(** ** one call *)
(** what a call asks for never takes the buffer beyond the limit and a header *)
Theorem C79_asks_within_limit : forall s max n, bytes_ok s ->
  (V4Mod.read s max = (Err (InsufficientBytes n), s) -> 1 <= n /\ blen s + n <= max + 5) /\
  (V5Mod.read s max = (Err (InsufficientBytes n), s) -> 1 <= n /\ blen s + n <= max + 5).
Proof.
  intros s max n Hb. split; intros H.
  - destruct (read_bound V4Mod.read_frame max s _ _ Hb H) as [_ [[_ (e & Ec & Ee)]|Hx]]; [|lia].
    injection Ee as <-. exact (ask_bound s max n Hb Ec).
  - destruct (read_bound V5Mod.read_frame max s _ _ Hb H) as [_ [[_ (e & Ec & Ee)]|Hx]]; [|lia].
    injection Ee as <-. exact (ask_bound s max n Hb Ec).
Qed.

(** ** receivers *)
(** after every chunk, whatever the peer sends: what waits in the buffer is less than the limit and a header *)
Theorem C79_v4_receiver : forall chunks max evs buf, Forall bytes_ok chunks ->
  receive V4Mod.read max false (Waiting, []) chunks = (evs, (Waiting, buf)) -> blen buf < max + 5.
Proof.
  intros chunks max evs buf Hc H. eapply (receive_bound V4Mod.read_frame max false chunks evs buf); [|exact Hc|exact H].
  right. intros b1 f bd. apply ProofV4.no_insufficient.
Qed.
Theorem C79_v5_receiver : forall chunks max evs buf, Forall bytes_ok chunks ->
  receive V5Mod.read max true (Waiting, []) chunks = (evs, (Waiting, buf)) -> blen buf < max + 5.
Proof.
  intros chunks max evs buf Hc H. eapply (receive_bound V5Mod.read_frame max true chunks evs buf); [|exact Hc|exact H].
  left. reflexivity.
Qed.
(** v5, a receiver that takes InsufficientBytes at its word: any amount may lie in the buffer, all of it complete packets *)
Theorem C79_v5_naive_receiver_refuted : forall bound, exists chunks buf,
  Forall bytes_ok chunks /\ receive V5Mod.read 10 false (Waiting, []) chunks = ([], (Waiting, buf)) /\ bound < blen buf.
Proof.
  intros bound. set (pings := concat (repeat [0xC0; 0] (S (N.to_nat bound)))).
  exists [[0x20; 2; 0; 0] ++ pings], pings.
  assert (Hp : forall k, bytes_ok (concat (repeat [0xC0; 0] k)) /\ blen (concat (repeat [0xC0; 0] k)) = 2 * N.of_nat k).
  { induction k as [|k [IH1 IH2]]; [split; [constructor|reflexivity]|]. cbn [repeat concat]. split.
    - apply bytes_ok_app. split; [repeat constructor; cbv; reflexivity|exact IH1].
    - rewrite blen_app, IH2. change (blen [0xC0; 0]) with 2. lia. }
  destruct (Hp (S (N.to_nat bound))) as [Hb Hl]. fold pings in Hb, Hl.
  assert (Hall : bytes_ok ([0x20; 2; 0; 0] ++ pings)) by (apply bytes_ok_app; split; [repeat constructor; cbv; reflexivity|exact Hb]).
  split; [constructor; [exact Hall|constructor]|]. split; [|rewrite Hl; lia].
  cbn [receive feed]. rewrite app_nil_l.
  assert (Hr : V5Mod.read ([0x20; 2; 0; 0] ++ pings) 10 = (Err (InsufficientBytes 1), pings)).
  { change V5Mod.read with (gread V5Mod.read_frame). change ([0x20; 2; 0; 0] ++ pings) with (0x20 :: [2] ++ [0; 0] ++ pings).
    rewrite g_frame; [reflexivity|exact Hall|apply lf_last; reflexivity|cbv; discriminate|cbv; discriminate]. }
  cbn [drain]. rewrite Hr. cbn [is_insufficient andb negb]. reflexivity.
Qed.
(** a receiver that fetches what it is asked for: at no moment of a connection, whatever the peer sends and however long,
    does the buffer exceed the limit and a header *)
Theorem C79_demand_receiver : forall s max packets calls, bytes_ok s ->
  peak_all V4Mod.read max packets calls [] s <= max + 5 /\ peak_all V5Mod.read max packets calls [] s <= max + 5.
Proof.
  intros s max packets calls Hb. split.
  - apply (peak_all_bound V4Mod.read_frame max v4_confused packets calls [] s Hb). change (@blen N []) with 0. lia.
  - apply (peak_all_bound V5Mod.read_frame max v5_confused packets calls [] s Hb). change (@blen N []) with 0. lia.
Qed.
(** the bound is reached, for every limit, by a frame of that size with a length field of four bytes *)
Theorem C79_bound_is_reached : forall b1 f bd r max, bytes_ok (b1 :: f ++ bd ++ r) -> lenfield f (blen bd) -> blen f = 4 -> blen bd = max -> 1 <= max ->
  max + 5 <= peak_all V4Mod.read max 1 6 [] (b1 :: f ++ bd ++ r).
Proof.
  intros b1 f bd r max Hb Hf Hl Hm H1. cbn [peak_all].
  assert (Hbf : bytes_ok (b1 :: f)) by (change (b1 :: f ++ bd ++ r) with ((b1 :: f) ++ bd ++ r) in Hb; apply bytes_ok_app in Hb; apply Hb).
  apply N.le_trans with (peak V4Mod.read max 6 [] (b1 :: f ++ bd ++ r)); [|lia].
  change V4Mod.read with (gread V4Mod.read_frame).
  assert (Step : forall k buf src n a tl, check buf max = Err (InsufficientBytes n) -> src = a ++ tl -> blen a = n ->
    peak (gread V4Mod.read_frame) max k (buf ++ a) tl <= peak (gread V4Mod.read_frame) max (S k) buf src).
  { intros k buf src n a tl H -> <-. cbn [peak]. rewrite (g_no_frame _ _ _ _ H).
    replace (blen (a ++ tl) <? blen a) with false by (autorewrite with blen; lia).
    assert (E : N.to_nat (blen a) = List.length a) by (unfold blen; apply Nat2N.id). rewrite E.
    rewrite firstn_app, Nat.sub_diag, firstn_all, firstn_O, app_nil_r, skipn_app, Nat.sub_diag, skipn_all, skipn_O. cbn [app]. apply N.le_max_r. }
  destruct f as [|f0 [|f1 [|f2 [|f3 [|? ?]]]]]; try (exfalso; autorewrite with blen in Hl; change (@blen N []) with 0 in Hl; lia).
  assert (Hcont : Forall has_cont [f0; f1; f2]) by (apply (ProofDemand.lenfield_cont _ _ Hf [f0; f1; f2] [f3]); [reflexivity|discriminate]).
  assert (Hx := Hbf). repeat (apply bytes_ok_cons in Hx as [? Hx]).
  inversion Hcont as [|? ? C0 Hc']; subst. inversion Hc' as [|? ? C1 Hc'']; subst. inversion Hc'' as [|? ? C2 _]; subst.
  cbn [app]. eapply N.le_trans; [|apply (Step 5%nat [] _ 2 [b1; f0] (f1 :: f2 :: f3 :: bd ++ r)); reflexivity]. cbn [app].
  eapply N.le_trans; [|apply (Step 4%nat [b1; f0] _ 1 [f1] (f2 :: f3 :: bd ++ r)); [apply ProofDemand.check_open; [repeat constructor; assumption|change (blen [f0]) with 1; lia|change (blen [f0]) with 1; lia|repeat constructor; assumption]|reflexivity|reflexivity]]. cbn [app].
  eapply N.le_trans; [|apply (Step 3%nat [b1; f0; f1] _ 1 [f2] (f3 :: bd ++ r)); [apply ProofDemand.check_open; [repeat constructor; assumption|change (blen [f0; f1]) with 2; lia|change (blen [f0; f1]) with 2; lia|repeat constructor; assumption]|reflexivity|reflexivity]]. cbn [app].
  eapply N.le_trans; [|apply (Step 2%nat [b1; f0; f1; f2] _ 1 [f3] (bd ++ r)); [apply ProofDemand.check_open; [repeat constructor; assumption|change (blen [f0; f1; f2]) with 3; lia|change (blen [f0; f1; f2]) with 3; lia|repeat constructor; assumption]|reflexivity|reflexivity]]. cbn [app].
  eapply N.le_trans; [|apply (Step 1%nat [b1; f0; f1; f2; f3] _ (blen bd) bd r); [|reflexivity|reflexivity]].
  - cbn [app peak]. autorewrite with blen. lia.
  - apply check_iff; [exact Hbf|]. assert (V := v_partial [b1; f0; f1; f2; f3] (blen bd) b1 [f0; f1; f2; f3] (blen bd) []).
    change (@blen N []) with 0 in V. rewrite N.sub_0_r in V. apply V; [reflexivity|exact Hf|rewrite Hl; lia|lia|lia].
Qed.
(** non-trivial: an endless stream of garbage, a padded PUBLISH of the greatest size, a frame over the limit *)
Example C79_case :
  peak_all V4Mod.read 6 3 6 [] ([0x30; 0x86; 0x80; 0x80; 0x00; 0; 1; 97; 1; 2; 3] ++ [0xC0; 0] ++ [0x30; 7; 0; 1; 97; 1; 2; 3; 4]) = 11 /\
  fst (pull_all V4Mod.read 6 3 6 [] ([0x30; 0x86; 0x80; 0x80; 0x00; 0; 1; 97; 1; 2; 3] ++ [0xC0; 0] ++ [0x30; 7; 0; 1; 97; 1; 2; 3; 4])) =
    [fst (V4Mod.read [0x30; 6; 0; 1; 97; 1; 2; 3] 6); Ok V4Mod.PingReq; Err (PayloadSizeLimitExceeded 7)] /\
  receive V4Mod.read 6 false (Waiting, []) [[0x30; 0x86; 0x80; 0x80; 0x00; 0; 1; 97]; [1; 2]] = ([], (Waiting, [0x30; 0x86; 0x80; 0x80; 0x00; 0; 1; 97; 1; 2])).
Proof. repeat split; vm_compute; reflexivity. Qed.

(** ** the same about the Rust text *)
Theorem C79_source_asks_within_limit : forall s max n, bytes_ok s -> blen s < 2 ^ 63 ->
  (v4_reads s max = (Err (InsufficientBytes n), s) -> 1 <= n /\ blen s + n <= max + 5) /\
  (v5_reads s max = (Err (InsufficientBytes n), s) -> 1 <= n /\ blen s + n <= max + 5).
Proof.
  intros s max n Hb Hl. rewrite PropSourceStream.v4_reads_eq, PropSourceStream.v5_reads_eq by exact Hl. apply C79_asks_within_limit, Hb.
Qed.
Theorem C79_source_receiver : forall chunks max, Forall bytes_ok chunks -> blen (concat chunks) < 2 ^ 63 ->
  (forall evs buf, receive v4_reads max false (Waiting, []) chunks = (evs, (Waiting, buf)) -> blen buf < max + 5) /\
  (forall evs buf, receive v5_reads max true (Waiting, []) chunks = (evs, (Waiting, buf)) -> blen buf < max + 5).
Proof.
  intros chunks max Hc Hl. rewrite PropSourceStream.v4_receive_eq, PropSourceStream.v5_receive_eq by assumption. split; intros evs buf H.
  - exact (C79_v4_receiver chunks max evs buf Hc H).
  - exact (C79_v5_receiver chunks max evs buf Hc H).
Qed.
Lemma peak_same {P} (rd rd' : bytes -> N -> outcome P * bytes) max B :
  (forall s, bytes_ok s -> blen s < B -> rd s max = rd' s max) -> (forall s, bytes_ok s -> exists p, s = p ++ snd (rd' s max)) ->
  forall calls buf src, bytes_ok (buf ++ src) -> blen (buf ++ src) < B -> peak rd max calls buf src = peak rd' max calls buf src.
Proof.
  intros Hrd Hs. induction calls as [|k IH]; intros buf src Hb Hl; [reflexivity|]. cbn [peak].
  assert (Hbb : bytes_ok buf) by (apply bytes_ok_app in Hb; apply Hb).
  rewrite Hrd; [|exact Hbb|rewrite blen_app in Hl; lia].
  destruct (Hs buf Hbb) as [p E]. destruct (rd' buf max) as [[v|e| |] b]; try reflexivity. destruct e; try reflexivity.
  cbn [snd] in E. destruct (blen src <? _); [reflexivity|]. f_equal.
  apply IH; rewrite <- app_assoc, firstn_skipn; rewrite E, <- app_assoc in *.
  - apply bytes_ok_app in Hb. apply Hb.
  - rewrite (blen_app p) in Hl. lia.
Qed.
Lemma peak_all_same {P} (rd rd' : bytes -> N -> outcome P * bytes) max B :
  (forall s, bytes_ok s -> blen s < B -> rd s max = rd' s max) -> (forall s, bytes_ok s -> exists p, s = p ++ snd (rd' s max)) ->
  forall packets calls buf src, bytes_ok (buf ++ src) -> blen (buf ++ src) < B -> peak_all rd max packets calls buf src = peak_all rd' max packets calls buf src.
Proof.
  intros Hrd Hs. induction packets as [|n IH]; intros calls buf src Hb Hl; [reflexivity|]. cbn [peak_all].
  rewrite (peak_same rd rd' max B Hrd Hs) by assumption. rewrite (PropSourceDemand.pull_same rd rd' max B Hrd Hs) by assumption.
  destruct (pull rd' max calls buf src) as [r b s| |] eqn:E; try reflexivity.
  destruct (PropSourceDemand.pull_drops rd' max Hs calls buf src r b s Hb E) as [p Ep].
  f_equal. apply IH; rewrite Ep in *.
  - apply bytes_ok_app in Hb. apply Hb.
  - rewrite (blen_app p) in Hl. lia.
Qed.
Theorem C79_source_demand_receiver : forall s max packets calls, bytes_ok s -> blen s < 2 ^ 63 ->
  peak_all v4_reads max packets calls [] s <= max + 5 /\ peak_all v5_reads max packets calls [] s <= max + 5.
Proof.
  intros s max packets calls Hb Hl.
  rewrite (peak_all_same v4_reads V4Mod.read max (2 ^ 63)) by (try assumption; try (intros t _ H; apply PropSourceStream.v4_reads_eq, H); try apply PropSourceStream.v4_suffix).
  rewrite (peak_all_same v5_reads V5Mod.read max (2 ^ 63)) by (try assumption; try (intros t _ H; apply PropSourceStream.v5_reads_eq, H); try apply PropSourceStream.v5_suffix).
  apply C79_demand_receiver, Hb.
Qed.

Print Assumptions C79_asks_within_limit.
Print Assumptions C79_v4_receiver.
Print Assumptions C79_v5_receiver.
Print Assumptions C79_v5_naive_receiver_refuted.
Print Assumptions C79_demand_receiver.
Print Assumptions C79_bound_is_reached.
Print Assumptions C79_source_asks_within_limit.
Print Assumptions C79_source_receiver.
Print Assumptions C79_source_demand_receiver.

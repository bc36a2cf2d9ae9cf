(** PropDemand.v -- C77: a receiver that fetches what `read` asks for. *)
From Verif Require Import ProofBase Lib SpecFrame SpecStream SpecDemand SpecRelease SpecSource ProofLib ProofCheck ProofStream ProofDemand.
From Verif Require V4Mod ProofV4 V5Mod ProofV5 PropSession PropSourceStream.
Notation complete_frame := PropSession.complete_frame.

(** the answer of `read` is not "give me more bytes" *)
Definition final {P} (r : outcome P) : Prop := forall n, r <> Err (InsufficientBytes n).

Section Generic.
  Context {P : Type}.
  Variable rf : FixedHeader -> bytes -> outcome P.
  Variable max : N.
  Notation rd := (gread rf).

  Lemma frame_alone x rest : complete_frame max x -> bytes_ok rest -> final (fst (rd x max)) ->
    exists b1 f bd, frame_at rf max (x ++ rest) b1 f bd rest /\ x = b1 :: f ++ bd /\ fst (rd x max) = rframe rf b1 f bd /\ bytes_ok (x ++ rest).
  Proof.
    intros [Hb (b1 & bd & (f & Hx & Hf & Hl) & Hm)] Hr Hn. exists b1, f, bd.
    assert (G : rd x max = (rframe rf b1 f bd, [])) by (rewrite Hx; apply g_frame; auto; rewrite <- Hx; exact Hb).
    rewrite G in *. cbn [fst] in *. rewrite app_nil_r in Hx.
    split; [|split; [exact Hx|split; [reflexivity|apply bytes_ok_app; auto]]].
    constructor; [rewrite Hx; cbn [app]; rewrite <- app_assoc; reflexivity|exact Hf|exact Hl|exact Hm|exact Hn].
  Qed.
  Lemma bytes_split (f bd r f' bd' r' : bytes) : f ++ bd ++ r = f' ++ bd' ++ r' -> lenfield f (blen bd) -> lenfield f' (blen bd') ->
    f = f' /\ bd = bd' /\ r = r'.
  Proof.
    intros E Hf Hf'. destruct (lenfield_det _ _ _ _ _ _ Hf Hf' E) as (-> & Hn & E'). split; [reflexivity|].
    assert (Hl : List.length bd = List.length bd') by (unfold blen in Hn; lia).
    clear - E' Hl. revert bd' E' Hl. induction bd as [|x bd IH]; intros [|y bd'] E Hl; try discriminate; [auto|].
    cbn [app] in E. injection E as <- E. injection Hl as Hl. destruct (IH _ E Hl) as [-> ->]. auto.
  Qed.
  Lemma exact_frame x rest calls : complete_frame max x -> bytes_ok rest -> final (fst (rd x max)) -> (6 <= calls)%nat ->
    pull rd max calls [] (x ++ rest) = Got (fst (rd x max)) [] rest.
  Proof.
    intros Hx Hr Hn Hc. destruct (frame_alone x rest Hx Hr Hn) as (b1 & f & bd & [Hs Hf Hl Hm Hne] & E & Er & Hb).
    rewrite Er. set (s := x ++ rest) in *. clearbody s.
    assert (W := pull_wanted rf max s calls Hb Hc). assert (Hf1 := lenfield_nonempty f _ Hf).
    set (d := pull rd max calls [] s) in *. clearbody d. clear Er Hc E Hn Hx x. subst s.
    inversion W as [H|b1' r E H1 H2 H3|b1' a b c e r E H|b1' f' n r E Hf' Hl' Hm'|b1' f' n r E Hf' Hl' Hm' Hr'|b1' f' bd' r E Hf' Hl' Hm' Hne'|b1' f' bd' r n d' E Hf' Hl' Hm' Er']; subst.
    - autorewrite with blen in H. lia.
    - injection E as <- E. exfalso. eapply all_cont_no_field; eauto.
    - injection E as <- E. exfalso. eapply four_cont_no_field; eauto.
    - injection E as <- E. destruct (lenfield_det _ _ _ _ _ _ Hf Hf' E) as (-> & <- & <-). lia.
    - injection E as <- E. destruct (lenfield_det _ _ _ _ _ _ Hf Hf' E) as (-> & <- & <-). autorewrite with blen in Hr'. lia.
    - injection E as <- E. destruct (bytes_split _ _ _ _ _ _ E Hf Hf') as (-> & -> & ->). reflexivity.
    - injection E as <- E. destruct (bytes_split _ _ _ _ _ _ E Hf Hf') as (-> & -> & ->). exfalso. eapply Hne. exact Er'.
  Qed.
  Lemma exact_frames frames : forall tail packets calls, Forall (complete_frame max) frames -> Forall (fun x => final (fst (rd x max))) frames ->
    bytes_ok tail -> (6 <= calls)%nat ->
    pull_all rd max (List.length frames + packets) calls [] (concat frames ++ tail) =
      (let (rs, d) := pull_all rd max packets calls [] tail in (map (fun x => fst (rd x max)) frames ++ rs, d)).
  Proof.
    induction frames as [|x frames IH]; intros tail packets calls HF HN Ht Hc.
    - cbn. destruct (pull_all rd max packets calls [] tail). reflexivity.
    - apply Forall_cons_iff in HF as [Hx HF]. apply Forall_cons_iff in HN as [Hn HN].
      cbn [concat List.length Nat.add pull_all map app]. rewrite <- app_assoc.
      assert (Hr : bytes_ok (concat frames ++ tail)) by (apply bytes_ok_app; split; [exact (PropSession.frames_bytes max frames HF)|exact Ht]).
      rewrite (exact_frame x _ calls Hx Hr Hn Hc).
      rewrite IH by assumption. destruct (pull_all rd max packets calls [] tail). reflexivity.
  Qed.
  Lemma over_limit s b1 f n r calls : bytes_ok s -> s = b1 :: f ++ r -> lenfield f n -> blen f <= 4 -> max < n -> (6 <= calls)%nat ->
    pull rd max calls [] s = Got (Err (PayloadSizeLimitExceeded n)) (b1 :: f) r.
  Proof.
    intros Hb Hs Hf Hl Hm Hc. assert (Hf1 := lenfield_nonempty f _ Hf).
    assert (Hbf : bytes_ok (b1 :: f)) by (rewrite Hs in Hb; change (b1 :: f ++ r) with ((b1 :: f) ++ r) in Hb; apply bytes_ok_app in Hb; apply Hb).
    replace calls with (List.length f + S (calls - List.length f - 1))%nat by (unfold blen in Hl; lia).
    rewrite Hs, (pull_header rf max b1 f n r _ Hbf Hf Hl). apply pull_stop; [|discriminate].
    apply g_no_frame, check_iff; [exact Hbf|]. eapply (v_limit (b1 :: f) max b1 f n []); [rewrite app_nil_r; reflexivity|exact Hf|exact Hl|exact Hm].
  Qed.
  Lemma five_bytes s b1 a b c d r calls : bytes_ok s -> s = b1 :: a :: b :: c :: d :: r -> Forall has_cont [a; b; c; d] -> (6 <= calls)%nat ->
    pull rd max calls [] s = Got (Err MalformedRemainingLength) [b1; a; b; c; d] r.
  Proof.
    intros Hb Hs H Hc. assert (W := pull_wanted rf max s calls Hb Hc).
    set (x := pull rd max calls [] s) in *. clearbody x. subst s.
    inversion W as [Ht|b1' r' E H1 H2 H3|b1' a' b' c' e r' E H'|b1' f' n r' E Hf' Hl' Hm'|b1' f' n r' E Hf' Hl' Hm' Hr'|b1' f' bd' r' E Hf' Hl' Hm' Hne'|b1' f' bd' r' n d' E Hf' Hl' Hm' Er']; subst.
    - autorewrite with blen in Ht. lia.
    - injection E as <- E. rewrite <- E in H2. autorewrite with blen in H2. lia.
    - injection E as <- <- <- <- <- <-. reflexivity.
    - injection E as <- E. exfalso. eapply four_cont_no_field; [exact Hf'|exact Hl'|symmetry; exact E|exact H].
    - injection E as <- E. exfalso. eapply four_cont_no_field; [exact Hf'|exact Hl'|symmetry; exact E|exact H].
    - injection E as <- E. exfalso. eapply four_cont_no_field; [exact Hf'|exact Hl'|symmetry; exact E|exact H].
    - injection E as <- E. exfalso. eapply four_cont_no_field; [exact Hf'|exact Hl'|symmetry; exact E|exact H].
  Qed.
  (** an unfinished frame: the request is for bytes of this frame only *)
  Lemma unfinished pre suf calls : complete_frame max (pre ++ suf) -> suf <> [] -> (6 <= calls)%nat ->
    exists n buf src, pull rd max calls [] pre = Blocks n buf src /\ buf ++ src = pre /\ blen src < n /\ n - blen src <= blen suf.
  Proof.
    intros [Hb (b1 & bd & (f & Hx & Hf & Hl) & Hm)] Hs Hc. rewrite app_nil_r in Hx.
    assert (Hbp : bytes_ok pre) by (apply bytes_ok_app in Hb; apply Hb).
    assert (Hsuf : 1 <= blen suf) by (destruct suf; [contradiction|autorewrite with blen; lia]).
    assert (Hf1 := lenfield_nonempty f _ Hf).
    assert (Hlen : blen pre + blen suf = 1 + blen f + blen bd) by (apply (f_equal blen) in Hx; autorewrite with blen in Hx; lia).
    assert (W := pull_wanted rf max pre calls Hbp Hc).
    set (x := pull rd max calls [] pre) in *. clearbody x.
    inversion W as [H|b1' r E H1 H2 H3|b1' a b c e r E H|b1' f' n r E Hf' Hl' Hm'|b1' f' n r E Hf' Hl' Hm' Hr'|b1' f' bd' r E Hf' Hl' Hm' Hne'|b1' f' bd' r n d' E Hf' Hl' Hm' Er']; subst x.
    - exists 2, [], pre. repeat split; [lia|lia].
    - exists 1, pre, []. split; [reflexivity|]. split; [apply app_nil_r|]. change (@blen N []) with 0. split; lia.
    - exfalso. rewrite E in Hx. cbn [app] in Hx. injection Hx as _ Hx. eapply four_cont_no_field; [exact Hf|exact Hl|symmetry; exact Hx|exact H].
    - exfalso. rewrite E in Hx. cbn [app] in Hx. rewrite <- app_assoc in Hx. injection Hx as _ Hx. destruct (lenfield_det _ _ _ _ _ _ Hf Hf' (eq_sym Hx)) as (-> & <- & _). lia.
    - rewrite E in Hx. cbn [app] in Hx. rewrite <- app_assoc in Hx. injection Hx as Hb1 Hx. destruct (lenfield_det _ _ _ _ _ _ Hf Hf' (eq_sym Hx)) as (<- & <- & E'). subst b1'.
      exists (blen bd), (b1 :: f), r. split; [reflexivity|]. split; [rewrite E; reflexivity|]. split; [exact Hr'|].
      apply (f_equal blen) in E'. autorewrite with blen in E'. lia.
    - exfalso. rewrite E in Hx. cbn [app] in Hx. rewrite <- !app_assoc in Hx. injection Hx as _ Hx. destruct (lenfield_det _ _ _ _ _ _ Hf Hf' (eq_sym Hx)) as (<- & En & E').
      rewrite E in Hlen. autorewrite with blen in Hlen. lia.
    - exfalso. rewrite E in Hx. cbn [app] in Hx. rewrite <- !app_assoc in Hx. injection Hx as _ Hx. destruct (lenfield_det _ _ _ _ _ _ Hf Hf' (eq_sym Hx)) as (<- & En & E').
      rewrite E in Hlen. autorewrite with blen in Hlen. lia.
  Qed.
  (** whatever has been received so far *)
  Lemma asks_within x rest buf src n buf' : complete_frame max x -> bytes_ok rest -> final (fst (rd x max)) -> buf ++ src = x ++ rest ->
    rd buf max = (Err (InsufficientBytes n), buf') -> buf' = buf /\ 1 <= n /\ blen buf + n <= blen x.
  Proof.
    intros Hx Hr Hn E Hrd. destruct (frame_alone x rest Hx Hr Hn) as (b1 & f & bd & [Hs Hf Hl Hm Hne] & Ex & Er & Hb).
    destruct (Nat.le_gt_cases (List.length x) (List.length buf)) as [H|H].
    - exfalso. destruct (prefix_of _ _ _ _ (eq_sym E) H) as [p ->]. subst x.
      assert (G := g_frame rf b1 f bd p max). replace ((b1 :: f ++ bd) ++ p) with (b1 :: f ++ bd ++ p) in * by (cbn [app]; rewrite <- app_assoc; reflexivity).
      rewrite G in Hrd; [injection Hrd as H1 _; eapply Hne; exact H1| |exact Hf|exact Hl|exact Hm].
      rewrite <- E in Hb. apply bytes_ok_app in Hb. apply Hb.
    - destruct (prefix_of _ _ _ _ E) as [suf ->]; [lia|].
      assert (Hsuf : suf <> []) by (intros ->; rewrite app_nil_r in H; lia).
      destruct (g_prefix rf b1 f bd buf suf max) as [m [Hm1 Hm2]]; try assumption; [|symmetry; exact Ex|].
      { rewrite <- Ex. apply bytes_ok_app in Hb. apply Hb. }
      rewrite Hm1 in Hrd. injection Hrd as <- <-. autorewrite with blen. split; [reflexivity|]. lia.
  Qed.
  Lemma at_least x rest buf src r buf' src' calls : complete_frame max x -> bytes_ok rest -> final (fst (rd x max)) ->
    buf ++ src = x ++ rest -> fetches rd max buf src r buf' src' calls ->
    r = fst (rd x max) /\ buf' ++ src' = rest /\ (calls <= 6)%nat.
  Proof.
    intros Hx Hr Hn E HF. destruct (frame_alone x rest Hx Hr Hn) as (b1 & f & bd & Hat & Ex & Er & Hb).
    assert (Hl : blen f <= 4) by (destruct Hat; assumption).
    destruct (fetch_steps rf max _ b1 f bd rest Hb Hat _ _ _ _ _ _ HF (eq_sym E)) as (H1 & H2 & H3).
    rewrite Er. split; [exact H1|]. split; [symmetry; exact H2|]. pose proof (left_of_six rf f bd buf Hl) as Hs. exact (Nat.le_trans _ _ _ H3 Hs).
  Qed.
  (** the exact receiver is one of those *)
  Lemma pull_fetches : forall calls buf src r buf' src', pull rd max calls buf src = Got r buf' src' ->
    exists c, (c <= calls)%nat /\ fetches rd max buf src r buf' src' c.
  Proof.
    induction calls as [|k IH]; intros buf src r buf' src' H; [discriminate|]. cbn [pull] in H.
    assert (Hd : (exists n b, rd buf max = (Err (InsufficientBytes n), b)) \/ forall n b, rd buf max <> (Err (InsufficientBytes n), b)).
    { destruct (rd buf max) as [[p|e| |] b]; try (right; discriminate). destruct e; try (right; discriminate). left; eauto. }
    destruct Hd as [(n & b & Hrd)|Hrd].
    - rewrite Hrd in H. destruct (blen src <? n) eqn:El; [discriminate|].
      destruct (IH _ _ _ _ _ H) as (c & Hc & Hf). exists (S c). split; [lia|].
      eapply fetch_more; [exact Hrd|symmetry; apply firstn_skipn| |exact Hf].
      unfold blen in *. rewrite firstn_length. lia.
    - exists 1%nat. split; [lia|].
      assert (E : Got r buf' src' = Got (fst (rd buf max)) (snd (rd buf max)) src).
      { rewrite <- H. destruct (rd buf max) as [[p|e| |] b]; try reflexivity. destruct e; try reflexivity. exfalso. eapply Hrd. reflexivity. }
      injection E as -> -> ->. apply fetch_done; [destruct (rd buf max); reflexivity|].
      intros n Hn. eapply (Hrd n (snd (rd buf max))). rewrite <- Hn. destruct (rd buf max); reflexivity.
  Qed.
End Generic.

(** every frame of v4 has a final answer *)
Lemma v4_final x max : complete_frame max x -> final (fst (V4Mod.read x max)).
Proof.
  intros [Hb (b1 & bd & (f & Hx & Hf & Hl) & Hm)] n. rewrite ProofV4.read_gread.
  assert (G := g_frame V4Mod.read_frame b1 f bd [] max). rewrite <- Hx in G. rewrite G by assumption. cbn [fst].
  rewrite app_nil_r in Hx. rewrite Hx in Hb. apply bytes_ok_cons in Hb as [Hb1 Hb]. apply bytes_ok_app in Hb as [_ Hbd].
  assert (H := ProofV4.no_insufficient b1 f bd Hb1 Hbd). intros E. rewrite E in H. discriminate.
Qed.

(** ** fetching exactly what is asked *)
(** v4: every complete frame within the limit, well-formed or not, is answered by itself, in at
    most six calls, and not one byte after it is taken from the source *)
Theorem C77_v4_takes_one_frame : forall x rest max calls,
  complete_frame max x -> bytes_ok rest -> (6 <= calls)%nat ->
  pull V4Mod.read max calls [] (x ++ rest) = Got (fst (V4Mod.read x max)) [] rest.
Proof. intros x rest max calls Hx Hr Hc. apply (exact_frame V4Mod.read_frame max x rest calls Hx Hr (v4_final x max Hx) Hc). Qed.
(** v5: the same for every frame whose answer is not itself InsufficientBytes *)
Theorem C77_v5_takes_one_frame : forall x rest max calls,
  complete_frame max x -> bytes_ok rest -> (forall n, fst (V5Mod.read x max) <> Err (InsufficientBytes n)) -> (6 <= calls)%nat ->
  pull V5Mod.read max calls [] (x ++ rest) = Got (fst (V5Mod.read x max)) [] rest.
Proof. intros x rest max calls Hx Hr Hn Hc. apply (exact_frame V5Mod.read_frame max x rest calls Hx Hr Hn Hc). Qed.
(** and such frames exist: a CONNACK in the form of 3.1.1, complete, makes the receiver wait for
    a byte the peer does not send; if another packet follows, its first byte is taken, the packet
    is returned and the CONNACK is gone without a trace *)
Theorem C77_v5_takes_one_frame_refuted :
  complete_frame 100 [0x20; 2; 0; 0] /\
  (forall calls, pull V5Mod.read 100 (3 + calls) [] [0x20; 2; 0; 0] = Blocks 1 [] []) /\
  (forall calls, pull V5Mod.read 100 (5 + calls) [] ([0x20; 2; 0; 0] ++ [0xC0; 0]) = Got (Ok V5Mod.PingReq) [] []).
Proof.
  split; [|split; intros; reflexivity].
  split; [repeat constructor; lia|]. exists 0x20, [0; 0]. split; [|cbv; discriminate].
  exists [2]. split; [reflexivity|]. split; [apply lf_last; reflexivity|cbv; discriminate].
Qed.
(** a whole connection: one answer per frame, then whatever the rest of the source gives *)
Theorem C77_v4_connection : forall frames tail packets max calls,
  Forall (complete_frame max) frames -> bytes_ok tail -> (6 <= calls)%nat ->
  let (rs, d) := pull_all V4Mod.read max packets calls [] tail in
  pull_all V4Mod.read max (List.length frames + packets) calls [] (concat frames ++ tail) =
    (map (fun x => fst (V4Mod.read x max)) frames ++ rs, d).
Proof.
  intros frames tail packets max calls HF Ht Hc.
  assert (HN : Forall (fun x => final (fst (gread V4Mod.read_frame x max))) frames).
  { eapply Forall_impl; [|exact HF]. intros x Hx. apply v4_final, Hx. }
  pose proof (exact_frames V4Mod.read_frame max frames tail packets calls HF HN Ht Hc) as H.
  change (gread V4Mod.read_frame) with V4Mod.read in H. destruct (pull_all V4Mod.read max packets calls [] tail). exact H.
Qed.
Theorem C77_v5_connection : forall frames tail packets max calls,
  Forall (complete_frame max) frames -> Forall (fun x => forall n, fst (V5Mod.read x max) <> Err (InsufficientBytes n)) frames ->
  bytes_ok tail -> (6 <= calls)%nat ->
  let (rs, d) := pull_all V5Mod.read max packets calls [] tail in
  pull_all V5Mod.read max (List.length frames + packets) calls [] (concat frames ++ tail) =
    (map (fun x => fst (V5Mod.read x max)) frames ++ rs, d).
Proof.
  intros frames tail packets max calls HF HN Ht Hc.
  pose proof (exact_frames V5Mod.read_frame max frames tail packets calls HF HN Ht Hc) as H.
  change (gread V5Mod.read_frame) with V5Mod.read in H. destruct (pull_all V5Mod.read max packets calls [] tail). exact H.
Qed.
(** a frame over the limit is refused on its header: no byte of its body is taken *)
Theorem C77_over_limit_takes_header : forall b1 f n r max calls,
  bytes_ok (b1 :: f ++ r) -> lenfield f n -> blen f <= 4 -> max < n -> (6 <= calls)%nat ->
  pull V4Mod.read max calls [] (b1 :: f ++ r) = Got (Err (PayloadSizeLimitExceeded n)) (b1 :: f) r /\
  pull V5Mod.read max calls [] (b1 :: f ++ r) = Got (Err (PayloadSizeLimitExceeded n)) (b1 :: f) r.
Proof.
  intros b1 f n r max calls Hb Hf Hl Hm Hc. split.
  - exact (over_limit V4Mod.read_frame max _ b1 f n r calls Hb eq_refl Hf Hl Hm Hc).
  - exact (over_limit V5Mod.read_frame max _ b1 f n r calls Hb eq_refl Hf Hl Hm Hc).
Qed.
(** a length field that does not end is refused on its fourth byte *)
Theorem C77_endless_length_takes_five : forall b1 a b c d r max calls,
  bytes_ok (b1 :: a :: b :: c :: d :: r) -> Forall has_cont [a; b; c; d] -> (6 <= calls)%nat ->
  pull V4Mod.read max calls [] (b1 :: a :: b :: c :: d :: r) = Got (Err MalformedRemainingLength) [b1; a; b; c; d] r /\
  pull V5Mod.read max calls [] (b1 :: a :: b :: c :: d :: r) = Got (Err MalformedRemainingLength) [b1; a; b; c; d] r.
Proof.
  intros b1 a b c d r max calls Hb H Hc. split.
  - exact (five_bytes V4Mod.read_frame max _ b1 a b c d r calls Hb eq_refl H Hc).
  - exact (five_bytes V5Mod.read_frame max _ b1 a b c d r calls Hb eq_refl H Hc).
Qed.
(** when the source runs dry inside a frame, nothing is lost and the outstanding request is met
    by bytes of that frame: the receiver never waits for a byte the peer need not send *)
Theorem C77_waits_for_this_frame_only : forall pre suf max calls,
  complete_frame max (pre ++ suf) -> suf <> [] -> (6 <= calls)%nat ->
  (exists n buf src, pull V4Mod.read max calls [] pre = Blocks n buf src /\ buf ++ src = pre /\ blen src < n /\ n - blen src <= blen suf) /\
  (exists n buf src, pull V5Mod.read max calls [] pre = Blocks n buf src /\ buf ++ src = pre /\ blen src < n /\ n - blen src <= blen suf).
Proof.
  intros pre suf max calls Hx Hs Hc. split.
  - exact (unfinished V4Mod.read_frame max pre suf calls Hx Hs Hc).
  - exact (unfinished V5Mod.read_frame max pre suf calls Hx Hs Hc).
Qed.

(** ** fetching at least what is asked *)
(** whatever the buffer already holds and however much more than requested each fetch brings:
    a request is for bytes of the current frame, the answer is the frame's own, at most six
    calls are made, and nothing after the frame is lost *)
Theorem C77_v4_any_fetch : forall x rest buf src max,
  complete_frame max x -> bytes_ok rest -> buf ++ src = x ++ rest ->
  (forall n buf', V4Mod.read buf max = (Err (InsufficientBytes n), buf') -> buf' = buf /\ 1 <= n /\ blen buf + n <= blen x) /\
  (forall r buf' src' calls, fetches V4Mod.read max buf src r buf' src' calls ->
     r = fst (V4Mod.read x max) /\ buf' ++ src' = rest /\ (calls <= 6)%nat).
Proof.
  intros x rest buf src max Hx Hr E. split.
  - intros n buf' H. exact (asks_within V4Mod.read_frame max x rest buf src n buf' Hx Hr (v4_final x max Hx) E H).
  - intros r buf' src' calls H. exact (at_least V4Mod.read_frame max x rest buf src r buf' src' calls Hx Hr (v4_final x max Hx) E H).
Qed.
Theorem C77_v5_any_fetch : forall x rest buf src max,
  complete_frame max x -> bytes_ok rest -> (forall n, fst (V5Mod.read x max) <> Err (InsufficientBytes n)) -> buf ++ src = x ++ rest ->
  (forall n buf', V5Mod.read buf max = (Err (InsufficientBytes n), buf') -> buf' = buf /\ 1 <= n /\ blen buf + n <= blen x) /\
  (forall r buf' src' calls, fetches V5Mod.read max buf src r buf' src' calls ->
     r = fst (V5Mod.read x max) /\ buf' ++ src' = rest /\ (calls <= 6)%nat).
Proof.
  intros x rest buf src max Hx Hr Hn E. split.
  - intros n buf' H. exact (asks_within V5Mod.read_frame max x rest buf src n buf' Hx Hr Hn E H).
  - intros r buf' src' calls H. exact (at_least V5Mod.read_frame max x rest buf src r buf' src' calls Hx Hr Hn E H).
Qed.

(** ** non-trivial cases *)
(** a PUBLISH with a four-byte length field, then a PINGREQ: six calls, and five are not enough *)
Example C77_case :
  complete_frame 100 [0x30; 0x86; 0x80; 0x80; 0x00; 0; 1; 97; 1; 2; 3] /\
  pull V4Mod.read 100 6 [] ([0x30; 0x86; 0x80; 0x80; 0x00; 0; 1; 97; 1; 2; 3] ++ [0xC0; 0]) =
    Got (fst (V4Mod.read [0x30; 0x86; 0x80; 0x80; 0x00; 0; 1; 97; 1; 2; 3] 100)) [] [0xC0; 0] /\
  (exists p, fst (V4Mod.read [0x30; 0x86; 0x80; 0x80; 0x00; 0; 1; 97; 1; 2; 3] 100) = Ok (V4Mod.Publish p)) /\
  pull V4Mod.read 100 5 [] ([0x30; 0x86; 0x80; 0x80; 0x00; 0; 1; 97; 1; 2; 3] ++ [0xC0; 0]) = OutOfCalls.
Proof.
  split; [|split; [vm_compute; reflexivity|split; [eexists; vm_compute; reflexivity|vm_compute; reflexivity]]].
  split; [repeat constructor; lia|]. exists 0x30, [0; 1; 97; 1; 2; 3]. split; [|cbv; discriminate].
  exists [0x86; 0x80; 0x80; 0x00]. split; [reflexivity|]. split; [|cbv; discriminate].
  apply (lf_more 6 [0x80; 0x80; 0] 0); [lia|]. apply (lf_more 0 [0x80; 0] 0); [lia|]. apply (lf_more 0 [0] 0); [lia|]. apply lf_last. lia.
Qed.
(** an answer that is an error is an answer all the same: a SUBSCRIBE without filters, then PINGREQ *)
Example C77_error_case :
  pull_all V4Mod.read 100 2 6 [] [0x82; 1; 0; 0xC0; 0] = ([Err MalformedPacket; Ok V4Mod.PingReq], OutOfCalls) /\
  pull V5Mod.read 2 6 [] [0x30; 6; 0; 1; 97; 1; 2; 3] = Got (Err (PayloadSizeLimitExceeded 6)) [0x30; 6] [0; 1; 97; 1; 2; 3] /\
  pull V5Mod.read 100 6 [] [0x30; 6; 0; 1; 97] = Blocks 6 [0x30; 6] [0; 1; 97].
Proof. repeat split; vm_compute; reflexivity. Qed.
(** a fetch that brings more than asked *)
Example C77_fetch_case : exists p,
  fetches V4Mod.read 100 [] [0x30; 6; 0; 1; 97; 1; 2; 3; 0xC0; 0] (Ok (V4Mod.Publish p)) [0xC0] [0] 2.
Proof.
  eexists. eapply (fetch_more V4Mod.read 100 [] _ 2 [] [0x30; 6; 0; 1; 97; 1; 2; 3; 0xC0] [0]); [reflexivity|reflexivity|cbv; discriminate|].
  apply fetch_done; [vm_compute; reflexivity|discriminate].
Qed.

Print Assumptions C77_v4_takes_one_frame.
Print Assumptions C77_v5_takes_one_frame.
Print Assumptions C77_v5_takes_one_frame_refuted.
Print Assumptions C77_v4_connection.
Print Assumptions C77_v5_connection.
Print Assumptions C77_over_limit_takes_header.
Print Assumptions C77_endless_length_takes_five.
Print Assumptions C77_waits_for_this_frame_only.
Print Assumptions C77_v4_any_fetch.
Print Assumptions C77_v5_any_fetch.

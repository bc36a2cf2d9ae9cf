(** PropSchedule.v -- C78: every history of arrivals and calls. *)
From Verif Require Import ProofBase Lib SpecFrame SpecStream SpecSchedule SpecRelease SpecSource ProofLib ProofCheck ProofStream.
From Verif Require V4Mod ProofV4 V5Mod ProofV5 PropSourceStream.

Lemma same_parts (f bd r f' bd' r' : bytes) : f ++ bd ++ r = f' ++ bd' ++ r' -> lenfield f (blen bd) -> lenfield f' (blen bd') ->
  f = f' /\ bd = bd' /\ r = r'.
Proof.
  intros E Hf Hf'. destruct (lenfield_det _ _ _ _ _ _ Hf Hf' E) as (-> & Hn & E'). split; [reflexivity|].
  assert (Hl : List.length bd = List.length bd') by (unfold blen in Hn; lia).
  clear - E' Hl. revert bd' E' Hl. induction bd as [|x bd IH]; intros [|y bd'] E Hl; try discriminate; [auto|].
  cbn [app] in E. injection E as <- E. injection Hl as Hl. destruct (IH _ E Hl) as [-> ->]. auto.
Qed.
(** frames cut a stream in one way only *)
Lemma frames_unique : forall xs ys (u v : bytes), Forall is_frame xs -> Forall is_frame ys -> concat xs ++ u = concat ys ++ v ->
  (exists zs, xs = ys ++ zs /\ v = concat zs ++ u /\ Forall is_frame zs) \/ (exists zs, ys = xs ++ zs /\ u = concat zs ++ v /\ Forall is_frame zs).
Proof.
  induction xs as [|x xs IH]; intros ys u v HX HY E.
  - right. exists ys. auto.
  - destruct ys as [|y ys]; [left; exists (x :: xs); cbn [app concat] in *; auto|].
    apply Forall_cons_iff in HX as [[_ (b1 & bd & (f & -> & Hf & Hl))] HX].
    apply Forall_cons_iff in HY as [[_ (b1' & bd' & (f' & -> & Hf' & Hl'))] HY].
    cbn [concat app] in E. rewrite !app_nil_r, <- !app_assoc in E. injection E as <- E.
    destruct (same_parts _ _ _ _ _ _ E Hf Hf') as (-> & -> & E').
    destruct (IH ys u v HX HY E') as [(zs & -> & H)|(zs & -> & H)]; [left|right]; exists zs; auto.
Qed.

Section Generic.
  Context {P : Type}.
  Variable rf : FixedHeader -> bytes -> outcome P.
  Notation rd := (gread rf).
  Notation history := (history rd).

  (** what one call does *)
  Lemma one_call s m : bytes_ok s ->
    (exists x rest, s = x ++ rest /\ is_frame x /\ bytes_ok rest /\ blen rest < blen s /\ rd s m = (fst (rd x (blen x)), rest) /\
       exists b1 bd, starts_with_frame s b1 bd rest /\ blen bd <= m) \/
    (snd (rd s m) = s /\ (exists e, check s m = Err e /\ fst (rd s m) = Err e) /\ forall b1 bd rest, starts_with_frame s b1 bd rest -> m < blen bd).
  Proof.
    intros Hb. destruct (g_cases rf s m Hb) as [e Ec Hg|b1 f bd rest Es Hf Hl Hm Hb1 Hbf Hbd Hr Ec Hg].
    - right. rewrite Hg. split; [reflexivity|]. split; [exists e; auto|].
      intros b1 bd rest (f & Es & Hf & Hl). destruct (N.lt_ge_cases m (blen bd)) as [H|H]; [exact H|exfalso].
      subst s. rewrite (check_frame b1 f (blen bd) (bd ++ rest) m Hb Hf Hl H) in Ec by (autorewrite with blen; lia). discriminate.
    - left. exists (b1 :: f ++ bd), rest. assert (Hx : bytes_ok (b1 :: f ++ bd ++ [])).
      { rewrite app_nil_r. apply bytes_ok_cons. split; [exact Hb1|]. apply bytes_ok_app. auto. }
      split; [rewrite Es; cbn [app]; rewrite <- app_assoc; reflexivity|].
      split; [split; [rewrite app_nil_r in Hx; exact Hx|]; exists b1, bd, f; rewrite app_nil_r; auto|].
      split; [exact Hr|]. split; [rewrite Es; autorewrite with blen; lia|]. split.
      + rewrite Hg. f_equal. assert (G := g_frame rf b1 f bd [] (blen (b1 :: f ++ bd)) Hx Hf Hl). rewrite app_nil_r in G.
        rewrite G; [reflexivity|]. autorewrite with blen. lia.
      + exists b1, bd. split; [exists f; auto|exact Hm].
  Qed.

  Definition arrivals_ok (evs : list event) : Prop := bytes_ok (arrived evs).

  Lemma history_frames : forall evs buf calls last, bytes_ok buf -> bytes_ok (arrived evs) -> history evs buf = (calls, last) ->
    exists frames, buf ++ arrived evs = concat frames ++ last /\ Forall is_frame frames /\ bytes_ok last /\
      delivered calls = map (fun x => fst (rd x (blen x))) frames.
  Proof.
    induction evs as [|[chunk|m] evs IH]; intros buf calls last Hb Ha H; cbn [SpecSchedule.history arrived flat_map] in *.
    - injection H as <- <-. exists []. rewrite app_nil_r. auto.
    - apply bytes_ok_app in Ha as [Hc Ha]. destruct (IH (buf ++ chunk) calls last) as (fs & E & R); [apply bytes_ok_app; auto|exact Ha|exact H|].
      exists fs. split; [rewrite app_assoc; exact E|exact R].
    - destruct (one_call buf m Hb) as [(x & rest & Es & Hx & Hr & Hlt & Hrd & _)|(Hsame & _)].
      + rewrite Hrd in H. destruct (history evs rest) as [cs l] eqn:Eh. injection H as <- <-.
        destruct (IH rest cs l Hr Ha Eh) as (fs & E & HF & Hl & D). exists (x :: fs).
        split; [rewrite Es, <- app_assoc; cbn [concat app]; rewrite <- app_assoc; f_equal; exact E|].
        split; [constructor; assumption|]. split; [exact Hl|].
        unfold delivered. cbn [filter after before]. replace (blen rest <? blen buf) with true by lia. cbn [map result]. f_equal. exact D.
      + destruct (rd buf m) as [r buf'] eqn:Er. cbn [snd] in Hsame. subst buf'.
        destruct (history evs buf) as [cs l] eqn:Eh. injection H as <- <-.
        destruct (IH buf cs l Hb Ha Eh) as (fs & E & HF & Hl & D). exists fs. split; [exact E|]. split; [exact HF|]. split; [exact Hl|].
        unfold delivered. cbn [filter after before]. rewrite N.ltb_irrefl. exact D.
  Qed.
  Lemma history_calls : forall evs buf calls last, bytes_ok buf -> bytes_ok (arrived evs) -> history evs buf = (calls, last) ->
    Forall (fun c =>
      (blen (after c) < blen (before c) /\ exists b1 bd, starts_with_frame (before c) b1 bd (after c) /\ blen bd <= limit c) \/
      (after c = before c /\ (exists e, check (before c) (limit c) = Err e /\ result c = Err e) /\
       forall b1 bd rest, starts_with_frame (before c) b1 bd rest -> limit c < blen bd)) calls.
  Proof.
    induction evs as [|[chunk|m] evs IH]; intros buf calls last Hb Ha H; cbn [SpecSchedule.history arrived flat_map] in *.
    - injection H as <- <-. constructor.
    - apply bytes_ok_app in Ha as [Hc Ha]. assert (Hbc : bytes_ok (buf ++ chunk)) by (apply bytes_ok_app; auto). exact (IH _ _ _ Hbc Ha H).
    - destruct (one_call buf m Hb) as [(x & rest & Es & Hx & Hr & Hlt & Hrd & b1 & bd & Hs & Hm)|(Hsame & He & Hno)].
      + rewrite Hrd in H. destruct (history evs rest) as [cs l] eqn:Eh. injection H as <- <-.
        constructor; [left; cbn [after before limit]; split; [exact Hlt|eauto]|exact (IH rest cs l Hr Ha Eh)].
      + destruct (rd buf m) as [r buf'] eqn:Er. cbn [snd fst] in *. subst buf'.
        destruct (history evs buf) as [cs l] eqn:Eh. injection H as <- <-.
        constructor; [right; cbn [after before limit result]; auto|exact (IH buf cs l Hb Ha Eh)].
  Qed.
  Lemma history_order evs1 evs2 calls1 calls2 last1 last2 : bytes_ok (arrived evs1) -> arrived evs1 = arrived evs2 ->
    history evs1 [] = (calls1, last1) -> history evs2 [] = (calls2, last2) -> blen last2 <= blen last1 ->
    exists frames, delivered calls2 = delivered calls1 ++ map (fun x => fst (rd x (blen x))) frames /\
      last1 = concat frames ++ last2 /\ Forall is_frame frames.
  Proof.
    intros Ha Ea H1 H2 Hl. destruct (history_frames _ _ _ _ bytes_ok_nil Ha H1) as (fs1 & E1 & F1 & _ & D1).
    rewrite Ea in Ha. destruct (history_frames _ _ _ _ bytes_ok_nil Ha H2) as (fs2 & E2 & F2 & _ & D2).
    cbn [app] in E1, E2. rewrite <- Ea, E1 in E2.
    destruct (frames_unique _ _ _ _ F1 F2 E2) as [(zs & -> & Hv & Fz)|(zs & -> & Hu & Fz)].
    - assert (Hz : zs = []).
      { destruct zs as [|z zs]; [reflexivity|exfalso]. apply Forall_cons_iff in Fz as [[_ (b1 & bd & (f & -> & Hf & _))] _].
        rewrite Hv in Hl. cbn [concat] in Hl. autorewrite with blen in Hl. lia. }
      subst zs. rewrite app_nil_r in *. cbn [concat app] in Hv. subst last2. exists []. rewrite D1, D2. cbn [map concat app].
      split; [rewrite app_nil_r; reflexivity|auto].
    - exists zs. rewrite D1, D2, map_app. auto.
  Qed.
  Lemma history_confluent evs1 evs2 calls1 calls2 last1 last2 : bytes_ok (arrived evs1) -> arrived evs1 = arrived evs2 ->
    history evs1 [] = (calls1, last1) -> history evs2 [] = (calls2, last2) -> no_frame_yet last1 -> no_frame_yet last2 ->
    delivered calls1 = delivered calls2 /\ last1 = last2.
  Proof.
    intros Ha Ea H1 H2 N1 N2.
    assert (K : forall fs l1 l2, l1 = concat fs ++ l2 -> Forall is_frame fs -> no_frame_yet l1 -> fs = []).
    { intros [|x fs] l1 l2 E F N; [reflexivity|exfalso]. apply Forall_cons_iff in F as [[_ (b1 & bd & (f & -> & Hf & Hl))] _].
      apply (N b1 bd (concat fs ++ l2)). exists f. split; [|auto]. rewrite E. cbn [concat app]. rewrite app_nil_r, <- !app_assoc. reflexivity. }
    destruct (N.le_ge_cases (blen last2) (blen last1)) as [H|H].
    - destruct (history_order _ _ _ _ _ _ Ha Ea H1 H2 H) as (fs & D & E & F). assert (Hz := K fs _ _ E F N1). subst fs.
      cbn [map concat app] in *. rewrite app_nil_r in D. rewrite D. auto.
    - assert (Ha2 := Ha). rewrite Ea in Ha2. destruct (history_order _ _ _ _ _ _ Ha2 (eq_sym Ea) H2 H1 H) as (fs & D & E & F). assert (Hz := K fs _ _ E F N2). subst fs.
      cbn [map concat app] in *. rewrite app_nil_r in D. rewrite D. auto.
  Qed.
End Generic.

(** ** every history, both versions *)
(** what the calls took out of the buffer are the frames of the stream from its beginning, one per delivered result and in
    order, each with the result that frame gives alone under a limit that admits it; what is left is in the buffer *)
Theorem C78_v4_every_history : forall evs calls last, bytes_ok (arrived evs) -> history V4Mod.read evs [] = (calls, last) ->
  exists frames, arrived evs = concat frames ++ last /\ Forall is_frame frames /\
    delivered calls = map (fun x => fst (V4Mod.read x (blen x))) frames.
Proof.
  intros evs calls last Ha H. destruct (history_frames V4Mod.read_frame evs [] calls last bytes_ok_nil Ha H) as (fs & E & F & _ & D). eauto.
Qed.
Theorem C78_v5_every_history : forall evs calls last, bytes_ok (arrived evs) -> history V5Mod.read evs [] = (calls, last) ->
  exists frames, arrived evs = concat frames ++ last /\ Forall is_frame frames /\
    delivered calls = map (fun x => fst (V5Mod.read x (blen x))) frames.
Proof.
  intros evs calls last Ha H. destruct (history_frames V5Mod.read_frame evs [] calls last bytes_ok_nil Ha H) as (fs & E & F & _ & D). eauto.
Qed.
(** each single call, whatever happened before: it takes the frame at the head of the buffer exactly when a complete one
    is there and its body is within the limit of this call; otherwise it changes nothing and returns the verdict of `check`
    on what is there *)
Theorem C78_v4_every_call : forall evs calls last, bytes_ok (arrived evs) -> history V4Mod.read evs [] = (calls, last) ->
  Forall (fun c =>
    (blen (after c) < blen (before c) /\ exists b1 bd, starts_with_frame (before c) b1 bd (after c) /\ blen bd <= limit c) \/
    (after c = before c /\ (exists e, check (before c) (limit c) = Err e /\ result c = Err e) /\
     forall b1 bd rest, starts_with_frame (before c) b1 bd rest -> limit c < blen bd)) calls.
Proof. intros evs calls last Ha H. exact (history_calls V4Mod.read_frame evs [] calls last bytes_ok_nil Ha H). Qed.
Theorem C78_v5_every_call : forall evs calls last, bytes_ok (arrived evs) -> history V5Mod.read evs [] = (calls, last) ->
  Forall (fun c =>
    (blen (after c) < blen (before c) /\ exists b1 bd, starts_with_frame (before c) b1 bd (after c) /\ blen bd <= limit c) \/
    (after c = before c /\ (exists e, check (before c) (limit c) = Err e /\ result c = Err e) /\
     forall b1 bd rest, starts_with_frame (before c) b1 bd rest -> limit c < blen bd)) calls.
Proof. intros evs calls last Ha H. exact (history_calls V5Mod.read_frame evs [] calls last bytes_ok_nil Ha H). Qed.
(** two histories of the same stream: the one that has more left in its buffer has delivered a prefix of the other's results *)
Theorem C78_v4_histories_agree : forall evs1 evs2 calls1 calls2 last1 last2, bytes_ok (arrived evs1) -> arrived evs1 = arrived evs2 ->
  history V4Mod.read evs1 [] = (calls1, last1) -> history V4Mod.read evs2 [] = (calls2, last2) ->
  (blen last2 <= blen last1 -> exists more, delivered calls2 = delivered calls1 ++ more) /\
  (no_frame_yet last1 -> no_frame_yet last2 -> delivered calls1 = delivered calls2 /\ last1 = last2).
Proof.
  intros evs1 evs2 calls1 calls2 last1 last2 Ha Ea H1 H2. split.
  - intros Hl. destruct (history_order V4Mod.read_frame _ _ _ _ _ _ Ha Ea H1 H2 Hl) as (fs & D & _). eauto.
  - intros N1 N2. exact (history_confluent V4Mod.read_frame _ _ _ _ _ _ Ha Ea H1 H2 N1 N2).
Qed.
Theorem C78_v5_histories_agree : forall evs1 evs2 calls1 calls2 last1 last2, bytes_ok (arrived evs1) -> arrived evs1 = arrived evs2 ->
  history V5Mod.read evs1 [] = (calls1, last1) -> history V5Mod.read evs2 [] = (calls2, last2) ->
  (blen last2 <= blen last1 -> exists more, delivered calls2 = delivered calls1 ++ more) /\
  (no_frame_yet last1 -> no_frame_yet last2 -> delivered calls1 = delivered calls2 /\ last1 = last2).
Proof.
  intros evs1 evs2 calls1 calls2 last1 last2 Ha Ea H1 H2. split.
  - intros Hl. destruct (history_order V5Mod.read_frame _ _ _ _ _ _ Ha Ea H1 H2 Hl) as (fs & D & _). eauto.
  - intros N1 N2. exact (history_confluent V5Mod.read_frame _ _ _ _ _ _ Ha Ea H1 H2 N1 N2).
Qed.

(** ** the same about the Rust text *)
Lemma history_same {P} (rd rd' : bytes -> N -> outcome P * bytes) B :
  (forall s m, bytes_ok s -> blen s < B -> rd s m = rd' s m) -> (forall m s, bytes_ok s -> exists p, s = p ++ snd (rd' s m)) ->
  forall evs buf, bytes_ok buf -> bytes_ok (arrived evs) -> blen buf + blen (arrived evs) < B -> history rd evs buf = history rd' evs buf.
Proof.
  intros Hrd Hs. induction evs as [|[chunk|m] evs IH]; intros buf Hb Ha Hl; cbn [history arrived flat_map] in *; [reflexivity| |].
  - rewrite blen_app in Hl. apply bytes_ok_app in Ha as [Hc Ha]. apply IH; [apply bytes_ok_app; auto|exact Ha|rewrite blen_app; unfold arrived; lia].
  - rewrite Hrd by (try assumption; lia). destruct (Hs m buf Hb) as [p E]. destruct (rd' buf m) as [r buf'].
    cbn [snd] in E. rewrite IH; [reflexivity| |exact Ha|].
    + rewrite E in Hb. apply bytes_ok_app in Hb. apply Hb.
    + rewrite E, blen_app in Hl. unfold arrived. cbn [app] in Hl. lia.
Qed.
Lemma v4_history_eq evs : bytes_ok (arrived evs) -> blen (arrived evs) < 2 ^ 63 -> history v4_reads evs [] = history V4Mod.read evs [].
Proof.
  intros Ha Hl. apply (history_same _ _ (2 ^ 63)); [intros s m _ H; apply PropSourceStream.v4_reads_eq, H|intros m s; apply PropSourceStream.v4_suffix|constructor|exact Ha|exact Hl].
Qed.
Lemma v5_history_eq evs : bytes_ok (arrived evs) -> blen (arrived evs) < 2 ^ 63 -> history v5_reads evs [] = history V5Mod.read evs [].
Proof.
  intros Ha Hl. apply (history_same _ _ (2 ^ 63)); [intros s m _ H; apply PropSourceStream.v5_reads_eq, H|intros m s; apply PropSourceStream.v5_suffix|constructor|exact Ha|exact Hl].
Qed.
Lemma frames_small (frames : list bytes) (last : bytes) B : blen (concat frames ++ last) < B -> Forall (fun x => blen x < B) frames.
Proof.
  intros Hl. apply Forall_forall. intros x Hx. apply in_split in Hx as (l1 & l2 & ->). rewrite concat_app in Hl. cbn [concat] in Hl.
  autorewrite with blen in Hl. lia.
Qed.
Theorem C78_source_every_history : forall evs, bytes_ok (arrived evs) -> blen (arrived evs) < 2 ^ 63 ->
  (forall calls last, history v4_reads evs [] = (calls, last) ->
   exists frames, arrived evs = concat frames ++ last /\ Forall is_frame frames /\
     delivered calls = map (fun x => fst (v4_reads x (blen x))) frames) /\
  (forall calls last, history v5_reads evs [] = (calls, last) ->
   exists frames, arrived evs = concat frames ++ last /\ Forall is_frame frames /\
     delivered calls = map (fun x => fst (v5_reads x (blen x))) frames).
Proof.
  intros evs Ha Hl. rewrite v4_history_eq, v5_history_eq by assumption. split; intros calls last H.
  - destruct (C78_v4_every_history evs calls last Ha H) as (fs & E & F & D). exists fs. split; [exact E|]. split; [exact F|].
    rewrite D. rewrite E in Hl. apply frames_small in Hl. clear - Hl. induction Hl as [|x l Hx _ IH]; [reflexivity|].
    cbn [map]. rewrite IH, (PropSourceStream.v4_reads_eq x (blen x) Hx). reflexivity.
  - destruct (C78_v5_every_history evs calls last Ha H) as (fs & E & F & D). exists fs. split; [exact E|]. split; [exact F|].
    rewrite D. rewrite E in Hl. apply frames_small in Hl. clear - Hl. induction Hl as [|x l Hx _ IH]; [reflexivity|].
    cbn [map]. rewrite IH, (PropSourceStream.v5_reads_eq x (blen x) Hx). reflexivity.
Qed.
Theorem C78_source_histories_agree : forall evs1 evs2, bytes_ok (arrived evs1) -> blen (arrived evs1) < 2 ^ 63 -> arrived evs1 = arrived evs2 ->
  (forall calls1 calls2 last1 last2, history v4_reads evs1 [] = (calls1, last1) -> history v4_reads evs2 [] = (calls2, last2) ->
   no_frame_yet last1 -> no_frame_yet last2 -> delivered calls1 = delivered calls2 /\ last1 = last2) /\
  (forall calls1 calls2 last1 last2, history v5_reads evs1 [] = (calls1, last1) -> history v5_reads evs2 [] = (calls2, last2) ->
   no_frame_yet last1 -> no_frame_yet last2 -> delivered calls1 = delivered calls2 /\ last1 = last2).
Proof.
  intros evs1 evs2 Ha Hl E. assert (Ha2 := Ha). assert (Hl2 := Hl). rewrite E in Ha2, Hl2.
  rewrite !v4_history_eq, !v5_history_eq by assumption. split; intros calls1 calls2 last1 last2 H1 H2.
  - apply (C78_v4_histories_agree evs1 evs2); assumption.
  - apply (C78_v5_histories_agree evs1 evs2); assumption.
Qed.

(** ** a non-trivial case: the limit is raised after a refusal, a malformed frame is in between, the user calls too early *)
Example C78_case : exists p,
  let evs := [Call 100; Arrive [0x30; 6; 0; 1]; Call 100; Arrive [97; 1; 2; 3; 0x82]; Call 5; Call 6; Call 6; Arrive [1; 0; 0xC0; 0]; Call 0; Call 1; Call 0; Arrive [0x40]; Call 9] in
  let calls := fst (history V4Mod.read evs []) in
  bytes_ok (arrived evs) /\ snd (history V4Mod.read evs []) = [0x40] /\ no_frame_yet [0x40] /\
  map result calls = [Err (InsufficientBytes 2); Err (InsufficientBytes 4); Err (PayloadSizeLimitExceeded 6); Ok (V4Mod.Publish p);
    Err (InsufficientBytes 1); Err (PayloadSizeLimitExceeded 1); Err MalformedPacket; Ok V4Mod.PingReq; Err (InsufficientBytes 1)] /\
  delivered calls = [Ok (V4Mod.Publish p); Err MalformedPacket; Ok V4Mod.PingReq].
Proof.
  eexists. cbv zeta. split; [repeat constructor; cbv; reflexivity|]. split; [vm_compute; reflexivity|]. split.
  - intros b1 bd rest (f & E & Hf & _). injection E as _ E. symmetry in E. apply app_eq_nil in E as [-> _]. inversion Hf.
  - split; vm_compute; reflexivity.
Qed.

Print Assumptions C78_v4_every_history.
Print Assumptions C78_v5_every_history.
Print Assumptions C78_v4_every_call.
Print Assumptions C78_v5_every_call.
Print Assumptions C78_v4_histories_agree.
Print Assumptions C78_v5_histories_agree.
Print Assumptions C78_source_every_history.
Print Assumptions C78_source_histories_agree.

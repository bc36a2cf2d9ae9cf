(** ProofStream.v -- facts about `read` that only depend on the framing, shared by
    v4 and v5; the receiver of SpecStream. *)
From Verif Require Import ProofBase Lib ProofLib SpecFrame ProofCheck ProofRead SpecStream.

(** *** consequences *)
Lemma g_frame_len (b1 : N) (f bd rest : bytes) : lenfield f (blen bd) ->
  blen (b1 :: f ++ bd ++ rest) >= 2 + blen rest.
Proof. intros Hf. apply lenfield_nonempty in Hf. autorewrite with blen. lia. Qed.

(** stable under more input *)
Lemma check_stable s max t r : bytes_ok (s ++ t) -> check s max = r ->
  (forall n, r <> Err (InsufficientBytes n)) -> check (s ++ t) max = r.
Proof.
  intros Hb Hc Hn. assert (Hs : bytes_ok s) by (apply bytes_ok_app in Hb; apply Hb).
  apply check_iff in Hc; [|exact Hs]. apply check_iff; [exact Hb|].
  destruct Hc as [H|b1 r' -> H1 H2 H3|b1 a b c d r' -> H|b1 f n r' -> Hf Hl Hm|b1 f n r' -> Hf Hl Hm Hr|b1 f n r' -> Hf Hl Hm Hr];
    try (exfalso; eapply Hn; reflexivity).
  - cbn [app]. econstructor 3; eauto. 
  - cbn [app]. rewrite <- app_assoc. econstructor 4; eauto.
  - cbn [app]. rewrite <- app_assoc. econstructor 6; eauto. autorewrite with blen. lia.
Qed.
Lemma check_need s max n : bytes_ok s -> check s max = Err (InsufficientBytes n) ->
  1 <= n /\ forall t, bytes_ok t -> blen t < n -> exists m, check (s ++ t) max = Err (InsufficientBytes m).
Proof.
  intros Hs Hc. apply check_iff in Hc; [|exact Hs].
  inversion Hc as [H|b1 r' Es H1 H2 H3|b1 a b c d r' Es H|b1 f k r' Es Hf Hl Hm|b1 f k r' Es Hf Hl Hm Hr|b1 f k r' Es Hf Hl Hm Hr]; subst.
  - split; [lia|]. intros t Ht Hlt. exists (2 - blen (s ++ t)).
    apply check_iff; [apply bytes_ok_app; auto|]. apply v_tiny. autorewrite with blen. lia.
  - split; [lia|]. intros t Ht Hlt. assert (t = []) as -> by (apply blen_0; lia).
    rewrite app_nil_r. exists 1. apply check_iff; auto.
  - split; [autorewrite with blen; lia|]. intros t Ht Hlt. eexists.
    apply check_iff; [apply bytes_ok_app; auto|]. cbn [app]. rewrite <- app_assoc.
    eapply v_partial; eauto. autorewrite with blen in *. lia.
Qed.


Section Generic.
  Context {P : Type}.
  (** the decoder for a split-off frame *)
  Variable rf : FixedHeader -> bytes -> outcome P.

  Definition gread (stream : bytes) (max_size : N) : outcome P * bytes :=
    match check stream max_size with
    | Ok fixed_header =>
        match (n <-? frame_length fixed_header ;; split_to n stream) with
        | Ok (packet, stream) => (rf fixed_header packet, stream)
        | _ => (Panic, stream)
        end
    | Err e => (Err e, stream)
    | Panic => (Panic, stream)
    | Diverge => (Diverge, stream)
    end.

  (** result for the frame (b1, f, bd) *)
  Definition rframe (b1 : N) (f bd : bytes) : outcome P :=
    rf (mkFixedHeader b1 (1 + blen f) (blen bd)) (b1 :: f ++ bd).

  Lemma g_frame b1 f bd rest max :
    bytes_ok (b1 :: f ++ bd ++ rest) -> lenfield f (blen bd) -> blen f <= 4 -> blen bd <= max ->
    gread (b1 :: f ++ bd ++ rest) max = (rframe b1 f bd, rest).
  Proof.
    intros Hb Hf Hl Hm. unfold gread.
    rewrite check_frame with (n := blen bd) by (auto; autorewrite with blen; lia).
    replace (b1 :: f ++ bd ++ rest) with ((b1 :: f ++ bd) ++ rest)
      by (cbn [app]; rewrite <- app_assoc; reflexivity).
    rewrite frame_length_field by assumption. cbn [obind].
    rewrite split_to_app; [reflexivity|]. autorewrite with blen. lia.
  Qed.
  Lemma g_no_frame s max e : check s max = Err e -> gread s max = (Err e, s).
  Proof. intros H. unfold gread. rewrite H. reflexivity. Qed.

  Inductive g_case (s : bytes) (max : N) : Prop :=
  | gc_err e : check s max = Err e -> gread s max = (Err e, s) -> g_case s max
  | gc_frame b1 f bd rest :
      s = b1 :: f ++ bd ++ rest -> lenfield f (blen bd) -> blen f <= 4 -> blen bd <= max ->
      b1 < 256 -> bytes_ok f -> bytes_ok bd -> bytes_ok rest ->
      check s max = Ok (mkFixedHeader b1 (1 + blen f) (blen bd)) ->
      gread s max = (rframe b1 f bd, rest) -> g_case s max.
  Lemma g_cases s max : bytes_ok s -> g_case s max.
  Proof.
    intros Hb. destruct (check s max) as [h|e| |] eqn:Ec.
    - destruct (check_ok_inv s max h Hb Ec) as (b1 & f & bd & rest & -> & Hf & Hl & Hm & ->).
      assert (Hb' := Hb). apply bytes_ok_cons in Hb' as [Hb1 Hb']. apply bytes_ok_app in Hb' as [Hbf Hb'].
      apply bytes_ok_app in Hb' as [Hbd Hr].
      eapply gc_frame; eauto. apply g_frame; auto.
    - eapply gc_err; [exact Ec|apply g_no_frame, Ec].
    - exfalso. exact (proj1 (check_no_panic s max Hb) Ec).
    - exfalso. exact (proj2 (check_no_panic s max Hb) Ec).
  Qed.

  (** a proper prefix of a frame is never decoded *)
  Lemma g_prefix b1 f bd pre suf max :
    bytes_ok (b1 :: f ++ bd) -> lenfield f (blen bd) -> blen f <= 4 -> blen bd <= max ->
    b1 :: f ++ bd = pre ++ suf -> suf <> [] ->
    exists n, gread pre max = (Err (InsufficientBytes n), pre) /\ 1 <= n /\ n <= blen suf.
  Proof.
    intros Hb Hf Hl Hm Es Hsuf.
    assert (Hok : bytes_ok (pre ++ suf)) by (rewrite <- Es; exact Hb).
    assert (Hpre : bytes_ok pre) by (apply bytes_ok_app in Hok; apply Hok).
    assert (Hfull : check (pre ++ suf) max = Ok (mkFixedHeader b1 (1 + blen f) (blen bd))).
    { rewrite <- Es. apply check_frame; auto. lia. }
    assert (Hlen : blen (pre ++ suf) = 1 + blen f + blen bd) by (rewrite <- Es; autorewrite with blen; lia).
    assert (Hs1 : 1 <= blen suf) by (destruct suf; [contradiction|autorewrite with blen; lia]).
    autorewrite with blen in Hlen.
    destruct (check pre max) as [h|e| |] eqn:Ec.
    - exfalso. assert (Hst := check_stable pre max suf (Ok h) Hok Ec ltac:(discriminate)).
      rewrite Hfull in Hst. injection Hst as <-.
      destruct (check_ok_inv _ _ _ Hpre Ec) as (b1' & f' & bd' & rest' & -> & Hf' & Hl' & Hm' & E).
      injection E as Eb Ef Ebd. autorewrite with blen in Hlen. lia.
    - assert (He : (exists n, e = InsufficientBytes n) \/ (forall n, Err e <> @Err FixedHeader (InsufficientBytes n))).
      { destruct e; try (right; intros ?; discriminate). left; eauto. }
      destruct He as [[n ->]|Hn].
      + exists n. split; [apply g_no_frame, Ec|].
        destruct (check_need pre max n Hpre Ec) as [H1 H2]. split; [exact H1|].
        destruct (N.le_gt_cases n (blen suf)) as [H|H]; [exact H|exfalso].
        apply bytes_ok_app in Hok as [_ Hok]. destruct (H2 suf Hok H) as [m Hm'].
        rewrite Hfull in Hm'. discriminate.
      + exfalso. assert (Hst := check_stable pre max suf (Err e) Hok Ec Hn).
        rewrite Hfull in Hst. discriminate.
    - exfalso. exact (proj1 (check_no_panic _ _ Hpre) Ec).
    - exfalso. exact (proj2 (check_no_panic _ _ Hpre) Ec).
  Qed.

  (** *** the receiver *)
  Variable max : N.
  Variable careful : bool.
  (** if the receiver believes every InsufficientBytes, no decoder may return it *)
  Hypothesis waits_ok : careful = true \/
    forall b1 f bd, b1 < 256 -> bytes_ok bd -> is_insufficient (rframe b1 f bd) = false.

  Notation drain := (drain gread max careful).
  Notation feed := (feed gread max careful).
  Notation receive := (receive gread max careful).

  Lemma drain_frame fuel b1 f bd rest :
    bytes_ok (b1 :: f ++ bd ++ rest) -> lenfield f (blen bd) -> blen f <= 4 -> blen bd <= max ->
    drain (S fuel) (b1 :: f ++ bd ++ rest) =
      (let (evs, st) := drain fuel rest in (rframe b1 f bd :: evs, st)).
  Proof.
    intros Hb Hf Hl Hm. cbn [SpecStream.drain]. rewrite g_frame by assumption.
    assert (H := g_frame_len b1 f bd rest Hf).
    replace (blen rest <? blen (b1 :: f ++ bd ++ rest)) with true by lia.
    assert (Hc : is_insufficient (rframe b1 f bd) && negb (careful && true) = false).
    { destruct waits_ok as [-> |Hw]; [apply andb_false_r|].
      apply bytes_ok_cons in Hb as [Hb1 Hb]. apply bytes_ok_app in Hb as [_ Hb]. apply bytes_ok_app in Hb as [Hb _].
      rewrite Hw by assumption. reflexivity. }
    rewrite Hc. reflexivity.
  Qed.
  Lemma drain_wait fuel s n : check s max = Err (InsufficientBytes n) ->
    drain (S fuel) s = ([], (Waiting, s)).
  Proof.
    intros Hc. cbn [SpecStream.drain]. rewrite (g_no_frame _ _ _ Hc). rewrite N.ltb_irrefl, andb_false_r.
    reflexivity.
  Qed.
  Lemma drain_stop fuel s e : check s max = Err e -> (forall n, e <> InsufficientBytes n) ->
    drain (S fuel) s = ([Err e], (Stopped, s)).
  Proof.
    intros Hc Hn. cbn [SpecStream.drain]. rewrite (g_no_frame _ _ _ Hc). rewrite N.ltb_irrefl, andb_false_r.
    cbn [negb]. rewrite andb_true_r.
    destruct e; try reflexivity. exfalso; eapply Hn; reflexivity.
  Qed.

  (** the number of calls allowed does not matter once it exceeds the buffer size *)
  Lemma drain_fuel : forall fuel fuel' s, bytes_ok s ->
    (List.length s < fuel)%nat -> (List.length s < fuel')%nat -> drain fuel s = drain fuel' s.
  Proof.
    induction fuel as [|fuel IH]; intros fuel' s Hs Hl Hl'; [lia|].
    destruct fuel' as [|fuel']; [lia|].
    destruct (g_cases s max Hs) as [e Hc _|b1 f bd rest Es Hf Hfl Hm Hb1 Hbf Hbd Hr Hc _].
    - destruct (is_insufficient (@Err P e)) eqn:Ei.
      + destruct e; try discriminate. rewrite !(drain_wait _ _ _ Hc). reflexivity.
      + rewrite !(drain_stop _ _ _ Hc); [reflexivity|intros n ->; discriminate..].
    - subst s. rewrite !drain_frame by assumption.
      assert (H := g_frame_len b1 f bd rest Hf). unfold blen in H.
      rewrite (IH fuel' rest Hr); [reflexivity|lia|lia].
  Qed.

  (** reading s and later c is the same as reading s ++ c at once *)
  Lemma drain_app : forall fuel s c, bytes_ok (s ++ c) -> (List.length s < fuel)%nat ->
    drain (S (List.length (s ++ c))) (s ++ c) =
      (let (evs, st) := drain fuel s in
       let (evs', st') := feed st c in (evs ++ evs', st')).
  Proof.
    induction fuel as [|fuel IH]; intros s c Hsc Hl; [lia|].
    assert (Hs : bytes_ok s) by (apply bytes_ok_app in Hsc; apply Hsc).
    destruct (g_cases s max Hs) as [e Hc _|b1 f bd rest Es Hf Hfl Hm Hb1 Hbf Hbd Hr Hc _].
    - destruct (is_insufficient (@Err P e)) eqn:Ei.
      + destruct e; try discriminate. rewrite (drain_wait fuel _ _ Hc). cbn [SpecStream.feed].
        destruct (drain _ _) as [evs' st']. reflexivity.
      + assert (Hn : forall n, e <> InsufficientBytes n) by (intros n ->; discriminate).
        rewrite (drain_stop fuel _ _ Hc Hn). cbn [SpecStream.feed app].
        apply drain_stop; [|exact Hn]. apply check_stable; [exact Hsc|exact Hc|].
        intros n E. injection E as E. exact (Hn n E).
    - subst s. rewrite drain_frame by assumption.
      assert (Heq : (b1 :: f ++ bd ++ rest) ++ c = b1 :: f ++ bd ++ (rest ++ c))
        by (cbn [app]; rewrite <- !app_assoc; reflexivity).
      rewrite Heq in *. rewrite drain_frame by assumption.
      assert (Hrc : bytes_ok (rest ++ c)).
      { apply bytes_ok_cons in Hsc as [_ Hsc]. apply bytes_ok_app in Hsc as [_ Hsc].
        apply bytes_ok_app in Hsc. apply Hsc. }
      assert (H := g_frame_len b1 f bd rest Hf). unfold blen in H.
      assert (H' := g_frame_len b1 f bd (rest ++ c) Hf). unfold blen in H'.
      rewrite (drain_fuel _ (S (List.length (rest ++ c))) (rest ++ c) Hrc) by lia.
      rewrite (IH rest c Hrc) by lia.
      destruct (drain fuel rest) as [evs st]. destruct (feed st c) as [evs' st']. reflexivity.
  Qed.

  Lemma feed_bytes st c : bytes_ok (snd st) -> bytes_ok c -> bytes_ok (snd (snd (feed st c))).
  Proof.
    destruct st as [[|] buf]; cbn [SpecStream.feed snd]; intros Hb Hc.
    - assert (Hbc : bytes_ok (buf ++ c)) by (apply bytes_ok_app; auto).
      clear Hb Hc. revert Hbc. generalize (buf ++ c) as s. intros s.
      assert (Hg : forall fuel s, bytes_ok s -> (List.length s < fuel)%nat -> bytes_ok (snd (snd (drain fuel s)))).
      { clear s. induction fuel as [|fuel IH]; intros s Hs Hl; [lia|].
        destruct (g_cases s max Hs) as [e Hce _|b1 f bd rest Es Hf Hfl Hm Hb1 Hbf Hbd Hr Hce _].
        - destruct (is_insufficient (@Err P e)) eqn:Ei.
          + destruct e; try discriminate. rewrite (drain_wait _ _ _ Hce). exact Hs.
          + rewrite (drain_stop _ _ _ Hce); [exact Hs|intros n ->; discriminate].
        - subst s. rewrite drain_frame by assumption.
          assert (H := g_frame_len b1 f bd rest Hf). unfold blen in H.
          assert (Hx := IH rest Hr ltac:(lia)).
          destruct (drain fuel rest) as [evs st]. exact Hx. }
      intros Hs. apply Hg; [exact Hs|lia].
    - apply bytes_ok_app; auto.
  Qed.

  Lemma feed_feed st c d : bytes_ok (snd st) -> bytes_ok c -> bytes_ok d ->
    feed st (c ++ d) = (let (evs, st1) := feed st c in let (evs', st2) := feed st1 d in (evs ++ evs', st2)).
  Proof.
    destruct st as [[|] buf]; cbn [SpecStream.feed snd]; intros Hb Hc Hd.
    - rewrite app_assoc. apply drain_app; [|lia].
      apply bytes_ok_app. split; [apply bytes_ok_app; auto|exact Hd].
    - rewrite app_assoc. reflexivity.
  Qed.

  (** a state in which nothing can be read any more *)
  Definition settled (st : status * bytes) : Prop :=
    match st with
    | (Waiting, buf) => exists n, check buf max = Err (InsufficientBytes n)
    | (Stopped, _) => True
    end.
  Lemma feed_nil st : settled st -> feed st [] = ([], st).
  Proof.
    destruct st as [[|] buf]; cbn [SpecStream.feed settled]; rewrite app_nil_r; [|reflexivity].
    intros [n Hn]. apply (drain_wait _ _ _ Hn).
  Qed.
  Lemma drain_settled : forall fuel s, bytes_ok s -> (List.length s < fuel)%nat -> settled (snd (drain fuel s)).
  Proof.
    induction fuel as [|fuel IH]; intros s Hs Hl; [lia|].
    destruct (g_cases s max Hs) as [e Hce _|b1 f bd rest Es Hf Hfl Hm Hb1 Hbf Hbd Hr Hce _].
    - destruct (is_insufficient (@Err P e)) eqn:Ei.
      + destruct e; try discriminate. rewrite (drain_wait _ _ _ Hce). exists n. exact Hce.
      + rewrite (drain_stop _ _ _ Hce); [exact I|intros n ->; discriminate].
    - subst s. rewrite drain_frame by assumption.
      assert (H := g_frame_len b1 f bd rest Hf). unfold blen in H.
      assert (Hx := IH rest Hr ltac:(lia)).
      destruct (drain fuel rest) as [evs st]. exact Hx.
  Qed.
  Lemma feed_settled st c : bytes_ok (snd st) -> bytes_ok c -> settled (snd (feed st c)).
  Proof.
    destruct st as [[|] buf]; cbn [SpecStream.feed snd]; intros Hb Hc; [|exact I].
    apply drain_settled; [apply bytes_ok_app; auto|lia].
  Qed.

  Lemma receive_concat : forall chunks st, bytes_ok (snd st) -> settled st ->
    Forall bytes_ok chunks -> receive st chunks = feed st (concat chunks).
  Proof.
    induction chunks as [|c cs IH]; intros st Hst Hset Hok; cbn [SpecStream.receive concat].
    - symmetry. apply feed_nil, Hset.
    - apply Forall_cons_iff in Hok as [Hc Hcs].
      rewrite feed_feed by (auto; apply Forall_concat; exact Hcs).
      assert (Hb := feed_bytes st c Hst Hc). assert (Hs := feed_settled st c Hst Hc).
      destruct (feed st c) as [evs st1]. rewrite IH by assumption.
      reflexivity.
  Qed.

  Lemma start_settled : settled (Waiting, []).
  Proof. exists 2. reflexivity. Qed.

  (** the events and the final state depend only on the bytes received *)
  Lemma chunking chunks chunks' :
    Forall bytes_ok chunks -> concat chunks = concat chunks' ->
    receive (Waiting, []) chunks = receive (Waiting, []) chunks'.
  Proof.
    intros Hok Heq.
    assert (Hok' : Forall bytes_ok chunks').
    { assert (H : bytes_ok (concat chunks')) by (rewrite <- Heq; apply Forall_concat, Hok).
      clear - H. induction chunks' as [|c cs IH]; [constructor|].
      cbn [concat] in H. apply bytes_ok_app in H as [H1 H2]. constructor; auto. }
    rewrite !receive_concat by (auto using start_settled, bytes_ok_nil). rewrite Heq. reflexivity.
  Qed.

  (** a sequence of frames, each (first byte, length field, body) *)
  Definition fbytes (x : N * bytes * bytes) : bytes := fst (fst x) :: snd (fst x) ++ snd x.
  Definition fok (x : N * bytes * bytes) : Prop :=
    bytes_ok (fbytes x) /\ lenfield (snd (fst x)) (blen (snd x)) /\ blen (snd (fst x)) <= 4 /\ blen (snd x) <= max.
  Definition fresult (x : N * bytes * bytes) : outcome P := rframe (fst (fst x)) (snd (fst x)) (snd x).
  Lemma drain_frames : forall (fs : list (N * bytes * bytes)) fuel,
    Forall fok fs -> (List.length (flat_map fbytes fs) < fuel)%nat ->
    drain fuel (flat_map fbytes fs) = (map fresult fs, (Waiting, [])).
  Proof.
    induction fs as [|x fs IH]; intros fuel HF Hl; destruct fuel as [|fuel]; try (cbn in Hl; lia).
    - cbn [flat_map map]. apply (drain_wait fuel [] 2). reflexivity.
    - cbn [flat_map map] in *. apply Forall_cons_iff in HF as [(Hb & Hf & Hfl & Hm) HF].
      assert (Hrest : bytes_ok (flat_map fbytes fs)).
      { clear - HF. induction HF as [|y l H _ IH]; [constructor|].
        cbn [flat_map]. apply bytes_ok_app. split; [apply H|exact IH]. }
      destruct x as [[b1 f] bd]. unfold fbytes at 1 in Hl. unfold fbytes at 1. unfold fbytes at 1 in Hb.
      unfold fresult at 1. cbn [fst snd] in *.
      assert (Heq : (b1 :: f ++ bd) ++ flat_map fbytes fs = b1 :: f ++ bd ++ flat_map fbytes fs)
        by (cbn [app]; rewrite <- !app_assoc; reflexivity).
      rewrite Heq in *.
      assert (Hall : bytes_ok (b1 :: f ++ bd ++ flat_map fbytes fs)) by (rewrite <- Heq; apply bytes_ok_app; auto).
      rewrite drain_frame by assumption.
      assert (H := g_frame_len b1 f bd (flat_map fbytes fs) Hf). unfold blen in H.
      rewrite IH; [reflexivity|exact HF|]. lia.
  Qed.
End Generic.

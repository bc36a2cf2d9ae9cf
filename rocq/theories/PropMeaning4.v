(** PropMeaning4.v -- C60, C61, continued: the encoding of MQTT 3.1.1 is unambiguous, and a decoded packet keeps
    the meaning of the message. *)
From Verif Require Import Base SpecWire SpecTopic SpecV4 SpecStd311 ProofBase ProofLib ProofRead ProofV4Read ProofV4 ProofStd ProofStd311.
From Verif Require V4Connect V4ConnAck V4SubAck PropStandard ProofStd5Not ProofStd5Inj PropStandard5W.

Local Lemma flags_det cl will user pw cl' will' user' pw' :
  flags_byte cl will user pw = flags_byte cl' will' user' pw' ->
  cl = cl' /\ present will = present will' /\ present user = present user' /\ present pw = present pw' /\
  forall w w', will = Some w -> will' = Some w' -> w_qos w = w_qos w' /\ w_retain w = w_retain w'.
Proof.
  intros E. unfold flags_byte in E.
  destruct will as [[wt wm wq wr]|], will' as [[wt' wm' wq' wr']|]; cbn [w_retain w_qos] in E.
  - assert (cl = cl' /\ present user = present user' /\ present pw = present pw' /\ wq = wq' /\ wr = wr') as (-> & -> & -> & -> & ->).
    { destruct cl, cl', (present user), (present user'), (present pw), (present pw'), wq, wq', wr, wr'; try discriminate E; repeat split. }
    do 4 (split; [reflexivity|]). intros w w' H H'. injection H as <-. injection H' as <-. split; reflexivity.
  - exfalso. destruct cl, cl', (present user), (present user'), (present pw), (present pw'), wq, wr; discriminate E.
  - exfalso. destruct cl, cl', (present user), (present user'), (present pw), (present pw'), wq', wr'; discriminate E.
  - assert (cl = cl' /\ present user = present user' /\ present pw = present pw') as (-> & -> & ->).
    { destruct cl, cl', (present user), (present user'), (present pw), (present pw'); try discriminate E; repeat split. }
    do 4 (split; [reflexivity|]). intros w w' H. discriminate H.
Qed.
Local Lemma filters_det l : Forall (fun f : bytes * QoS => short (fst f)) l -> forall l', Forall (fun f => short (fst f)) l' ->
  flat_map (fun f => field (fst f) ++ [qos_num (snd f)]) l = flat_map (fun f => field (fst f) ++ [qos_num (snd f)]) l' -> l = l'.
Proof.
  induction 1 as [|[f q] l Hf HF IH]; intros l' HF' E; destruct HF' as [|[f' q'] l' Hf' HF']; try discriminate E; [reflexivity|].
  cbn [flat_map fst snd] in E. rewrite <- !app_assoc in E. apply field_inj in E as [-> E]; [|assumption|assumption].
  cbn [app] in E. apply ProofStd5Not.cons_eq in E as [E2 E]. assert (q = q') by (destruct q, q'; try discriminate E2; reflexivity). subst.
  rewrite (IH l' HF' E). reflexivity.
Qed.
Local Lemma some_short (P : bytes -> Prop) (o : option bytes) : (forall s, P s -> short s) -> on_some P o -> on_some short o.
Proof. destruct o; cbn; auto. Qed.

Local Lemma content_det m m' : conforms m -> conforms m' -> header_byte m = header_byte m' -> content m = content m' -> m = m'.
Proof.
  intros F F' H E.
  assert (TS : forall s, text s -> short s) by (intros s T; apply T). assert (BS : forall s, binary s -> short s) by (intros s T; apply T).
  destruct m; destruct m'; try discriminate H;
    try (exfalso; clear -H; cbn [header_byte] in H; repeat match goal with b : bool |- _ => destruct b end; discriminate H);
    cbn [conforms content header_byte] in *.
  - destruct F as (Fk & Fc & _ & Fw & Fu & Fpw & _), F' as (Fk' & Fc' & _ & Fw' & Fu' & Fpw' & _).
    apply (some_short _ _ TS) in Fu, Fu'. apply (some_short _ _ BS) in Fpw, Fpw'.
    cbn [app] in E. do 7 apply ProofStd5Not.cons_eq in E as [_ E]. apply ProofStd5Not.cons_eq in E as [Ef E].
    apply flags_det in Ef as (-> & Pw & Pu & Pp & Q).
    apply be16_inj in E as [-> E]; [|assumption|assumption].
    apply field_inj in E as [-> E]; [|apply Fc|apply Fc'].
    assert (will = will0 /\ opt field user ++ opt field password = opt field user0 ++ opt field password0) as [-> E'].
    { destruct will as [[wt wm wq wr]|], will0 as [[wt' wm' wq' wr']|]; try discriminate Pw; cbn [opt on_some w_topic w_message] in *; [|auto].
      destruct Fw as (B & C), Fw' as (B' & C'). rewrite <- !app_assoc in E.
      apply field_inj in E as [-> E]; [|apply B|apply B']. apply field_inj in E as [-> E]; [|apply C|apply C'].
      destruct (Q _ _ eq_refl eq_refl) as [Q1 Q2]. cbn [w_qos w_retain] in *. subst. auto. }
    apply ProofStd5Inj.opt_field_det in E' as [-> E']; [|assumption|assumption|assumption].
    assert (E2 : opt field password ++ [] = opt field password0 ++ []) by (rewrite E'; reflexivity).
    apply ProofStd5Inj.opt_field_det in E2 as [-> _]; [|assumption|assumption|assumption]. reflexivity.
  - apply ProofStd5Not.cons_eq in E as [E1 E]. apply ProofStd5Not.cons_eq in E as [E2 _].
    assert (code = code0) by (destruct code, code0; try discriminate E2; reflexivity).
    assert (session_present = session_present0) by (destruct session_present, session_present0; try discriminate E1; reflexivity).
    subst. reflexivity.
  - assert (retain = retain0) by (destruct retain, retain0; try discriminate H; reflexivity). subst.
    apply field_inj in E as [-> ->]; [|apply F|apply F']. reflexivity.
  - assert (twice = twice0 /\ dup = dup0 /\ retain = retain0) as (-> & -> & ->) by (destruct retain, retain0, dup, dup0, twice, twice0; try discriminate H; auto).
    apply field_inj in E as [-> E]; [|apply F|apply F']. apply be16_inj in E as [-> ->]; [|apply F|apply F']. reflexivity.
  - apply (f_equal (fun l => l ++ [])) in E. apply be16_inj in E as [-> _]; [|apply F|apply F']. reflexivity.
  - apply (f_equal (fun l => l ++ [])) in E. apply be16_inj in E as [-> _]; [|apply F|apply F']. reflexivity.
  - apply (f_equal (fun l => l ++ [])) in E. apply be16_inj in E as [-> _]; [|apply F|apply F']. reflexivity.
  - apply (f_equal (fun l => l ++ [])) in E. apply be16_inj in E as [-> _]; [|apply F|apply F']. reflexivity.
  - destruct F as (F1 & _ & F3), F' as (F1' & _ & F3'). apply be16_inj in E as [-> E]; [|apply F1|apply F1'].
    apply filters_det in E as ->; [reflexivity|eapply Forall_impl; [|exact F3]; intros f Hf; apply Hf|eapply Forall_impl; [|exact F3']; intros f Hf; apply Hf].
  - apply be16_inj in E as [-> E]; [|apply F|apply F']. apply ProofStd5Inj.table_map_inj in E as ->; [reflexivity|].
    intros [q|] [q'|] X; try (destruct q); try (destruct q'); try discriminate X; reflexivity.
  - destruct F as (F1 & _ & F3), F' as (F1' & _ & F3'). apply be16_inj in E as [-> E]; [|apply F1|apply F1'].
    apply ProofStd5Inj.fields_det in E as ->; [reflexivity|eapply Forall_impl; [|exact F3]; intros f Hf; apply Hf|eapply Forall_impl; [|exact F3']; intros f Hf; apply Hf].
  - apply (f_equal (fun l => l ++ [])) in E. apply be16_inj in E as [-> _]; [|apply F|apply F']. reflexivity.
  - reflexivity.
  - reflexivity.
  - reflexivity.
Qed.
(** no two messages of the standard have the same bytes *)
Theorem C61_v4_encoding_unambiguous : forall m m', conforms m -> conforms m' ->
  blen (content m) <= max_len -> blen (content m') <= max_len ->
  frame (header_byte m) (content m) = frame (header_byte m') (content m') -> m = m'.
Proof.
  intros m m' H H' L L' E. apply PropStandard5W.frame_det in E as [E1 E2]; [|exact L|exact L']. apply content_det; assumption.
Qed.
(** `read` gives two messages the same packet exactly if they are the same message, or two CONNECT that differ only in
    whether an empty user name or password is there at all *)
Theorem C60_v4_same_packet_same_meaning : forall m m' s s' rest rest' max p p', bytes_ok s -> bytes_ok s' ->
  conforms m -> conforms m' ->
  starts_with_frame s (header_byte m) (content m) rest -> starts_with_frame s' (header_byte m') (content m') rest' ->
  read s max = (Ok p, rest) -> read s' max = (Ok p', rest') ->
  (p = p' <->
   m = m' \/ exists cl ka id w u u' pw pw',
     m = M_CONNECT cl ka id w u pw /\ m' = M_CONNECT cl ka id w u' pw' /\
     or_empty u = or_empty u' /\ or_empty pw = or_empty pw').
Proof.
  assert (K : forall m s rest max p, bytes_ok s -> conforms m ->
            starts_with_frame s (header_byte m) (content m) rest -> read s max = (Ok p, rest) -> as_packet m = p).
  { intros m s rest max p Hb Hm Hs H.
    assert (Hl : blen (content m) <= max).
    { apply read_iff in H as (c1 & cd & Hc & Hl & _); [|exact Hb].
      destruct Hs as (f & E & Hf & _), Hc as (g & E' & Hg & _). rewrite E in E'. injection E' as _ E'.
      destruct (lenfield_det _ _ _ _ _ _ Hf Hg E') as (_ & En & Er). rewrite En. exact Hl. }
    destruct (utf8_password_dec m) as [Hu|Hu].
    - assert (R : read s max = (Ok (as_packet m), rest)).
      { apply read_iff; [exact Hb|]. exists (header_byte m), (content m). split; [exact Hs|]. split; [exact Hl|]. apply std_decodes; assumption. }
      rewrite R in H. injection H as H. exact H.
    - exfalso. destruct m; try (apply Hu; exact I). destruct password as [pw|]; [|apply Hu; exact I].
      rewrite (PropStandard.C60_v4_binary_password_refused _ _ _ _ _ pw s rest max Hb Hm Hs Hl Hu) in H. discriminate H. }
  intros m m' s s' rest rest' max p p' Hb Hb' Hm Hm' Hs Hs' H H'.
  assert (E := K _ _ _ _ _ Hb Hm Hs H). assert (E' := K _ _ _ _ _ Hb' Hm' Hs' H'). subst p p'. split.
  - apply PropStandard.C60_v4_packet_determines_message; assumption.
  - intros [<-|(cl & ka & id & w & u & u' & pw & pw' & -> & -> & E1 & E2)]; [reflexivity|].
    cbn [as_packet]. unfold login_of. rewrite E1, E2. reflexivity.
Qed.
(** two CONNECT that differ in an empty password only *)
Example C60_v4_meaning_case :
  let m pw := M_CONNECT true 60 [99] None (Some [117]) pw in
  conforms (m None) /\ conforms (m (Some [])) /\ header_byte (m None) = 0x10 /\
  content (m None) = [0; 4; 77; 81; 84; 84; 4; 0x82; 0; 60; 0; 1; 99; 0; 1; 117] /\
  content (m (Some [])) = [0; 4; 77; 81; 84; 84; 4; 0xC2; 0; 60; 0; 1; 99; 0; 1; 117; 0; 0] /\
  frame 0x10 (content (m None)) <> frame 0x10 (content (m (Some []))) /\
  starts_with_frame (0x10 :: 16 :: content (m None)) 0x10 (content (m None)) [] /\
  read (0x10 :: 16 :: content (m None)) 50 = read (0x10 :: 18 :: content (m (Some []))) 50 /\
  exists p, read (0x10 :: 16 :: content (m None)) 50 = (Ok p, []).
Proof.
  assert (U : forall c, c < 128 -> is_string [c]).
  { intros c Hc. exists [c]. split; [repeat constructor; lia|]. cbn [flat_map]. unfold utf8_encode.
    rewrite (proj2 (N.ltb_lt c 0x80) Hc). reflexivity. }
  assert (T : forall c, 0 < c < 128 -> text [c]).
  { intros c Hc. split; [apply U; lia|]. split; [cbv; discriminate|]. intros [H|[]]; lia. }
  cbv zeta.
  assert (C : forall pw, on_some binary pw -> conforms (M_CONNECT true 60 [99] None (Some [117]) pw)).
  { intros pw Hp. cbn [conforms on_some]. split; [cbv; reflexivity|]. split; [apply T; lia|]. split; [discriminate|].
    split; [exact I|]. split; [apply T; lia|]. split; [exact Hp|discriminate]. }
  split; [apply C; exact I|]. split; [apply C; split; [constructor|cbv; discriminate]|].
  split; [reflexivity|]. split; [reflexivity|]. split; [reflexivity|]. split; [discriminate|].
  split. { exists [16]. split; [reflexivity|]. split; [apply (lf_last 16); lia|cbv; discriminate]. }
  split; [vm_compute; reflexivity|]. eexists. vm_compute. reflexivity.
Qed.
(** C61_v4_encoding_unambiguous, C60_v4_same_packet_same_meaning: see C60_v4_meaning_case *)
Print Assumptions C61_v4_encoding_unambiguous.
Print Assumptions C60_v4_same_packet_same_meaning.

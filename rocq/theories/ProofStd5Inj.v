(** ProofStd5Inj.v -- the encoding of the MQTT 5 messages is unambiguous *)
From Verif Require Import Base SpecWire SpecTopic SpecProps SpecPropSets SpecV5 SpecStd5
  ProofStd ProofBase ProofLib ProofRead ProofProps ProofSections ProofV5Read ProofV5Write ProofStd5 ProofStd5Sec ProofStd5Not.
From Verif Require V5Connect V5ConnAck V5Publish V5PubAck V5PubRec V5PubRel V5PubComp
  V5Subscribe V5SubAck V5Unsubscribe V5UnsubAck V5Disconnect.

Lemma app_eq_blen (a b c d : bytes) : a ++ c = b ++ d -> blen a = blen b -> a = b /\ c = d.
Proof.
  revert b; induction a as [|x a IH]; intros [|y b] E H; cbn [app] in E; autorewrite with blen in H; try lia; auto.
  apply cons_eq in E as [-> E]. destruct (IH b E) as [-> ->]; [lia|auto].
Qed.
Lemma value_self v : value_small v -> value_enc v (value_bytes v).
Proof. intros H. destruct v; try reflexivity. split; [apply lenfield_varint, H|apply varint_len_bound]. Qed.
Lemma items_det its : Forall item_ok its -> forall its', Forall item_ok its' ->
  items_bytes its = items_bytes its' -> its = its'.
Proof.
  induction 1 as [|[id v] its Hok HF IH]; intros its' HF' E; destruct HF' as [|[id' v'] its' Hok' HF'].
  - reflexivity.
  - discriminate E.
  - discriminate E.
  - rewrite !items_bytes_cons in E. unfold item_bytes in E. cbn [fst snd app] in E. apply cons_eq in E as [<- E].
    destruct Hok as ((T1 & T2) & T3 & T4), Hok' as ((U1 & U2) & U3 & U4). cbn [fst snd] in *.
    destruct (value_det v v' (value_bytes v) (value_bytes v') (items_bytes its) (items_bytes its')) as (-> & _ & E'); auto using value_self; [congruence|].
    rewrite (IH its' HF' E'). reflexivity.
Qed.
(** a list of well-formed properties that can be written *)
Definition wf (its : list item) : Prop := Forall item_ok its /\ blen (items_bytes its) <= max_len.
Lemma section_det its its' (r r' : bytes) : wf its -> wf its' -> section_bytes its ++ r = section_bytes its' ++ r' ->
  its = its' /\ r = r'.
Proof.
  intros [F L] [F' L'] E. unfold section_bytes in E. rewrite <- !app_assoc in E.
  destruct (lenfield_det _ _ _ _ _ _ (lenfield_varint _ L) (lenfield_varint _ L') E) as (_ & En & E').
  apply app_eq_blen in E' as [E1 ->]; [|exact En]. split; [|reflexivity]. apply items_det; assumption.
Qed.
Lemma options_inj f f' : V5Subscribe.path f = V5Subscribe.path f' -> options f = options f' -> f = f'.
Proof.
  destruct f as [p q n r u], f' as [p' q' n' r' u']. cbn [V5Subscribe.path]. intros <- H.
  destruct q, n, r, u, q', n', r', u'; try discriminate H; reflexivity.
Qed.
Lemma filters_det l : Forall (fun f => short (V5Subscribe.path f)) l -> forall l', Forall (fun f => short (V5Subscribe.path f)) l' ->
  flat_map (fun f => field (V5Subscribe.path f) ++ [options f]) l = flat_map (fun f => field (V5Subscribe.path f) ++ [options f]) l' -> l = l'.
Proof.
  induction 1 as [|f l Hf HF IH]; intros l' HF' E; destruct HF' as [|f' l' Hf' HF']; try discriminate E; [reflexivity|].
  cbn [flat_map] in E. rewrite <- !app_assoc in E. apply field_inj in E as [E1 E]; [|assumption|assumption].
  cbn [app] in E. apply cons_eq in E as [E2 E]. rewrite (options_inj f f' E1 E2), (IH l' HF' E). reflexivity.
Qed.
Lemma fields_det l : Forall short l -> forall l', Forall short l' -> flat_map field l = flat_map field l' -> l = l'.
Proof.
  induction 1 as [|f l Hf HF IH]; intros l' HF' E; destruct HF' as [|f' l' Hf' HF']; try discriminate E; [reflexivity|].
  cbn [flat_map] in E. apply field_inj in E as [-> E]; [|assumption|assumption]. rewrite (IH l' HF' E). reflexivity.
Qed.
Lemma table_inj {C} (num : C -> N) (f : N -> outcome C) : (forall c, f (num c) = Ok c) -> forall c c', num c = num c' -> c = c'.
Proof. intros H c c' E. assert (H1 := H c). rewrite E, H in H1. congruence. Qed.
Lemma table_map_inj {C} (num : C -> N) : (forall c c', num c = num c' -> c = c') -> forall l l', map num l = map num l' -> l = l'.
Proof.
  intros H l. induction l as [|c l IH]; intros [|c' l'] E; try discriminate E; [reflexivity|].
  cbn [map] in E. apply cons_eq in E as [E1 E2]. rewrite (H _ _ E1), (IH _ E2). reflexivity.
Qed.
Definition wf_ending {C} (e : ending C) : Prop := match e with CodeProps _ its => wf its | _ => True end.
Lemma ending_det {C} (num : C -> N) (e e' : ending C) : (forall c c', num c = num c' -> c = c') ->
  wf_ending e -> wf_ending e' -> ending_bytes num e = ending_bytes num e' -> e = e'.
Proof.
  intros Hn W W' E.
  assert (NE : forall its, section_bytes its <> []).
  { intros its H. apply app_eq_nil in H as [H _]. assert (L := varint_len_bound (blen (items_bytes its))). rewrite H in L. cbv in L. destruct L as [L _]. apply L. reflexivity. }
  destruct e as [|c|c its], e' as [|c'|c' its']; cbn [ending_bytes] in E; try discriminate E; try reflexivity;
    apply cons_eq in E as [E1 E2]; apply Hn in E1; subst c'; try reflexivity.
  - symmetry in E2. exfalso. exact (NE _ E2).
  - exfalso. exact (NE _ E2).
  - destruct (section_det its its' [] []) as [-> _]; try assumption; [rewrite E2; reflexivity|reflexivity].
Qed.
(** what is needed of the fields *)
Definition formed (m : Message) : Prop :=
  match m with
  | M_CONNECT clean ka props client will user pw =>
      u16 ka /\ wf props /\ short client /\
      on_some (fun w => wf (w_props w) /\ short (w_topic w) /\ short (w_message w)) will /\
      on_some short user /\ on_some short pw
  | M_CONNACK _ _ props => wf props
  | M_PUBLISH0 _ topic props _ => short topic /\ wf props
  | M_PUBLISH _ _ _ topic id props _ => short topic /\ u16 id /\ wf props
  | M_PUBACK id e => u16 id /\ wf_ending e
  | M_PUBREC id e => u16 id /\ wf_ending e
  | M_PUBREL id e => u16 id /\ wf_ending e
  | M_PUBCOMP id e => u16 id /\ wf_ending e
  | M_SUBSCRIBE id props fs => u16 id /\ wf props /\ Forall (fun f => short (V5Subscribe.path f)) fs
  | M_SUBACK id props _ => u16 id /\ wf props
  | M_UNSUBSCRIBE id props fs => u16 id /\ wf props /\ Forall short fs
  | M_UNSUBACK id props _ => u16 id /\ wf props
  | M_PINGREQ | M_PINGRESP => True
  | M_DISCONNECT e => wf_ending e
  | M_AUTH e => wf_ending e
  end.
Lemma flags_det cl will user pw cl' will' user' pw' :
  flags_byte cl will user pw = flags_byte cl' will' user' pw' ->
  cl = cl' /\ present will = present will' /\ present user = present user' /\ present pw = present pw' /\
  forall w w', will = Some w -> will' = Some w' -> w_qos w = w_qos w' /\ w_retain w = w_retain w'.
Proof.
  intros E. unfold flags_byte in E.
  destruct will as [[wp wt wm wq wr]|], will' as [[wp' wt' wm' wq' wr']|]; cbn [w_retain w_qos] in E.
  - assert (cl = cl' /\ present user = present user' /\ present pw = present pw' /\ wq = wq' /\ wr = wr') as (-> & -> & -> & -> & ->).
    { destruct cl, cl', (present user), (present user'), (present pw), (present pw'), wq, wq', wr, wr'; try discriminate E; repeat split. }
    do 4 (split; [reflexivity|]). intros w w' H H'. injection H as <-. injection H' as <-. split; reflexivity.
  - exfalso. destruct cl, cl', (present user), (present user'), (present pw), (present pw'), wq, wr; discriminate E.
  - exfalso. destruct cl, cl', (present user), (present user'), (present pw), (present pw'), wq', wr'; discriminate E.
  - assert (cl = cl' /\ present user = present user' /\ present pw = present pw') as (-> & -> & ->).
    { destruct cl, cl', (present user), (present user'), (present pw), (present pw'); try discriminate E; repeat split. }
    do 4 (split; [reflexivity|]). intros w w' H. discriminate H.
Qed.
Lemma opt_field_det (o o' : option bytes) (r r' : bytes) : present o = present o' -> on_some short o -> on_some short o' ->
  opt field o ++ r = opt field o' ++ r' -> o = o' /\ r = r'.
Proof.
  destruct o, o'; cbn [present on_some opt app]; intros H S S' E; try discriminate H; [|auto].
  apply field_inj in E as [-> ->]; auto.
Qed.
Lemma content_det m m' : formed m -> formed m' -> header_byte m = header_byte m' -> content m = content m' -> m = m'.
Proof.
  intros F F' H E.
  destruct m; destruct m'; try discriminate H;
    try (exfalso; clear -H; cbn [header_byte] in H; repeat match goal with b : bool |- _ => destruct b end; discriminate H);
    cbn [formed content header_byte] in *.
  - destruct F as (Fk & Fp & Fc & Fw & Fu & Fpw), F' as (Fk' & Fp' & Fc' & Fw' & Fu' & Fpw').
    cbn [app] in E. do 7 apply cons_eq in E as [_ E]. apply cons_eq in E as [Ef E].
    apply flags_det in Ef as (-> & Pw & Pu & Pp & Q).
    apply be16_inj in E as [-> E]; [|assumption|assumption].
    apply section_det in E as [-> E]; [|assumption|assumption].
    apply field_inj in E as [-> E]; [|assumption|assumption].
    assert (will = will0 /\ opt field user ++ opt field password = opt field user0 ++ opt field password0) as [-> E'].
    { destruct will as [[wp wt wm wq wr]|], will0 as [[wp' wt' wm' wq' wr']|]; try discriminate Pw; cbn [opt on_some w_props w_topic w_message] in *; [|auto].
      destruct Fw as (A & B & C), Fw' as (A' & B' & C'). rewrite <- !app_assoc in E.
      apply section_det in E as [-> E]; [|assumption|assumption].
      apply field_inj in E as [-> E]; [|assumption|assumption]. apply field_inj in E as [-> E]; [|assumption|assumption].
      destruct (Q _ _ eq_refl eq_refl) as [Q1 Q2]. cbn [w_qos w_retain] in *. subst. auto. }
    apply opt_field_det in E' as [-> E']; [|assumption|assumption|assumption].
    assert (E2 : opt field password ++ [] = opt field password0 ++ []) by (rewrite E'; reflexivity).
    apply opt_field_det in E2 as [-> _]; [|assumption|assumption|assumption]. reflexivity.
  - cbn [app] in E. apply cons_eq in E as [E1 E]. apply cons_eq in E as [E2 E].
    apply (table_inj _ _ connack_of) in E2. subst code0. assert (session_present = session_present0) by (destruct session_present, session_present0; try discriminate E1; reflexivity).
    subst. destruct (section_det props props0 [] []) as [-> _]; try assumption; [rewrite E; reflexivity|reflexivity].
  - destruct F as [F1 F2], F' as [F1' F2']. assert (retain = retain0) by (destruct retain, retain0; try discriminate H; reflexivity). subst.
    apply field_inj in E as [-> E]; [|assumption|assumption]. apply section_det in E as [-> ->]; [|assumption|assumption]. reflexivity.
  - destruct F as (F1 & F3 & F2), F' as (F1' & F3' & F2').
    assert (twice = twice0 /\ dup = dup0 /\ retain = retain0) as (-> & -> & ->) by (destruct retain, retain0, dup, dup0, twice, twice0; try discriminate H; auto).
    apply field_inj in E as [-> E]; [|assumption|assumption]. apply be16_inj in E as [-> E]; [|assumption|assumption].
    apply section_det in E as [-> ->]; [|assumption|assumption]. reflexivity.
  - destruct F, F'. apply be16_inj in E as [-> E]; [|assumption|assumption]. apply ending_det in E as ->; auto. apply (table_inj _ _ puback_of).
  - destruct F, F'. apply be16_inj in E as [-> E]; [|assumption|assumption]. apply ending_det in E as ->; auto. apply (table_inj _ _ pubrec_of).
  - destruct F, F'. apply be16_inj in E as [-> E]; [|assumption|assumption]. apply ending_det in E as ->; auto. apply (table_inj _ _ pubrel_of).
  - destruct F, F'. apply be16_inj in E as [-> E]; [|assumption|assumption]. apply ending_det in E as ->; auto. apply (table_inj _ _ pubcomp_of).
  - destruct F as (F1 & F2 & F3), F' as (F1' & F2' & F3'). apply be16_inj in E as [-> E]; [|assumption|assumption].
    apply section_det in E as [-> E]; [|assumption|assumption]. apply filters_det in E as ->; auto.
  - destruct F as (F1 & F2), F' as (F1' & F2'). apply be16_inj in E as [-> E]; [|assumption|assumption].
    apply section_det in E as [-> E]; [|assumption|assumption]. apply table_map_inj in E as ->; auto. apply (table_inj _ _ suback_of).
  - destruct F as (F1 & F2 & F3), F' as (F1' & F2' & F3'). apply be16_inj in E as [-> E]; [|assumption|assumption].
    apply section_det in E as [-> E]; [|assumption|assumption]. apply fields_det in E as ->; auto.
  - destruct F as (F1 & F2), F' as (F1' & F2'). apply be16_inj in E as [-> E]; [|assumption|assumption].
    apply section_det in E as [-> E]; [|assumption|assumption]. apply table_map_inj in E as ->; auto. apply (table_inj _ _ unsuback_of).
  - reflexivity.
  - reflexivity.
  - apply ending_det in E as ->; auto. apply (table_inj _ _ disconnect_of).
  - apply ending_det in E as ->; auto.
Qed.
Lemma rules_wf allowed rep its : rules allowed rep its -> blen (items_bytes its) <= max_len -> wf its.
Proof. intros [H _] L. split; [|exact L]. eapply Forall_impl; [|exact H]. intros it (_ & H2 & _). exact H2. Qed.
Lemma conforms_formed m : conforms m -> blen (content m) <= max_len -> formed m.
Proof.
  intros Hm Hl.
  assert (W : forall allowed rep its (a r : bytes), rules allowed rep its -> content m = a ++ section_bytes its ++ r -> wf its).
  { intros allowed rep its a r Hr E. apply (rules_wf _ _ _ Hr). rewrite E in Hl. unfold section_bytes in Hl. autorewrite with blen in Hl. lia. }
  assert (WE : forall C (num : C -> N) allowed rep (e : ending C) (a : bytes), ending_ok (rules allowed rep) e -> content m = a ++ ending_bytes num e -> wf_ending e).
  { intros C num allowed rep e a Hr E. destruct e as [|c|c its]; try exact I. cbn [ending_ok wf_ending ending_bytes] in *.
    apply (W _ _ _ (a ++ [num c]) [] Hr). rewrite E, app_nil_r, <- app_assoc. reflexivity. }
  destruct m; cbn [conforms formed] in *.
  - destruct Hm as (H1 & H2 & H3 & H4 & H5 & H6).
    split; [exact H1|]. split; [|split; [apply H3|split; [|split]]].
    + eapply W with (a := [0; 4; 77; 81; 84; 84; 5; flags_byte clean will user password] ++ be16 keep_alive); [exact H2|]. cbn [content]. rewrite <- !app_assoc. reflexivity.
    + destruct will as [w|]; [|exact I]. destruct H4 as (A & B & C). split; [|split; [apply B|apply C]].
      eapply W with (a := [0; 4; 77; 81; 84; 84; 5; flags_byte clean (Some w) user password] ++ be16 keep_alive ++ section_bytes props ++ field client); [exact A|]. cbn [content opt]. rewrite <- !app_assoc. reflexivity.
    + destruct user; [apply H5|exact I].
    + destruct password; [apply H6|exact I].
  - destruct Hm as [_ Hm]. eapply W with (r := []); [exact Hm|]. rewrite app_nil_r. reflexivity.
  - destruct Hm as (H1 & H2 & _). split; [apply H1|]. eapply W; [exact H2|reflexivity].
  - destruct Hm as (H1 & H3 & H2 & _). split; [apply H1|]. split; [apply H3|]. eapply W with (a := field topic ++ be16 id); [exact H2|]. rewrite <- app_assoc. reflexivity.
  - destruct Hm as [H1 H2]. split; [apply H1|]. eapply WE; [exact H2|reflexivity].
  - destruct Hm as [H1 H2]. split; [apply H1|]. eapply WE; [exact H2|reflexivity].
  - destruct Hm as [H1 H2]. split; [apply H1|]. eapply WE; [exact H2|reflexivity].
  - destruct Hm as [H1 H2]. split; [apply H1|]. eapply WE; [exact H2|reflexivity].
  - destruct Hm as (H1 & H2 & _ & H3). split; [apply H1|]. split; [eapply W; [exact H2|reflexivity]|].
    eapply Forall_impl; [|exact H3]. intros f Hf. apply Hf.
  - destruct Hm as (H1 & H2 & _). split; [apply H1|]. eapply W; [exact H2|reflexivity].
  - destruct Hm as (H1 & H2 & _ & H3). split; [apply H1|]. split; [eapply W; [exact H2|reflexivity]|].
    eapply Forall_impl; [|exact H3]. intros f Hf. apply Hf.
  - destruct Hm as (H1 & H2 & _). split; [apply H1|]. eapply W; [exact H2|reflexivity].
  - exact I.
  - exact I.
  - eapply WE with (a := []); [exact Hm|reflexivity].
  - destruct Hm as [_ Hm]. eapply WE with (a := []); [exact Hm|reflexivity].
Qed.

(** ProofErrorsV5.v -- the v5 decoders refuse exactly the bodies of SpecErrorsV5, with the
    errors given there. *)
From Verif Require Import ProofBase Utf8 ProofUtf8 Lib ProofLib ProofCheck ProofRead ProofBits ProofV4Read
  SpecProps SpecPropSets V5Property ProofProps ProofPropSets SpecV5 ProofV5Write ProofV5Read ProofSections SpecPlaces
  ProofPlaces SpecErrors ProofErrors ProofSectErrors SpecErrorsV5.

Lemma connect_sec_err (E : Error -> Prop) s (Q : _ -> _ -> Prop) : bytes_ok s -> blen s <= huge ->
  (forall e, section_fails (allowed_at InConnect) s e -> E e) ->
  (forall o bs s', s = bs ++ s' -> decodes_props (allowed_at InConnect) connect_record o bs -> bytes_ok s' -> Q o s') ->
  wp E (V5Connect.cp_extract s) Q.
Proof. exact (wp_extract_err _ connect_record _ connect_step (allowed_typed InConnect) E s Q). Qed.
Lemma connect_sec_fails s e : bytes_ok s -> blen s <= huge -> section_fails (allowed_at InConnect) s e ->
  V5Connect.cp_extract s = Err e.
Proof. exact (extract_fails _ connect_record _ connect_step (allowed_typed _) s e). Qed.
Lemma will_sec_err (E : Error -> Prop) s (Q : _ -> _ -> Prop) : bytes_ok s -> blen s <= huge ->
  (forall e, section_fails (allowed_at InWill) s e -> E e) ->
  (forall o bs s', s = bs ++ s' -> decodes_props (allowed_at InWill) will_record o bs -> bytes_ok s' -> Q o s') ->
  wp E (V5Connect.wp_extract s) Q.
Proof. exact (wp_extract_err _ will_record _ will_step (allowed_typed InWill) E s Q). Qed.
Lemma will_sec_fails s e : bytes_ok s -> blen s <= huge -> section_fails (allowed_at InWill) s e ->
  V5Connect.wp_extract s = Err e.
Proof. exact (extract_fails _ will_record _ will_step (allowed_typed _) s e). Qed.
Lemma connack_sec_err (E : Error -> Prop) s (Q : _ -> _ -> Prop) : bytes_ok s -> blen s <= huge ->
  (forall e, section_fails (allowed_at InConnAck) s e -> E e) ->
  (forall o bs s', s = bs ++ s' -> decodes_props (allowed_at InConnAck) connack_record o bs -> bytes_ok s' -> Q o s') ->
  wp E (V5ConnAck.extract s) Q.
Proof. exact (wp_extract_err _ connack_record _ connack_step (allowed_typed InConnAck) E s Q). Qed.
Lemma connack_sec_fails s e : bytes_ok s -> blen s <= huge -> section_fails (allowed_at InConnAck) s e ->
  V5ConnAck.extract s = Err e.
Proof. exact (extract_fails _ connack_record _ connack_step (allowed_typed _) s e). Qed.
Lemma publish_sec_err (E : Error -> Prop) s (Q : _ -> _ -> Prop) : bytes_ok s -> blen s <= huge ->
  (forall e, section_fails (allowed_at InPublish) s e -> E e) ->
  (forall o bs s', s = bs ++ s' -> decodes_props (allowed_at InPublish) publish_record o bs -> bytes_ok s' -> Q o s') ->
  wp E (V5Publish.extract s) Q.
Proof. exact (wp_extract_err _ publish_record _ publish_step (allowed_typed InPublish) E s Q). Qed.
Lemma publish_sec_fails s e : bytes_ok s -> blen s <= huge -> section_fails (allowed_at InPublish) s e ->
  V5Publish.extract s = Err e.
Proof. exact (extract_fails _ publish_record _ publish_step (allowed_typed _) s e). Qed.
Lemma puback_sec_err (E : Error -> Prop) s (Q : _ -> _ -> Prop) : bytes_ok s -> blen s <= huge ->
  (forall e, section_fails (allowed_at InPubAck) s e -> E e) ->
  (forall o bs s', s = bs ++ s' -> decodes_props (allowed_at InPubAck) puback_record o bs -> bytes_ok s' -> Q o s') ->
  wp E (V5PubAck.extract s) Q.
Proof. exact (wp_extract_err _ puback_record _ puback_step (allowed_typed InPubAck) E s Q). Qed.
Lemma puback_sec_fails s e : bytes_ok s -> blen s <= huge -> section_fails (allowed_at InPubAck) s e ->
  V5PubAck.extract s = Err e.
Proof. exact (extract_fails _ puback_record _ puback_step (allowed_typed _) s e). Qed.
Lemma pubrec_sec_err (E : Error -> Prop) s (Q : _ -> _ -> Prop) : bytes_ok s -> blen s <= huge ->
  (forall e, section_fails (allowed_at InPubRec) s e -> E e) ->
  (forall o bs s', s = bs ++ s' -> decodes_props (allowed_at InPubRec) pubrec_record o bs -> bytes_ok s' -> Q o s') ->
  wp E (V5PubRec.extract s) Q.
Proof. exact (wp_extract_err _ pubrec_record _ pubrec_step (allowed_typed InPubRec) E s Q). Qed.
Lemma pubrec_sec_fails s e : bytes_ok s -> blen s <= huge -> section_fails (allowed_at InPubRec) s e ->
  V5PubRec.extract s = Err e.
Proof. exact (extract_fails _ pubrec_record _ pubrec_step (allowed_typed _) s e). Qed.
Lemma pubrel_sec_err (E : Error -> Prop) s (Q : _ -> _ -> Prop) : bytes_ok s -> blen s <= huge ->
  (forall e, section_fails (allowed_at InPubRel) s e -> E e) ->
  (forall o bs s', s = bs ++ s' -> decodes_props (allowed_at InPubRel) pubrel_record o bs -> bytes_ok s' -> Q o s') ->
  wp E (V5PubRel.extract s) Q.
Proof. exact (wp_extract_err _ pubrel_record _ pubrel_step (allowed_typed InPubRel) E s Q). Qed.
Lemma pubrel_sec_fails s e : bytes_ok s -> blen s <= huge -> section_fails (allowed_at InPubRel) s e ->
  V5PubRel.extract s = Err e.
Proof. exact (extract_fails _ pubrel_record _ pubrel_step (allowed_typed _) s e). Qed.
Lemma pubcomp_sec_err (E : Error -> Prop) s (Q : _ -> _ -> Prop) : bytes_ok s -> blen s <= huge ->
  (forall e, section_fails (allowed_at InPubComp) s e -> E e) ->
  (forall o bs s', s = bs ++ s' -> decodes_props (allowed_at InPubComp) pubcomp_record o bs -> bytes_ok s' -> Q o s') ->
  wp E (V5PubComp.extract s) Q.
Proof. exact (wp_extract_err _ pubcomp_record _ pubcomp_step (allowed_typed InPubComp) E s Q). Qed.
Lemma pubcomp_sec_fails s e : bytes_ok s -> blen s <= huge -> section_fails (allowed_at InPubComp) s e ->
  V5PubComp.extract s = Err e.
Proof. exact (extract_fails _ pubcomp_record _ pubcomp_step (allowed_typed _) s e). Qed.
Lemma subscribe_sec_err (E : Error -> Prop) s (Q : _ -> _ -> Prop) : bytes_ok s -> blen s <= huge ->
  (forall e, section_fails (allowed_at InSubscribe) s e -> E e) ->
  (forall o bs s', s = bs ++ s' -> decodes_props (allowed_at InSubscribe) subscribe_record o bs -> bytes_ok s' -> Q o s') ->
  wp E (V5Subscribe.extract s) Q.
Proof. exact (wp_extract_err _ subscribe_record _ subscribe_step (allowed_typed InSubscribe) E s Q). Qed.
Lemma subscribe_sec_fails s e : bytes_ok s -> blen s <= huge -> section_fails (allowed_at InSubscribe) s e ->
  V5Subscribe.extract s = Err e.
Proof. exact (extract_fails _ subscribe_record _ subscribe_step (allowed_typed _) s e). Qed.
Lemma suback_sec_err (E : Error -> Prop) s (Q : _ -> _ -> Prop) : bytes_ok s -> blen s <= huge ->
  (forall e, section_fails (allowed_at InSubAck) s e -> E e) ->
  (forall o bs s', s = bs ++ s' -> decodes_props (allowed_at InSubAck) suback_record o bs -> bytes_ok s' -> Q o s') ->
  wp E (V5SubAck.extract s) Q.
Proof. exact (wp_extract_err _ suback_record _ suback_step (allowed_typed InSubAck) E s Q). Qed.
Lemma suback_sec_fails s e : bytes_ok s -> blen s <= huge -> section_fails (allowed_at InSubAck) s e ->
  V5SubAck.extract s = Err e.
Proof. exact (extract_fails _ suback_record _ suback_step (allowed_typed _) s e). Qed.
Lemma unsubscribe_sec_err (E : Error -> Prop) s (Q : _ -> _ -> Prop) : bytes_ok s -> blen s <= huge ->
  (forall e, section_fails (allowed_at InUnsubscribe) s e -> E e) ->
  (forall o bs s', s = bs ++ s' -> decodes_props (allowed_at InUnsubscribe) unsubscribe_record o bs -> bytes_ok s' -> Q o s') ->
  wp E (V5Unsubscribe.extract s) Q.
Proof. exact (wp_extract_err _ unsubscribe_record _ unsubscribe_step (allowed_typed InUnsubscribe) E s Q). Qed.
Lemma unsubscribe_sec_fails s e : bytes_ok s -> blen s <= huge -> section_fails (allowed_at InUnsubscribe) s e ->
  V5Unsubscribe.extract s = Err e.
Proof. exact (extract_fails _ unsubscribe_record _ unsubscribe_step (allowed_typed _) s e). Qed.
Lemma unsuback_sec_err (E : Error -> Prop) s (Q : _ -> _ -> Prop) : bytes_ok s -> blen s <= huge ->
  (forall e, section_fails (allowed_at InUnsubAck) s e -> E e) ->
  (forall o bs s', s = bs ++ s' -> decodes_props (allowed_at InUnsubAck) unsuback_record o bs -> bytes_ok s' -> Q o s') ->
  wp E (V5UnsubAck.extract s) Q.
Proof. exact (wp_extract_err _ unsuback_record _ unsuback_step (allowed_typed InUnsubAck) E s Q). Qed.
Lemma unsuback_sec_fails s e : bytes_ok s -> blen s <= huge -> section_fails (allowed_at InUnsubAck) s e ->
  V5UnsubAck.extract s = Err e.
Proof. exact (extract_fails _ unsuback_record _ unsuback_step (allowed_typed _) s e). Qed.
Lemma disconnect_sec_err (E : Error -> Prop) s (Q : _ -> _ -> Prop) : bytes_ok s -> blen s <= huge ->
  (forall e, section_fails (allowed_at InDisconnect) s e -> E e) ->
  (forall o bs s', s = bs ++ s' -> decodes_props (allowed_at InDisconnect) disconnect_record o bs -> bytes_ok s' -> Q o s') ->
  wp E (V5Disconnect.extract s) Q.
Proof. exact (wp_extract_err _ disconnect_record _ disconnect_step (allowed_typed InDisconnect) E s Q). Qed.
Lemma disconnect_sec_fails s e : bytes_ok s -> blen s <= huge -> section_fails (allowed_at InDisconnect) s e ->
  V5Disconnect.extract s = Err e.
Proof. exact (extract_fails _ disconnect_record _ disconnect_step (allowed_typed _) s e). Qed.

Lemma section_any {R} pl (rec : list item -> R) o bs :
  decodes_props (allowed_at pl) rec o bs -> good_section pl bs.
Proof.
  intros H. destruct o as [r|]; cbn [decodes_props] in H.
  - destruct H as (f & plen & its & sec & -> & H1 & H2 & H3 & H4 & _). exists (Some its), f, plen, its, sec. auto 6.
  - exists None. exact H.
Qed.
Lemma section_rec {R} pl (rec : list item -> R) bs : good_section pl bs ->
  exists o, decodes_props (allowed_at pl) rec o bs.
Proof.
  intros [[its|] H]; cbn [decodes_props] in H.
  - destruct H as (f & plen & its' & sec & -> & H1 & H2 & H3 & H4 & _).
    exists (Some (rec its')), f, plen, its', sec. auto 6.
  - exists None. exact H.
Qed.

Ltac rdw := apply wp_bind; first
  [ apply wp_want_u8; [assumption| |]
  | apply wp_want_u16; [assumption| |]
  | apply wp_want_bytes; [assumption| |]
  | apply wp_want_string; [assumption| |] ].
Ltac rds L := apply wp_bind; apply L; [assumption|rest_bound| |].
Ltac reassoc := unfold connect_head; rewrite <- ?app_assoc; cbn [app]; rewrite <- ?app_assoc; reflexivity.
Ltac nonnil := first [assumption | discriminate | intros E; apply (f_equal (@blen N)) in E; revert E; autorewrite with blen; lia].
Ltac side := unfold good_head, good_string, is_string, u16 in *; first [eassumption | split; assumption | lia | congruence | (repeat split; assumption) | idtac].
Tactic Notation "missing" uconstr(c) :=
  intros e He; eapply f_missing; [nonnil| |eapply c; side|exact He]; [reassoc|..].
Tactic Notation "value" uconstr(c) := eapply f_value; [nonnil| |eapply c; side]; [reassoc|..].

Lemma level_cases lvl (s : bytes) :
  (exists pr, lvl = level pr /\
     (match lvl with 4 => rret V4 | 5 => rret V5 | num => rerr (InvalidProtocolLevel num) end) s = Ok (pr, s))
  \/ lvl <> 4 /\ lvl <> 5 /\
     (match lvl with 4 => rret V4 | 5 => rret V5 | num => rerr (InvalidProtocolLevel num) end) s = Err (InvalidProtocolLevel lvl).
Proof.
  destruct lvl as [|[[p|[p|p|]|]|[p|[p|p|]|]|]];
    first [right; split; [discriminate|]; split; [discriminate|]; reflexivity
          | left; exists V5; split; reflexivity | left; exists V4; split; reflexivity].
Qed.
Lemma wp_qos3 {A} (E : Error -> Prop) n (k : QoS -> reader A) s Q :
  n < 4 -> (n = 3 -> E (InvalidQoS 3)) -> (forall q, n = qos_num q -> wp E (k q s) Q) ->
  wp E (rbind (rlift (qos n)) k s) Q.
Proof.
  intros Hn HE HQ. destruct (qos_cases n Hn) as [(q & Hq & Hn')|[Hq Hn']];
    unfold rbind, rlift; rewrite Hq; [apply HQ, Hn'|]. rewrite Hn'. apply HE. lia.
Qed.
Lemma wp_opt (E : Error -> Prop) (present : bool) s (Q : _ -> _ -> Prop) : bytes_ok s ->
  (present = true -> forall e, lacks WString s e -> E e) ->
  (forall u ubs s', s = ubs ++ s' -> decodes_opt_string present u ubs -> bytes_ok s' -> Q u s') ->
  wp E ((if negb present then rret [] else read_mqtt_string) s) Q.
Proof.
  intros Hs HE HQ. destruct present; cbn [negb].
  - apply wp_want_string; [assumption|apply HE; reflexivity|]. intros v s' -> Hv Hu Hs'.
    eapply HQ; [reflexivity| |assumption]. cbn. auto.
  - apply wp_ret. eapply HQ with (ubs := []); [reflexivity| |assumption]. cbn. auto.
Qed.
Lemma wp_code {C A} (E : Error -> Prop) (f : N -> outcome C) num err n (k : C -> reader A) s Q :
  table_ok f num err n -> ((forall c, n <> num c) -> E (err n)) -> (forall c, n = num c -> wp E (k c s) Q) ->
  wp E (rbind (rlift (f n)) k s) Q.
Proof.
  unfold table_ok, rbind, rlift. destruct (f n) as [c|e| |]; try contradiction.
  - intros H _ HQ. apply HQ, H.
  - intros [-> H] He _. exact (He H).
Qed.
Lemma code_err {C A} (f : N -> outcome C) num err n (k : C -> reader A) s :
  table_ok f num err n -> (forall c, n <> num c) -> rbind (rlift (f n)) k s = Err (err n).
Proof.
  unfold table_ok, rbind, rlift. destruct (f n) as [c|e| |]; try contradiction.
  - intros H1 H2. destruct (H2 c H1).
  - intros [-> _] _. reflexivity.
Qed.

Section Body.
  Variables (b1 : N) (hdr : bytes).

  Lemma will_errs pr flags ka sec cid s (Q : _ -> _ -> Prop) : b1 / 16 = 1 -> good_head pr ka sec cid ->
    bytes_ok s -> blen s <= huge -> flags < 256 ->
    (forall w wbs s', s = wbs ++ s' -> decodes_will flags w wbs -> bytes_ok s' -> Q w s') ->
    wp (fails b1 (connect_head pr flags ka sec cid ++ s)) (V5Connect.lw_read flags s) Q.
  Proof.
    intros H1 Hh Hs Hm Hf HQ. unfold V5Connect.lw_read. rewrite mask4 by assumption.
    destruct (bit_at 2 flags) eqn:E2; cbn [negb].
    - rds will_sec_err.
      { intros e He. eapply (f_section _ _ _ InWill); [reflexivity| |discriminate|exact He].
        destruct Hh as (Hka & Hsec & Hcu & Hcs). cbn [leads_to]. split; [assumption|].
        destruct pr; cbn [connect_section] in Hsec.
        - subst sec. exists 4, flags, ka, None, [], cid. repeat (split; [solve [auto]|]). reflexivity.
        - apply (section_rec _ connect_record) in Hsec as [o Ho].
          exists 5, flags, ka, o, sec, cid. repeat (split; [solve [auto]|]). reflexivity. }
      intros o wsec s0 -> Ho Hs0. assert (Hw := section_any _ _ _ _ Ho).
      rdw; [missing (ex_will_topic _ pr flags ka sec cid wsec)|]. intros t s1 -> Ht Htu Hs1.
      rdw; [missing (ex_will_message _ pr flags ka sec cid wsec t)|]. intros m s2 -> Hmm Hmb Hs2.
      rewrite will_qos_bits by assumption. apply wp_qos3; [lia|intros H3; value (rj_will_qos _ pr flags ka sec cid wsec t m)|].
      intros q Hq. apply wp_ret. rewrite mask32, negb_involutive by assumption.
      eapply HQ with (wbs := wsec ++ field t ++ field m); [rewrite <- !app_assoc; reflexivity| |assumption].
      cbn. repeat split; auto. exists wsec. auto.
    - rewrite mask56 by assumption. destruct (flags / 8 mod 8 =? 0) eqn:E8; cbn [negb].
      + apply wp_ret. eapply HQ with (wbs := []); [reflexivity| |assumption].
        cbn. repeat split; [assumption|lia].
      + apply wp_err. value (rj_no_will _ pr flags ka sec cid).
  Qed.

  Lemma connect_errs bd : bytes_ok bd -> blen bd <= huge -> bd <> [] -> b1 / 16 = 1 ->
    wp (fails b1 bd) (V5Connect.read (hd b1 hdr bd) (hdr ++ bd)) (fun _ _ => True).
  Proof.
    intros Hb Hm Hne H1. unfold V5Connect.read. apply wp_advance.
    rdw; [missing ex_name|]. intros name s1 -> Hns Hnu Hs1.
    rdw; [missing (ex_level _ name)|]. intros lvl s2 -> Hlvl Hs2.
    destruct (bytes_eqb name V5Connect.mqtt_name) eqn:En; cbn [negb].
    2: { apply wp_err. value (rj_name _ name lvl). intros ->. discriminate En. }
    apply bytes_eqb_eq in En. subst name. change V5Connect.mqtt_name with MQTT in *.
    apply wp_bind.
    destruct (level_cases lvl s2) as [(pr & -> & ->)|(H4 & H5 & ->)]; cbn [wp]; [|value (rj_level _ lvl)].
    rdw; [missing (ex_flags _ pr)|]. intros flags s3 -> Hf Hs3.
    rdw; [missing (ex_keep_alive _ pr flags)|]. intros ka s4 -> Hka Hs4.
    assert (Hm4 : blen s4 <= huge) by (rewrite blen_app, !blen_cons, blen_app in Hm; lia).
    assert (HP : forall Q' : _ -> _ -> Prop,
      (forall o sec s', s4 = sec ++ s' -> connect_section pr sec -> bytes_ok s' -> Q' o s') ->
      wp (fails b1 (field MQTT ++ level pr :: flags :: be16 ka ++ s4))
        ((match pr with V5 => V5Connect.cp_extract | V4 => rret None end) s4) Q').
    { intros Q' HQ'. destruct pr.
      - apply wp_ret. apply (HQ' None [] s4); [reflexivity|reflexivity|assumption].
      - apply connect_sec_err; [assumption|assumption| |].
        + intros e He. eapply (f_section _ _ _ InConnect); [| |discriminate|exact He].
          2: { cbn [leads_to]. split; [assumption|]. exists flags, ka. split; [exact Hf|]. split; [exact Hka|]. reflexivity. }
          rewrite <- ?app_assoc. reflexivity.
        + intros o sec s' -> Ho Hs'. eapply HQ'; [reflexivity|exact (section_any _ _ _ _ Ho)|assumption]. }
    apply wp_bind. apply HP. clear HP. intros o sec s5' -> Hsec Hs5'.
    rdw; [missing (ex_client_id _ pr flags ka sec)|]. intros cid s5 -> Hcs Hcu Hs5.
    replace (field MQTT ++ level pr :: flags :: be16 ka ++ sec ++ field cid ++ s5)
      with (connect_head pr flags ka sec cid ++ s5) by reassoc.
    assert (Hh : good_head pr ka sec cid) by (repeat split; assumption).
    apply wp_bind. apply will_errs; [assumption..|rest_bound|assumption|].
    intros w wbs s6 -> Hw Hs6.
    unfold V5Connect.login_read. rewrite mask128, mask64 by assumption.
    apply wp_bind. apply wp_bind. apply wp_opt; [assumption|intros B7; missing (ex_user _ pr flags ka sec cid w wbs)|].
    intros u ubs s7 -> Hu Hs7.
    apply wp_bind. apply wp_opt; [assumption|intros B6; missing (ex_password _ pr flags ka sec cid w wbs u ubs)|].
    intros p pbs s8 -> Hp Hs8.
    destruct (is_empty u && is_empty p); exact I.
  Qed.

  Lemma connack_errs bd : bytes_ok bd -> blen bd <= huge -> bd <> [] -> b1 / 16 = 2 ->
    wp (fails b1 bd) (V5ConnAck.read (hd b1 hdr bd) (hdr ++ bd)) (fun _ _ => True).
  Proof.
    intros Hb Hm Hne H1. unfold V5ConnAck.read. apply wp_advance.
    rdw; [missing ex_ack_flags|]. intros fl s1 -> Hfl Hs1.
    rdw; [missing (ex_ack_code _ fl)|]. intros rc s2 -> Hrc Hs2.
    cbv zeta. eapply wp_code; [apply connack_table|intros Hn; value (rj_connack _ fl rc)|]. intros c ->.
    rds connack_sec_err.
    { intros e He. eapply (f_section _ _ _ InConnAck [fl; connack_code c]); [reflexivity| |discriminate|exact He].
      split; [assumption|]. exists fl, c. auto. }
    intros; exact I.
  Qed.

  Lemma ack_errs {C R P} (f : N -> outcome C) (num : C -> N) ok (ex : reader (option R)) (rec : list item -> R)
      (mk : N -> C -> option R -> P) pl k bd :
    (forall n, table_ok f num InvalidConnectReturnCode n) ->
    (forall (E : Error -> Prop) s (Q : _ -> _ -> Prop), bytes_ok s -> blen s <= huge ->
      (forall e, section_fails (allowed_at pl) s e -> E e) ->
      (forall o bs s', s = bs ++ s' -> decodes_props (allowed_at pl) rec o bs -> bytes_ok s' -> Q o s') ->
      wp E (ex s) Q) ->
    4 <= k <= 7 -> b1 / 16 = k ->
    (forall id n, u16 id -> (forall c, n <> num c) -> rejects b1 (be16 id ++ [n]) (InvalidConnectReturnCode n)) ->
    (forall id c, u16 id -> leads_to pl b1 (be16 id ++ [num c])) ->
    bytes_ok bd -> blen bd <= huge -> bd <> [] ->
    wp (fails b1 bd) (ack_read f ok ex mk (hd b1 hdr bd) (hdr ++ bd)) (fun _ _ => True).
  Proof.
    intros Ht Hex Hk H1 Hrej Hlead Hb Hm Hne. unfold ack_read. apply wp_advance.
    rdw; [missing ex_id|]. intros id s1 -> Hid Hs1. cbn [hd remaining_len]. autorewrite with blen.
    destruct (2 + blen s1 =? 2) eqn:E2; [exact I|].
    rdw. { intros e He. exfalso. inversion He; subst; try (destruct H; discriminate). discriminate E2. }
    intros c s2 -> Hc Hs2. autorewrite with blen in *.
    destruct (2 + (1 + blen s2) <? 4) eqn:E4.
    - eapply wp_code; [apply Ht| |intros; exact I]. intros Hn.
      eapply f_value; [nonnil| |apply Hrej; [exact Hid|exact Hn]]. reassoc.
    - eapply wp_code; [apply Ht| |].
      { intros Hn. eapply f_value; [nonnil| |apply Hrej; [exact Hid|exact Hn]]. reassoc. }
      intros rc ->. apply wp_bind. apply Hex; [assumption|lia| |intros; exact I].
      intros e He. eapply (f_section _ _ _ pl (be16 id ++ [num rc])); [|apply Hlead, Hid| |exact He].
      + reassoc.
      + intros _ ->. discriminate E4.
  Qed.
  Lemma puback_errs bd : bytes_ok bd -> blen bd <= huge -> bd <> [] -> b1 / 16 = 4 ->
    wp (fails b1 bd) (V5PubAck.read (hd b1 hdr bd) (hdr ++ bd)) (fun _ _ => True).
  Proof.
    intros Hb Hm Hne H1.
    apply (ack_errs V5PubAck.reason_of puback_code V5PubAck.Success V5PubAck.extract puback_record V5PubAck.mkPubAck InPubAck 4);
      auto using puback_table, puback_sec_err; [lia|constructor; auto|intros; split; [assumption|]; eauto].
  Qed.
  Lemma pubrec_errs bd : bytes_ok bd -> blen bd <= huge -> bd <> [] -> b1 / 16 = 5 ->
    wp (fails b1 bd) (V5PubRec.read (hd b1 hdr bd) (hdr ++ bd)) (fun _ _ => True).
  Proof.
    intros Hb Hm Hne H1.
    apply (ack_errs V5PubRec.reason_of pubrec_code V5PubRec.Success V5PubRec.extract pubrec_record V5PubRec.mkPubRec InPubRec 5);
      auto using pubrec_table, pubrec_sec_err; [lia|intros; apply rj_pubrec; auto|intros; split; [assumption|]; eauto].
  Qed.
  Lemma pubrel_errs bd : bytes_ok bd -> blen bd <= huge -> bd <> [] -> b1 / 16 = 6 ->
    wp (fails b1 bd) (V5PubRel.read (hd b1 hdr bd) (hdr ++ bd)) (fun _ _ => True).
  Proof.
    intros Hb Hm Hne H1.
    apply (ack_errs V5PubRel.reason_of pubrel_code V5PubRel.Success V5PubRel.extract pubrel_record V5PubRel.mkPubRel InPubRel 6);
      auto using pubrel_table, pubrel_sec_err; [lia|intros; apply rj_pubrel; auto|intros; split; [assumption|]; eauto].
  Qed.
  Lemma pubcomp_errs bd : bytes_ok bd -> blen bd <= huge -> bd <> [] -> b1 / 16 = 7 ->
    wp (fails b1 bd) (V5PubComp.read (hd b1 hdr bd) (hdr ++ bd)) (fun _ _ => True).
  Proof.
    intros Hb Hm Hne H1.
    apply (ack_errs V5PubComp.reason_of pubcomp_code V5PubComp.Success V5PubComp.extract pubcomp_record V5PubComp.mkPubComp InPubComp 7);
      auto using pubcomp_table, pubcomp_sec_err; [lia|intros; apply rj_pubcomp; auto|intros; split; [assumption|]; eauto].
  Qed.

  Lemma publish_errs bd : b1 < 256 -> bytes_ok bd -> blen bd <= huge -> bd <> [] -> b1 / 16 = 3 ->
    wp (fails b1 bd) (V5Publish.read (hd b1 hdr bd) (hdr ++ bd)) (fun _ _ => True).
  Proof.
    intros Hb1 Hb Hm Hne H1. unfold V5Publish.read. cbn [hd byte1]. rewrite pub_qos_bits by assumption.
    apply wp_qos3; [lia|intros H3; eapply (f_value b1 bd _ []); [assumption|reflexivity|constructor; assumption]|].
    intros q Hq.
    apply wp_advance. rdw; [missing ex_topic; destruct q; cbn in Hq; lia|]. intros t s1 -> Hts Htu Hs1.
    assert (HP : forall id s, 0 < id -> u16 id -> bytes_ok s -> s1 = (if positive_qos q then be16 id else []) ++ s ->
      forall k (Q' : V5Publish.Publish -> bytes -> Prop), (forall o s, wp (fails b1 (field t ++ s1)) (k o s) Q') ->
      wp (fails b1 (field t ++ s1)) (rbind V5Publish.extract k s) Q').
    { intros id s Hid Hidu Hs -> k Q' HQ'. rds publish_sec_err; [|intros; apply HQ'].
      intros e He. eapply (f_section _ _ _ InPublish); [| |discriminate|exact He].
      2: { split; [assumption|]. exists q, t, id. repeat (split; [solve [auto]|]). reflexivity. }
      rewrite <- app_assoc. reflexivity. }
    apply wp_bind. destruct q; cbn [qos_eqb negb andb qos_num positive_qos app] in *.
    - apply wp_ret. apply (HP 1); [lia|reflexivity|assumption|reflexivity|]. intros; exact I.
    - apply wp_want_u16; [assumption|missing (ex_topic_id _ t)|]. intros id s2 -> Hid Hs2.
      destruct (N.eqb_spec id 0) as [-> |E0].
      + apply wp_err. value (rj_id_zero _ t).
      + apply (HP id); [lia|assumption|assumption|reflexivity|]. intros; exact I.
    - apply wp_want_u16; [assumption|missing (ex_topic_id _ t)|]. intros id s2 -> Hid Hs2.
      destruct (N.eqb_spec id 0) as [-> |E0].
      + apply wp_err. value (rj_id_zero _ t).
      + apply (HP id); [lia|assumption|assumption|reflexivity|]. intros; exact I.
  Qed.

  Lemma filters_bytes_snoc l p o : filters_bytes (l ++ [(p, o)]) = filters_bytes l ++ field p ++ [o].
  Proof. unfold filters_bytes. rewrite flat_map_app. cbn. rewrite app_nil_r. reflexivity. Qed.
  Lemma filters_errs id sec fuel : forall acc l s, b1 / 16 = 8 -> u16 id -> good_section InSubscribe sec ->
    Forall good_filter l -> bytes_ok s -> (List.length s < fuel)%nat ->
    wp (fails b1 (be16 id ++ sec ++ filters_bytes l ++ s)) (V5Subscribe.filters_loop fuel acc s) (fun _ _ => True).
  Proof.
    induction fuel as [|fuel IH]; intros acc l s H8 Hid Hsec HF Hs Hl; [lia|].
    cbn [V5Subscribe.filters_loop]. destruct s as [|x s]; cbn [has_remaining]; [exact I|].
    assert (Hne : x :: s <> []) by discriminate.
    remember (x :: s) as s0 eqn:Es0. clear Es0 x s.
    rdw.
    { intros e He. eapply f_more; [|exact Hne|eapply (co_filter _ id sec l); eassumption|exact He].
      rewrite <- !app_assoc. reflexivity. }
    intros p s1 -> Hps Hpu Hs1.
    rdw; [missing (ex_options _ id sec l p)|]. intros o s2 -> Ho Hs2.
    cbv zeta. rewrite opt_rule, opt_nolocal, opt_preserve, mask3 by assumption.
    eapply wp_code; [apply rule_table| |].
    { intros Hn. assert (H3 : o / 16 mod 4 = 3).
      { assert (A := Hn V5Subscribe.OnEverySubscribe). assert (B := Hn V5Subscribe.OnNewSubscribe).
        assert (C := Hn V5Subscribe.Never). cbn in A, B, C. lia. }
      rewrite H3. value (rj_rule _ id sec l p o). }
    intros rl Hrl.
    assert (Hr3 : o / 16 mod 4 <> 3) by (destruct rl; cbn in Hrl; lia).
    apply wp_qos3; [lia|intros H3; value (rj_options _ id sec l p o)|]. intros q Hq.
    assert (HF' : Forall good_filter (l ++ [(p, o)])).
    { apply Forall_app. split; [exact HF|]. constructor; [|constructor]. split; [split; assumption|].
      cbn [snd]. split; [destruct q; cbn in Hq; lia|assumption]. }
    specialize (IH (acc ++ [V5Subscribe.mkSubscribeFilter p q (bit_at 2 o) (bit_at 3 o) rl]) (l ++ [(p, o)]) s2 H8 Hid Hsec HF' Hs2).
    rewrite filters_bytes_snoc in IH. rewrite <- !app_assoc in IH. cbn [app] in IH.
    apply IH. rewrite app_length in Hl; cbn [List.length] in Hl; lia.
  Qed.
  Lemma subscribe_errs bd : bytes_ok bd -> blen bd <= huge -> bd <> [] -> b1 / 16 = 8 ->
    wp (fails b1 bd) (V5Subscribe.read (hd b1 hdr bd) (hdr ++ bd)) (fun _ _ => True).
  Proof.
    intros Hb Hm Hne H1. unfold V5Subscribe.read. apply wp_advance.
    rdw; [missing ex_id|]. intros id s1 -> Hid Hs1.
    rds subscribe_sec_err.
    { intros e He. eapply (f_section _ _ _ InSubscribe); [reflexivity| |discriminate|exact He]. split; eauto. }
    intros o sec s2 -> Ho Hs2. apply section_any in Ho. apply wp_bind.
    eapply wp_mono; [apply (filters_errs id sec _ [] [] s2); auto; lia|]. intros; exact I.
  Qed.

  Lemma suback_codes_errs id sec fuel : forall acc l s, b1 / 16 = 9 -> u16 id -> good_section InSubAck sec ->
    bytes_ok s -> (List.length s < fuel)%nat ->
    wp (fails b1 (be16 id ++ sec ++ map suback_code l ++ s)) (V5SubAck.codes_loop fuel acc s) (fun _ _ => True).
  Proof.
    induction fuel as [|fuel IH]; intros acc l s H9 Hid Hsec Hs Hl; [lia|].
    cbn [V5SubAck.codes_loop]. destruct s as [|x s]; cbn [has_remaining]; [exact I|].
    rewrite (rbind_ok _ _ _ _ _ (read_u8_cons _ _)). apply bytes_ok_cons in Hs as [Hx Hs].
    eapply wp_code; [apply suback_table|intros Hn; value (rj_suback _ id sec l x)|]. intros c ->.
    specialize (IH (acc ++ [c]) (l ++ [c]) s H9 Hid Hsec Hs ltac:(cbn [List.length] in Hl; lia)).
    rewrite map_app, <- app_assoc in IH. exact IH.
  Qed.
  Lemma suback_errs bd : bytes_ok bd -> blen bd <= huge -> bd <> [] -> b1 / 16 = 9 ->
    wp (fails b1 bd) (V5SubAck.read (hd b1 hdr bd) (hdr ++ bd)) (fun _ _ => True).
  Proof.
    intros Hb Hm Hne H1. unfold V5SubAck.read. apply wp_advance.
    rdw; [missing ex_id|]. intros id s1 -> Hid Hs1.
    rds suback_sec_err.
    { intros e He. eapply (f_section _ _ _ InSubAck); [reflexivity| |discriminate|exact He]. split; eauto. }
    intros o sec s2 -> Ho Hs2. apply section_any in Ho. destruct s2 as [|x s2].
    - cbn [has_remaining negb wp]. rewrite app_nil_r. apply f_whole, rw_no_code; assumption.
    - remember (x :: s2) as s0 eqn:Es0. replace (has_remaining s0) with true by (subst; reflexivity).
      cbn [negb]. apply wp_bind. eapply wp_mono; [apply (suback_codes_errs id sec _ [] [] s0); auto; lia|]. intros; exact I.
  Qed.
  Lemma unsuback_codes_errs id sec fuel : forall acc l s, b1 / 16 = 11 -> u16 id -> good_section InUnsubAck sec ->
    bytes_ok s -> (List.length s < fuel)%nat ->
    wp (fails b1 (be16 id ++ sec ++ map unsuback_code l ++ s)) (V5UnsubAck.codes_loop fuel acc s) (fun _ _ => True).
  Proof.
    induction fuel as [|fuel IH]; intros acc l s H9 Hid Hsec Hs Hl; [lia|].
    cbn [V5UnsubAck.codes_loop]. destruct s as [|x s]; cbn [has_remaining]; [exact I|].
    rewrite (rbind_ok _ _ _ _ _ (read_u8_cons _ _)). apply bytes_ok_cons in Hs as [Hx Hs].
    eapply wp_code; [apply unsuback_table|intros Hn; value (rj_unsuback _ id sec l x)|]. intros c ->.
    specialize (IH (acc ++ [c]) (l ++ [c]) s H9 Hid Hsec Hs ltac:(cbn [List.length] in Hl; lia)).
    rewrite map_app, <- app_assoc in IH. exact IH.
  Qed.
  Lemma unsuback_errs bd : bytes_ok bd -> blen bd <= huge -> bd <> [] -> b1 / 16 = 11 ->
    wp (fails b1 bd) (V5UnsubAck.read (hd b1 hdr bd) (hdr ++ bd)) (fun _ _ => True).
  Proof.
    intros Hb Hm Hne H1. unfold V5UnsubAck.read. apply wp_advance.
    rdw; [missing ex_id|]. intros id s1 -> Hid Hs1.
    rds unsuback_sec_err.
    { intros e He. eapply (f_section _ _ _ InUnsubAck); [reflexivity| |discriminate|exact He]. split; eauto. }
    intros o sec s2 -> Ho Hs2. apply section_any in Ho. destruct s2 as [|x s2].
    - cbn [has_remaining negb wp]. rewrite app_nil_r. apply f_whole, rw_no_reason; assumption.
    - remember (x :: s2) as s0 eqn:Es0. replace (has_remaining s0) with true by (subst; reflexivity).
      cbn [negb]. apply wp_bind. eapply wp_mono; [apply (unsuback_codes_errs id sec _ [] [] s0); auto; lia|]. intros; exact I.
  Qed.

  Lemma topics_errs id sec fuel : forall acc l s, b1 / 16 = 10 -> u16 id -> good_section InUnsubscribe sec ->
    Forall good_string l -> bytes_ok s -> (List.length s < fuel)%nat ->
    wp (fails b1 (be16 id ++ sec ++ flat_map field l ++ s)) (V5Unsubscribe.filters_loop fuel acc s) (fun _ _ => True).
  Proof.
    induction fuel as [|fuel IH]; intros acc l s H10 Hid Hsec HF Hs Hl; [lia|].
    cbn [V5Unsubscribe.filters_loop]. destruct s as [|x s]; cbn [has_remaining]; [exact I|].
    assert (Hne : x :: s <> []) by discriminate.
    remember (x :: s) as s0 eqn:Es0. clear Es0 x s.
    rdw.
    { intros e He. eapply f_more; [|exact Hne|eapply (co_topic _ id sec l); eassumption|exact He].
      rewrite <- !app_assoc. reflexivity. }
    intros t s1 -> Hts Htu Hs1.
    assert (HF' : Forall good_string (l ++ [t])).
    { apply Forall_app. split; [exact HF|]. constructor; [split; assumption|constructor]. }
    specialize (IH (acc ++ [t]) (l ++ [t]) s1 H10 Hid Hsec HF' Hs1).
    rewrite flat_map_app in IH. cbn [flat_map] in IH. rewrite app_nil_r, <- app_assoc in IH.
    apply IH. rewrite app_length in Hl; cbn in Hl; lia.
  Qed.
  Lemma unsubscribe_errs bd : bytes_ok bd -> blen bd <= huge -> bd <> [] -> b1 / 16 = 10 ->
    wp (fails b1 bd) (V5Unsubscribe.read (hd b1 hdr bd) (hdr ++ bd)) (fun _ _ => True).
  Proof.
    intros Hb Hm Hne H1. unfold V5Unsubscribe.read. apply wp_advance.
    rdw; [missing ex_id|]. intros id s1 -> Hid Hs1.
    rds unsubscribe_sec_err.
    { intros e He. eapply (f_section _ _ _ InUnsubscribe); [reflexivity| |discriminate|exact He]. split; eauto. }
    intros o sec s2 -> Ho Hs2. apply section_any in Ho. apply wp_bind.
    eapply wp_mono; [apply (topics_errs id sec _ [] [] s2); auto; lia|]. intros; exact I.
  Qed.

  Lemma disconnect_errs bd : b1 < 256 -> bytes_ok bd -> blen bd <= huge -> bd <> [] -> b1 / 16 = 14 ->
    wp (fails b1 bd) (V5Disconnect.read (hd b1 hdr bd) (hdr ++ bd)) (fun _ _ => True).
  Proof.
    intros Hb1 Hb Hm Hne H1. unfold V5Disconnect.read. cbv zeta. apply wp_advance. cbn [hd byte1 remaining_len].
    rewrite shiftr4, H1 by assumption. change (negb (14 =? packet_type_u8 PT_Disconnect)) with false. cbv iota.
    rewrite flags0 by assumption. destruct (N.eqb_spec b1 0xE0) as [-> |Hr]; cbn [negb].
    2: { apply wp_err. eapply (f_value _ _ _ []); [assumption|reflexivity|apply rj_reserved; assumption]. }
    destruct (blen bd =? 0) eqn:E0; [exact I|].
    rdw. { intros e He. exfalso. inversion He; subst; try (destruct H; discriminate). discriminate E0. }
    intros n s1 -> Hn Hs1.
    eapply wp_code; [apply disconnect_table|intros Hc; value (rj_disconnect _ n)|]. intros c ->.
    rds disconnect_sec_err; [|intros; exact I].
    intros e He. eapply (f_section _ _ _ InDisconnect [disconnect_code c]); [reflexivity| |discriminate|exact He].
    split; eauto.
  Qed.
End Body.

Lemma frame_errs b1 hdr bd e : b1 < 256 -> bytes_ok bd -> blen bd <= huge ->
  read_frame (hd b1 hdr bd) (hdr ++ bd) = Err e -> fails b1 bd e.
Proof.
  intros Hb1 Hb Hm. unfold read_frame, packet_type. cbn [hd byte1 remaining_len].
  rewrite shiftr4 by assumption.
  assert (Hw : forall A (f : A -> Packet) (r : outcome (A * bytes)),
    wp (fails b1 bd) r (fun _ _ => True) -> wrap f r = Err e -> fails b1 bd e).
  { intros A f r. destruct r as [[a ?]|e'| |]; cbn; congruence. }
  assert (Hn : b1 / 16 < 16) by lia.
  destruct (b1 / 16) as [|n] eqn:En.
  { intros [= <-]. apply f_whole. replace (InvalidPacketType 0) with (InvalidPacketType (b1 / 16)) by congruence.
    constructor. auto. }
  do 4 (try destruct n as [n|n|]); try (exfalso; lia); cbn [obind].
  all: try (intros [= <-]; apply f_whole;
    replace (InvalidPacketType 15) with (InvalidPacketType (b1 / 16)) by congruence; constructor; auto; fail).
  all: destruct (blen bd =? 0) eqn:E0;
    [first [discriminate | intros [= <-]; rewrite (blen_0 bd) by lia; apply f_whole, rw_empty; lia]|].
  all: try discriminate; assert (Hne : bd <> []) by (intros ->; discriminate E0); apply Hw; fold (hd b1 hdr bd).
  all: first [ apply connect_errs | apply connack_errs | apply publish_errs | apply puback_errs
    | apply pubrec_errs | apply pubrel_errs | apply pubcomp_errs | apply subscribe_errs
    | apply suback_errs | apply unsubscribe_errs | apply unsuback_errs | apply disconnect_errs ]; assumption.
Qed.

(** *** the other direction *)
Lemma wrap_err {A} (f : A -> Packet) r e : r = Err e -> wrap f r = Err e.
Proof. intros ->. reflexivity. Qed.
Lemma frame_type b1 hdr bd n : b1 < 256 -> bd <> [] -> b1 / 16 = n ->
  read_frame (hd b1 hdr bd) (hdr ++ bd) =
  match n with
  | 1 => wrap Connect (V5Connect.read (hd b1 hdr bd) (hdr ++ bd))
  | 2 => wrap ConnAck (V5ConnAck.read (hd b1 hdr bd) (hdr ++ bd))
  | 3 => wrap Publish (V5Publish.read (hd b1 hdr bd) (hdr ++ bd))
  | 4 => wrap PubAck (V5PubAck.read (hd b1 hdr bd) (hdr ++ bd))
  | 5 => wrap PubRec (V5PubRec.read (hd b1 hdr bd) (hdr ++ bd))
  | 6 => wrap PubRel (V5PubRel.read (hd b1 hdr bd) (hdr ++ bd))
  | 7 => wrap PubComp (V5PubComp.read (hd b1 hdr bd) (hdr ++ bd))
  | 8 => wrap Subscribe (V5Subscribe.read (hd b1 hdr bd) (hdr ++ bd))
  | 9 => wrap SubAck (V5SubAck.read (hd b1 hdr bd) (hdr ++ bd))
  | 10 => wrap Unsubscribe (V5Unsubscribe.read (hd b1 hdr bd) (hdr ++ bd))
  | 11 => wrap UnsubAck (V5UnsubAck.read (hd b1 hdr bd) (hdr ++ bd))
  | 12 => Ok PingReq | 13 => Ok PingResp
  | 14 => wrap Disconnect (V5Disconnect.read (hd b1 hdr bd) (hdr ++ bd))
  | n => Err (InvalidPacketType n)
  end.
Proof.
  intros Hb1 Hne <-. unfold read_frame, packet_type. cbn [hd byte1 remaining_len].
  rewrite shiftr4 by assumption.
  replace (blen bd =? 0) with false by (destruct bd; [contradiction|]; autorewrite with blen; lia).
  destruct (b1 / 16) as [|n]; [reflexivity|].
  do 4 (try destruct n as [n|n|]); try reflexivity.
Qed.

Ltac adv := match goal with |- context [rbind (advance (fixed_header_len (hd ?b1 ?h ?bd))) _ _] =>
  rewrite (rbind_ok _ _ _ tt bd) by (apply advance_app; reflexivity) end.
Ltac str H := rewrite (rbind_ok _ _ _ _ _ (read_string_field _ _ (proj2 H) (proj1 H))).
Ltac byt := rewrite (rbind_ok _ _ _ _ _ (read_u8_cons _ _)).
Ltac two H := rewrite (rbind_ok _ _ _ _ _ (read_u16_be16 _ _ H)).
Ltac flat := unfold connect_head; rewrite <- ?app_assoc; cbn [app]; rewrite <- ?app_assoc.
Lemma good_mqtt : good_string MQTT.
Proof. split; [apply utf8_ok_spec; reflexivity|cbv; discriminate]. Qed.
Ltac name_level pr :=
  str good_mqtt; byt; change (bytes_eqb MQTT V5Connect.mqtt_name) with true; cbn [negb];
  match goal with |- context [rbind (match level pr with 0 => _ | _ => _ end) _ ?s] =>
    rewrite (rbind_ok _ _ _ pr s) by (destruct pr; reflexivity) end.
(* the section [sec] with property [H : good_section pl sec] is read *)
Ltac sect L rec H Hm := 
  let o := fresh "o" in let Ho := fresh "Ho" in
  destruct (section_rec _ rec _ H) as [o Ho];
  match type of Ho with decodes_props _ _ _ ?sec =>
    match goal with |- context [rbind _ _ (sec ++ ?s)] =>
      rewrite (rbind_ok _ _ _ _ _ (L o sec s ltac:(revert Hm; unfold connect_head; autorewrite with blen; lia) Ho)) end end.

Section Complete.
  Variables (b1 : N) (hdr : bytes).
  Lemma connect_props_at pr sec s : blen sec <= huge -> connect_section pr sec ->
    exists o, (match pr with V5 => V5Connect.cp_extract | V4 => rret None end) (sec ++ s) = Ok (o, s).
  Proof.
    intros Hm H. destruct pr; cbn [connect_section] in H.
    - subst sec. exists None. reflexivity.
    - destruct (section_rec _ connect_record _ H) as [o Ho]. exists o. apply connect_extract_ok; assumption.
  Qed.
  Lemma connect_at pr flags ka sec cid s : blen (connect_head pr flags ka sec cid ++ s) <= huge ->
    good_head pr ka sec cid ->
    exists o,
    V5Connect.read (hd b1 hdr (connect_head pr flags ka sec cid ++ s)) (hdr ++ connect_head pr flags ka sec cid ++ s)
    = rbind (V5Connect.lw_read flags) (fun w => rbind (V5Connect.login_read flags) (fun l =>
        rret (V5Connect.mkConnect pr ka cid (negb (N.land flags 2 =? 0)) w l o))) s.
  Proof.
    intros Hm (Hka & Hsec & Hcid). unfold connect_head in Hm.
    destruct (connect_props_at pr sec (field cid ++ s)) as [o Ho]; [|exact Hsec|].
    { revert Hm. autorewrite with blen. lia. }
    exists o. unfold V5Connect.read. adv. flat. name_level pr. byt. two Hka.
    cbv zeta. rewrite (rbind_ok _ _ _ _ _ Ho). str Hcid. reflexivity.
  Qed.
  Lemma flags_ok pr flags ka sec cid s : bytes_ok (connect_head pr flags ka sec cid ++ s) -> flags < 256.
  Proof.
    unfold connect_head. flat. intros H. apply bytes_ok_app in H as [_ H]. apply bytes_ok_cons in H as [_ H].
    apply bytes_ok_cons in H as [H _]. exact H.
  Qed.

  Lemma filters_at fuel : forall acc l s, bytes_ok (filters_bytes l) -> Forall good_filter l ->
    (List.length (filters_bytes l ++ s) < fuel)%nat ->
    exists acc' fuel', (List.length s < fuel')%nat /\
      V5Subscribe.filters_loop fuel acc (filters_bytes l ++ s) = V5Subscribe.filters_loop fuel' acc' s.
  Proof.
    induction fuel as [|fuel IH]; intros acc l s Hb HF Hl; [lia|].
    destruct HF as [|[p o] l [Hp [Ho Hr]] HF].
    - exists acc, (S fuel). split; [exact Hl|reflexivity].
    - change (filters_bytes ((p, o) :: l)) with ((field p ++ [o]) ++ filters_bytes l) in *. cbn [fst snd] in *.
      apply bytes_ok_app in Hb as [Hb1 Hb]. apply bytes_ok_app in Hb1 as [_ Hb1]. apply bytes_ok_cons in Hb1 as [Hob _].
      rewrite <- !app_assoc in *. cbn [app] in *.
      destruct (qos_cases (o mod 4) ltac:(lia)) as [(q & Hq & _)|[_ Hq]]; [|contradiction].
      assert (exists rl, o / 16 mod 4 = rule_num rl) as [rl Hrl].
      { assert (C : o / 16 mod 4 = 0 \/ o / 16 mod 4 = 1 \/ o / 16 mod 4 = 2) by lia.
        destruct C as [C|[C|C]]; rewrite C;
          [exists V5Subscribe.OnEverySubscribe|exists V5Subscribe.OnNewSubscribe|exists V5Subscribe.Never]; reflexivity. }
      destruct (IH (acc ++ [V5Subscribe.mkSubscribeFilter p q (bit_at 2 o) (bit_at 3 o) rl]) l s Hb HF) as (acc' & fuel' & Hf & E).
      { rewrite app_length in Hl. cbn [List.length] in Hl. lia. }
      exists acc', fuel'. split; [exact Hf|]. rewrite <- E. cbn [V5Subscribe.filters_loop].
      replace (has_remaining _) with true by (unfold field, be16; reflexivity).
      str Hp. byt. cbv zeta. rewrite opt_rule, opt_nolocal, opt_preserve, mask3, Hrl by assumption.
      unfold rbind at 1, rlift at 1. rewrite rule_of_num. unfold rbind at 1, rlift. rewrite Hq. reflexivity.
  Qed.
  Lemma suback_at fuel : forall acc l s, (List.length (map suback_code l ++ s) < fuel)%nat ->
    exists acc' fuel', (List.length s < fuel')%nat /\
      V5SubAck.codes_loop fuel acc (map suback_code l ++ s) = V5SubAck.codes_loop fuel' acc' s.
  Proof.
    induction fuel as [|fuel IH]; intros acc l s Hl; [lia|].
    destruct l as [|c l].
    - exists acc, (S fuel). split; [exact Hl|reflexivity].
    - cbn [map app] in *. destruct (IH (acc ++ [c]) l s) as (acc' & fuel' & Hf & E).
      { cbn [List.length] in Hl. lia. }
      exists acc', fuel'. split; [exact Hf|]. rewrite <- E. cbn [V5SubAck.codes_loop has_remaining].
      byt. unfold rbind, rlift. rewrite suback_of. reflexivity.
  Qed.
  Lemma unsuback_at fuel : forall acc l s, (List.length (map unsuback_code l ++ s) < fuel)%nat ->
    exists acc' fuel', (List.length s < fuel')%nat /\
      V5UnsubAck.codes_loop fuel acc (map unsuback_code l ++ s) = V5UnsubAck.codes_loop fuel' acc' s.
  Proof.
    induction fuel as [|fuel IH]; intros acc l s Hl; [lia|].
    destruct l as [|c l].
    - exists acc, (S fuel). split; [exact Hl|reflexivity].
    - cbn [map app] in *. destruct (IH (acc ++ [c]) l s) as (acc' & fuel' & Hf & E).
      { cbn [List.length] in Hl. lia. }
      exists acc', fuel'. split; [exact Hf|]. rewrite <- E. cbn [V5UnsubAck.codes_loop has_remaining].
      byt. unfold rbind, rlift. rewrite unsuback_of. reflexivity.
  Qed.
  Lemma topics_at fuel : forall acc l s, Forall good_string l ->
    (List.length (flat_map field l ++ s) < fuel)%nat ->
    exists acc' fuel', (List.length s < fuel')%nat /\
      V5Unsubscribe.filters_loop fuel acc (flat_map field l ++ s)
      = V5Unsubscribe.filters_loop fuel' acc' s.
  Proof.
    induction fuel as [|fuel IH]; intros acc l s HF Hl; [lia|].
    destruct HF as [|t l Ht HF].
    - exists acc, (S fuel). split; [exact Hl|reflexivity].
    - cbn [flat_map] in *. rewrite <- !app_assoc in *.
      destruct (IH (acc ++ [t]) l s HF) as (acc' & fuel' & Hf & E).
      { rewrite app_length in Hl. cbn [List.length field be16 app] in Hl. lia. }
      exists acc', fuel'. split; [exact Hf|]. rewrite <- E. cbn [V5Unsubscribe.filters_loop].
      replace (has_remaining _) with true by (unfold field, be16; reflexivity).
      str Ht. reflexivity.
  Qed.

  Ltac start H := match goal with Hb1 : b1 < 256, Hne : _ <> [] |- _ = Err _ =>
    rewrite (frame_type b1 hdr _ _ Hb1 Hne H); apply wrap_err end.
  Ltac conn Hh Hm := match goal with |- V5Connect.read (hd _ _ (connect_head ?pr ?fl ?ka ?sec ?cid ++ ?s)) _ = _ =>
    let o := fresh "o" in destruct (connect_at pr fl ka sec cid s Hm Hh) as [o ->] end.
  Lemma missing_reads pre s w e : b1 < 256 -> bytes_ok (pre ++ s) -> blen (pre ++ s) <= huge -> pre ++ s <> [] ->
    expects b1 pre w -> lacks w s e -> read_frame (hd b1 hdr (pre ++ s)) (hdr ++ pre ++ s) = Err e.
  Proof.
    intros Hb1 Hb Hm Hne He Hl. destruct He.
    - start H. unfold V5Connect.read. adv. apply rbind_err, lacks_read_string, Hl.
    - start H. unfold V5Connect.read. adv. str H0. apply rbind_err, lacks_read_u8, Hl.
    - start H. unfold V5Connect.read. adv. flat. name_level pr. apply rbind_err, lacks_read_u8, Hl.
    - start H. unfold V5Connect.read. adv. flat. name_level pr. byt. apply rbind_err, lacks_read_u16, Hl.
    - start H. unfold V5Connect.read. adv. flat. name_level pr. byt. two H0.
      destruct (connect_props_at pr sec s) as [o Ho]; [revert Hm; autorewrite with blen; lia|assumption|].
      cbv zeta. rewrite (rbind_ok _ _ _ _ _ Ho). apply rbind_err, lacks_read_string, Hl.
    - rewrite <- app_assoc in *. start H. conn H0 Hm. apply rbind_err. unfold V5Connect.lw_read.
      rewrite mask4, H1 by exact (flags_ok _ _ _ _ _ _ Hb). cbn [negb].
      sect will_extract_ok will_record H2 Hm. apply rbind_err, lacks_read_string, Hl.
    - rewrite <- !app_assoc in *. start H. conn H0 Hm. apply rbind_err. unfold V5Connect.lw_read.
      rewrite mask4, H1 by exact (flags_ok _ _ _ _ _ _ Hb). cbn [negb].
      sect will_extract_ok will_record H2 Hm. str H3. apply rbind_err, lacks_read_bytes, Hl.
    - rewrite <- app_assoc in *. start H. conn H0 Hm.
      assert (Hf := flags_ok _ _ _ _ _ _ Hb).
      assert (Hwm : blen wbs <= huge) by (revert Hm; autorewrite with blen; lia).
      rewrite (rbind_ok _ _ _ _ _ (decodes_will_read _ _ _ _ Hf Hwm H1)). apply rbind_err.
      unfold V5Connect.login_read. rewrite mask128, H2 by assumption. cbn [negb]. apply rbind_err, lacks_read_string, Hl.
    - rewrite <- !app_assoc in *. start H. conn H0 Hm.
      assert (Hf := flags_ok _ _ _ _ _ _ Hb).
      assert (Hwm : blen wbs <= huge) by (revert Hm; autorewrite with blen; lia).
      rewrite (rbind_ok _ _ _ _ _ (decodes_will_read _ _ _ _ Hf Hwm H1)). apply rbind_err.
      unfold V5Connect.login_read. rewrite mask128 by assumption.
      rewrite (rbind_ok _ _ _ _ _ (decodes_opt_string_read _ _ _ _ H2)).
      rewrite mask64, H3 by assumption. cbn [negb]. apply rbind_err, lacks_read_string, Hl.
    - start H. unfold V5ConnAck.read. adv. apply rbind_err, lacks_read_u8, Hl.
    - start H. unfold V5ConnAck.read. adv. cbn [app]. byt. apply rbind_err, lacks_read_u8, Hl.
    - start H. unfold V5Publish.read. cbn [hd byte1]. rewrite pub_qos_bits by assumption.
      destruct (qos_cases (b1 / 2 mod 4) ltac:(lia)) as [(q & Hq & _)|[_ Hq]]; [|contradiction].
      unfold rbind at 1, rlift. rewrite Hq. fold (hd b1 hdr ([] ++ s)). adv. apply rbind_err, lacks_read_string, Hl.
    - start H. unfold V5Publish.read. cbn [hd byte1]. rewrite pub_qos_bits by assumption.
      destruct (qos_cases (b1 / 2 mod 4) ltac:(lia)) as [(q & Hq & Hq')|[_ Hq]]; [|lia].
      unfold rbind at 1, rlift. rewrite Hq. fold (hd b1 hdr (field t ++ s)). adv. str H1. apply rbind_err.
      destruct q; cbn in Hq'; [lia| |]; apply lacks_read_u16, Hl.
    - assert (Hc : b1 / 16 = 4 \/ b1 / 16 = 5 \/ b1 / 16 = 6 \/ b1 / 16 = 7 \/ b1 / 16 = 8 \/ b1 / 16 = 9 \/ b1 / 16 = 10 \/ b1 / 16 = 11) by lia.
      destruct Hc as [Hc|[Hc|[Hc|[Hc|[Hc|[Hc|[Hc|Hc]]]]]]]; start Hc;
        unfold V5PubAck.read, V5PubRec.read, V5PubRel.read, V5PubComp.read, V5Subscribe.read, V5SubAck.read, V5Unsubscribe.read, V5UnsubAck.read;
        adv; apply rbind_err, lacks_read_u16, Hl.
    - start H. unfold V5Subscribe.read. adv. rewrite <- !app_assoc in *. two H0.
      sect subscribe_extract_ok subscribe_record H1 Hm. apply rbind_err.
      assert (Hbl : bytes_ok (filters_bytes l)).
      { apply bytes_ok_app in Hb as [_ Hb]. apply bytes_ok_app in Hb as [_ Hb]. apply bytes_ok_app in Hb. apply Hb. }
      match goal with |- V5Subscribe.filters_loop ?f ?a _ = _ =>
        destruct (filters_at f a l (field p ++ s) Hbl H2) as (acc' & fuel' & Hf & ->) end.
      + flat. lia.
      + destruct fuel' as [|fuel']; [lia|]. cbn [V5Subscribe.filters_loop].
        replace (has_remaining _) with true by (unfold field, be16; reflexivity).
        str H3. apply rbind_err, lacks_read_u8, Hl.
  Qed.
  Lemma more_reads pre s w e : b1 < 256 -> bytes_ok (pre ++ s) -> blen (pre ++ s) <= huge -> s <> [] ->
    continues b1 pre w -> lacks w s e -> read_frame (hd b1 hdr (pre ++ s)) (hdr ++ pre ++ s) = Err e.
  Proof.
    intros Hb1 Hb Hm Hs He Hl. assert (Hne : pre ++ s <> []) by (destruct pre; [exact Hs|discriminate]).
    destruct He.
    - start H. unfold V5Subscribe.read. adv. rewrite <- !app_assoc in *. two H0.
      sect subscribe_extract_ok subscribe_record H1 Hm. apply rbind_err.
      assert (Hbl : bytes_ok (filters_bytes l)).
      { apply bytes_ok_app in Hb as [_ Hb]. apply bytes_ok_app in Hb as [_ Hb]. apply bytes_ok_app in Hb. apply Hb. }
      match goal with |- V5Subscribe.filters_loop ?f ?a _ = _ =>
        destruct (filters_at f a l s Hbl H2) as (acc' & fuel' & Hf & ->) end; [lia|].
      destruct fuel' as [|fuel']; [lia|]. cbn [V5Subscribe.filters_loop].
      replace (has_remaining s) with true by (destruct s; [contradiction|reflexivity]).
      apply rbind_err, lacks_read_string, Hl.
    - start H. unfold V5Unsubscribe.read. adv. rewrite <- !app_assoc in *. two H0.
      sect unsubscribe_extract_ok unsubscribe_record H1 Hm. apply rbind_err.
      match goal with |- V5Unsubscribe.filters_loop ?f ?a _ = _ =>
        destruct (topics_at f a l s H2) as (acc' & fuel' & Hf & ->) end; [lia|].
      destruct fuel' as [|fuel']; [lia|]. cbn [V5Unsubscribe.filters_loop].
      replace (has_remaining s) with true by (destruct s; [contradiction|reflexivity]).
      apply rbind_err, lacks_read_string, Hl.
  Qed.

  Lemma ack_code_err {C R P} (f : N -> outcome C) (num : C -> N) ok (ex : reader (option R))
      (mk : N -> C -> option R -> P) id n s :
    (forall n, table_ok f num InvalidConnectReturnCode n) -> u16 id -> (forall c, n <> num c) ->
    ack_read f ok ex mk (hd b1 hdr ((be16 id ++ [n]) ++ s)) (hdr ++ (be16 id ++ [n]) ++ s) = Err (InvalidConnectReturnCode n).
  Proof.
    intros Ht Hid Hn. unfold ack_read. adv. rewrite <- app_assoc. two Hid.
    cbn [hd remaining_len]. autorewrite with blen. cbn [app]. match goal with |- context [?a =? 2] => replace (a =? 2) with false by lia end. cbv iota. byt.
    destruct (_ <? 4); apply (code_err _ _ _ _ _ _ (Ht n) Hn).
  Qed.
  Lemma value_reads pre s e : b1 < 256 -> bytes_ok (pre ++ s) -> blen (pre ++ s) <= huge -> pre ++ s <> [] ->
    rejects b1 pre e -> read_frame (hd b1 hdr (pre ++ s)) (hdr ++ pre ++ s) = Err e.
  Proof.
    intros Hb1 Hb Hm Hne He. destruct He.
    - start H. unfold V5Connect.read. adv. flat. str H0. byt.
      destruct (bytes_eqb name V5Connect.mqtt_name) eqn:E; [|reflexivity].
      apply bytes_eqb_eq in E. contradiction.
    - start H. unfold V5Connect.read. adv. flat. str good_mqtt. byt.
      change (bytes_eqb MQTT V5Connect.mqtt_name) with true. cbn [negb]. apply rbind_err.
      destruct (level_cases lv s) as [(pr & -> & _)|(_ & _ & E)]; [destruct pr; cbn in *; congruence|exact E].
    - start H. conn H0 Hm. apply rbind_err. unfold V5Connect.lw_read.
      assert (Hf := flags_ok _ _ _ _ _ _ Hb). rewrite mask4, H1 by exact Hf. cbn [negb].
      rewrite mask56 by assumption. replace (flags / 8 mod 8 =? 0) with false by lia. reflexivity.
    - rewrite <- !app_assoc in *. start H. conn H0 Hm. apply rbind_err. unfold V5Connect.lw_read.
      assert (Hf := flags_ok _ _ _ _ _ _ Hb). rewrite mask4, H1 by exact Hf. cbn [negb].
      sect will_extract_ok will_record H2 Hm.
      str H3. rewrite (rbind_ok _ _ _ _ _ (read_bytes_field _ _ H4)).
      rewrite will_qos_bits, H5 by assumption. reflexivity.
    - start H. unfold V5ConnAck.read. adv. cbn [app]. do 2 byt. cbv zeta. apply (code_err _ _ _ _ _ _ (connack_table n) H0).
    - start H. apply (ack_code_err _ _ _ _ V5PubAck.mkPubAck _ _ _ puback_table H0 H1).
    - start H. apply (ack_code_err _ _ _ _ V5PubRec.mkPubRec _ _ _ pubrec_table H0 H1).
    - start H. apply (ack_code_err _ _ _ _ V5PubRel.mkPubRel _ _ _ pubrel_table H0 H1).
    - start H. apply (ack_code_err _ _ _ _ V5PubComp.mkPubComp _ _ _ pubcomp_table H0 H1).
    - start H. unfold V5SubAck.read. adv. rewrite <- !app_assoc in *. two H0.
      sect suback_extract_ok suback_record H1 Hm.
      replace (has_remaining _) with true by (destruct l; reflexivity). cbn [negb]. apply rbind_err.
      match goal with |- V5SubAck.codes_loop ?f ?a _ = _ =>
        destruct (suback_at f a l ([n] ++ s)) as (acc' & fuel' & Hf & ->) end; [lia|].
      destruct fuel' as [|fuel']; [lia|]. cbn [V5SubAck.codes_loop app has_remaining]. byt.
      apply (code_err _ _ _ _ _ _ (suback_table n) H2).
    - start H. unfold V5UnsubAck.read. adv. rewrite <- !app_assoc in *. two H0.
      sect unsuback_extract_ok unsuback_record H1 Hm.
      replace (has_remaining _) with true by (destruct l; reflexivity). cbn [negb]. apply rbind_err.
      match goal with |- V5UnsubAck.codes_loop ?f ?a _ = _ =>
        destruct (unsuback_at f a l ([n] ++ s)) as (acc' & fuel' & Hf & ->) end; [lia|].
      destruct fuel' as [|fuel']; [lia|]. cbn [V5UnsubAck.codes_loop app has_remaining]. byt.
      apply (code_err _ _ _ _ _ _ (unsuback_table n) H2).
    - rewrite (frame_type b1 hdr _ 14 Hb1 Hne) by (subst; reflexivity). apply wrap_err. unfold V5Disconnect.read. cbv zeta. adv.
      cbn [hd byte1 remaining_len]. rewrite H.
      change (negb (N.shiftr 0xE0 4 =? packet_type_u8 PT_Disconnect)) with false.
      change (negb (N.land 0xE0 15 =? 0)) with false. cbv iota.
      replace (blen ([n] ++ s) =? 0) with false by (autorewrite with blen; lia). cbn [app]. byt.
      apply (code_err _ _ _ _ _ _ (disconnect_table n) H0).
    - start H. unfold V5Disconnect.read. cbv zeta. adv. cbn [hd byte1 remaining_len].
      rewrite shiftr4, H by assumption. change (negb (14 =? packet_type_u8 PT_Disconnect)) with false. cbv iota.
      rewrite flags0 by assumption. replace (b1 =? 0xE0) with false by lia. reflexivity.
    - start H. unfold V5Publish.read. cbn [hd byte1]. rewrite pub_qos_bits by assumption. rewrite H0. reflexivity.
    - start H. unfold V5Publish.read. cbn [hd byte1]. rewrite pub_qos_bits by assumption.
      destruct (qos_cases (b1 / 2 mod 4) ltac:(lia)) as [(q & Hq & Hq')|[_ Hq]]; [|lia].
      unfold rbind at 1, rlift. rewrite Hq. fold (hd b1 hdr ((field t ++ be16 0) ++ s)). adv. flat. str H1.
      destruct q; cbn in Hq'; [lia| |]; two (eq_refl : u16 0); reflexivity.
    - start H. unfold V5Subscribe.read. adv. rewrite <- !app_assoc in *. two H0.
      sect subscribe_extract_ok subscribe_record H1 Hm. apply rbind_err.
      assert (Hb2 : bytes_ok (filters_bytes l ++ field p ++ [o] ++ s))
        by (apply bytes_ok_app in Hb as [_ Hb]; apply bytes_ok_app in Hb; apply Hb).
      apply bytes_ok_app in Hb2 as [Hbl Hb2].
      match goal with |- V5Subscribe.filters_loop ?f ?a _ = _ =>
        destruct (filters_at f a l (field p ++ [o] ++ s) Hbl H2) as (acc' & fuel' & Hf & ->) end; [lia|].
      destruct fuel' as [|fuel']; [lia|]. cbn [V5Subscribe.filters_loop].
      replace (has_remaining _) with true by (unfold field, be16; reflexivity).
      str H3. cbn [app]. byt. apply bytes_ok_app in Hb2 as [_ Hb2]. apply bytes_ok_cons in Hb2 as [Ho' _].
      cbv zeta. rewrite opt_rule, H4 by assumption. reflexivity.
    - start H. unfold V5Subscribe.read. adv. rewrite <- !app_assoc in *. two H0.
      sect subscribe_extract_ok subscribe_record H1 Hm. apply rbind_err.
      assert (Hb2 : bytes_ok (filters_bytes l ++ field p ++ [o] ++ s))
        by (apply bytes_ok_app in Hb as [_ Hb]; apply bytes_ok_app in Hb; apply Hb).
      apply bytes_ok_app in Hb2 as [Hbl Hb2].
      match goal with |- V5Subscribe.filters_loop ?f ?a _ = _ =>
        destruct (filters_at f a l (field p ++ [o] ++ s) Hbl H2) as (acc' & fuel' & Hf & ->) end; [lia|].
      destruct fuel' as [|fuel']; [lia|]. cbn [V5Subscribe.filters_loop].
      replace (has_remaining _) with true by (unfold field, be16; reflexivity).
      str H3. cbn [app]. byt. apply bytes_ok_app in Hb2 as [_ Hb2]. apply bytes_ok_cons in Hb2 as [Ho' _].
      cbv zeta. rewrite opt_rule, mask3, H5 by assumption.
      assert (C : o / 16 mod 4 = 0 \/ o / 16 mod 4 = 1 \/ o / 16 mod 4 = 2) by lia.
      destruct C as [-> |[-> | ->]]; reflexivity.
  Qed.

  Lemma section_reads pl pre s e : b1 < 256 -> bytes_ok (pre ++ s) -> blen (pre ++ s) <= huge ->
    leads_to pl b1 pre -> (optional_section pl = true -> s <> []) -> section_fails (allowed_at pl) s e ->
    read_frame (hd b1 hdr (pre ++ s)) (hdr ++ pre ++ s) = Err e.
  Proof.
    intros Hb1 Hb Hm Hl Hopt Hs.
    assert (Hsb : bytes_ok s) by (apply bytes_ok_app in Hb; apply Hb).
    assert (Hsm : blen s <= huge) by (revert Hm; autorewrite with blen; lia).
    assert (Hne : pre ++ s <> []).
    { intros E. apply app_eq_nil in E as [-> ->]. clear - Hl. destruct pl; cbn [leads_to] in Hl;
        repeat match goal with H : _ /\ _ |- _ => destruct H | H : exists _, _ |- _ => destruct H end;
        match goal with H : [] = _ |- _ => apply (f_equal (@blen N)) in H; revert H end;
        autorewrite with blen; clear; intros; exfalso; 
        match goal with H : _ = _ |- _ => revert H end; try (destruct (positive_qos _)); autorewrite with blen; lia. }
    destruct pl; cbn [leads_to optional_section] in *.
    - destruct Hl as (H & flags & ka & Hf & Hka & ->). start H. unfold V5Connect.read. adv. change [5; flags] with [level V5; flags].
      flat. name_level V5. byt. two Hka. cbv zeta. apply rbind_err, connect_sec_fails; assumption.
    - destruct Hl as (H & lv & flags & ka & o & sec & cid & Hf & Hbit & Hka & Hcu & Hcs & Hsec & ->). start H.
      assert (exists pr, lv = level pr /\ connect_section pr sec) as (pr & -> & Hsec').
      { destruct Hsec as [[-> Hsec]|[-> ->]]; [exists V5; split; [reflexivity|exact (section_any _ _ _ _ Hsec)]|].
        exists V4. split; reflexivity. }
      assert (Hh : good_head pr ka sec cid) by (repeat split; assumption).
      destruct (connect_at pr flags ka sec cid s Hm Hh) as [o' Ho']. unfold connect_head in Ho'. rewrite Ho'.
      apply rbind_err. unfold V5Connect.lw_read. rewrite mask4, Hbit by assumption. cbn [negb].
      apply rbind_err, will_sec_fails; assumption.
    - destruct Hl as (H & flags & c & Hf & ->). start H. unfold V5ConnAck.read. adv. cbn [app]. do 2 byt. cbv zeta.
      rewrite (rbind_ok _ _ _ c s) by (unfold rlift; rewrite connack_of; reflexivity).
      apply rbind_err, connack_sec_fails; assumption.
    - destruct Hl as (H & q & t & id & Hq & Htu & Hts & Hid & Hidu & ->). start H. unfold V5Publish.read.
      cbn [hd byte1]. rewrite pub_qos_bits, Hq by assumption. unfold rbind at 1, rlift. rewrite qos_of_num.
      rewrite (rbind_ok _ _ _ tt _) by (apply advance_app; reflexivity).
      rewrite <- !app_assoc. rewrite (rbind_ok _ _ _ _ _ (read_string_field _ _ Hts Htu)).
      rewrite (rbind_ok _ _ _ (if positive_qos q then id else 0) s)
        by (destruct q; cbn [positive_qos app]; [reflexivity| |]; rewrite read_u16_be16; auto).
      assert (E0 : negb (qos_eqb q AtMostOnce) && ((if positive_qos q then id else 0) =? 0) = false)
        by (destruct q; cbn [positive_qos qos_eqb negb andb] in *; [reflexivity| |]; lia).
      cbv beta zeta. rewrite E0. apply rbind_err, publish_sec_fails; assumption.
    - destruct Hl as (H & id & c & Hid & ->). start H. 
      assert (L : 1 <= blen s) by (destruct s; [destruct (Hopt eq_refl eq_refl)|autorewrite with blen; lia]).
      assert (F := ack_factor V5PubAck.reason_of puback_code V5PubAck.Success V5PubAck.extract V5PubAck.mkPubAck PubAck puback_of b1 hdr id c s Hid L).
      rewrite puback_sec_fails with (e := e) in F by assumption.
      change (ack_read _ _ _ _) with V5PubAck.read in F.
      destruct (V5PubAck.read _ _) as [[x y]|e'| |]; cbn [wrap] in F; congruence.
    - destruct Hl as (H & id & c & Hid & ->). start H. 
      assert (L : 1 <= blen s) by (destruct s; [destruct (Hopt eq_refl eq_refl)|autorewrite with blen; lia]).
      assert (F := ack_factor V5PubRec.reason_of pubrec_code V5PubRec.Success V5PubRec.extract V5PubRec.mkPubRec PubRec pubrec_of b1 hdr id c s Hid L).
      rewrite pubrec_sec_fails with (e := e) in F by assumption.
      change (ack_read _ _ _ _) with V5PubRec.read in F.
      destruct (V5PubRec.read _ _) as [[x y]|e'| |]; cbn [wrap] in F; congruence.
    - destruct Hl as (H & id & c & Hid & ->). start H. 
      assert (L : 1 <= blen s) by (destruct s; [destruct (Hopt eq_refl eq_refl)|autorewrite with blen; lia]).
      assert (F := ack_factor V5PubRel.reason_of pubrel_code V5PubRel.Success V5PubRel.extract V5PubRel.mkPubRel PubRel pubrel_of b1 hdr id c s Hid L).
      rewrite pubrel_sec_fails with (e := e) in F by assumption.
      change (ack_read _ _ _ _) with V5PubRel.read in F.
      destruct (V5PubRel.read _ _) as [[x y]|e'| |]; cbn [wrap] in F; congruence.
    - destruct Hl as (H & id & c & Hid & ->). start H. 
      assert (L : 1 <= blen s) by (destruct s; [destruct (Hopt eq_refl eq_refl)|autorewrite with blen; lia]).
      assert (F := ack_factor V5PubComp.reason_of pubcomp_code V5PubComp.Success V5PubComp.extract V5PubComp.mkPubComp PubComp pubcomp_of b1 hdr id c s Hid L).
      rewrite pubcomp_sec_fails with (e := e) in F by assumption.
      change (ack_read _ _ _ _) with V5PubComp.read in F.
      destruct (V5PubComp.read _ _) as [[x y]|e'| |]; cbn [wrap] in F; congruence.
    - destruct Hl as (H & id & Hid & ->). start H. unfold V5Subscribe.read. adv. two Hid.
      apply rbind_err, subscribe_sec_fails; assumption.
    - destruct Hl as (H & id & Hid & ->). start H. unfold V5SubAck.read. adv. two Hid.
      apply rbind_err, suback_sec_fails; assumption.
    - destruct Hl as (H & id & Hid & ->). start H. unfold V5Unsubscribe.read. adv. two Hid.
      apply rbind_err, unsubscribe_sec_fails; assumption.
    - destruct Hl as (H & id & Hid & ->). start H. unfold V5UnsubAck.read. adv. two Hid.
      apply rbind_err, unsuback_sec_fails; assumption.
    - destruct Hl as (H & c & ->).
      rewrite (frame_type b1 hdr _ 14 Hb1 Hne) by (subst; reflexivity). apply wrap_err. unfold V5Disconnect.read. cbv zeta. adv.
      cbn [hd byte1 remaining_len]. rewrite H.
      change (negb (N.shiftr 0xE0 4 =? packet_type_u8 PT_Disconnect)) with false.
      change (negb (N.land 0xE0 15 =? 0)) with false. cbv iota.
      replace (blen ([disconnect_code c] ++ s) =? 0) with false by (autorewrite with blen; lia). cbn [app]. byt.
      rewrite (rbind_ok _ _ _ c s) by (unfold rlift; rewrite disconnect_of; reflexivity).
      apply rbind_err, disconnect_sec_fails; assumption.
  Qed.

  Lemma whole_reads bd e : b1 < 256 -> blen bd <= huge -> rejects_whole b1 bd e -> read_frame (hd b1 hdr bd) (hdr ++ bd) = Err e.
  Proof.
    intros Hb1 Hm He. destruct He.
    - unfold read_frame, packet_type. cbn [hd byte1 remaining_len]. rewrite shiftr4 by assumption.
      destruct H as [-> | ->]; reflexivity.
    - unfold read_frame, packet_type. cbn [hd byte1 remaining_len]. rewrite shiftr4 by assumption.
      destruct (b1 / 16) as [|n]; [lia|]. do 4 (try destruct n as [n|n|]); try (exfalso; lia); reflexivity.
    - rewrite (frame_type _ _ (be16 id ++ sec) _ Hb1 ltac:(discriminate) H). apply wrap_err. unfold V5SubAck.read. adv.
      two H0. rewrite <- (app_nil_r sec). rewrite <- (app_nil_r sec) in Hm. sect suback_extract_ok suback_record H1 Hm. reflexivity.
    - rewrite (frame_type _ _ (be16 id ++ sec) _ Hb1 ltac:(discriminate) H). apply wrap_err. unfold V5UnsubAck.read. adv.
      two H0. rewrite <- (app_nil_r sec). rewrite <- (app_nil_r sec) in Hm. sect unsuback_extract_ok unsuback_record H1 Hm. reflexivity.
  Qed.
  Lemma frame_fails bd e : b1 < 256 -> bytes_ok bd -> blen bd <= huge -> fails b1 bd e ->
    read_frame (hd b1 hdr bd) (hdr ++ bd) = Err e.
  Proof.
    intros Hb1 Hb Hm [pre s w Hne -> He Hl|pre s w -> Hs He Hl|pl pre s -> Hl Ho Hs|pre s Hne -> He|He].
    - eapply missing_reads; eassumption.
    - eapply more_reads; eassumption.
    - eapply section_reads; eassumption.
    - apply value_reads; assumption.
    - apply whole_reads; assumption.
  Qed.
End Complete.

(** *** on a stream *)
Lemma read_fails_iff s max e rest : bytes_ok s ->
  (exists b1 bd, starts_with_frame s b1 bd rest /\ blen bd <= max /\ fails b1 bd e) <->
  (read s max = (Err e, rest) /\ rest <> s).
Proof.
  intros Hb. split.
  - intros (b1 & bd & (f & -> & Hf & Hl) & Hm & Hd). split.
    + rewrite read_complete_frame by assumption. f_equal.
      apply bytes_ok_cons in Hb as [Hb1 Hb]. apply bytes_ok_app in Hb as [_ Hb]. apply bytes_ok_app in Hb as [Hbd _].
      apply frame_fails; try assumption. exact (le_huge _ (lenfield_bound _ _ Hf Hl)).
    + intros E. apply (f_equal (@blen N)) in E. revert E. autorewrite with blen. lia.
  - intros [H Hr]. destruct (read_cases s max Hb) as [(e' & _ & E)|(b1 & f & bd & rest' & Es & Hf & Hl & Hm & Hb1 & Hbd & Hr' & E)].
    + rewrite E in H. injection H as _ <-. contradiction.
    + rewrite E in H. injection H as Hp <-. exists b1, bd. split; [exists f; auto|]. split; [exact Hm|].
      exact (frame_errs b1 (b1 :: f) bd e Hb1 Hbd (le_huge _ (lenfield_bound _ _ Hf Hl)) Hp).
Qed.

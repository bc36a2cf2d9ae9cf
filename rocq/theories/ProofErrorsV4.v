(** ProofErrorsV4.v -- the v4 decoders refuse exactly the bodies of SpecErrorsV4, with the
    errors given there. *)
From Verif Require Import ProofBase Utf8 ProofUtf8 Lib ProofLib ProofCheck ProofRead ProofBits SpecV4 ProofV4Read
  SpecErrors SpecErrorsV4 ProofErrors.

Ltac rd := apply wp_bind; first
  [ apply wp_want_u8; [assumption| |]
  | apply wp_want_u16; [assumption| |]
  | apply wp_want_bytes; [assumption| |]
  | apply wp_want_string; [assumption| |] ].
Ltac reassoc := unfold connect_head; rewrite <- ?app_assoc; cbn [app]; rewrite <- ?app_assoc; reflexivity.
Ltac nonnil := first [assumption | discriminate | intros E; apply (f_equal (@blen N)) in E; revert E; autorewrite with blen; lia].
Ltac side := unfold good_string, is_string, u16 in *; first [eassumption | split; assumption | lia | congruence | idtac].
Tactic Notation "missing" uconstr(c) :=
  intros e He; eapply f_missing; [nonnil| |eapply c; side|exact He]; [reassoc|..].
Tactic Notation "value" uconstr(c) := eapply f_value; [nonnil| |eapply c; side]; [reassoc|..].

Lemma level_cases lvl (s : bytes) :
  (exists pr, lvl = level pr /\
     (match lvl with 4 => rret V4 | 5 => rret V5 | num => rerr (InvalidProtocolLevel num) end) s = Ok (pr, s))
  \/ lvl <> 4 /\ lvl <> 5 /\
     (match lvl with 4 => rret V4 | 5 => rret V5 | num => rerr (InvalidProtocolLevel num) end) s = Err (InvalidProtocolLevel lvl).
Proof.
  destruct lvl as [|[[p|[p|p|]|]|[p|[p|p|]|]|]];
    first [right; split; [discriminate|]; split; [discriminate|]; reflexivity
          | left; exists V5; split; reflexivity | left; exists V4; split; reflexivity].
Qed.
Lemma wp_qos3 {A} (E : Error -> Prop) n (k : QoS -> reader A) s Q :
  n < 4 -> (n = 3 -> E (InvalidQoS 3)) -> (forall q, n = qos_num q -> wp E (k q s) Q) ->
  wp E (rbind (rlift (qos n)) k s) Q.
Proof.
  intros Hn HE HQ. destruct (qos_cases n Hn) as [(q & Hq & Hn')|[Hq Hn']];
    unfold rbind, rlift; rewrite Hq; [apply HQ, Hn'|]. rewrite Hn'. apply HE. lia.
Qed.
Lemma wp_opt (E : Error -> Prop) (present : bool) s (Q : _ -> _ -> Prop) : bytes_ok s ->
  (present = true -> forall e, lacks WString s e -> E e) ->
  (forall u ubs s', s = ubs ++ s' -> decodes_opt_string present u ubs -> bytes_ok s' -> Q u s') ->
  wp E ((if negb present then rret [] else read_mqtt_string) s) Q.
Proof.
  intros Hs HE HQ. destruct present; cbn [negb].
  - apply wp_want_string; [assumption|apply HE; reflexivity|]. intros v s' -> Hv Hu Hs'.
    eapply HQ; [reflexivity| |assumption]. cbn. auto.
  - apply wp_ret. eapply HQ with (ubs := []); [reflexivity| |assumption]. cbn. auto.
Qed.

Section Body.
  Variables (b1 : N) (hdr : bytes).

  Lemma will_errs pr flags ka cid s (Q : _ -> _ -> Prop) : b1 / 16 = 1 -> u16 ka -> good_string cid ->
    bytes_ok s -> flags < 256 ->
    (forall w wbs s', s = wbs ++ s' -> decodes_will flags w wbs -> bytes_ok s' -> Q w s') ->
    wp (fails b1 (connect_head pr flags ka cid ++ s)) (V4Connect.lw_read flags s) Q.
  Proof.
    intros H1 Hka Hcid Hs Hf HQ. unfold V4Connect.lw_read. rewrite mask4 by assumption.
    destruct (bit_at 2 flags) eqn:E2; cbn [negb].
    - rd; [missing (ex_will_topic _ pr flags ka cid)|]. intros t s1 -> Ht Htu Hs1.
      rd; [missing (ex_will_message _ pr flags ka cid t)|]. intros m s2 -> Hm Hmb Hs2.
      rewrite will_qos_bits by assumption. apply wp_qos3; [lia|intros H3; value (rj_will_qos _ pr flags ka cid t m)|].
      intros q Hq. apply wp_ret. rewrite mask32, negb_involutive by assumption.
      eapply HQ; [rewrite app_assoc; reflexivity| |assumption].
      cbn. repeat split; auto.
    - rewrite mask56 by assumption. destruct (flags / 8 mod 8 =? 0) eqn:E8; cbn [negb].
      + apply wp_ret. eapply HQ with (wbs := []); [reflexivity| |assumption].
        cbn. repeat split; [assumption|lia].
      + apply wp_err. value (rj_no_will _ pr flags ka cid).
  Qed.

  Lemma connect_errs bd : bytes_ok bd -> bd <> [] -> b1 / 16 = 1 ->
    wp (fails b1 bd) (V4Connect.read (hd b1 hdr bd) (hdr ++ bd)) (fun _ _ => True).
  Proof.
    intros Hb Hne H1. unfold V4Connect.read. apply wp_advance.
    rd; [missing ex_name|]. intros name s1 -> Hns Hnu Hs1.
    rd; [missing (ex_level _ name)|]. intros lvl s2 -> Hlvl Hs2.
    destruct (bytes_eqb name V4Connect.mqtt_name) eqn:En; cbn [negb].
    2: { apply wp_err. value (rj_name _ name lvl). intros ->. discriminate En. }
    apply bytes_eqb_eq in En. subst name. change V4Connect.mqtt_name with MQTT in *.
    apply wp_bind.
    destruct (level_cases lvl s2) as [(pr & -> & ->)|(H4 & H5 & ->)]; cbn [wp]; [|value (rj_level _ lvl)].
    rd; [missing (ex_flags _ pr)|]. intros flags s3 -> Hf Hs3.
    rd; [missing (ex_keep_alive _ pr flags)|]. intros ka s4 -> Hka Hs4.
    rd; [missing (ex_client_id _ pr flags ka)|]. intros cid s5 -> Hcs Hcu Hs5.
    replace (field MQTT ++ level pr :: flags :: be16 ka ++ field cid ++ s5)
      with (connect_head pr flags ka cid ++ s5) by reassoc.
    apply wp_bind. apply will_errs; [assumption..|split; assumption|assumption|assumption|].
    intros w wbs s6 -> Hw Hs6.
    unfold V4Connect.login_read. rewrite mask128, mask64 by assumption.
    apply wp_bind. apply wp_bind. apply wp_opt; [assumption|intros B7; missing (ex_user _ pr flags ka cid w wbs)|].
    intros u ubs s7 -> Hu Hs7.
    apply wp_bind. apply wp_opt; [assumption|intros B6; missing (ex_password _ pr flags ka cid w wbs u ubs)|].
    intros p pbs s8 -> Hp Hs8.
    destruct (is_empty u && is_empty p); exact I.
  Qed.

  Lemma connack_errs bd : bytes_ok bd -> bd <> [] -> b1 / 16 = 2 ->
    wp (fails b1 bd) (V4ConnAck.read (hd b1 hdr bd) (hdr ++ bd)) (fun _ _ => True).
  Proof.
    intros Hb Hne H1. unfold V4ConnAck.read. apply wp_advance.
    rd; [missing ex_ack_flags|]. intros fl s1 -> Hfl Hs1.
    rd; [missing (ex_ack_code _ fl)|]. intros rc s2 -> Hrc Hs2.
    apply wp_bind. assert (Hc := connack_code_spec rc Hrc). unfold rlift.
    destruct (V4ConnAck.connect_return rc) as [c|e| |]; cbn [wp]; try contradiction; [exact I|].
    destruct Hc as [-> Hc]. value (rj_ack_code _ fl rc).
  Qed.

  Ltac ack_errs := intros Hb Hne H1; unfold V4PubAck.read, V4PubRec.read, V4PubRel.read, V4PubComp.read;
    apply wp_advance; rd; [missing ex_id|]; intros id s1 -> Hid Hs1; cbn [hd remaining_len];
    repeat match goal with |- context [if ?b then _ else _] => destruct b end; exact I.
  Lemma puback_errs bd : bytes_ok bd -> bd <> [] -> b1 / 16 = 4 ->
    wp (fails b1 bd) (V4PubAck.read (hd b1 hdr bd) (hdr ++ bd)) (fun _ _ => True).
  Proof. ack_errs. Qed.
  Lemma pubrec_errs bd : bytes_ok bd -> bd <> [] -> b1 / 16 = 5 ->
    wp (fails b1 bd) (V4PubRec.read (hd b1 hdr bd) (hdr ++ bd)) (fun _ _ => True).
  Proof. ack_errs. Qed.
  Lemma pubrel_errs bd : bytes_ok bd -> bd <> [] -> b1 / 16 = 6 ->
    wp (fails b1 bd) (V4PubRel.read (hd b1 hdr bd) (hdr ++ bd)) (fun _ _ => True).
  Proof. ack_errs. Qed.
  Lemma pubcomp_errs bd : bytes_ok bd -> bd <> [] -> b1 / 16 = 7 ->
    wp (fails b1 bd) (V4PubComp.read (hd b1 hdr bd) (hdr ++ bd)) (fun _ _ => True).
  Proof. ack_errs. Qed.
  Lemma unsuback_errs bd : bytes_ok bd -> bd <> [] -> b1 / 16 = 11 ->
    wp (fails b1 bd) (V4UnsubAck.read (hd b1 hdr bd) (hdr ++ bd)) (fun _ _ => True).
  Proof.
    intros Hb Hne H1. unfold V4UnsubAck.read. cbn [hd remaining_len].
    destruct (blen bd =? 2) eqn:E; cbn [negb].
    - apply wp_advance. rd; [|intros; exact I].
      intros e He. exfalso. inversion He; subst; try (destruct H; discriminate). lia.
    - apply wp_err, f_whole, rw_size; auto. lia.
  Qed.

  Lemma publish_errs bd : b1 < 256 -> bytes_ok bd -> bd <> [] -> b1 / 16 = 3 ->
    wp (fails b1 bd) (V4Publish.read (hd b1 hdr bd) (hdr ++ bd)) (fun _ _ => True).
  Proof.
    intros Hb1 Hb Hne H1. unfold V4Publish.read. cbn [hd byte1]. rewrite pub_qos_bits by assumption.
    apply wp_qos3; [lia|intros H3; eapply (f_value b1 bd _ []); [assumption|reflexivity|constructor; assumption]|].
    intros q Hq.
    apply wp_advance. rd; [missing ex_topic; destruct q; cbn in Hq; lia|]. intros t s1 -> Hts Htu Hs1.
    apply wp_bind. destruct q; cbn [qos_eqb negb andb qos_num] in *.
    - exact I.
    - apply wp_want_u16; [assumption|missing (ex_topic_id _ t)|]. intros id s2 -> Hid Hs2.
      destruct (N.eqb_spec id 0) as [-> |E0]; [|exact I]. apply wp_err. value (rj_id_zero _ t).
    - apply wp_want_u16; [assumption|missing (ex_topic_id _ t)|]. intros id s2 -> Hid Hs2.
      destruct (N.eqb_spec id 0) as [-> |E0]; [|exact I]. apply wp_err. value (rj_id_zero _ t).
  Qed.

  Lemma filters_bytes_snoc l p o : filters_bytes (l ++ [(p, o)]) = filters_bytes l ++ field p ++ [o].
  Proof. unfold filters_bytes. rewrite flat_map_app. cbn. rewrite app_nil_r. reflexivity. Qed.
  Lemma filters_errs id fuel : forall acc l s, b1 / 16 = 8 -> u16 id -> Forall good_filter l ->
    bytes_ok s -> (List.length s < fuel)%nat ->
    wp (fails b1 (be16 id ++ filters_bytes l ++ s)) (V4Subscribe.filters_loop fuel acc s)
      (fun fs s' => fs = acc -> s = []).
  Proof.
    induction fuel as [|fuel IH]; intros acc l s H8 Hid HF Hs Hl; [lia|].
    cbn [V4Subscribe.filters_loop]. destruct s as [|x s]; cbn [has_remaining]; [intros _; reflexivity|].
    assert (Hne : x :: s <> []) by discriminate.
    remember (x :: s) as s0 eqn:Es0. clear Es0 x s.
    rd.
    { intros e He. eapply f_more; [|exact Hne|eapply co_filter; eassumption|exact He].
      rewrite <- app_assoc. reflexivity. }
    intros p s1 -> Hps Hpu Hs1.
    rd; [missing (ex_options _ id l p)|]. intros o s2 -> Ho Hs2. rewrite mask3 by assumption.
    apply wp_qos3; [lia|intros H3; value (rj_options _ id l p o)|]. intros q Hq.
    assert (HF' : Forall good_filter (l ++ [(p, o)])).
    { apply Forall_app. split; [exact HF|]. constructor; [|constructor]. split; [split; assumption|].
      cbn [snd]. destruct q; cbn in Hq; lia. }
    specialize (IH (acc ++ [V4Subscribe.mkSubscribeFilter p q]) (l ++ [(p, o)]) s2 H8 Hid HF' Hs2).
    rewrite filters_bytes_snoc in IH. rewrite <- !app_assoc in IH. cbn [app] in IH.
    assert (Hl2 : (List.length s2 < fuel)%nat) by (rewrite app_length in Hl; cbn [List.length] in Hl; lia).
    specialize (IH Hl2).
    assert (W := filters_loop_sound fuel (acc ++ [V4Subscribe.mkSubscribeFilter p q]) s2 Hs2 Hl2).
    destruct (V4Subscribe.filters_loop fuel _ s2) as [[fs s']|e| |]; cbn [wp] in *; auto.
    intros ->. destruct W as (new & options & E & _). exfalso. clear - E.
    rewrite <- app_assoc in E. apply (f_equal (@List.length _)) in E. rewrite !app_length in E. cbn in E. lia.
  Qed.
  Lemma subscribe_errs bd : bytes_ok bd -> bd <> [] -> b1 / 16 = 8 ->
    wp (fails b1 bd) (V4Subscribe.read (hd b1 hdr bd) (hdr ++ bd)) (fun _ _ => True).
  Proof.
    intros Hb Hne H1. unfold V4Subscribe.read. apply wp_advance.
    rd; [missing ex_id|]. intros id s1 -> Hid Hs1. apply wp_bind.
    eapply wp_mono; [apply (filters_errs id _ [] [] s1); auto; lia|].
    intros fs s' H. destruct fs as [|f fs].
    - rewrite (H eq_refl), app_nil_r. cbn. apply f_whole, rw_no_filter; assumption.
    - destruct (blen (f :: fs)) as [|n] eqn:En; [autorewrite with blen in En; lia|]. exact I.
  Qed.

  Lemma codes_errs id fuel : forall acc l s, b1 / 16 = 9 -> u16 id ->
    bytes_ok s -> (List.length s < fuel)%nat ->
    wp (fails b1 (be16 id ++ map suback_code l ++ s)) (V4SubAck.codes_loop fuel acc s) (fun _ _ => True).
  Proof.
    induction fuel as [|fuel IH]; intros acc l s H9 Hid Hs Hl; [lia|].
    cbn [V4SubAck.codes_loop]. destruct s as [|x s]; cbn [has_remaining]; [exact I|].
    rewrite (rbind_ok _ _ _ _ _ (read_u8_cons _ _)). apply bytes_ok_cons in Hs as [Hx Hs].
    apply wp_bind. assert (Hcs := suback_code_spec x Hx). unfold rlift.
    destruct (V4SubAck.try_from x) as [rc|e| |]; cbn [wp]; try contradiction.
    - subst x. specialize (IH (acc ++ [rc]) (l ++ [rc]) s H9 Hid Hs ltac:(cbn [List.length] in Hl; lia)).
      rewrite map_app, <- app_assoc in IH. exact IH.
    - destruct Hcs as [-> [H2 H128]]. value (rj_reason _ id l x).
  Qed.
  Lemma suback_errs bd : bytes_ok bd -> bd <> [] -> b1 / 16 = 9 ->
    wp (fails b1 bd) (V4SubAck.read (hd b1 hdr bd) (hdr ++ bd)) (fun _ _ => True).
  Proof.
    intros Hb Hne H1. unfold V4SubAck.read. apply wp_advance.
    rd; [missing ex_id|]. intros id s1 -> Hid Hs1. destruct s1 as [|x s1].
    - cbn [has_remaining negb wp]. rewrite app_nil_r. apply f_whole, rw_no_code; assumption.
    - remember (x :: s1) as s0 eqn:Es0. replace (has_remaining s0) with true by (subst; reflexivity).
      cbn [negb]. apply wp_bind. eapply wp_mono; [apply (codes_errs id _ [] [] s0); auto; lia|]. intros; exact I.
  Qed.

  Lemma topics_errs id fuel : forall acc l s, b1 / 16 = 10 -> u16 id -> Forall good_string l ->
    bytes_ok s -> (List.length s < fuel)%nat ->
    wp (fails b1 (be16 id ++ flat_map field l ++ s)) (V4Unsubscribe.topics_loop fuel (blen s) acc s) (fun _ _ => True).
  Proof.
    induction fuel as [|fuel IH]; intros acc l s H10 Hid HF Hs Hl; [lia|].
    cbn [V4Unsubscribe.topics_loop]. destruct (0 <? blen s) eqn:E0; [|exact I].
    rd.
    { intros e He. eapply f_more; [| |eapply co_topic; eassumption|exact He].
      - rewrite <- app_assoc. reflexivity.
      - intros ->. discriminate E0. }
    intros t s1 -> Hts Htu Hs1. apply wp_bind. unfold rlift, usize_sub.
    replace (blen t + 2 <=? blen (field t ++ s1)) with true by (autorewrite with blen; lia).
    cbn [wp]. replace (blen (field t ++ s1) - (blen t + 2)) with (blen s1) by (autorewrite with blen; lia).
    assert (HF' : Forall good_string (l ++ [t])).
    { apply Forall_app. split; [exact HF|]. constructor; [split; assumption|constructor]. }
    specialize (IH (acc ++ [t]) (l ++ [t]) s1 H10 Hid HF' Hs1).
    rewrite flat_map_app in IH. cbn [flat_map] in IH. rewrite app_nil_r, <- app_assoc in IH.
    apply IH. rewrite app_length in Hl; cbn in Hl; lia.
  Qed.
  Lemma unsubscribe_errs bd : bytes_ok bd -> bd <> [] -> b1 / 16 = 10 ->
    wp (fails b1 bd) (V4Unsubscribe.read (hd b1 hdr bd) (hdr ++ bd)) (fun _ _ => True).
  Proof.
    intros Hb Hne H1. unfold V4Unsubscribe.read. apply wp_advance.
    rd; [missing ex_id|]. intros id s1 -> Hid Hs1. apply wp_bind. cbn [hd remaining_len]. unfold rlift, usize_sub.
    replace (2 <=? blen (be16 id ++ s1)) with true by (autorewrite with blen; lia).
    cbn [wp]. replace (blen (be16 id ++ s1) - 2) with (blen s1) by (autorewrite with blen; lia).
    apply wp_bind. eapply wp_mono; [apply (topics_errs id _ [] [] s1); auto; lia|]. intros; exact I.
  Qed.
End Body.

Lemma frame_errs b1 hdr bd e : b1 < 256 -> bytes_ok bd ->
  read_frame (hd b1 hdr bd) (hdr ++ bd) = Err e -> fails b1 bd e.
Proof.
  intros Hb1 Hb. unfold read_frame, packet_type. cbn [hd byte1 remaining_len].
  rewrite shiftr4 by assumption.
  assert (Hw : forall A (f : A -> Packet) (r : outcome (A * bytes)),
    wp (fails b1 bd) r (fun _ _ => True) -> wrap f r = Err e -> fails b1 bd e).
  { intros A f r. destruct r as [[a ?]|e'| |]; cbn; congruence. }
  assert (Hn : b1 / 16 < 16) by lia.
  destruct (b1 / 16) as [|n] eqn:En.
  { intros [= <-]. apply f_whole. replace (InvalidPacketType 0) with (InvalidPacketType (b1 / 16)) by congruence.
    constructor. auto. }
  do 4 (try destruct n as [n|n|]); try (exfalso; lia); cbn [obind].
  all: try (intros [= <-]; apply f_whole;
    replace (InvalidPacketType 15) with (InvalidPacketType (b1 / 16)) by congruence; constructor; auto; fail).
  all: destruct (blen bd =? 0) eqn:E0;
    [first [discriminate | intros [= <-]; rewrite (blen_0 bd) by lia; apply f_whole, rw_empty; lia]|].
  all: try discriminate; assert (Hne : bd <> []) by (intros ->; discriminate E0); apply Hw; fold (hd b1 hdr bd).
  all: first [ apply connect_errs | apply connack_errs | apply publish_errs | apply puback_errs
    | apply pubrec_errs | apply pubrel_errs | apply pubcomp_errs | apply subscribe_errs
    | apply suback_errs | apply unsubscribe_errs | apply unsuback_errs ]; assumption.
Qed.

(** *** the other direction *)
Lemma wrap_err {A} (f : A -> Packet) r e : r = Err e -> wrap f r = Err e.
Proof. intros ->. reflexivity. Qed.
Lemma frame_type b1 hdr bd n : b1 < 256 -> bd <> [] -> b1 / 16 = n ->
  read_frame (hd b1 hdr bd) (hdr ++ bd) =
  match n with
  | 1 => wrap Connect (V4Connect.read (hd b1 hdr bd) (hdr ++ bd))
  | 2 => wrap ConnAck (V4ConnAck.read (hd b1 hdr bd) (hdr ++ bd))
  | 3 => wrap Publish (V4Publish.read (hd b1 hdr bd) (hdr ++ bd))
  | 4 => wrap PubAck (V4PubAck.read (hd b1 hdr bd) (hdr ++ bd))
  | 5 => wrap PubRec (V4PubRec.read (hd b1 hdr bd) (hdr ++ bd))
  | 6 => wrap PubRel (V4PubRel.read (hd b1 hdr bd) (hdr ++ bd))
  | 7 => wrap PubComp (V4PubComp.read (hd b1 hdr bd) (hdr ++ bd))
  | 8 => wrap Subscribe (V4Subscribe.read (hd b1 hdr bd) (hdr ++ bd))
  | 9 => wrap SubAck (V4SubAck.read (hd b1 hdr bd) (hdr ++ bd))
  | 10 => wrap Unsubscribe (V4Unsubscribe.read (hd b1 hdr bd) (hdr ++ bd))
  | 11 => wrap UnsubAck (V4UnsubAck.read (hd b1 hdr bd) (hdr ++ bd))
  | 12 => Ok PingReq | 13 => Ok PingResp | 14 => Ok Disconnect
  | n => Err (InvalidPacketType n)
  end.
Proof.
  intros Hb1 Hne <-. unfold read_frame, packet_type. cbn [hd byte1 remaining_len].
  rewrite shiftr4 by assumption.
  replace (blen bd =? 0) with false by (destruct bd; [contradiction|]; autorewrite with blen; lia).
  destruct (b1 / 16) as [|n]; [reflexivity|].
  do 4 (try destruct n as [n|n|]); try reflexivity.
Qed.

Ltac adv := match goal with |- context [rbind (advance (fixed_header_len (hd ?b1 ?h ?bd))) _ _] =>
  rewrite (rbind_ok _ _ _ tt bd) by (apply advance_app; reflexivity) end.
Ltac str H := rewrite (rbind_ok _ _ _ _ _ (read_string_field _ _ (proj2 H) (proj1 H))).
Ltac byt := rewrite (rbind_ok _ _ _ _ _ (read_u8_cons _ _)).
Ltac two H := rewrite (rbind_ok _ _ _ _ _ (read_u16_be16 _ _ H)).
Ltac flat := unfold connect_head; rewrite <- ?app_assoc; cbn [app]; rewrite <- ?app_assoc.
Lemma good_mqtt : good_string MQTT.
Proof. split; [apply utf8_ok_spec; reflexivity|cbv; discriminate]. Qed.
Ltac name_level pr :=
  str good_mqtt; byt; change (bytes_eqb MQTT V4Connect.mqtt_name) with true; cbn [negb];
  match goal with |- context [rbind (match level pr with 0 => _ | _ => _ end) _ ?s] =>
    rewrite (rbind_ok _ _ _ pr s) by (destruct pr; reflexivity) end.

Section Complete.
  Variables (b1 : N) (hdr : bytes).
  Lemma connect_at pr flags ka cid s : u16 ka -> good_string cid ->
    V4Connect.read (hd b1 hdr (connect_head pr flags ka cid ++ s)) (hdr ++ connect_head pr flags ka cid ++ s)
    = rbind (V4Connect.lw_read flags) (fun w => rbind (V4Connect.login_read flags) (fun l =>
        rret (V4Connect.mkConnect pr ka cid (negb (N.land flags 2 =? 0)) w l))) s.
  Proof. intros Hka Hcid. unfold V4Connect.read. adv. flat. name_level pr. byt. two Hka. str Hcid. reflexivity. Qed.
  Lemma flags_ok pr flags ka cid s : bytes_ok (connect_head pr flags ka cid ++ s) -> flags < 256.
  Proof.
    unfold connect_head. flat. intros H. apply bytes_ok_app in H as [_ H]. apply bytes_ok_cons in H as [_ H].
    apply bytes_ok_cons in H as [H _]. exact H.
  Qed.

  Lemma filters_at fuel : forall acc l s, bytes_ok (filters_bytes l) -> Forall good_filter l ->
    (List.length (filters_bytes l ++ s) < fuel)%nat ->
    exists acc' fuel', (List.length s < fuel')%nat /\ 
      V4Subscribe.filters_loop fuel acc (filters_bytes l ++ s) = V4Subscribe.filters_loop fuel' acc' s.
  Proof.
    induction fuel as [|fuel IH]; intros acc l s Hb HF Hl; [lia|].
    destruct HF as [|[p o] l [Hp Ho] HF].
    - exists acc, (S fuel). split; [exact Hl|reflexivity].
    - change (filters_bytes ((p, o) :: l)) with ((field p ++ [o]) ++ filters_bytes l) in *. cbn [fst snd] in *.
      apply bytes_ok_app in Hb as [Hb1 Hb]. apply bytes_ok_app in Hb1 as [_ Hb1]. apply bytes_ok_cons in Hb1 as [Hob _].
      rewrite <- !app_assoc in *. cbn [app] in *.
      destruct (qos_cases (o mod 4) ltac:(lia)) as [(q & Hq & _)|[_ Hq]]; [|contradiction].
      destruct (IH (acc ++ [V4Subscribe.mkSubscribeFilter p q]) l s Hb HF) as (acc' & fuel' & Hf & E).
      { rewrite app_length in Hl. cbn [List.length] in Hl. lia. }
      exists acc', fuel'. split; [exact Hf|]. rewrite <- E. cbn [V4Subscribe.filters_loop].
      replace (has_remaining _) with true by (unfold field, be16; reflexivity).
      str Hp. byt. rewrite mask3 by assumption. unfold rbind at 1, rlift. rewrite Hq. reflexivity.
  Qed.
  Lemma codes_at fuel : forall acc l s, (List.length (map suback_code l ++ s) < fuel)%nat ->
    exists acc' fuel', (List.length s < fuel')%nat /\ 
      V4SubAck.codes_loop fuel acc (map suback_code l ++ s) = V4SubAck.codes_loop fuel' acc' s.
  Proof.
    induction fuel as [|fuel IH]; intros acc l s Hl; [lia|].
    destruct l as [|c l].
    - exists acc, (S fuel). split; [exact Hl|reflexivity].
    - cbn [map app] in *. destruct (IH (acc ++ [c]) l s) as (acc' & fuel' & Hf & E).
      { cbn [List.length] in Hl. lia. }
      exists acc', fuel'. split; [exact Hf|]. rewrite <- E. cbn [V4SubAck.codes_loop has_remaining].
      byt. unfold rbind, rlift. rewrite suback_code_of. reflexivity.
  Qed.
  Lemma topics_at fuel : forall acc l s, Forall good_string l ->
    (List.length (flat_map field l ++ s) < fuel)%nat ->
    exists acc' fuel', (List.length s < fuel')%nat /\ 
      V4Unsubscribe.topics_loop fuel (blen (flat_map field l ++ s)) acc (flat_map field l ++ s)
      = V4Unsubscribe.topics_loop fuel' (blen s) acc' s.
  Proof.
    induction fuel as [|fuel IH]; intros acc l s HF Hl; [lia|].
    destruct HF as [|t l Ht HF].
    - exists acc, (S fuel). split; [exact Hl|reflexivity].
    - cbn [flat_map] in *. rewrite <- !app_assoc in *.
      destruct (IH (acc ++ [t]) l s HF) as (acc' & fuel' & Hf & E).
      { rewrite app_length in Hl. cbn [List.length field be16 app] in Hl. lia. }
      exists acc', fuel'. split; [exact Hf|]. rewrite <- E. cbn [V4Unsubscribe.topics_loop].
      set (r := flat_map field l ++ s).
      replace (0 <? blen (field t ++ r)) with true by (autorewrite with blen; lia).
      str Ht. unfold rbind, rlift, usize_sub.
      replace (blen t + 2 <=? blen (field t ++ r)) with true by (autorewrite with blen; lia).
      replace (blen (field t ++ r) - (blen t + 2)) with (blen r) by (autorewrite with blen; lia).
      reflexivity.
  Qed.

  Ltac start H := match goal with Hb1 : b1 < 256, Hne : _ <> [] |- _ = Err _ =>
    rewrite (frame_type b1 hdr _ _ Hb1 Hne H); apply wrap_err end.
  Lemma missing_reads pre s w e : b1 < 256 -> bytes_ok (pre ++ s) -> pre ++ s <> [] ->
    expects b1 pre w -> lacks w s e -> read_frame (hd b1 hdr (pre ++ s)) (hdr ++ pre ++ s) = Err e.
  Proof.
    intros Hb1 Hb Hne He Hl. destruct He.
    - start H. unfold V4Connect.read. adv. apply rbind_err, lacks_read_string, Hl.
    - start H. unfold V4Connect.read. adv. str H0. apply rbind_err, lacks_read_u8, Hl.
    - start H. unfold V4Connect.read. adv. flat. name_level pr. apply rbind_err, lacks_read_u8, Hl.
    - start H. unfold V4Connect.read. adv. flat. name_level pr. byt. apply rbind_err, lacks_read_u16, Hl.
    - start H. unfold V4Connect.read. adv. flat. name_level pr. byt. two H0. apply rbind_err, lacks_read_string, Hl.
    - start H. rewrite connect_at by assumption. apply rbind_err. unfold V4Connect.lw_read.
      rewrite mask4, H2 by exact (flags_ok _ _ _ _ _ Hb). cbn [negb]. apply rbind_err, lacks_read_string, Hl.
    - rewrite <- app_assoc in *. start H. rewrite connect_at by assumption. apply rbind_err. unfold V4Connect.lw_read.
      rewrite mask4, H2 by exact (flags_ok _ _ _ _ _ Hb). cbn [negb]. str H3. apply rbind_err, lacks_read_bytes, Hl.
    - rewrite <- app_assoc in *. start H. rewrite connect_at by assumption.
      assert (Hf := flags_ok _ _ _ _ _ Hb).
      rewrite (rbind_ok _ _ _ _ _ (decodes_will_read _ _ _ _ Hf H2)). apply rbind_err.
      unfold V4Connect.login_read. rewrite mask128, H3 by assumption. cbn [negb]. apply rbind_err, lacks_read_string, Hl.
    - rewrite <- !app_assoc in *. start H. rewrite connect_at by assumption.
      assert (Hf := flags_ok _ _ _ _ _ Hb).
      rewrite (rbind_ok _ _ _ _ _ (decodes_will_read _ _ _ _ Hf H2)). apply rbind_err.
      unfold V4Connect.login_read. rewrite mask128 by assumption.
      rewrite (rbind_ok _ _ _ _ _ (decodes_opt_string_read _ _ _ _ H3)).
      rewrite mask64, H4 by assumption. cbn [negb]. apply rbind_err, lacks_read_string, Hl.
    - start H. unfold V4ConnAck.read. adv. apply rbind_err, lacks_read_u8, Hl.
    - start H. unfold V4ConnAck.read. adv. cbn [app]. byt. apply rbind_err, lacks_read_u8, Hl.
    - start H. unfold V4Publish.read. cbn [hd byte1]. rewrite pub_qos_bits by assumption.
      destruct (qos_cases (b1 / 2 mod 4) ltac:(lia)) as [(q & Hq & _)|[_ Hq]]; [|contradiction].
      unfold rbind at 1, rlift. rewrite Hq. fold (hd b1 hdr ([] ++ s)). adv. apply rbind_err, lacks_read_string, Hl.
    - start H. unfold V4Publish.read. cbn [hd byte1]. rewrite pub_qos_bits by assumption.
      destruct (qos_cases (b1 / 2 mod 4) ltac:(lia)) as [(q & Hq & Hq')|[_ Hq]]; [|lia].
      unfold rbind at 1, rlift. rewrite Hq. fold (hd b1 hdr (field t ++ s)). adv. str H1. apply rbind_err.
      destruct q; cbn in Hq'; [lia| |]; apply lacks_read_u16, Hl.
    - assert (Hc : b1 / 16 = 4 \/ b1 / 16 = 5 \/ b1 / 16 = 6 \/ b1 / 16 = 7 \/ b1 / 16 = 8 \/ b1 / 16 = 9 \/ b1 / 16 = 10) by lia.
      destruct Hc as [Hc|[Hc|[Hc|[Hc|[Hc|[Hc|Hc]]]]]]; start Hc;
        unfold V4PubAck.read, V4PubRec.read, V4PubRel.read, V4PubComp.read, V4Subscribe.read, V4SubAck.read, V4Unsubscribe.read;
        adv; apply rbind_err, lacks_read_u16, Hl.
    - start H. unfold V4Subscribe.read. adv. rewrite <- !app_assoc in *. two H0. apply rbind_err.
      assert (Hbl : bytes_ok (filters_bytes l)).
      { apply bytes_ok_app in Hb as [_ Hb]. apply bytes_ok_app in Hb. apply Hb. }
      match goal with |- V4Subscribe.filters_loop ?f ?a _ = _ =>
        destruct (filters_at f a l (field p ++ s) Hbl H1) as (acc' & fuel' & Hf & ->) end.
      + flat. lia.
      + destruct fuel' as [|fuel']; [lia|]. cbn [V4Subscribe.filters_loop].
        replace (has_remaining _) with true by (unfold field, be16; reflexivity).
        str H2. apply rbind_err, lacks_read_u8, Hl.
  Qed.
  Lemma more_reads pre s w e : b1 < 256 -> bytes_ok (pre ++ s) -> s <> [] ->
    continues b1 pre w -> lacks w s e -> read_frame (hd b1 hdr (pre ++ s)) (hdr ++ pre ++ s) = Err e.
  Proof.
    intros Hb1 Hb Hs He Hl. assert (Hne : pre ++ s <> []) by (destruct pre; [exact Hs|discriminate]).
    destruct He.
    - start H. unfold V4Subscribe.read. adv. rewrite <- !app_assoc in *. two H0. apply rbind_err.
      assert (Hbl : bytes_ok (filters_bytes l)).
      { apply bytes_ok_app in Hb as [_ Hb]. apply bytes_ok_app in Hb. apply Hb. }
      match goal with |- V4Subscribe.filters_loop ?f ?a _ = _ =>
        destruct (filters_at f a l s Hbl H1) as (acc' & fuel' & Hf & ->) end; [lia|].
      destruct fuel' as [|fuel']; [lia|]. cbn [V4Subscribe.filters_loop].
      replace (has_remaining s) with true by (destruct s; [contradiction|reflexivity]).
      apply rbind_err, lacks_read_string, Hl.
    - start H. unfold V4Unsubscribe.read. adv. rewrite <- !app_assoc in *. two H0.
      cbn [hd remaining_len]. unfold rlift, usize_sub. unfold rbind at 1.
      rewrite blen_app, blen_be16. replace (2 <=? _) with true by lia.
      replace (2 + blen (flat_map field l ++ s) - 2) with (blen (flat_map field l ++ s)) by lia. apply rbind_err.
      match goal with |- V4Unsubscribe.topics_loop ?f _ ?a _ = _ =>
        destruct (topics_at f a l s H1) as (acc' & fuel' & Hf & ->) end; [lia|].
      destruct fuel' as [|fuel']; [lia|]. cbn [V4Unsubscribe.topics_loop].
      replace (0 <? blen s) with true by (destruct s; [contradiction|]; autorewrite with blen; lia).
      apply rbind_err, lacks_read_string, Hl.
  Qed.
  Lemma value_reads pre s e : b1 < 256 -> bytes_ok (pre ++ s) -> pre ++ s <> [] ->
    rejects b1 pre e -> read_frame (hd b1 hdr (pre ++ s)) (hdr ++ pre ++ s) = Err e.
  Proof.
    intros Hb1 Hb Hne He. destruct He.
    - start H. unfold V4Connect.read. adv. flat. str H0. byt.
      destruct (bytes_eqb name V4Connect.mqtt_name) eqn:E; [|reflexivity].
      apply bytes_eqb_eq in E. contradiction.
    - start H. unfold V4Connect.read. adv. flat. str good_mqtt. byt.
      change (bytes_eqb MQTT V4Connect.mqtt_name) with true. cbn [negb]. apply rbind_err.
      destruct (level_cases lv s) as [(pr & -> & _)|(_ & _ & E)]; [destruct pr; cbn in *; congruence|exact E].
    - start H. rewrite connect_at by assumption. apply rbind_err. unfold V4Connect.lw_read.
      assert (Hf := flags_ok _ _ _ _ _ Hb). rewrite mask4, H2 by exact Hf. cbn [negb].
      rewrite mask56 by assumption. replace (flags / 8 mod 8 =? 0) with false by lia. reflexivity.
    - rewrite <- !app_assoc in *. start H. rewrite connect_at by assumption. apply rbind_err. unfold V4Connect.lw_read.
      assert (Hf := flags_ok _ _ _ _ _ Hb). rewrite mask4, H2 by exact Hf. cbn [negb].
      str H3. rewrite (rbind_ok _ _ _ _ _ (read_bytes_field _ _ H4)).
      rewrite will_qos_bits, H5 by assumption. reflexivity.
    - start H. unfold V4ConnAck.read. adv. cbn [app]. do 2 byt. apply rbind_err.
      assert (Hc : c < 256) by (cbn [app] in Hb; apply bytes_ok_cons in Hb as [_ Hb]; apply bytes_ok_cons in Hb as [Hb _]; exact Hb).
      assert (Hcs := connack_code_spec c Hc). unfold rlift.
      destruct (V4ConnAck.connect_return c) as [x|e| |]; try contradiction.
      + exfalso. rewrite Hcs in H0. destruct x; cbn in H0; lia.
      + destruct Hcs as [-> _]. reflexivity.
    - start H. unfold V4Publish.read. cbn [hd byte1]. rewrite pub_qos_bits by assumption. rewrite H0. reflexivity.
    - start H. unfold V4Publish.read. cbn [hd byte1]. rewrite pub_qos_bits by assumption.
      destruct (qos_cases (b1 / 2 mod 4) ltac:(lia)) as [(q & Hq & Hq')|[_ Hq]]; [|lia].
      unfold rbind at 1, rlift. rewrite Hq. fold (hd b1 hdr ((field t ++ be16 0) ++ s)). adv. flat. str H1.
      destruct q; cbn in Hq'; [lia| |]; two (eq_refl : u16 0); reflexivity.
    - start H. unfold V4Subscribe.read. adv. rewrite <- !app_assoc in *. two H0. apply rbind_err.
      assert (Hb2 : bytes_ok (filters_bytes l ++ field p ++ [o] ++ s)) by (apply bytes_ok_app in Hb; apply Hb).
      apply bytes_ok_app in Hb2 as [Hbl Hb2].
      match goal with |- V4Subscribe.filters_loop ?f ?a _ = _ =>
        destruct (filters_at f a l (field p ++ [o] ++ s) Hbl H1) as (acc' & fuel' & Hf & ->) end; [lia|].
      destruct fuel' as [|fuel']; [lia|]. cbn [V4Subscribe.filters_loop].
      replace (has_remaining _) with true by (unfold field, be16; reflexivity).
      str H2. cbn [app]. byt. apply bytes_ok_app in Hb2 as [_ Hb2]. apply bytes_ok_cons in Hb2 as [Ho _].
      rewrite mask3, H3 by assumption. reflexivity.
    - start H. unfold V4SubAck.read. adv. rewrite <- !app_assoc in *. two H0.
      replace (has_remaining _) with true by (destruct l; reflexivity). cbn [negb]. apply rbind_err.
      match goal with |- V4SubAck.codes_loop ?f ?a _ = _ =>
        destruct (codes_at f a l ([c] ++ s)) as (acc' & fuel' & Hf & ->) end; [lia|].
      destruct fuel' as [|fuel']; [lia|]. cbn [V4SubAck.codes_loop app has_remaining]. byt. apply rbind_err.
      apply bytes_ok_app in Hb as [_ Hb]. apply bytes_ok_app in Hb as [_ Hb]. apply bytes_ok_cons in Hb as [Hc _].
      assert (Hcs := suback_code_spec c Hc). unfold rlift.
      destruct (V4SubAck.try_from c) as [x|e| |]; try contradiction.
      + exfalso. subst c. destruct x as [[]|]; cbn in *; lia.
      + destruct Hcs as [-> _]. reflexivity.
  Qed.
  Lemma whole_reads bd e : b1 < 256 -> rejects_whole b1 bd e -> read_frame (hd b1 hdr bd) (hdr ++ bd) = Err e.
  Proof.
    intros Hb1 He. destruct He.
    - unfold read_frame, packet_type. cbn [hd byte1 remaining_len]. rewrite shiftr4 by assumption.
      destruct H as [-> | ->]; reflexivity.
    - unfold read_frame, packet_type. cbn [hd byte1 remaining_len]. rewrite shiftr4 by assumption.
      destruct (b1 / 16) as [|n]; [lia|]. do 4 (try destruct n as [n|n|]); try (exfalso; lia); reflexivity.
    - rewrite (frame_type _ _ (be16 id) _ Hb1 ltac:(discriminate) H). apply wrap_err. unfold V4Subscribe.read. adv.
      rewrite <- (app_nil_r (be16 id)). two H0. reflexivity.
    - rewrite (frame_type _ _ (be16 id) _ Hb1 ltac:(discriminate) H). apply wrap_err. unfold V4SubAck.read. adv.
      rewrite <- (app_nil_r (be16 id)). two H0. reflexivity.
    - rewrite (frame_type _ _ _ _ Hb1 H0 H). apply wrap_err. unfold V4UnsubAck.read. cbn [hd remaining_len].
      replace (blen bd =? 2) with false by lia. reflexivity.
  Qed.
  Lemma frame_fails bd e : b1 < 256 -> bytes_ok bd -> fails b1 bd e ->
    read_frame (hd b1 hdr bd) (hdr ++ bd) = Err e.
  Proof.
    intros Hb1 Hb [pre s w Hne -> He Hl|pre s w -> Hs He Hl|pre s Hne -> He|He].
    - eapply missing_reads; eassumption.
    - eapply more_reads; eassumption.
    - apply value_reads; assumption.
    - apply whole_reads; assumption.
  Qed.
End Complete.

(** *** on a stream *)
Lemma read_fails_iff s max e rest : bytes_ok s ->
  (exists b1 bd, starts_with_frame s b1 bd rest /\ blen bd <= max /\ fails b1 bd e) <->
  (read s max = (Err e, rest) /\ rest <> s).
Proof.
  intros Hb. split.
  - intros (b1 & bd & (f & -> & Hf & Hl) & Hm & Hd). split.
    + rewrite read_complete_frame by assumption. f_equal.
      apply bytes_ok_cons in Hb as [Hb1 Hb]. apply bytes_ok_app in Hb as [_ Hb]. apply bytes_ok_app in Hb as [Hbd _].
      apply frame_fails; assumption.
    + intros E. apply (f_equal (@blen N)) in E. revert E. autorewrite with blen. lia.
  - intros [H Hr]. destruct (read_cases s max Hb) as [(e' & _ & E)|(b1 & f & bd & rest' & Es & Hf & Hl & Hm & Hb1 & Hbd & Hr' & E)].
    + rewrite E in H. injection H as _ <-. contradiction.
    + rewrite E in H. injection H as Hp <-. exists b1, bd. split; [exists f; auto|]. split; [exact Hm|].
      exact (frame_errs b1 (b1 :: f) bd e Hb1 Hbd Hp).
Qed.

(** ProofV5Read.v -- the v5 decoders accept exactly the grammar of SpecV5. *)
From Verif Require Import ProofBase Utf8 ProofUtf8 Lib ProofLib ProofCheck ProofRead ProofBits ProofV4Read
  SpecProps SpecPropSets V5Property ProofProps ProofPropSets SpecV5.

Ltac rd := apply wp_bind; first
  [ apply wp_read_u8; [assumption|e5|]
  | apply wp_read_u16; [assumption|e5|]
  | apply wp_read_u32; [assumption|e5|]
  | apply wp_read_bytes; [assumption|e5|e5|]
  | apply wp_read_string; [assumption|e5|e5|e5|] ].
Ltac rest_bound :=
  match goal with H : blen _ <= huge |- blen _ <= huge =>
    revert H; clear; autorewrite with blen; lia end.
Ltac rdx L := apply wp_bind; apply L; [assumption|rest_bound|].

(** *** code tables *)
Definition table_ok {C} (f : N -> outcome C) (num : C -> N) (err : N -> Error) (n : N) : Prop :=
  match f n with Ok c => n = num c | Err e => e = err n /\ (forall c, n <> num c) | _ => False end.
Lemma code_table {C} (f : N -> outcome C) (num : C -> N) (err : N -> Error) :
  (forall c, f (num c) = Ok c) ->
  (forall n, (exists c, f n = Ok c /\ num c = n) \/ f n = Err (err n)) ->
  forall n, table_ok f num err n.
Proof.
  intros H1 H2 n. unfold table_ok. destruct (H2 n) as [(c & -> & H)| H]; [auto|]. rewrite H.
  split; [reflexivity|]. intros c ->. rewrite H1 in H. discriminate.
Qed.
Ltac solve_table := apply code_table;
  [ intros []; reflexivity
  | intros n; destruct n as [|p]; [first [left; eexists; split; reflexivity | right; reflexivity]|];
    do 8 (try destruct p as [p|p|]);
    first [right; reflexivity | left; eexists; split; reflexivity] ].
Lemma connack_table n : table_ok V5ConnAck.connect_return connack_code InvalidConnectReturnCode n.
Proof. revert n. solve_table. Qed.
Lemma puback_table n : table_ok V5PubAck.reason_of puback_code InvalidConnectReturnCode n.
Proof. revert n. solve_table. Qed.
Lemma pubrec_table n : table_ok V5PubRec.reason_of pubrec_code InvalidConnectReturnCode n.
Proof. revert n. solve_table. Qed.
Lemma pubrel_table n : table_ok V5PubRel.reason_of pubrel_code InvalidConnectReturnCode n.
Proof. revert n. solve_table. Qed.
Lemma pubcomp_table n : table_ok V5PubComp.reason_of pubcomp_code InvalidConnectReturnCode n.
Proof. revert n. solve_table. Qed.
Lemma suback_table n : table_ok V5SubAck.try_from suback_code InvalidSubscribeReasonCode n.
Proof. revert n. solve_table. Qed.
Lemma unsuback_table n : table_ok V5UnsubAck.reason_of unsuback_code InvalidSubscribeReasonCode n.
Proof. revert n. solve_table. Qed.
Lemma disconnect_table n : table_ok V5Disconnect.try_from disconnect_code InvalidConnectReturnCode n.
Proof. revert n. solve_table. Qed.
Lemma rule_table n : table_ok V5Subscribe.rule_of rule_num InvalidRetainForwardRule n.
Proof. revert n. solve_table. Qed.

Lemma connack_of c : V5ConnAck.connect_return (connack_code c) = Ok c. Proof. destruct c; reflexivity. Qed.
Lemma puback_zero c : puback_code c = 0 -> c = V5PubAck.Success. Proof. destruct c; try discriminate; reflexivity. Qed.
Lemma puback_of c : V5PubAck.reason_of (puback_code c) = Ok c. Proof. destruct c; reflexivity. Qed.
Lemma pubrec_zero c : pubrec_code c = 0 -> c = V5PubRec.Success. Proof. destruct c; try discriminate; reflexivity. Qed.
Lemma pubrec_of c : V5PubRec.reason_of (pubrec_code c) = Ok c. Proof. destruct c; reflexivity. Qed.
Lemma pubrel_zero c : pubrel_code c = 0 -> c = V5PubRel.Success. Proof. destruct c; try discriminate; reflexivity. Qed.
Lemma pubrel_of c : V5PubRel.reason_of (pubrel_code c) = Ok c. Proof. destruct c; reflexivity. Qed.
Lemma pubcomp_zero c : pubcomp_code c = 0 -> c = V5PubComp.Success. Proof. destruct c; try discriminate; reflexivity. Qed.
Lemma pubcomp_of c : V5PubComp.reason_of (pubcomp_code c) = Ok c. Proof. destruct c; reflexivity. Qed.
Lemma suback_of c : V5SubAck.try_from (suback_code c) = Ok c. Proof. destruct c; reflexivity. Qed.
Lemma unsuback_of c : V5UnsubAck.reason_of (unsuback_code c) = Ok c. Proof. destruct c; reflexivity. Qed.
Lemma disconnect_of c : V5Disconnect.try_from (disconnect_code c) = Ok c. Proof. destruct c; reflexivity. Qed.
Lemma rule_of_num r : V5Subscribe.rule_of (rule_num r) = Ok r. Proof. destruct r; reflexivity. Qed.

Lemma wp_table {C A} (f : N -> outcome C) num err n (k : C -> reader A) s Q :
  table_ok f num err n -> E5 (err n) -> (forall c, n = num c -> wp E5 (k c s) Q) ->
  wp E5 (rbind (rlift (f n)) k s) Q.
Proof.
  unfold table_ok, rbind, rlift. destruct (f n) as [c|e| |]; try contradiction.
  - intros H _ HQ. apply HQ, H.
  - intros [-> _] He _. exact He.
Qed.
Lemma wp_qos5 {A} n (k : QoS -> reader A) s Q :
  n < 4 -> (forall q, n = qos_num q -> wp E5 (k q s) Q) -> wp E5 (rbind (rlift (qos n)) k s) Q.
Proof. intros Hn HQ. apply wp_qos; [exact Hn|e5|exact HQ]. Qed.

(** *** options byte *)
Lemma opt_nolocal o : o < 256 -> negb (N.land (N.shiftr o 2) 1 =? 0) = bit_at 2 o.
Proof. intros H. sweep_beq (fun o => negb (N.land (N.shiftr o 2) 1 =? 0)) (bit_at 2). Qed.
Lemma opt_preserve o : o < 256 -> negb (N.land (N.shiftr o 3) 1 =? 0) = bit_at 3 o.
Proof. intros H. sweep_beq (fun o => negb (N.land (N.shiftr o 3) 1 =? 0)) (bit_at 3). Qed.
Lemma opt_rule o : o < 256 -> N.land (N.shiftr o 4) 3 = o / 16 mod 4.
Proof. intros H. sweep_eq (fun o => N.land (N.shiftr o 4) 3) (fun o => o / 16 mod 4). Qed.

(** *** CONNECT *)
Lemma wp_will flags s (Q : _ -> _ -> Prop) : bytes_ok s -> blen s <= huge -> flags < 256 ->
  (forall w wbs s', s = wbs ++ s' -> decodes_will flags w wbs -> bytes_ok s' -> Q w s') ->
  wp E5 (V5Connect.lw_read flags s) Q.
Proof.
  intros Hs Hm Hf HQ. unfold V5Connect.lw_read. rewrite mask4 by assumption.
  destruct (bit_at 2 flags) eqn:E2; cbn [negb].
  - rdx wp_will_extract. intros pr sec s0 -> Hpr Hs0.
    rd. intros t s1 -> Ht Htu Hs1. rd. intros m s2 -> Hmm Hmb Hs2.
    rewrite will_qos_bits by assumption. apply wp_qos5; [lia|].
    intros q Hq. apply wp_ret. rewrite mask32, negb_involutive by assumption.
    eapply HQ with (wbs := sec ++ field t ++ field m); [rewrite <- !app_assoc; reflexivity| |assumption].
    cbn. repeat split; auto. exists sec. auto.
  - rewrite mask56 by assumption. destruct (flags / 8 mod 8 =? 0) eqn:E8; cbn [negb]; [|e5].
    apply wp_ret. eapply HQ with (wbs := []); [reflexivity| |assumption].
    cbn. repeat split; [assumption|lia].
Qed.
Lemma wp_opt_string (present : bool) s (Q : _ -> _ -> Prop) : bytes_ok s ->
  (forall u ubs s', s = ubs ++ s' -> decodes_opt_string present u ubs -> bytes_ok s' -> Q u s') ->
  wp E5 ((if negb present then rret [] else read_mqtt_string) s) Q.
Proof.
  intros Hs HQ. destruct present; cbn [negb].
  - apply wp_read_string; [assumption|e5|e5|e5|]. intros v s' -> Hv Hu Hs'.
    eapply HQ; [reflexivity| |assumption]. cbn. auto.
  - apply wp_ret. eapply HQ with (ubs := []); [reflexivity| |assumption]. cbn. auto.
Qed.
Lemma canon_login_spec u p :
  canon_login (Some (V5Connect.mkLogin u p))
  = if is_empty u && is_empty p then None else Some (V5Connect.mkLogin u p).
Proof. destruct u, p; reflexivity. Qed.

Lemma wp_connect_props pr s (Q : _ -> _ -> Prop) : bytes_ok s -> blen s <= huge ->
  (forall o bs s', s = bs ++ s' ->
     match pr with
     | V5 => decodes_props (allowed_at InConnect) connect_record o bs
     | V4 => bs = [] /\ o = None
     end -> bytes_ok s' -> Q o s') ->
  wp E5 ((match pr with V5 => V5Connect.cp_extract | V4 => rret None end) s) Q.
Proof.
  intros Hs Hm HQ. destruct pr.
  - apply wp_ret. apply (HQ None [] s); auto.
  - apply wp_connect_extract; auto.
Qed.

Lemma connect_sound b1 hdr bd : bytes_ok bd -> blen bd <= huge -> b1 / 16 = 1 ->
  wp E5 (V5Connect.read (hd b1 hdr bd) (hdr ++ bd)) (fun x _ => decodes_body b1 bd (Connect x)).
Proof.
  intros Hb Hm H1. unfold V5Connect.read. apply wp_advance.
  rd. intros name s1 -> Hns Hnu Hs1.
  rd. intros lvl s2 -> Hlvl Hs2.
  destruct (bytes_eqb name V5Connect.mqtt_name) eqn:En; cbn [negb]; [|e5].
  apply bytes_eqb_eq in En. subst name.
  apply wp_bind.
  assert (Hl : (exists pr, lvl = level pr /\
     (match lvl with 4 => rret V4 | 5 => rret V5 | num => rerr (InvalidProtocolLevel num) end) s2 = Ok (pr, s2))
     \/ (match lvl with 4 => rret V4 | 5 => rret V5 | num => rerr (InvalidProtocolLevel num) end) s2 = Err (InvalidProtocolLevel lvl)).
  { destruct lvl as [|[[p|[p|p|]|]|[p|[p|p|]|]|]];
      first [right; reflexivity | left; exists V5; split; reflexivity | left; exists V4; split; reflexivity]. }
  destruct Hl as [(pr & -> & ->)| ->]; [cbn [wp]|cbn [wp]; e5].
  rd. intros flags s3 -> Hf Hs3.
  rd. intros ka s4 -> Hka Hs4.
  rdx wp_connect_props. intros props sec s4' -> Hprops Hs4'.
  rd. intros cid s5 -> Hcs Hcu Hs5.
  apply wp_bind. apply wp_will; [assumption|rest_bound|assumption|]. intros w wbs s6 -> Hw Hs6.
  unfold V5Connect.login_read. rewrite mask128, mask64 by assumption.
  apply wp_bind. apply wp_bind. apply wp_opt_string; [assumption|]. intros u ubs s7 -> Hu Hs7.
  apply wp_bind. apply wp_opt_string; [assumption|]. intros p pbs s8 -> Hp Hs8.
  apply wp_mono with (Q := fun l s => l = canon_login (Some (V5Connect.mkLogin u p))).
  { rewrite canon_login_spec. destruct (is_empty u && is_empty p); reflexivity. }
  intros l s9 ->. apply wp_ret. rewrite mask2, negb_involutive by assumption.
  cbn [decodes_body]. split; [assumption|].
  exists flags, sec, wbs, ubs, pbs, u, p, s8. cbn [V5Connect.protocol V5Connect.keep_alive V5Connect.client_id
    V5Connect.clean_session V5Connect.last_will V5Connect.login V5Connect.properties].
  repeat (split; [solve [auto]|]). auto.
Qed.

(** *** the other decoders: soundness *)
Lemma connack_sound b1 hdr bd : bytes_ok bd -> blen bd <= huge -> b1 / 16 = 2 ->
  wp E5 (V5ConnAck.read (hd b1 hdr bd) (hdr ++ bd)) (fun x _ => decodes_body b1 bd (ConnAck x)).
Proof.
  intros Hb Hm H1. unfold V5ConnAck.read. apply wp_advance.
  rd. intros fl s1 -> Hfl Hs1. rd. intros rc s2 -> Hrc Hs2.
  eapply wp_table; [apply connack_table|e5|]. intros c ->.
  rdx wp_connack_extract. intros pr sec s3 -> Hpr Hs3. apply wp_ret.
  rewrite mask1' by assumption. cbn. split; [assumption|]. exists fl, sec, s3. auto.
Qed.

Section AckRead.
  Context {C R P : Type} (f : N -> outcome C) (num : C -> N) (err : N -> Error) (ok : C)
    (ex : reader (option R)) (allowed : list N) (rec : list item -> R) (mk : N -> C -> option R -> P).
  Hypothesis f_table : forall n, table_ok f num err n.
  Hypothesis f_of : forall c, f (num c) = Ok c.
  Hypothesis err_ok : forall n, E5 (err n).
  Hypothesis num_ok : num ok = 0.
  Hypothesis num_inj : forall c, num c = 0 -> c = ok.
  Hypothesis ex_wp : forall s (Q : _ -> _ -> Prop), bytes_ok s -> blen s <= huge ->
    (forall o bs s', s = bs ++ s' -> decodes_props allowed rec o bs -> bytes_ok s' -> Q o s') -> wp E5 (ex s) Q.
  Hypothesis ex_ok : forall o bs s, blen bs <= huge -> decodes_props allowed rec o bs -> ex (bs ++ s) = Ok (o, s).
  Variables (b1 : N) (hdr bd : bytes).

  Definition ack_read (fixed_header : FixedHeader) : reader P :=
    advance (fixed_header_len fixed_header) ;;r
    pkid <-r read_u16 ;;
    if remaining_len fixed_header =? 2 then rret (mk pkid ok None)
    else
      ack_reason <-r read_u8 ;;
      if remaining_len fixed_header <? 4 then
        reason <-r rlift (f ack_reason) ;;
        rret (mk pkid reason None)
      else
        reason <-r rlift (f ack_reason) ;;
        properties <-r ex ;;
        rret (mk pkid reason properties).
  Lemma ack_sound : bytes_ok bd -> blen bd <= huge ->
    wp E5 (ack_read (hd b1 hdr bd) (hdr ++ bd))
      (fun x _ => exists id c o, x = mk id c o /\ decodes_ack allowed rec num bd id c o).
  Proof.
    intros Hb Hm. unfold ack_read. apply wp_advance. rd. intros id s1 -> Hid Hs1.
    cbn [hd remaining_len]. autorewrite with blen.
    destruct (2 + blen s1 =? 2) eqn:E2.
    - apply wp_ret. exists id, ok, None. split; [reflexivity|]. split; [exact Hid|]. left.
      rewrite (blen_0 s1) by lia. rewrite app_nil_r. auto.
    - rd. intros c s2 -> Hc Hs2. autorewrite with blen in *.
      destruct (2 + (1 + blen s2) <? 4) eqn:E4.
      + eapply wp_table; [apply f_table|apply err_ok|]. intros rc ->. apply wp_ret.
        exists id, rc, None. split; [reflexivity|]. split; [exact Hid|]. right. left.
        rewrite (blen_0 s2) by lia. auto.
      + eapply wp_table; [apply f_table|apply err_ok|]. intros rc ->.
        apply wp_bind. apply ex_wp; [assumption|lia|]. intros o sec s3 -> Ho Hs3. apply wp_ret.
        exists id, rc, o. split; [reflexivity|]. split; [exact Hid|]. right. right. exists sec, s3. auto.
  Qed.
  Lemma decodes_props_len {R'} al (rc : list item -> R') o bs : decodes_props al rc o bs -> 1 <= blen bs.
  Proof.
    destruct o as [r|]; cbn [decodes_props].
    - intros (g & plen & its & sec & -> & Hg & _). apply lenfield_nonempty in Hg. autorewrite with blen. lia.
    - intros [Hg _]. apply lenfield_nonempty in Hg. exact Hg.
  Qed.
  Lemma ack_complete id c o : blen bd <= huge -> decodes_ack allowed rec num bd id c o ->
    exists s, ack_read (hd b1 hdr bd) (hdr ++ bd) = Ok (mk id c o, s).
  Proof.
    intros Hm [Hid Hd]. unfold ack_read. cbn [hd fixed_header_len remaining_len].
    rewrite (rbind_ok _ _ _ tt bd) by (apply advance_app; reflexivity).
    destruct Hd as [(Ebd & Hc & ->)|[(Ebd & ->)|(sec & junk & Ebd & Hp)]]; rewrite Ebd.
    - assert (R0 : read_u16 (be16 id) = Ok (id, []))
        by (rewrite <- (app_nil_r (be16 id)); apply read_u16_be16, Hid).
      rewrite (rbind_ok _ _ _ _ _ R0). rewrite blen_be16.
      change (2 =? 2) with true. rewrite (num_inj c Hc). eexists; reflexivity.
    - rewrite (rbind_ok _ _ _ _ _ (read_u16_be16 _ _ Hid)).
      rewrite blen_app, blen_be16. change (2 + blen [num c]) with 3. change (3 =? 2) with false. change (3 <? 4) with true. cbv iota.
      rewrite (rbind_ok _ _ _ _ _ (read_u8_cons _ _)). unfold rbind, rlift. rewrite f_of. eexists; reflexivity.
    - rewrite (rbind_ok _ _ _ _ _ (read_u16_be16 _ _ Hid)).
      assert (L := decodes_props_len _ _ _ _ Hp).
      rewrite Ebd in Hm. autorewrite with blen in *.
      replace (2 + (1 + (blen sec + blen junk)) =? 2) with false by lia.
      replace (2 + (1 + (blen sec + blen junk)) <? 4) with false by lia.
      rewrite (rbind_ok _ _ _ _ _ (read_u8_cons _ _)). unfold rbind, rlift. rewrite f_of.
      rewrite (ex_ok o) by (auto; lia). eexists; reflexivity.
  Qed.
End AckRead.

Lemma err_irc n : E5 (InvalidConnectReturnCode n). Proof. e5. Qed.
Lemma puback_sound b1 hdr bd : bytes_ok bd -> blen bd <= huge -> b1 / 16 = 4 ->
  wp E5 (V5PubAck.read (hd b1 hdr bd) (hdr ++ bd)) (fun x _ => decodes_body b1 bd (PubAck x)).
Proof.
  intros Hb Hm H1. eapply wp_mono.
  - apply (ack_sound V5PubAck.reason_of puback_code InvalidConnectReturnCode V5PubAck.Success V5PubAck.extract
      (allowed_at InPubAck) puback_record V5PubAck.mkPubAck puback_table puback_of err_irc eq_refl puback_zero wp_puback_extract puback_extract_ok b1 hdr bd Hb Hm).
  - intros x s (id & c & o & -> & Hd). cbn. auto.
Qed.
Lemma pubrec_sound b1 hdr bd : bytes_ok bd -> blen bd <= huge -> b1 / 16 = 5 ->
  wp E5 (V5PubRec.read (hd b1 hdr bd) (hdr ++ bd)) (fun x _ => decodes_body b1 bd (PubRec x)).
Proof.
  intros Hb Hm H1. eapply wp_mono.
  - apply (ack_sound V5PubRec.reason_of pubrec_code InvalidConnectReturnCode V5PubRec.Success V5PubRec.extract
      (allowed_at InPubRec) pubrec_record V5PubRec.mkPubRec pubrec_table pubrec_of err_irc eq_refl pubrec_zero wp_pubrec_extract pubrec_extract_ok b1 hdr bd Hb Hm).
  - intros x s (id & c & o & -> & Hd). cbn. auto.
Qed.
Lemma pubrel_sound b1 hdr bd : bytes_ok bd -> blen bd <= huge -> b1 / 16 = 6 ->
  wp E5 (V5PubRel.read (hd b1 hdr bd) (hdr ++ bd)) (fun x _ => decodes_body b1 bd (PubRel x)).
Proof.
  intros Hb Hm H1. eapply wp_mono.
  - apply (ack_sound V5PubRel.reason_of pubrel_code InvalidConnectReturnCode V5PubRel.Success V5PubRel.extract
      (allowed_at InPubRel) pubrel_record V5PubRel.mkPubRel pubrel_table pubrel_of err_irc eq_refl pubrel_zero wp_pubrel_extract pubrel_extract_ok b1 hdr bd Hb Hm).
  - intros x s (id & c & o & -> & Hd). cbn. auto.
Qed.
Lemma pubcomp_sound b1 hdr bd : bytes_ok bd -> blen bd <= huge -> b1 / 16 = 7 ->
  wp E5 (V5PubComp.read (hd b1 hdr bd) (hdr ++ bd)) (fun x _ => decodes_body b1 bd (PubComp x)).
Proof.
  intros Hb Hm H1. eapply wp_mono.
  - apply (ack_sound V5PubComp.reason_of pubcomp_code InvalidConnectReturnCode V5PubComp.Success V5PubComp.extract
      (allowed_at InPubComp) pubcomp_record V5PubComp.mkPubComp pubcomp_table pubcomp_of err_irc eq_refl pubcomp_zero wp_pubcomp_extract pubcomp_extract_ok b1 hdr bd Hb Hm).
  - intros x s (id & c & o & -> & Hd). cbn. auto.
Qed.

Lemma publish_sound b1 hdr bd : bytes_ok bd -> blen bd <= huge -> b1 < 256 -> b1 / 16 = 3 ->
  wp E5 (V5Publish.read (hd b1 hdr bd) (hdr ++ bd)) (fun x _ => decodes_body b1 bd (Publish x)).
Proof.
  intros Hb Hm Hb1 H1. unfold V5Publish.read. cbn [hd byte1]. rewrite pub_qos_bits by assumption.
  apply wp_qos5; [lia|]. intros q Hq. rewrite mask8, mask1, !negb_involutive by assumption.
  apply wp_advance. rd. intros t s1 -> Hts Htu Hs1.
  apply wp_bind. destruct q; cbn [qos_eqb negb andb].
  - apply wp_ret. rdx wp_publish_extract. intros pr sec s3 -> Hpr Hs3.
    cbn. repeat (split; [solve [auto]|]). exists sec. auto.
  - apply wp_read_u16; [assumption|e5|]. intros id s2 -> Hid Hs2.
    destruct (id =? 0) eqn:E0; [e5|]. rdx wp_publish_extract. intros pr sec s3 -> Hpr Hs3.
    cbn. repeat (split; [first [solve [auto]|split; [lia|assumption]]|]). exists sec. auto.
  - apply wp_read_u16; [assumption|e5|]. intros id s2 -> Hid Hs2.
    destruct (id =? 0) eqn:E0; [e5|]. rdx wp_publish_extract. intros pr sec s3 -> Hpr Hs3.
    cbn. repeat (split; [first [solve [auto]|split; [lia|assumption]]|]). exists sec. auto.
Qed.

Definition filter_opt (f : V5Subscribe.SubscribeFilter) (o : N) : Prop :=
  o mod 4 = qos_num (V5Subscribe.qos f) /\
  V5Subscribe.nolocal f = bit_at 2 o /\ V5Subscribe.preserve_retain f = bit_at 3 o /\
  o / 16 mod 4 = rule_num (V5Subscribe.retain_forward_rule f) /\
  is_string (V5Subscribe.path f) /\ short (V5Subscribe.path f).
Definition filters_bytes (new : list V5Subscribe.SubscribeFilter) (opts : list N) : bytes :=
  flat_map (fun fo => field (V5Subscribe.path (fst fo)) ++ [snd fo]) (combine new opts).
Lemma filters_loop_sound fuel : forall acc s, bytes_ok s -> (List.length s < fuel)%nat ->
  wp E5 (V5Subscribe.filters_loop fuel acc s)
    (fun fs s' => exists new opts, fs = acc ++ new /\ Forall2 filter_opt new opts /\ s = filters_bytes new opts).
Proof.
  induction fuel as [|fuel IH]; intros acc s Hs Hl; [lia|].
  cbn [V5Subscribe.filters_loop]. destruct s as [|x s]; cbn [has_remaining].
  - cbn. exists [], []. rewrite app_nil_r. repeat split; constructor.
  - remember (x :: s) as s0 eqn:Es0.
    rd. intros p s1 -> Hps Hpu Hs1. rd. intros o s2 -> Ho Hs2.
    rewrite opt_rule, opt_nolocal, opt_preserve, mask3 by assumption.
    eapply wp_table; [apply rule_table|e5|]. intros rl Hrl.
    apply wp_qos5; [lia|]. intros q Hq.
    eapply wp_mono; [apply IH; [assumption|]|].
    { clear - Hl. rewrite app_length in Hl. cbn [List.length] in Hl. lia. }
    intros fs s' (new & opts & -> & HF & ->).
    exists (V5Subscribe.mkSubscribeFilter p q (bit_at 2 o) (bit_at 3 o) rl :: new), (o :: opts).
    rewrite <- app_assoc. cbn [app]. split; [reflexivity|]. split.
    + constructor; [repeat split; assumption|exact HF].
    + unfold filters_bytes. cbn [combine flat_map fst snd V5Subscribe.path]. rewrite <- app_assoc. reflexivity.
Qed.
Lemma subscribe_sound b1 hdr bd : bytes_ok bd -> blen bd <= huge -> b1 / 16 = 8 ->
  wp E5 (V5Subscribe.read (hd b1 hdr bd) (hdr ++ bd)) (fun x _ => decodes_body b1 bd (Subscribe x)).
Proof.
  intros Hb Hm H1. unfold V5Subscribe.read. apply wp_advance.
  rd. intros id s1 -> Hid Hs1. rdx wp_subscribe_extract. intros pr sec s2 -> Hpr Hs2. apply wp_bind.
  eapply wp_mono; [apply filters_loop_sound; [assumption|lia]|].
  intros fs s' (new & opts & -> & HF & ->). cbn [app].
  apply wp_ret. cbn. repeat (split; [assumption|]). exists sec, opts. auto.
Qed.

Lemma suback_loop_sound fuel : forall acc s, bytes_ok s -> (List.length s < fuel)%nat ->
  wp E5 (V5SubAck.codes_loop fuel acc s)
    (fun cs s' => exists new, cs = acc ++ new /\ s = map suback_code new).
Proof.
  induction fuel as [|fuel IH]; intros acc s Hs Hl; [lia|].
  cbn [V5SubAck.codes_loop]. destruct s as [|x s]; cbn [has_remaining].
  - cbn. exists []. rewrite app_nil_r. auto.
  - remember (x :: s) as s0 eqn:Es0.
    rd. intros c s1 -> Hc Hs1. eapply wp_table; [apply suback_table|e5|]. intros rc ->.
    eapply wp_mono; [apply IH; [assumption|cbn [List.length] in Hl; lia]|].
    intros cs s' (new & -> & ->). exists (rc :: new). rewrite <- app_assoc. split; reflexivity.
Qed.
Lemma suback_sound b1 hdr bd : bytes_ok bd -> blen bd <= huge -> b1 / 16 = 9 ->
  wp E5 (V5SubAck.read (hd b1 hdr bd) (hdr ++ bd)) (fun x _ => decodes_body b1 bd (SubAck x)).
Proof.
  intros Hb Hm H1. unfold V5SubAck.read. apply wp_advance.
  rd. intros id s1 -> Hid Hs1. rdx wp_suback_extract. intros pr sec s2 -> Hpr Hs2.
  destruct s2 as [|x s2]; [cbn; e5|].
  remember (x :: s2) as s0 eqn:Es0. replace (has_remaining s0) with true by (subst; reflexivity).
  cbn [negb]. apply wp_bind. eapply wp_mono; [apply suback_loop_sound; [assumption|lia]|].
  intros cs s' (new & -> & Es). cbn [app]. apply wp_ret. cbn [decodes_body V5SubAck.pkid V5SubAck.return_codes].
  repeat split; auto; [intros ->; subst s0; discriminate|]. exists sec. split; [assumption|congruence].
Qed.
Lemma unsuback_loop_sound fuel : forall acc s, bytes_ok s -> (List.length s < fuel)%nat ->
  wp E5 (V5UnsubAck.codes_loop fuel acc s)
    (fun cs s' => exists new, cs = acc ++ new /\ s = map unsuback_code new).
Proof.
  induction fuel as [|fuel IH]; intros acc s Hs Hl; [lia|].
  cbn [V5UnsubAck.codes_loop]. destruct s as [|x s]; cbn [has_remaining].
  - cbn. exists []. rewrite app_nil_r. auto.
  - remember (x :: s) as s0 eqn:Es0.
    rd. intros c s1 -> Hc Hs1. eapply wp_table; [apply unsuback_table|e5|]. intros rc ->.
    eapply wp_mono; [apply IH; [assumption|cbn [List.length] in Hl; lia]|].
    intros cs s' (new & -> & ->). exists (rc :: new). rewrite <- app_assoc. split; reflexivity.
Qed.
Lemma unsuback_sound b1 hdr bd : bytes_ok bd -> blen bd <= huge -> b1 / 16 = 11 ->
  wp E5 (V5UnsubAck.read (hd b1 hdr bd) (hdr ++ bd)) (fun x _ => decodes_body b1 bd (UnsubAck x)).
Proof.
  intros Hb Hm H1. unfold V5UnsubAck.read. apply wp_advance.
  rd. intros id s1 -> Hid Hs1. rdx wp_unsuback_extract. intros pr sec s2 -> Hpr Hs2.
  destruct s2 as [|x s2]; [cbn; e5|].
  remember (x :: s2) as s0 eqn:Es0. replace (has_remaining s0) with true by (subst; reflexivity).
  cbn [negb]. apply wp_bind. eapply wp_mono; [apply unsuback_loop_sound; [assumption|lia]|].
  intros cs s' (new & -> & Es). cbn [app]. apply wp_ret. cbn [decodes_body V5UnsubAck.pkid V5UnsubAck.reasons].
  repeat split; auto; [intros ->; subst s0; discriminate|]. exists sec. split; [assumption|congruence].
Qed.

Lemma topics_loop_sound fuel : forall acc s, bytes_ok s -> (List.length s < fuel)%nat ->
  wp E5 (V5Unsubscribe.filters_loop fuel acc s)
    (fun ts s' => exists new, ts = acc ++ new /\
       Forall (fun t => is_string t /\ short t) new /\ s = flat_map field new).
Proof.
  induction fuel as [|fuel IH]; intros acc s Hs Hl; [lia|].
  cbn [V5Unsubscribe.filters_loop]. destruct s as [|x s]; cbn [has_remaining].
  - cbn. exists []. rewrite app_nil_r. repeat split; constructor.
  - remember (x :: s) as s0 eqn:Es0.
    rd. intros t s1 -> Hts Htu Hs1.
    eapply wp_mono; [apply IH; [assumption|rewrite app_length in Hl; cbn in Hl; lia]|].
    intros ts s' (new & -> & HF & ->). exists (t :: new). rewrite <- app_assoc. repeat split; auto.
Qed.
Lemma unsubscribe_sound b1 hdr bd : bytes_ok bd -> blen bd <= huge -> b1 / 16 = 10 ->
  wp E5 (V5Unsubscribe.read (hd b1 hdr bd) (hdr ++ bd)) (fun x _ => decodes_body b1 bd (Unsubscribe x)).
Proof.
  intros Hb Hm H1. unfold V5Unsubscribe.read. apply wp_advance.
  rd. intros id s1 -> Hid Hs1. rdx wp_unsubscribe_extract. intros pr sec s2 -> Hpr Hs2. apply wp_bind.
  eapply wp_mono; [apply topics_loop_sound; [assumption|lia]|].
  intros ts s' (new & -> & HF & ->). apply wp_ret. cbn. repeat (split; [assumption|]). exists sec. auto.
Qed.

Lemma flags0 b : b < 256 -> b / 16 = 14 -> (N.land b 15 =? 0) = (b =? 0xE0).
Proof.
  intros H H1. assert (Hs := byte_sweep (fun b => implb (b / 16 =? 14) (Bool.eqb (N.land b 15 =? 0) (b =? 0xE0))) eq_refl b H).
  cbv beta in Hs. rewrite H1 in Hs. apply eqb_prop in Hs. exact Hs.
Qed.
Lemma disconnect_sound b1 hdr bd : bytes_ok bd -> blen bd <= huge -> 1 <= blen bd -> b1 < 256 -> b1 / 16 = 14 ->
  wp E5 (V5Disconnect.read (hd b1 hdr bd) (hdr ++ bd)) (fun x _ => decodes_body b1 bd (Disconnect x)).
Proof.
  intros Hb Hm Hn Hb1 H1. unfold V5Disconnect.read. cbv zeta. apply wp_advance. cbn [hd byte1 remaining_len].
  rewrite shiftr4 by assumption. rewrite H1. change (negb (14 =? packet_type_u8 PT_Disconnect)) with false. cbv iota.
  rewrite flags0 by assumption. destruct (b1 =? 0xE0) eqn:Eb; cbn [negb]; [|e5].
  replace (blen bd =? 0) with false by lia.
  rd. intros c s1 -> Hc Hs1. eapply wp_table; [apply disconnect_table|e5|]. intros rc ->.
  rdx wp_disconnect_extract. intros pr sec s2 -> Hpr Hs2. apply wp_ret. cbn. split; [lia|]. exists sec, s2. auto.
Qed.

(** *** completeness *)
Lemma decodes_will_read flags w wbs s : flags < 256 -> blen wbs <= huge -> decodes_will flags w wbs ->
  V5Connect.lw_read flags (wbs ++ s) = Ok (w, s).
Proof.
  intros Hf Hm Hw. unfold V5Connect.lw_read. rewrite mask4 by assumption. destruct w as [w|]; cbn [decodes_will] in Hw.
  - destruct Hw as (H2 & Hq & H5 & Hu & Ht & Hms & sec & -> & Hsec). rewrite H2. cbn [negb].
    rewrite <- !app_assoc.
    assert (Hl : blen sec <= huge) by (revert Hm; clear; autorewrite with blen; lia).
    rewrite (rbind_ok _ _ _ _ _ (will_extract_ok _ _ _ Hl Hsec)).
    rewrite (rbind_ok _ _ _ _ _ (read_string_field _ _ Ht Hu)).
    rewrite (rbind_ok _ _ _ _ _ (read_bytes_field _ _ Hms)).
    rewrite will_qos_bits by assumption. rewrite Hq. unfold rbind, rlift. rewrite qos_of_num.
    rewrite mask32, negb_involutive, H5 by assumption. destruct w; reflexivity.
  - destruct Hw as (-> & H2 & H8). rewrite H2. cbn [negb]. rewrite mask56 by assumption.
    rewrite H8. reflexivity.
Qed.

Lemma filters_loop_complete fuel : forall acc new opts,
  bytes_ok (filters_bytes new opts) -> Forall2 filter_opt new opts ->
  (List.length (filters_bytes new opts) < fuel)%nat ->
  V5Subscribe.filters_loop fuel acc (filters_bytes new opts) = Ok (acc ++ new, []).
Proof.
  induction fuel as [|fuel IH]; intros acc new opts Hb HF Hl; [lia|].
  cbn [V5Subscribe.filters_loop]. destruct HF as [|f o new opts (Hq & Hnl & Hpr & Hr & Hu & Hs) HF].
  - cbn. rewrite app_nil_r. reflexivity.
  - unfold filters_bytes in *. cbn [combine flat_map fst snd] in *. rewrite <- app_assoc in *.
    set (rest := flat_map _ _) in *.
    replace (has_remaining _) with true by (unfold field, be16; reflexivity).
    rewrite (rbind_ok _ _ _ _ _ (read_string_field _ _ Hs Hu)). cbn [app].
    rewrite (rbind_ok _ _ _ _ _ (read_u8_cons _ _)).
    apply bytes_ok_app in Hb as [_ Hb]. apply bytes_ok_cons in Hb as [Ho Hb].
    cbv zeta. rewrite opt_rule, opt_nolocal, opt_preserve, mask3, Hq, Hr, <- Hnl, <- Hpr by assumption.
    unfold rbind at 1, rlift. rewrite rule_of_num.
    unfold rbind at 1, rlift. rewrite qos_of_num.
    destruct f as [p q nl pr rl]. cbn [V5Subscribe.path V5Subscribe.qos V5Subscribe.nolocal V5Subscribe.preserve_retain V5Subscribe.retain_forward_rule] in *.
    unfold rest. rewrite IH; [rewrite <- app_assoc; reflexivity|exact Hb|exact HF|].
    fold rest. rewrite app_length in Hl. cbn [app List.length] in Hl. lia.
Qed.
Lemma suback_loop_complete fuel : forall acc cs, (List.length (map suback_code cs) < fuel)%nat ->
  V5SubAck.codes_loop fuel acc (map suback_code cs) = Ok (acc ++ cs, []).
Proof.
  induction fuel as [|fuel IH]; intros acc cs Hl; [lia|].
  destruct cs as [|c cs]; cbn [V5SubAck.codes_loop map has_remaining].
  - rewrite app_nil_r; reflexivity.
  - rewrite (rbind_ok _ _ _ _ _ (read_u8_cons _ _)). unfold rbind, rlift. rewrite suback_of.
    rewrite IH; [rewrite <- app_assoc; reflexivity|]. cbn [map List.length] in Hl. lia.
Qed.
Lemma unsuback_loop_complete fuel : forall acc cs, (List.length (map unsuback_code cs) < fuel)%nat ->
  V5UnsubAck.codes_loop fuel acc (map unsuback_code cs) = Ok (acc ++ cs, []).
Proof.
  induction fuel as [|fuel IH]; intros acc cs Hl; [lia|].
  destruct cs as [|c cs]; cbn [V5UnsubAck.codes_loop map has_remaining].
  - rewrite app_nil_r; reflexivity.
  - rewrite (rbind_ok _ _ _ _ _ (read_u8_cons _ _)). unfold rbind, rlift. rewrite unsuback_of.
    rewrite IH; [rewrite <- app_assoc; reflexivity|]. cbn [map List.length] in Hl. lia.
Qed.
Lemma topics_loop_complete fuel : forall acc ts, (List.length (flat_map field ts) < fuel)%nat ->
  Forall (fun t => is_string t /\ short t) ts ->
  V5Unsubscribe.filters_loop fuel acc (flat_map field ts) = Ok (acc ++ ts, []).
Proof.
  induction fuel as [|fuel IH]; intros acc ts Hl HF; [lia|].
  destruct HF as [|t ts [Hu Hs] HF]; cbn [V5Unsubscribe.filters_loop flat_map].
  - cbn. rewrite app_nil_r; reflexivity.
  - cbn [flat_map] in Hl. rewrite app_length in Hl.
    replace (has_remaining _) with true by (unfold field, be16; reflexivity).
    rewrite (rbind_ok _ _ _ _ _ (read_string_field _ _ Hs Hu)).
    rewrite IH; [rewrite <- app_assoc; reflexivity| |exact HF].
    cbn [field be16 app List.length] in Hl. lia.
Qed.

Lemma wrap_ok {A} (f : A -> Packet) r a : (exists s, r = Ok (a, s)) -> wrap f r = Ok (f a).
Proof. intros (s & ->). reflexivity. Qed.

Lemma complete_body b1 hdr bd p : b1 < 256 -> bytes_ok bd -> blen bd <= huge -> 1 <= blen bd ->
  decodes_body b1 bd p -> read_frame (hd b1 hdr bd) (hdr ++ bd) = Ok p.
Proof.
  intros Hb1 Hb Hm Hne Hd. unfold read_frame, packet_type. cbn [hd byte1 remaining_len].
  rewrite shiftr4 by assumption.
  replace (blen bd =? 0) with false by lia.
  assert (Hadv : advance (fixed_header_len (hd b1 hdr bd)) (hdr ++ bd) = Ok (tt, bd))
    by (apply advance_app; reflexivity).
  destruct p as [c|c|p|p|p|p|p|s|s|u|u| | |d]; cbn [decodes_body] in Hd.
  - destruct Hd as (-> & flags & sec & wbs & ubs & pbs & u & pw & junk & Hf & Ebd & Hka & Hcu & Hcs & Hcl & Hsec & Hw & Hu & Hp & Hl).
    assert (Hms : blen sec <= huge) by (rewrite Ebd in Hm; autorewrite with blen in Hm; lia).
    assert (Hmw : blen wbs <= huge) by (rewrite Ebd in Hm; autorewrite with blen in Hm; lia).
    cbn [obind]. unfold V5Connect.read. rewrite (rbind_ok _ _ _ _ _ Hadv), Ebd. cbn [app].
    rewrite (rbind_ok _ _ _ _ _ (read_string_field MQTT _ ltac:(cbv; discriminate) ltac:(apply utf8_ok_spec; reflexivity))).
    rewrite (rbind_ok _ _ _ _ _ (read_u8_cons _ _)).
    change (bytes_eqb MQTT V5Connect.mqtt_name) with true. cbn [negb].
    match goal with |- context [rbind (match ?l with 0 => _ | _ => _ end) _ ?s] =>
      rewrite (rbind_ok _ _ _ (V5Connect.protocol c) s) by (destruct (V5Connect.protocol c); reflexivity) end.
    rewrite (rbind_ok _ _ _ _ _ (read_u8_cons _ _)).
    rewrite (rbind_ok _ _ _ _ _ (read_u16_be16 _ _ Hka)).
    match goal with |- context [rbind (match V5Connect.protocol c with _ => _ end) _ (sec ++ ?s)] =>
      rewrite (rbind_ok _ _ (sec ++ s) (V5Connect.properties c) s) end.
    2: { destruct (V5Connect.protocol c); [destruct Hsec as [-> ->]; reflexivity|].
         apply connect_extract_ok; assumption. }
    rewrite (rbind_ok _ _ _ _ _ (read_string_field _ _ Hcs Hcu)).
    rewrite (rbind_ok _ _ _ _ _ (decodes_will_read _ _ _ _ Hf Hmw Hw)).
    unfold V5Connect.login_read. rewrite mask128, mask64 by assumption.
    rewrite (rbind_ok _ _ _ (V5Connect.login c) junk).
    2: { rewrite (rbind_ok _ _ _ _ _ (decodes_opt_string_read _ _ _ _ Hu)).
         rewrite (rbind_ok _ _ _ _ _ (decodes_opt_string_read _ _ _ _ Hp)).
         rewrite Hl, canon_login_spec. destruct (is_empty u && is_empty pw); reflexivity. }
    rewrite mask2, negb_involutive, <- Hcl by assumption. cbn [rret wrap]. destruct c; reflexivity.
  - destruct Hd as (-> & flags & sec & junk & Ebd & Hs & Hsec). cbn [obind]. unfold V5ConnAck.read.
    assert (Hms : blen sec <= huge) by (rewrite Ebd in Hm; autorewrite with blen in Hm; lia).
    rewrite (rbind_ok _ _ _ _ _ Hadv), Ebd.
    rewrite (rbind_ok _ _ _ _ _ (read_u8_cons _ _)). rewrite (rbind_ok _ _ _ _ _ (read_u8_cons _ _)).
    rewrite (rbind_ok _ _ _ (V5ConnAck.code c) (sec ++ junk)) by (unfold rlift; rewrite connack_of; reflexivity).
    rewrite (rbind_ok _ _ _ _ _ (connack_extract_ok _ _ _ Hms Hsec)).
    rewrite Ebd in Hb. apply bytes_ok_cons in Hb as [Hf _].
    rewrite mask1', <- Hs by assumption. destruct c; reflexivity.
  - destruct Hd as (-> & Hdup & Hq & Hr & Hu & Hs & Hid & sec & Ebd & Hsec). cbn [obind]. unfold V5Publish.read.
    assert (Hms : blen sec <= huge) by (rewrite Ebd in Hm; autorewrite with blen in Hm; lia).
    cbn [hd byte1] in *. rewrite pub_qos_bits, Hq by assumption. unfold rbind at 1, rlift. rewrite qos_of_num.
    rewrite (rbind_ok _ _ _ _ _ Hadv), Ebd.
    rewrite (rbind_ok _ _ _ _ _ (read_string_field _ _ Hs Hu)).
    rewrite mask8, mask1, !negb_involutive, <- Hdup, <- Hr by assumption.
    destruct p as [dup q ret t id pr pl]; cbn [V5Publish.dup V5Publish.qos V5Publish.retain V5Publish.topic V5Publish.pkid V5Publish.payload V5Publish.properties] in *.
    rewrite (rbind_ok _ _ _ id (sec ++ pl)).
    2: { destruct q; cbn [positive_qos qos_eqb negb app] in *; [subst id; reflexivity| |];
         rewrite read_u16_be16; auto; apply Hid. }
    assert (E0 : negb (qos_eqb q AtMostOnce) && (id =? 0) = false)
      by (destruct q; cbn [positive_qos qos_eqb negb andb] in *; [reflexivity| |]; lia).
    cbv beta zeta. rewrite E0. rewrite (rbind_ok _ _ _ _ _ (publish_extract_ok _ _ _ Hms Hsec)). reflexivity.
  - destruct Hd as (-> & Hd). cbn [obind]. destruct p as [id rc o].
    apply wrap_ok, (ack_complete V5PubAck.reason_of puback_code InvalidConnectReturnCode V5PubAck.Success V5PubAck.extract
      (allowed_at InPubAck) puback_record V5PubAck.mkPubAck puback_table puback_of err_irc eq_refl puback_zero wp_puback_extract puback_extract_ok b1 hdr bd id rc o Hm Hd).
  - destruct Hd as (-> & Hd). cbn [obind]. destruct p as [id rc o].
    apply wrap_ok, (ack_complete V5PubRec.reason_of pubrec_code InvalidConnectReturnCode V5PubRec.Success V5PubRec.extract
      (allowed_at InPubRec) pubrec_record V5PubRec.mkPubRec pubrec_table pubrec_of err_irc eq_refl pubrec_zero wp_pubrec_extract pubrec_extract_ok b1 hdr bd id rc o Hm Hd).
  - destruct Hd as (-> & Hd). cbn [obind]. destruct p as [id rc o].
    apply wrap_ok, (ack_complete V5PubRel.reason_of pubrel_code InvalidConnectReturnCode V5PubRel.Success V5PubRel.extract
      (allowed_at InPubRel) pubrel_record V5PubRel.mkPubRel pubrel_table pubrel_of err_irc eq_refl pubrel_zero wp_pubrel_extract pubrel_extract_ok b1 hdr bd id rc o Hm Hd).
  - destruct Hd as (-> & Hd). cbn [obind]. destruct p as [id rc o].
    apply wrap_ok, (ack_complete V5PubComp.reason_of pubcomp_code InvalidConnectReturnCode V5PubComp.Success V5PubComp.extract
      (allowed_at InPubComp) pubcomp_record V5PubComp.mkPubComp pubcomp_table pubcomp_of err_irc eq_refl pubcomp_zero wp_pubcomp_extract pubcomp_extract_ok b1 hdr bd id rc o Hm Hd).
  - destruct Hd as (-> & Hid & sec & opts & Hsec & HF & Ebd). cbn [obind]. unfold V5Subscribe.read.
    assert (Hms : blen sec <= huge) by (rewrite Ebd in Hm; autorewrite with blen in Hm; lia).
    rewrite (rbind_ok _ _ _ _ _ Hadv), Ebd, (rbind_ok _ _ _ _ _ (read_u16_be16 _ _ Hid)).
    rewrite (rbind_ok _ _ _ _ _ (subscribe_extract_ok _ _ _ Hms Hsec)).
    rewrite (rbind_ok _ _ _ (V5Subscribe.filters s) []); [destruct s; reflexivity|].
    apply (filters_loop_complete _ []); [|exact HF|unfold filters_bytes; lia].
    rewrite Ebd in Hb. apply bytes_ok_app in Hb as [_ Hb]. apply bytes_ok_app in Hb. apply Hb.
  - destruct Hd as (-> & Hid & Hcs & sec & Hsec & Ebd). cbn [obind]. unfold V5SubAck.read.
    assert (Hms : blen sec <= huge) by (rewrite Ebd in Hm; autorewrite with blen in Hm; lia).
    rewrite (rbind_ok _ _ _ _ _ Hadv), Ebd, (rbind_ok _ _ _ _ _ (read_u16_be16 _ _ Hid)).
    rewrite (rbind_ok _ _ _ _ _ (suback_extract_ok _ _ _ Hms Hsec)).
    replace (has_remaining (map suback_code (V5SubAck.return_codes s))) with true
      by (destruct (V5SubAck.return_codes s); [contradiction|reflexivity]).
    cbn [negb]. rewrite (rbind_ok _ _ _ (V5SubAck.return_codes s) []) by (apply (suback_loop_complete _ []); lia).
    destruct s; reflexivity.
  - destruct Hd as (-> & Hid & HF & sec & Hsec & Ebd). cbn [obind]. unfold V5Unsubscribe.read.
    assert (Hms : blen sec <= huge) by (rewrite Ebd in Hm; autorewrite with blen in Hm; lia).
    rewrite (rbind_ok _ _ _ _ _ Hadv), Ebd, (rbind_ok _ _ _ _ _ (read_u16_be16 _ _ Hid)).
    rewrite (rbind_ok _ _ _ _ _ (unsubscribe_extract_ok _ _ _ Hms Hsec)).
    rewrite (rbind_ok _ _ _ (V5Unsubscribe.filters u) []) by (apply (topics_loop_complete _ []); [lia|exact HF]).
    destruct u; reflexivity.
  - destruct Hd as (-> & Hid & Hcs & sec & Hsec & Ebd). cbn [obind]. unfold V5UnsubAck.read.
    assert (Hms : blen sec <= huge) by (rewrite Ebd in Hm; autorewrite with blen in Hm; lia).
    rewrite (rbind_ok _ _ _ _ _ Hadv), Ebd, (rbind_ok _ _ _ _ _ (read_u16_be16 _ _ Hid)).
    rewrite (rbind_ok _ _ _ _ _ (unsuback_extract_ok _ _ _ Hms Hsec)).
    replace (has_remaining (map unsuback_code (V5UnsubAck.reasons u))) with true
      by (destruct (V5UnsubAck.reasons u); [contradiction|reflexivity]).
    cbn [negb]. rewrite (rbind_ok _ _ _ (V5UnsubAck.reasons u) []) by (apply (unsuback_loop_complete _ []); lia).
    destruct u; reflexivity.
  - rewrite Hd. reflexivity.
  - rewrite Hd. reflexivity.
  - destruct Hd as (-> & sec & junk & Ebd & Hsec). cbn [obind]. change (0xE0 / 16) with 14. cbn [obind].
    unfold V5Disconnect.read. cbv zeta.
    assert (Hms : blen sec <= huge) by (rewrite Ebd in Hm; autorewrite with blen in Hm; lia).
    rewrite (rbind_ok _ _ _ _ _ Hadv). cbn [hd byte1 remaining_len].
    change (negb (N.shiftr 0xE0 4 =? packet_type_u8 PT_Disconnect)) with false.
    change (negb (N.land 0xE0 15 =? 0)) with false. cbv iota.
    replace (blen bd =? 0) with false by lia. rewrite Ebd.
    rewrite (rbind_ok _ _ _ _ _ (read_u8_cons _ _)).
    rewrite (rbind_ok _ _ _ (V5Disconnect.reason_code d) (sec ++ junk)) by (unfold rlift; rewrite disconnect_of; reflexivity).
    rewrite (rbind_ok _ _ _ _ _ (disconnect_extract_ok _ _ _ Hms Hsec)). destruct d; reflexivity.
Qed.

(** *** read_frame *)
Lemma frame_sound b1 hdr bd : b1 < 256 -> bytes_ok bd -> blen bd <= huge ->
  match read_frame (hd b1 hdr bd) (hdr ++ bd) with
  | Ok p => decodes_body b1 bd p
  | Err e => E5 e
  | Panic | Diverge => False
  end.
Proof.
  intros Hb1 Hb Hm. unfold read_frame, packet_type. cbn [hd byte1 remaining_len].
  rewrite shiftr4 by assumption.
  assert (Hw : forall A (f : A -> Packet) (r : outcome (A * bytes)),
    wp E5 r (fun x _ => decodes_body b1 bd (f x)) ->
    match wrap f r with Ok p => decodes_body b1 bd p | Err e => E5 e | Panic | Diverge => False end).
  { intros A f r. destruct r as [[a ?]|e| |]; cbn; auto. }
  assert (Hn : b1 / 16 < 16) by lia.
  destruct (b1 / 16) as [|n] eqn:En; [cbn; e5|].
  do 4 (try destruct n as [n|n|]); try (exfalso; lia); cbn [obind]; try (cbn; e5);
    (destruct (blen bd =? 0) eqn:E0; [first [exact En | e5]|]);
    try exact En; apply Hw; fold (hd b1 hdr bd); apply N.eqb_neq in E0; assert (Hne : 1 <= blen bd) by lia.
  all: first [ apply connect_sound | apply connack_sound | apply publish_sound | apply puback_sound
    | apply pubrec_sound | apply pubrel_sound | apply pubcomp_sound | apply subscribe_sound
    | apply suback_sound | apply unsubscribe_sound | apply unsuback_sound | apply disconnect_sound ]; assumption.
Qed.

Lemma decodes_nonempty b1 p : decodes_body b1 [] p -> p = PingReq \/ p = PingResp.
Proof.
  destruct p; cbn [decodes_body]; auto; intros H; exfalso; unfold decodes_ack in H;
    repeat match goal with
    | H : exists _, _ |- _ => destruct H
    | H : _ /\ _ |- _ => destruct H
    | H : _ \/ _ |- _ => destruct H
    end;
    match goal with E : [] = _ |- _ => discriminate E end.
Qed.
Lemma frame_complete b1 hdr bd p : b1 < 256 -> bytes_ok bd -> blen bd <= huge -> decodes_body b1 bd p ->
  read_frame (hd b1 hdr bd) (hdr ++ bd) = Ok p.
Proof.
  intros Hb1 Hb Hm Hd. destruct bd as [|x bd].
  - assert (Hp := decodes_nonempty _ _ Hd). unfold read_frame, packet_type. cbn [hd byte1 remaining_len].
    rewrite shiftr4 by assumption.
    destruct Hp as [->| ->]; cbn [decodes_body] in Hd; rewrite Hd; reflexivity.
  - apply complete_body; auto. autorewrite with blen; lia.
Qed.

(** *** read on a stream *)
Lemma read_complete_frame b1 f bd rest max :
  bytes_ok (b1 :: f ++ bd ++ rest) -> lenfield f (blen bd) -> blen f <= 4 -> blen bd <= max ->
  read (b1 :: f ++ bd ++ rest) max = (read_frame (hd b1 (b1 :: f) bd) ((b1 :: f) ++ bd), rest).
Proof.
  intros Hb Hf Hl Hm. unfold read.
  rewrite check_frame with (n := blen bd) by (auto; autorewrite with blen; lia).
  assert (E : b1 :: f ++ bd ++ rest = ((b1 :: f) ++ bd) ++ rest)
    by (cbn [app]; rewrite <- app_assoc; reflexivity).
  rewrite E. unfold hd. rewrite blen_cons.
  rewrite frame_length_field by assumption. cbn [obind].
  rewrite split_to_app; [reflexivity|]. autorewrite with blen. lia.
Qed.
Lemma read_no_frame s max e : check s max = Err e -> read s max = (Err e, s).
Proof. intros H. unfold read. rewrite H. reflexivity. Qed.

(** every call of [read] is one of these two cases *)
Lemma read_cases s max : bytes_ok s ->
  (exists e, check s max = Err e /\ read s max = (Err e, s)) \/
  (exists b1 f bd rest, s = b1 :: f ++ bd ++ rest /\ lenfield f (blen bd) /\ blen f <= 4 /\ blen bd <= max /\
     b1 < 256 /\ bytes_ok bd /\ bytes_ok rest /\
     read s max = (read_frame (hd b1 (b1 :: f) bd) ((b1 :: f) ++ bd), rest)).
Proof.
  intros Hb. destruct (check s max) as [h|e| |] eqn:Ec.
  - right. destruct (check_ok_inv s max h Hb Ec) as (b1 & f & bd & rest & -> & Hf & Hl & Hm & ->).
    exists b1, f, bd, rest. repeat split; auto.
    + apply bytes_ok_cons in Hb. apply Hb.
    + apply bytes_ok_cons in Hb as [_ Hb]. apply bytes_ok_app in Hb as [_ Hb]. apply bytes_ok_app in Hb. apply Hb.
    + apply bytes_ok_cons in Hb as [_ Hb]. apply bytes_ok_app in Hb as [_ Hb]. apply bytes_ok_app in Hb. apply Hb.
    + apply read_complete_frame; auto.
  - left. exists e. split; [reflexivity|apply read_no_frame, Ec].
  - exfalso. exact (proj1 (check_no_panic s max Hb) Ec).
  - exfalso. exact (proj2 (check_no_panic s max Hb) Ec).
Qed.

Lemma read_iff s max p rest : bytes_ok s ->
  (read s max = (Ok p, rest) <->
   exists b1 bd, starts_with_frame s b1 bd rest /\ blen bd <= max /\ decodes_body b1 bd p).
Proof.
  intros Hb. split.
  - intros H. destruct (read_cases s max Hb) as [(e & _ & E)|(b1 & f & bd & rest' & Es & Hf & Hl & Hm & Hb1 & Hbd & Hr & E)].
    + rewrite E in H. discriminate.
    + rewrite E in H. injection H as Hp <-. exists b1, bd. split; [exists f; auto|]. split; [exact Hm|].
      assert (Hs := frame_sound b1 (b1 :: f) bd Hb1 Hbd (le_huge _ (lenfield_bound _ _ Hf Hl))). cbn [app] in Hs. rewrite Hp in Hs. exact Hs.
  - intros (b1 & bd & (f & -> & Hf & Hl) & Hm & Hd).
    rewrite read_complete_frame by assumption. f_equal.
    apply bytes_ok_cons in Hb as [Hb1 Hb]. apply bytes_ok_app in Hb as [_ Hb]. apply bytes_ok_app in Hb as [Hbd _].
    apply frame_complete; auto. exact (le_huge _ (lenfield_bound _ _ Hf Hl)).
Qed.

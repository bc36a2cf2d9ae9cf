(** PropLog.v -- C55 at the level of the source text, C69 and C70: what `{:?}` of a whole packet says. *)
From Coq Require Import String.
From Verif Require Import ProofBase Lib Debug SrcFmt SrcDebug SpecDebug PropDebug ProofSrcDebug.
From Verif Require V4Connect V5Connect V4Publish V4Subscribe V5Publish V5Subscribe V4Mod V5Mod.

(** ** C55 about the translated text *)
Theorem C55_source_publish : forall esc,
  (forall p q, v4_Publish_debug esc p = v4_Publish_debug esc q <->
     V4Publish.topic p = V4Publish.topic q /\ V4Publish.qos p = V4Publish.qos q /\
     V4Publish.retain p = V4Publish.retain q /\ V4Publish.pkid p = V4Publish.pkid q /\
     blen (V4Publish.payload p) = blen (V4Publish.payload q)) /\
  (forall p q, v5_Publish_debug esc p = v5_Publish_debug esc q <->
     V5Publish.topic p = V5Publish.topic q /\ V5Publish.qos p = V5Publish.qos q /\
     V5Publish.retain p = V5Publish.retain q /\ V5Publish.pkid p = V5Publish.pkid q /\
     blen (V5Publish.payload p) = blen (V5Publish.payload q)).
Proof.
  intros esc. destruct C55_publish as (A & B & _).
  split; intros p q; rewrite ?src_publish4, ?src_publish5; [apply A|apply B].
Qed.
Theorem C55_source_filter : forall esc,
  (forall f g, v4_SubscribeFilter_debug esc f = v4_SubscribeFilter_debug esc g <-> f = g) /\
  (forall f g, v5_SubscribeFilter_debug esc f = v5_SubscribeFilter_debug esc g <-> f = g).
Proof.
  intros esc. destruct C55_filter as (A & B).
  split; intros p q; rewrite ?src_filter4, ?src_filter5; [apply A|apply B].
Qed.
Lemma free_no_comma s : free_of_commas s <-> no_comma s.
Proof.
  unfold free_of_commas, no_comma. rewrite Forall_forall. split; intros H; [intros c Hc ->; auto|intros Hc; exact (H _ Hc eq_refl)].
Qed.
Lemma frees {A} (path : A -> bytes) l : Forall (fun f => free_of_commas (path f)) l -> Forall (fun f => no_comma (path f)) l.
Proof. intros H. eapply Forall_impl; [|exact H]. intros a Ha. apply free_no_comma, Ha. Qed.
Theorem C55_source_subscribe : forall esc,
  (forall s s', Forall (fun f => free_of_commas (V4Subscribe.path f)) (V4Subscribe.filters s) ->
     Forall (fun f => free_of_commas (V4Subscribe.path f)) (V4Subscribe.filters s') ->
     (v4_Subscribe_debug esc s = v4_Subscribe_debug esc s' <-> s = s')) /\
  (forall s s', Forall (fun f => free_of_commas (V5Subscribe.path f)) (V5Subscribe.filters s) ->
     Forall (fun f => free_of_commas (V5Subscribe.path f)) (V5Subscribe.filters s') ->
     (v5_Subscribe_debug esc s = v5_Subscribe_debug esc s' <->
      V5Subscribe.filters s = V5Subscribe.filters s' /\ V5Subscribe.pkid s = V5Subscribe.pkid s')).
Proof.
  intros esc. destruct C55_subscribe_without_commas as (A & B).
  split; intros p q H H'; apply frees in H, H'; rewrite ?src_subscribe4, ?src_subscribe5; auto.
Qed.
Theorem C55_source_errors : forall esc e e', Error_display esc e = Error_display esc e' <-> e = e'.
Proof. intros esc e e'. rewrite !src_error. apply C55_errors. Qed.

Theorem C55_source_texts : forall esc,
  (forall e, Error_display esc e = txt "Error = " ++ Error_debug esc e /\ Error_display esc e = error_display e) /\
  (forall p q r, In (V4Publish.qos p, q) qos_words -> In (V4Publish.retain p, r) bool_words ->
     exists id size, numeral (V4Publish.pkid p) id /\ numeral (blen (V4Publish.payload p)) size /\
       v4_Publish_debug esc p = publish_line (V4Publish.topic p) q r id size) /\
  (forall p q r, In (V5Publish.qos p, q) qos_words -> In (V5Publish.retain p, r) bool_words ->
     exists id size, numeral (V5Publish.pkid p) id /\ numeral (blen (V5Publish.payload p)) size /\
       v5_Publish_debug esc p = publish_line (V5Publish.topic p) q r id size) /\
  (forall f, filter4_line f (v4_SubscribeFilter_debug esc f)) /\ (forall f, filter5_line f (v5_SubscribeFilter_debug esc f)) /\
  (forall s, exists lines text id, Forall2 filter4_line (V4Subscribe.filters s) lines /\ joined lines text /\
     numeral (V4Subscribe.pkid s) id /\ v4_Subscribe_debug esc s = txt "Filters = [" ++ text ++ txt "], Packet id = " ++ id) /\
  (forall s, exists lines text id, Forall2 filter5_line (V5Subscribe.filters s) lines /\ joined lines text /\
     numeral (V5Subscribe.pkid s) id /\ v5_Subscribe_debug esc s = txt "Filters = [" ++ text ++ txt "], Packet id = " ++ id).
Proof.
  intros esc. destruct C55_packet_texts as (A & B & C & D & E & F).
  split; [intros e; split; [reflexivity|apply src_error]|].
  split; [intros p q r; rewrite src_publish4; apply A|]. split; [intros p q r; rewrite src_publish5; apply B|].
  split; [intros f; rewrite src_filter4; apply C|]. split; [intros f; rewrite src_filter5; apply D|].
  split; intros s; [rewrite src_subscribe4; apply E|rewrite src_subscribe5; apply F].
Qed.

(** ** C69: the log text tells the kind of the packet ... *)
Theorem C69_kind : forall esc,
  (forall p q, v4_Packet_debug esc p = v4_Packet_debug esc q -> v4_kind p = v4_kind q) /\
  (forall p q, v5_Packet_debug esc p = v5_Packet_debug esc q -> v5_kind p = v5_kind q).
Proof.
  intros esc. split; intros p q E.
  - destruct p, q; try reflexivity; exfalso; cbn [v4_Packet_debug] in E; unfold fmt_tuple in E; discriminate E.
  - destruct p as [c|c|p|x|x|x|x|s|s|u|u| | |d], q as [c'|c'|p'|x'|x'|x'|x'|s'|s'|u'|u'| | |d'];
      try reflexivity; exfalso; cbn [v5_Packet_debug] in E; unfold fmt_tuple in E; discriminate E.
Qed.

Lemma tuple_eq {A} (show : A -> bytes) name x y : fmt_tuple name (show x) = fmt_tuple name (show y) -> show x = show y.
Proof. unfold fmt_tuple. intros E. do 2 apply app_inv_head in E. apply app_inv_tail in E. exact E. Qed.
Lemma tuple_coded {A} (show : A -> bytes) name x y : Coded show ->
  fmt_tuple name (show x) = fmt_tuple name (show y) -> x = y.
Proof.
  intros H E. apply tuple_eq in E. destruct (H x y [] [] I I); [|assumption]. rewrite !app_nil_r. exact E.
Qed.

(** ** ... and everything in it, except for PUBLISH (no DUP flag, no payload, no properties) and
    SUBSCRIBE (no properties; filters without commas) *)
Theorem C69_v4 : forall esc, quoting esc -> forall p q, v4_no_commas p -> v4_no_commas q ->
  (v4_Packet_debug esc p = v4_Packet_debug esc q <-> v4_logged_alike p q).
Proof.
  intros esc Hq p q Hp Hr. split.
  - intros E. pose proof (proj1 (C69_kind esc) p q E) as K.
    destruct p, q; try discriminate K; cbn [v4_Packet_debug] in E; cbn [v4_logged_alike]; try reflexivity;
      try (apply tuple_coded in E; [f_equal; exact E|eauto with typeclass_instances; fail]).
    + apply tuple_eq in E. apply C55_source_publish in E. exact E.
    + apply tuple_eq in E. f_equal. apply C55_source_subscribe in E; assumption.
  - destruct p, q; cbn [v4_logged_alike]; intros E; try reflexivity; try (rewrite E; reflexivity); try discriminate E.
    cbn [v4_Packet_debug]. f_equal. apply C55_source_publish, E.
Qed.
Theorem C69_v5 : forall esc, quoting esc -> forall p q, v5_no_commas p -> v5_no_commas q ->
  (v5_Packet_debug esc p = v5_Packet_debug esc q <-> v5_logged_alike p q).
Proof.
  intros esc Hq p q Hp Hr. split.
  - intros E. pose proof (proj2 (C69_kind esc) p q E) as K.
    destruct p as [c|c|p|x|x|x|x|s|s|u|u| | |d], q as [c'|c'|p'|x'|x'|x'|x'|s'|s'|u'|u'| | |d'];
      try discriminate K; cbn [v5_Packet_debug] in E; cbn [v5_logged_alike]; try reflexivity;
      try (apply tuple_coded in E; [f_equal; exact E|eauto with typeclass_instances; fail]).
    + apply tuple_eq in E. apply C55_source_publish in E. exact E.
    + apply tuple_eq in E. apply C55_source_subscribe in E as [A B]; auto.
  - destruct p as [c|c|p|x|x|x|x|s|s|u|u| | |d], q as [c'|c'|p'|x'|x'|x'|x'|s'|s'|u'|u'| | |d'];
      cbn [v5_logged_alike]; intros E; try reflexivity; try (rewrite E; reflexivity); try discriminate E.
    + cbn [v5_Packet_debug]. f_equal. apply C55_source_publish, E.
    + cbn [v5_Packet_debug]. f_equal. apply C55_source_subscribe; [exact Hp|exact Hr|]. tauto.
Qed.

(** ** C70: `{:?}` of a CONNECT shows the credentials and the will in clear *)
Lemma bytes_plain s : Forall plain_char s -> fmt_bytes s = 98 :: 34 :: s ++ [34].
Proof.
  intros H. unfold fmt_bytes. f_equal. f_equal. f_equal. induction H as [|c s (H1 & H2 & _ & H3) _ IH]; [reflexivity|].
  cbn [flat_map]. rewrite IH. unfold byte_esc.
  destruct (N.eqb_spec c 10), (N.eqb_spec c 13), (N.eqb_spec c 9), (N.eqb_spec c 92), (N.eqb_spec c 34), (N.eqb_spec c 0); try lia.
  cbn [orb]. destruct (N.leb_spec 32 c), (N.ltb_spec c 127); try lia. reflexivity.
Qed.
Lemma contains_refl s : contains s s. Proof. exists [], []. cbn. rewrite app_nil_r. reflexivity. Qed.
Lemma contains_l s t u : contains t s -> contains (u ++ t) s.
Proof. intros (a & b & ->). exists (u ++ a), b. rewrite <- app_assoc. reflexivity. Qed.
Lemma contains_r s t u : contains t s -> contains (t ++ u) s.
Proof. intros (a & b & ->). exists a, (b ++ u). rewrite <- !app_assoc. reflexivity. Qed.
Lemma contains_trans s t u : contains t s -> contains u t -> contains u s.
Proof. intros H (a & b & ->). apply contains_l, contains_r, H. Qed.
Lemma contains_field f v fs : In (f, v) fs -> contains (fmt_fields fs) (f ++ txt ": " ++ v).
Proof.
  induction fs as [|[g w] fs IH]; intros H; [destruct H|destruct H as [H|H]].
  - injection H as -> ->. destruct fs as [|x fs]; [apply contains_refl|].
    change (contains (f ++ txt ": " ++ v ++ txt ", " ++ fmt_fields (x :: fs)) (f ++ txt ": " ++ v)).
    exists [], (txt ", " ++ fmt_fields (x :: fs)). rewrite <- !app_assoc. reflexivity.
  - destruct fs as [|x fs]; [destruct H|].
    change (contains (g ++ txt ": " ++ w ++ txt ", " ++ fmt_fields (x :: fs)) (f ++ txt ": " ++ v)).
    do 4 apply contains_l. apply IH, H.
Qed.
Lemma contains_struct n f v fs : In (f, v) fs -> contains (fmt_struct n fs) (f ++ txt ": " ++ v).
Proof.
  intros H. unfold fmt_struct. destruct fs as [|x fs]; [destruct H|].
  apply contains_l, contains_l, contains_r, contains_field, H.
Qed.
Lemma contains_value n f v fs : In (f, v) fs -> contains (fmt_struct n fs) v.
Proof. intros H. eapply contains_trans; [|eapply contains_struct, H]. do 2 apply contains_l. apply contains_refl. Qed.
Lemma contains_tuple n v : contains (fmt_tuple n v) v.
Proof. unfold fmt_tuple. apply contains_l, contains_l, contains_r, contains_refl. Qed.

Definition quoted (s : bytes) : bytes := [34] ++ s ++ [34].
Theorem C70_password : forall esc, verbatim esc ->
  (forall c l, V4Connect.login c = Some l -> Forall plain_char (V4Connect.username l) -> Forall plain_char (V4Connect.password l) ->
     contains (v4_Packet_debug esc (V4Mod.Connect c)) (txt "username: " ++ quoted (V4Connect.username l)) /\
     contains (v4_Packet_debug esc (V4Mod.Connect c)) (txt "password: " ++ quoted (V4Connect.password l))) /\
  (forall c l, V5Connect.login c = Some l -> Forall plain_char (V5Connect.username l) -> Forall plain_char (V5Connect.password l) ->
     contains (v5_Packet_debug esc (V5Mod.Connect c)) (txt "username: " ++ quoted (V5Connect.username l)) /\
     contains (v5_Packet_debug esc (V5Mod.Connect c)) (txt "password: " ++ quoted (V5Connect.password l))).
Proof.
  intros esc Hv. split; intros c l Hl Hu Hp.
  - assert (H : contains (v4_Packet_debug esc (V4Mod.Connect c)) (v4_Login_debug esc l)).
    { cbn [v4_Packet_debug]. eapply contains_trans; [|apply contains_tuple].
      eapply contains_trans; [|unfold v4_Connect_debug; eapply (contains_value _ (txt "login")); cbn [In]; do 5 right; left; reflexivity].
      rewrite Hl. apply contains_tuple. }
    split; (eapply contains_trans; [|exact H]); unfold v4_Login_debug, fmt_str.
    + change (txt "username: ") with (txt "username" ++ txt ": "). rewrite <- app_assoc.
      apply contains_struct. left. rewrite (Hv _ Hu). reflexivity.
    + change (txt "password: ") with (txt "password" ++ txt ": "). rewrite <- app_assoc.
      apply contains_struct. right. left. rewrite (Hv _ Hp). reflexivity.
  - assert (H : contains (v5_Packet_debug esc (V5Mod.Connect c)) (v5_Login_debug esc l)).
    { cbn [v5_Packet_debug]. eapply contains_trans; [|apply contains_tuple].
      eapply contains_trans; [|unfold v5_Connect_debug; eapply (contains_value _ (txt "login")); cbn [In]; do 5 right; left; reflexivity].
      rewrite Hl. apply contains_tuple. }
    split; (eapply contains_trans; [|exact H]); unfold v5_Login_debug, fmt_str.
    + change (txt "username: ") with (txt "username" ++ txt ": "). rewrite <- app_assoc.
      apply contains_struct. left. rewrite (Hv _ Hu). reflexivity.
    + change (txt "password: ") with (txt "password" ++ txt ": "). rewrite <- app_assoc.
      apply contains_struct. right. left. rewrite (Hv _ Hp). reflexivity.
Qed.
Theorem C70_will : forall esc,
  (forall c w, V4Connect.last_will c = Some w -> Forall plain_char (V4Connect.lw_message w) ->
     contains (v4_Packet_debug esc (V4Mod.Connect c)) (txt "message: b" ++ quoted (V4Connect.lw_message w))) /\
  (forall c w, V5Connect.last_will c = Some w -> Forall plain_char (V5Connect.lw_message w) ->
     contains (v5_Packet_debug esc (V5Mod.Connect c)) (txt "message: b" ++ quoted (V5Connect.lw_message w))).
Proof.
  intros esc. split; intros c w Hw Hm.
  - assert (H : contains (v4_Packet_debug esc (V4Mod.Connect c)) (v4_LastWill_debug esc w)).
    { cbn [v4_Packet_debug]. eapply contains_trans; [|apply contains_tuple].
      eapply contains_trans; [|unfold v4_Connect_debug; eapply (contains_value _ (txt "last_will")); cbn [In]; do 4 right; left; reflexivity].
      rewrite Hw. apply contains_tuple. }
    eapply contains_trans; [|exact H]. unfold v4_LastWill_debug.
    change (txt "message: b" ++ quoted (V4Connect.lw_message w)) with (txt "message" ++ txt ": " ++ 98 :: 34 :: V4Connect.lw_message w ++ [34]).
    apply contains_struct. right. left. rewrite (bytes_plain _ Hm). reflexivity.
  - assert (H : contains (v5_Packet_debug esc (V5Mod.Connect c)) (v5_LastWill_debug esc w)).
    { cbn [v5_Packet_debug]. eapply contains_trans; [|apply contains_tuple].
      eapply contains_trans; [|unfold v5_Connect_debug; eapply (contains_value _ (txt "last_will")); cbn [In]; do 4 right; left; reflexivity].
      rewrite Hw. apply contains_tuple. }
    eapply contains_trans; [|exact H]. unfold v5_LastWill_debug.
    change (txt "message: b" ++ quoted (V5Connect.lw_message w)) with (txt "message" ++ txt ": " ++ 98 :: 34 :: V5Connect.lw_message w ++ [34]).
    apply contains_struct. right. left. rewrite (bytes_plain _ Hm). reflexivity.
Qed.

(** ** C70: `{:?}` of a PUBLISH depends on the payload only through its length *)
Theorem C70_publish : forall esc,
  (forall dup qos retain topic pkid payload payload', blen payload = blen payload' ->
     v4_Packet_debug esc (V4Mod.Publish (V4Publish.mkPublish dup qos retain topic pkid payload))
     = v4_Packet_debug esc (V4Mod.Publish (V4Publish.mkPublish dup qos retain topic pkid payload'))) /\
  (forall dup qos retain topic pkid payload payload' props, blen payload = blen payload' ->
     v5_Packet_debug esc (V5Mod.Publish (V5Publish.mkPublish dup qos retain topic pkid props payload))
     = v5_Packet_debug esc (V5Mod.Publish (V5Publish.mkPublish dup qos retain topic pkid props payload'))).
Proof.
  intros esc. split; intros; cbn [v4_Packet_debug v5_Packet_debug]; apply (f_equal (fmt_tuple _)); apply C55_source_publish;
    cbn; repeat split; assumption.
Qed.

(** ** The cases *)
Example C69_case :
  quoting simple_esc /\ verbatim simple_esc /\
  v4_Packet_debug simple_esc (V4Mod.Connect (V4Connect.mkConnect V4 10 (txt "dev") true
     (Some (V4Connect.mkLastWill (txt "a/b") [0; 65; 255] AtLeastOnce false)) (Some (V4Connect.mkLogin (txt "u") (txt "secret")))))
  = txt "Connect(Connect { protocol: V4, keep_alive: 10, client_id: " ++ quoted (txt "dev")
    ++ txt ", clean_session: true, last_will: Some(LastWill { topic: " ++ quoted (txt "a/b")
    ++ txt ", message: b" ++ quoted (txt "\0A\xff") ++ txt ", qos: AtLeastOnce, retain: false }), login: Some(Login { username: "
    ++ quoted (txt "u") ++ txt ", password: " ++ quoted (txt "secret") ++ txt " }) })" /\
  v5_Packet_debug simple_esc (V5Mod.SubAck (V5SubAck.mkSubAck 7 [V5SubAck.QoS0; V5SubAck.Unspecified] (Some (V5SubAck.mkSubAckProperties None [(txt "k", txt "v")]))))
  = txt "SubAck(SubAck { pkid: 7, return_codes: [QoS0, Unspecified], properties: Some(SubAckProperties { reason_string: None, user_properties: [("
    ++ quoted (txt "k") ++ txt ", " ++ quoted (txt "v") ++ txt ")] }) })" /\
  v4_Packet_debug simple_esc V4Mod.PingReq = txt "PingReq" /\
  Forall plain_char (txt "secret").
Proof.
  split; [apply simple_quoting|]. split; [apply simple_quoting|].
  split; [vm_compute; reflexivity|]. split; [vm_compute; reflexivity|]. split; [reflexivity|].
  repeat constructor; try discriminate; lia.
Qed.
Example C70_case :
  let c := V4Connect.mkConnect V4 10 (txt "dev") true None (Some (V4Connect.mkLogin (txt "u") (txt "secret"))) in
  verbatim simple_esc /\ V4Connect.login c = Some (V4Connect.mkLogin (txt "u") (txt "secret")) /\ Forall plain_char (txt "u") /\ Forall plain_char (txt "secret") /\
  contains (v4_Packet_debug simple_esc (V4Mod.Connect c)) (txt "password: " ++ quoted (txt "secret")).
Proof.
  assert (U : Forall plain_char (txt "u")) by (repeat constructor; try discriminate; lia).
  assert (P : Forall plain_char (txt "secret")) by (repeat constructor; try discriminate; lia).
  intros c. split; [apply simple_quoting|]. split; [reflexivity|]. split; [exact U|]. split; [exact P|].
  apply (proj1 (C70_password simple_esc (proj2 simple_quoting)) c _ eq_refl U P).
Qed.
Print Assumptions C55_source_publish.
Print Assumptions C55_source_filter.
Print Assumptions C55_source_subscribe.
Print Assumptions C55_source_errors.
Print Assumptions C69_kind.
Print Assumptions C69_v4.
Print Assumptions C69_v5.
Print Assumptions C70_password.
Print Assumptions C70_will.
Print Assumptions C70_publish.
Print Assumptions C55_source_texts.

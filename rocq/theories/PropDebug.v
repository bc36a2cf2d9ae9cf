(** PropDebug.v -- C55: what a log line says about a packet. *)
From Coq Require Import String DecimalN DecimalFacts.
From Verif Require Import ProofBase Lib Debug.
From Verif Require V4Publish V4Subscribe V5Publish V5Subscribe.

Lemma digits_inj u v : digits u = digits v -> u = v.
Proof.
  revert v; induction u; destruct v; cbn [digits]; intros H; try discriminate H;
    try (injection H as H; f_equal; apply IHu, H); reflexivity.
Qed.
Lemma dec_inj n m : dec n = dec m -> n = m.
Proof. intros H. apply digits_inj in H. apply Unsigned.to_uint_inj, H. Qed.
Definition plain (c : N) : Prop := c <> 32 /\ c <> 44.   (* neither space nor comma *)
Lemma digits_plain u : Forall plain (digits u).
Proof. induction u; cbn [digits]; constructor; try assumption; split; discriminate. Qed.
Lemma dec_plain n : Forall plain (dec n). Proof. apply digits_plain. Qed.
Lemma plain_by l : forallb (fun c => negb (c =? 32) && negb (c =? 44)) l = true -> Forall plain l.
Proof. intros H. rewrite forallb_forall in H. apply Forall_forall. intros c Hc. specialize (H c Hc). unfold plain. lia. Qed.
Lemma bool_plain b : Forall plain (show_bool b). Proof. destruct b; apply plain_by; vm_compute; reflexivity. Qed.
Lemma qos_plain q : Forall plain (show_qos q). Proof. destruct q; apply plain_by; vm_compute; reflexivity. Qed.
Lemma rule_plain q : Forall plain (show_rule q). Proof. destruct q; apply plain_by; vm_compute; reflexivity. Qed.

(** reading from the right: the last token is determined *)
Lemma prefix_tok (d d' x y : bytes) : Forall plain d -> Forall plain d' ->
  d ++ 32 :: x = d' ++ 32 :: y -> d = d' /\ x = y.
Proof.
  intros H; revert d'; induction H as [|c d Hc _ IH]; intros [|c' d'] H' E; cbn [app] in E.
  - injection E as ->. auto.
  - injection E as <- _. inversion H' as [|? ? [Hx _] _]; subst. congruence.
  - injection E as -> _. destruct Hc as [Hc _]. congruence.
  - injection E as -> E. inversion H' as [|? ? _ Hd']; subst. destruct (IH d' Hd' E) as [-> ->]. auto.
Qed.
Lemma last_tok (X Y s d d' : bytes) : Forall plain d -> Forall plain d' ->
  X ++ (s ++ [32]) ++ d = Y ++ (s ++ [32]) ++ d' -> X = Y /\ d = d'.
Proof.
  intros H H' E. apply (f_equal (@rev N)) in E. rewrite !rev_app_distr in E. cbn [rev app] in E.
  rewrite <- !app_assoc in E. cbn [app] in E.
  apply prefix_tok in E as [Ed E]; [|apply Forall_rev; assumption..].
  apply (f_equal (@rev N)) in Ed. rewrite !rev_involutive in Ed. split; [|exact Ed].
  apply app_inv_head in E. apply (f_equal (@rev N)) in E. rewrite !rev_involutive in E. exact E.
Qed.
Lemma bool_inj a b : show_bool a = show_bool b -> a = b.
Proof. destruct a, b; intros H; try reflexivity; discriminate H. Qed.
Lemma qos_inj a b : show_qos a = show_qos b -> a = b.
Proof. destruct a, b; intros H; try reflexivity; discriminate H. Qed.
Lemma rule_inj a b : show_rule a = show_rule b -> a = b.
Proof. destruct a, b; intros H; try reflexivity; discriminate H. Qed.

(** peel the last token off an equation between two texts *)
Definition body_of (s : string) : bytes := removelast (txt s).
Ltac peel E H s plain1 inj :=
  rewrite ?app_assoc in E;
  match type of E with
  | (?X ++ ?S) ++ ?d = (?Y ++ ?S') ++ ?d' =>
      change S with (body_of s ++ [32]) in E; 
      rewrite <- (app_assoc X), <- (app_assoc Y) in E;
      apply last_tok in E as [E H]; [|apply plain1..]; apply inj in H
  end.

Lemma publish_text t q r i n t' q' r' i' n' :
  txt "Topic = " ++ t ++ txt ", Qos = " ++ show_qos q ++ txt ", Retain = " ++ show_bool r
    ++ txt ", Pkid = " ++ dec i ++ txt ", Payload Size = " ++ dec n =
  txt "Topic = " ++ t' ++ txt ", Qos = " ++ show_qos q' ++ txt ", Retain = " ++ show_bool r'
    ++ txt ", Pkid = " ++ dec i' ++ txt ", Payload Size = " ++ dec n' ->
  t = t' /\ q = q' /\ r = r' /\ i = i' /\ n = n'.
Proof.
  intros E.
  peel E H1 ", Payload Size = "%string dec_plain dec_inj.
  peel E H2 ", Pkid = "%string dec_plain dec_inj.
  peel E H3 ", Retain = "%string bool_plain bool_inj.
  peel E H4 ", Qos = "%string qos_plain qos_inj.
  apply app_inv_head in E. auto.
Qed.
Lemma filter5_text t q a b r t' q' a' b' r' :
  txt "Filter = " ++ t ++ txt ", Qos = " ++ show_qos q ++ txt ", Nolocal = " ++ show_bool a
    ++ txt ", Preserve retain = " ++ show_bool b ++ txt ", Forward rule = " ++ show_rule r =
  txt "Filter = " ++ t' ++ txt ", Qos = " ++ show_qos q' ++ txt ", Nolocal = " ++ show_bool a'
    ++ txt ", Preserve retain = " ++ show_bool b' ++ txt ", Forward rule = " ++ show_rule r' ->
  t = t' /\ q = q' /\ a = a' /\ b = b' /\ r = r'.
Proof.
  intros E.
  peel E H1 ", Forward rule = "%string rule_plain rule_inj.
  peel E H2 ", Preserve retain = "%string bool_plain bool_inj.
  peel E H3 ", Nolocal = "%string bool_plain bool_inj.
  peel E H4 ", Qos = "%string qos_plain qos_inj.
  apply app_inv_head in E. auto.
Qed.
Lemma filter4_text t q t' q' :
  txt "Filter = " ++ t ++ txt ", Qos = " ++ show_qos q = txt "Filter = " ++ t' ++ txt ", Qos = " ++ show_qos q' ->
  t = t' /\ q = q'.
Proof.
  intros E. peel E H4 ", Qos = "%string qos_plain qos_inj. apply app_inv_head in E. auto.
Qed.

(** ** C55: the log line of a PUBLISH shows topic, QoS, retain flag, identifier and payload
    size, unambiguously for every topic, and nothing else *)
Theorem C55_publish : 
  (forall p q, v4_publish p = v4_publish q <->
     V4Publish.topic p = V4Publish.topic q /\ V4Publish.qos p = V4Publish.qos q /\
     V4Publish.retain p = V4Publish.retain q /\ V4Publish.pkid p = V4Publish.pkid q /\
     blen (V4Publish.payload p) = blen (V4Publish.payload q)) /\
  (forall p q, v5_publish p = v5_publish q <->
     V5Publish.topic p = V5Publish.topic q /\ V5Publish.qos p = V5Publish.qos q /\
     V5Publish.retain p = V5Publish.retain q /\ V5Publish.pkid p = V5Publish.pkid q /\
     blen (V5Publish.payload p) = blen (V5Publish.payload q)) /\
  (forall p q, v4_publish p = v5_publish q <->
     V4Publish.topic p = V5Publish.topic q /\ V4Publish.qos p = V5Publish.qos q /\
     V4Publish.retain p = V5Publish.retain q /\ V4Publish.pkid p = V5Publish.pkid q /\
     blen (V4Publish.payload p) = blen (V5Publish.payload q)).
Proof.
  split; [|split]; intros p q; (split; [unfold v4_publish, v5_publish; simple apply publish_text|]); intros (A & B & C & D & E);
    unfold v4_publish, v5_publish; rewrite A, B, C, D, E; reflexivity.
Qed.
(** ** C55: filters *)
Theorem C55_filter :
  (forall f g, v4_filter f = v4_filter g <-> f = g) /\ (forall f g, v5_filter f = v5_filter g <-> f = g).
Proof.
  split; intros f g; (split; [|intros ->; reflexivity]); intros E.
  - apply filter4_text in E as [A B]. destruct f, g. cbn in *. congruence.
  - apply filter5_text in E as (A & B & C & D & F). destruct f, g. cbn in *. congruence.
Qed.
(** ** C55: a SUBSCRIBE's line is ambiguous ... *)
Theorem C55_subscribe_refuted :
  (exists s s', v4_subscribe s = v4_subscribe s' /\ s <> s') /\ (exists s s', v5_subscribe s = v5_subscribe s' /\
     V5Subscribe.filters s <> V5Subscribe.filters s').
Proof.
  split.
  - exists (V4Subscribe.mkSubscribe 7 [V4Subscribe.mkSubscribeFilter (txt "a, Qos = AtMostOnce, Filter = b") AtMostOnce]),
           (V4Subscribe.mkSubscribe 7 [V4Subscribe.mkSubscribeFilter (txt "a") AtMostOnce; V4Subscribe.mkSubscribeFilter (txt "b") AtMostOnce]).
    split; [vm_compute; reflexivity|discriminate].
  - exists (V5Subscribe.mkSubscribe 7 [V5Subscribe.filter_new (txt "a, Qos = AtMostOnce, Nolocal = false, Preserve retain = false, Forward rule = OnEverySubscribe, Filter = b") AtMostOnce] None),
           (V5Subscribe.mkSubscribe 7 [V5Subscribe.filter_new (txt "a") AtMostOnce; V5Subscribe.filter_new (txt "b") AtMostOnce] None).
    split; [vm_compute; reflexivity|discriminate].
Qed.
(** ... but only if a filter contains a comma *)
Definition no_comma (s : bytes) : Prop := Forall (fun c => c <> 44) s.
Lemma comma_tok (d d' x y : bytes) : no_comma d -> no_comma d' -> d ++ 44 :: x = d' ++ 44 :: y -> d = d' /\ x = y.
Proof.
  intros H; revert d'; induction H as [|c d Hc _ IH]; intros [|c' d'] H' E; cbn [app] in E.
  - injection E as ->. auto.
  - injection E as <- _. inversion H' as [|? ? Hx _]; subst. congruence.
  - injection E as -> _. congruence.
  - injection E as -> E. inversion H' as [|? ? _ Hd']; subst. destruct (IH d' Hd' E) as [-> ->]. auto.
Qed.
Lemma qos_prefix a b x y : show_qos a ++ x = show_qos b ++ y -> a = b /\ x = y.
Proof. destruct a, b; intros H; vm_compute in H; try discriminate H; injection H as H; auto. Qed.
Lemma bool_prefix a b x y : show_bool a ++ x = show_bool b ++ y -> a = b /\ x = y.
Proof. destruct a, b; intros H; vm_compute in H; try discriminate H; injection H as H; auto. Qed.
Lemma rule_prefix a b x y : show_rule a ++ x = show_rule b ++ y -> a = b /\ x = y.
Proof. destruct a, b; intros H; vm_compute in H; try discriminate H; injection H as H; auto. Qed.
Lemma filter4_prefix f g x y : no_comma (V4Subscribe.path f) -> no_comma (V4Subscribe.path g) ->
  v4_filter f ++ x = v4_filter g ++ y -> f = g /\ x = y.
Proof.
  intros Hf Hg E. unfold v4_filter in E. rewrite <- !app_assoc in E. apply app_inv_head in E.
  change (txt ", Qos = ") with (44 :: txt " Qos = ") in E. cbn [app] in E.
  apply comma_tok in E as [A E]; [|assumption..]. apply app_inv_head in E. apply qos_prefix in E as [B E].
  destruct f, g. cbn in *. subst. auto.
Qed.
Lemma filter5_prefix f g x y : no_comma (V5Subscribe.path f) -> no_comma (V5Subscribe.path g) ->
  v5_filter f ++ x = v5_filter g ++ y -> f = g /\ x = y.
Proof.
  intros Hf Hg E. unfold v5_filter in E. rewrite <- !app_assoc in E. apply app_inv_head in E.
  change (txt ", Qos = ") with (44 :: txt " Qos = ") in E. cbn [app] in E.
  apply comma_tok in E as [A E]; [|assumption..]. apply app_inv_head in E. apply qos_prefix in E as [B E].
  apply app_inv_head in E. apply bool_prefix in E as [C E].
  apply app_inv_head in E. apply bool_prefix in E as [D E].
  apply app_inv_head in E. apply rule_prefix in E as [F E].
  destruct f, g. cbn in *. subst. auto.
Qed.
(** a list of entries, each recognisable at the front, closed by a bracket *)
Lemma entries_inj {A} (show : A -> bytes) (ok : A -> Prop) l l' x y :
  (forall a b x y, ok a -> ok b -> show a ++ x = show b ++ y -> a = b /\ x = y) ->
  (forall a x y, show a ++ x <> txt "]" ++ y) ->
  Forall ok l -> Forall ok l' -> entries show l ++ txt "]" ++ x = entries show l' ++ txt "]" ++ y -> l = l' /\ x = y.
Proof.
  intros Hi Hb Hl; revert l'; induction Hl as [|a l Ha Hl IH]; intros [|b l'] Hl' E.
  - cbn [entries app] in E. apply app_inv_head in E. auto.
  - exfalso. destruct l'; cbn [entries] in E; rewrite <- ?app_assoc in E; exact (Hb _ _ _ (eq_sym E)).
  - exfalso. destruct l; cbn [entries] in E; rewrite <- ?app_assoc in E; exact (Hb _ _ _ E).
  - inversion Hl' as [|? ? Hb' Hl2]; subst.
    assert (Hx : forall c (m : list A) z, entries show (c :: m) ++ z =
      show c ++ (match m with [] => [] | _ => txt ", " ++ entries show m end) ++ z).
    { intros c [|d m] z; cbn [entries]; rewrite <- ?app_assoc; reflexivity. }
    rewrite !Hx in E. apply Hi in E as [-> E]; [|assumption..].
    destruct l as [|c l], l' as [|c' l']; rewrite <- ?app_assoc in E.
    + cbn [app] in E. apply app_inv_head in E. auto.
    + discriminate E.
    + discriminate E.
    + apply app_inv_head in E. apply IH in E as [-> ->]; auto.
Qed.
Theorem C55_subscribe_without_commas :
  (forall s s', Forall (fun f => no_comma (V4Subscribe.path f)) (V4Subscribe.filters s) ->
     Forall (fun f => no_comma (V4Subscribe.path f)) (V4Subscribe.filters s') ->
     (v4_subscribe s = v4_subscribe s' <-> s = s')) /\
  (forall s s', Forall (fun f => no_comma (V5Subscribe.path f)) (V5Subscribe.filters s) ->
     Forall (fun f => no_comma (V5Subscribe.path f)) (V5Subscribe.filters s') ->
     (v5_subscribe s = v5_subscribe s' <->
      V5Subscribe.filters s = V5Subscribe.filters s' /\ V5Subscribe.pkid s = V5Subscribe.pkid s')).
Proof.
  split; intros s s' H H'.
  - split; [|intros ->; reflexivity]. unfold v4_subscribe, show_vec. rewrite <- !app_assoc. intros E.
    do 2 apply app_inv_head in E. apply (entries_inj v4_filter _ _ _ _ _ filter4_prefix) in E as [A E]; [|discriminate|assumption..].
    apply app_inv_head in E. apply dec_inj in E. destruct s, s'. cbn in *. congruence.
  - split; [|intros [A B]; unfold v5_subscribe; rewrite A, B; reflexivity].
    unfold v5_subscribe, show_vec. rewrite <- !app_assoc. intros E.
    do 2 apply app_inv_head in E. apply (entries_inj v5_filter _ _ _ _ _ filter5_prefix) in E as [A E]; [|discriminate|assumption..].
    apply app_inv_head in E. apply dec_inj in E. auto.
Qed.

(** ** C55: error messages identify the error *)
Lemma variant_inj name a b : variant name a = variant name b -> a = b.
Proof.
  unfold variant. intros E. do 2 apply app_inv_head in E. apply app_inv_tail in E. exact E.
Qed.
Lemma type_inj a b : show_type a = show_type b -> a = b.
Proof. destruct a, b; intros H; try reflexivity; vm_compute in H; discriminate H. Qed.
Theorem C55_errors : forall e e', error_display e = error_display e' <-> e = e'.
Proof.
  intros e e'. split; [|intros ->; reflexivity]. unfold error_display. intros E. apply app_inv_head in E.
  destruct e, e'; cbn [show_error] in E;
    try reflexivity;
    try (apply variant_inj in E; first [apply dec_inj in E|apply type_inj in E]; congruence);
    exfalso; repeat match type of E with context [dec ?n] => generalize dependent (dec n); intros ? E end;
    repeat match type of E with context [show_type ?n] => generalize dependent (show_type n); intros ? E end;
    vm_compute in E; discriminate E.
Qed.

(** ** C55: numbers are printed as their decimal numeral, and every error has its own words *)
Definition numeral_value (d : bytes) : N := fold_left (fun a c => a * 10 + (c - 48)) d 0.
Definition is_numeral (d : bytes) : Prop :=
  d <> [] /\ Forall (fun c => 48 <= c <= 57) d /\ (forall d', d = 48 :: d' -> d' = []).
Lemma value_acc u acc : N.pos (Pos.of_uint_acc u acc) = fold_left (fun a c => a * 10 + (c - 48)) (digits u) (N.pos acc).
Proof.
  revert acc; induction u; intros acc; cbn [digits fold_left]; [reflexivity|..];
    cbn [Pos.of_uint_acc]; rewrite IHu; f_equal; lia.
Qed.
Lemma value_digits u : numeral_value (digits u) = N.of_uint u.
Proof.
  unfold N.of_uint, numeral_value. induction u; cbn [digits fold_left Pos.of_uint]; [reflexivity|..];
    try (rewrite value_acc; f_equal; fail).
  exact IHu.
Qed.
Lemma dec_numeral n : is_numeral (dec n) /\ numeral_value (dec n) = n.
Proof.
  split.
  - unfold dec, is_numeral.
    assert (E : N.to_uint n = Decimal.unorm (N.to_uint n)) by (rewrite <- Unsigned.to_of, Unsigned.of_to; reflexivity).
    split; [|split].
    + rewrite E. unfold Decimal.unorm. destruct (Decimal.nzhead (N.to_uint n)); cbn [digits]; discriminate.
    + clear E. generalize (N.to_uint n) as u. induction u; cbn [digits]; constructor; try assumption; lia.
    + intros d' Hd. rewrite E in Hd. unfold Decimal.unorm in Hd.
      destruct (Decimal.nzhead (N.to_uint n)) eqn:Hz; cbn [digits] in Hd; try discriminate Hd; try (injection Hd as <-; reflexivity).
      exfalso. apply (nzhead_nonzero _ _ Hz).
  - unfold dec. rewrite value_digits. apply Unsigned.of_to.
Qed.
Theorem C55_error_texts : forall n, exists d, is_numeral d /\ numeral_value d = n /\
  Forall (fun row => error_display (fst row) = txt (snd row))
    [(UnexpectedConnect, "Error = UnexpectedConnect"); (InvalidProtocol, "Error = InvalidProtocol");
     (IncorrectPacketFormat, "Error = IncorrectPacketFormat"); (PacketIdZero, "Error = PacketIdZero");
     (SubscriptionIdZero, "Error = SubscriptionIdZero"); (PayloadSizeIncorrect, "Error = PayloadSizeIncorrect");
     (PayloadTooLong, "Error = PayloadTooLong"); (PayloadRequired, "Error = PayloadRequired");
     (TopicNotUtf8, "Error = TopicNotUtf8"); (MalformedPacket, "Error = MalformedPacket");
     (MalformedRemainingLength, "Error = MalformedRemainingLength"); (EmptySubscription, "Error = EmptySubscription");
     (NotConnect PT_Connect, "Error = NotConnect(Connect)"); (NotConnect PT_ConnAck, "Error = NotConnect(ConnAck)");
     (NotConnect PT_Publish, "Error = NotConnect(Publish)"); (NotConnect PT_PubAck, "Error = NotConnect(PubAck)");
     (NotConnect PT_PubRec, "Error = NotConnect(PubRec)"); (NotConnect PT_PubRel, "Error = NotConnect(PubRel)");
     (NotConnect PT_PubComp, "Error = NotConnect(PubComp)"); (NotConnect PT_Subscribe, "Error = NotConnect(Subscribe)");
     (NotConnect PT_SubAck, "Error = NotConnect(SubAck)"); (NotConnect PT_Unsubscribe, "Error = NotConnect(Unsubscribe)");
     (NotConnect PT_UnsubAck, "Error = NotConnect(UnsubAck)"); (NotConnect PT_PingReq, "Error = NotConnect(PingReq)");
     (NotConnect PT_PingResp, "Error = NotConnect(PingResp)"); (NotConnect PT_Disconnect, "Error = NotConnect(Disconnect)")]%string /\
  Forall (fun row => error_display (fst row) = txt (snd row) ++ d ++ txt ")")
    [(InvalidConnectReturnCode n, "Error = InvalidConnectReturnCode("); (InvalidReason n, "Error = InvalidReason(");
     (InvalidProtocolLevel n, "Error = InvalidProtocolLevel("); (InvalidPacketType n, "Error = InvalidPacketType(");
     (InvalidPropertyType n, "Error = InvalidPropertyType("); (InvalidRetainForwardRule n, "Error = InvalidRetainForwardRule(");
     (InvalidQoS n, "Error = InvalidQoS("); (InvalidSubscribeReasonCode n, "Error = InvalidSubscribeReasonCode(");
     (PayloadSizeLimitExceeded n, "Error = PayloadSizeLimitExceeded("); (BoundaryCrossed n, "Error = BoundaryCrossed(");
     (InsufficientBytes n, "Error = InsufficientBytes(")]%string.
Proof.
  intros n. exists (dec n). destruct (dec_numeral n) as [A B]. split; [exact A|]. split; [exact B|].
  split; repeat constructor.
Qed.

(** ** C55: the exact text of the packets.  [numeral n d]: [d] is the decimal numeral of [n] *)
Definition numeral (n : N) (d : bytes) : Prop := is_numeral d /\ numeral_value d = n.
Definition qos_words : list (QoS * string) :=
  [(AtMostOnce, "AtMostOnce"); (AtLeastOnce, "AtLeastOnce"); (ExactlyOnce, "ExactlyOnce")]%string.
Definition bool_words : list (bool * string) := [(true, "true"); (false, "false")]%string.
Definition rule_words : list (V5Subscribe.RetainForwardRule * string) :=
  [(V5Subscribe.OnEverySubscribe, "OnEverySubscribe"); (V5Subscribe.OnNewSubscribe, "OnNewSubscribe"); (V5Subscribe.Never, "Never")]%string.
Definition publish_line (topic : bytes) (q r : string) (id size : bytes) : bytes :=
  txt "Topic = " ++ topic ++ txt ", Qos = " ++ txt q ++ txt ", Retain = " ++ txt r ++ txt ", Pkid = " ++ id ++ txt ", Payload Size = " ++ size.
(** [joined ls out]: the entries [ls] one after the other, separated by a comma and a space *)
Inductive joined : list bytes -> bytes -> Prop :=
| joined_nil : joined [] []
| joined_one x : joined [x] x
| joined_more x y ls out : joined (y :: ls) out -> joined (x :: y :: ls) (x ++ txt ", " ++ out).
Definition filter4_line (f : V4Subscribe.SubscribeFilter) (line : bytes) : Prop :=
  forall q, In (V4Subscribe.qos f, q) qos_words -> line = txt "Filter = " ++ V4Subscribe.path f ++ txt ", Qos = " ++ txt q.
Definition filter5_line (f : V5Subscribe.SubscribeFilter) (line : bytes) : Prop :=
  forall q n r rule, In (V5Subscribe.qos f, q) qos_words -> In (V5Subscribe.nolocal f, n) bool_words ->
    In (V5Subscribe.preserve_retain f, r) bool_words -> In (V5Subscribe.retain_forward_rule f, rule) rule_words ->
    line = txt "Filter = " ++ V5Subscribe.path f ++ txt ", Qos = " ++ txt q ++ txt ", Nolocal = " ++ txt n
           ++ txt ", Preserve retain = " ++ txt r ++ txt ", Forward rule = " ++ txt rule.
Lemma qos_word q w : In (q, w) qos_words -> show_qos q = txt w.
Proof. cbn [qos_words In]. intros H. repeat destruct H as [H|H]; try (injection H as <- <-; reflexivity); destruct H. Qed.
Lemma bool_word q w : In (q, w) bool_words -> show_bool q = txt w.
Proof. cbn [bool_words In]. intros H. repeat destruct H as [H|H]; try (injection H as <- <-; reflexivity); destruct H. Qed.
Lemma rule_word q w : In (q, w) rule_words -> show_rule q = txt w.
Proof. cbn [rule_words In]. intros H. repeat destruct H as [H|H]; try (injection H as <- <-; reflexivity); destruct H. Qed.
Lemma entries_joined {A} (show : A -> bytes) l : joined (map show l) (entries show l).
Proof.
  induction l as [|x [|y l] IH]; cbn [map entries]; [constructor|constructor|]. cbn [map] in IH. constructor. exact IH.
Qed.
Theorem C55_packet_texts :
  (forall p q r, In (V4Publish.qos p, q) qos_words -> In (V4Publish.retain p, r) bool_words ->
     exists id size, numeral (V4Publish.pkid p) id /\ numeral (blen (V4Publish.payload p)) size /\
       v4_publish p = publish_line (V4Publish.topic p) q r id size) /\
  (forall p q r, In (V5Publish.qos p, q) qos_words -> In (V5Publish.retain p, r) bool_words ->
     exists id size, numeral (V5Publish.pkid p) id /\ numeral (blen (V5Publish.payload p)) size /\
       v5_publish p = publish_line (V5Publish.topic p) q r id size) /\
  (forall f, filter4_line f (v4_filter f)) /\ (forall f, filter5_line f (v5_filter f)) /\
  (forall s, exists lines text id, Forall2 filter4_line (V4Subscribe.filters s) lines /\ joined lines text /\
     numeral (V4Subscribe.pkid s) id /\ v4_subscribe s = txt "Filters = [" ++ text ++ txt "], Packet id = " ++ id) /\
  (forall s, exists lines text id, Forall2 filter5_line (V5Subscribe.filters s) lines /\ joined lines text /\
     numeral (V5Subscribe.pkid s) id /\ v5_subscribe s = txt "Filters = [" ++ text ++ txt "], Packet id = " ++ id).
Proof.
  assert (F4 : forall f, filter4_line f (v4_filter f)).
  { intros f q Hq. unfold v4_filter. rewrite (qos_word _ _ Hq). reflexivity. }
  assert (F5 : forall f, filter5_line f (v5_filter f)).
  { intros f q n r rule Hq Hn Hr Hu. unfold v5_filter. rewrite (qos_word _ _ Hq), (bool_word _ _ Hn), (bool_word _ _ Hr), (rule_word _ _ Hu). reflexivity. }
  split; [|split; [|split; [exact F4|split; [exact F5|split]]]].
  1-2: intros p q r Hq Hr; do 2 eexists; split; [apply dec_numeral|]; split; [apply dec_numeral|];
    unfold v4_publish, v5_publish, publish_line; rewrite (qos_word _ _ Hq), (bool_word _ _ Hr); reflexivity.
  - intros s. exists (map v4_filter (V4Subscribe.filters s)), (entries v4_filter (V4Subscribe.filters s)), (dec (V4Subscribe.pkid s)).
    split; [|split; [apply entries_joined|split; [apply dec_numeral|]]].
    + induction (V4Subscribe.filters s); cbn [map]; constructor; auto.
    + unfold v4_subscribe, show_vec. rewrite <- !app_assoc. reflexivity.
  - intros s. exists (map v5_filter (V5Subscribe.filters s)), (entries v5_filter (V5Subscribe.filters s)), (dec (V5Subscribe.pkid s)).
    split; [|split; [apply entries_joined|split; [apply dec_numeral|]]].
    + induction (V5Subscribe.filters s); cbn [map]; constructor; auto.
    + unfold v5_subscribe, show_vec. rewrite <- !app_assoc. reflexivity.
Qed.

(** ** The cases *)
Example C55_case :
  v4_publish (V4Publish.mkPublish true AtLeastOnce false (txt "a/b") 10 [1; 2; 3])
  = txt "Topic = a/b, Qos = AtLeastOnce, Retain = false, Pkid = 10, Payload Size = 3" /\
  v5_subscribe (V5Subscribe.mkSubscribe 12 [V5Subscribe.filter_new (txt "x") ExactlyOnce; V5Subscribe.filter_new (txt "+") AtMostOnce] None)
  = txt "Filters = [Filter = x, Qos = ExactlyOnce, Nolocal = false, Preserve retain = false, Forward rule = OnEverySubscribe, Filter = +, Qos = AtMostOnce, Nolocal = false, Preserve retain = false, Forward rule = OnEverySubscribe], Packet id = 12" /\
  no_comma (txt "a/b/#") /\ error_display (InsufficientBytes 307) = txt "Error = InsufficientBytes(307)".
Proof.
  split; [vm_compute; reflexivity|]. split; [vm_compute; reflexivity|]. split; [|vm_compute; reflexivity].
  repeat constructor; discriminate.
Qed.
Print Assumptions C55_publish.
Print Assumptions C55_filter.
Print Assumptions C55_subscribe_refuted.
Print Assumptions C55_subscribe_without_commas.
Print Assumptions C55_errors.
Print Assumptions C55_error_texts.
Print Assumptions C55_packet_texts.

(** PropForward5.v -- C74 for MQTT 5: a relay that reads a message of the standard and writes the packet it got sends
    a message that says the same, with one exception. *)
From Verif Require Import Base SpecWire SpecTopic SpecProps SpecPropSets SpecV5 SpecStd5 SpecStd5Mean SpecStd5Write
  ProofBase ProofLib ProofRead ProofProps ProofPropSets ProofSections ProofStd ProofV5Read ProofV5Write ProofV5 ProofStd5Write.
From Verif Require V5Connect V5ConnAck V5Publish V5PubAck V5PubRec V5PubRel V5PubComp
  V5Subscribe V5SubAck V5Unsubscribe V5UnsubAck V5Disconnect PropStandard5 PropStandard5W PropMeaning.

Local Lemma read_as m s rest max p : bytes_ok s -> conforms m -> ~ misread m ->
  starts_with_frame s (header_byte m) (content m) rest -> read s max = (Ok p, rest) -> as_packet m = Some p /\ blen (content m) <= max_len.
Proof.
  intros Hb Hm Hr Hs H.
  assert (Hl : blen (content m) <= max).
  { apply read_iff in H as (c1 & cd & Hc & Hl & _); [|exact Hb].
    destruct Hs as (f & E & Hf & _), Hc as (g & E' & Hg & _). rewrite E in E'. injection E' as _ E'.
    destruct (lenfield_det _ _ _ _ _ _ Hf Hg E') as (_ & En & Er). rewrite En. exact Hl. }
  assert (U : forall e, ~ unsupported m e).
  { intros e Hu. rewrite (PropStandard5.C62_v5_unsupported m e s rest max Hb Hm Hs Hl Hu) in H. discriminate H. }
  destruct (PropStandard5.C62_v5_standard_accepted m s rest max Hb Hm Hs Hl U Hr) as (q & E & R).
  rewrite R in H. injection H as <-. split; [exact E|].
  destruct Hs as (f & _ & Hf & Hlf). exact (lenfield_bound f _ Hf Hlf).
Qed.

Local Ltac small := cbn [ending_bytes N.eqb]; rewrite ?blen_cons; unfold blen; cbn [List.length]; lia.
(** *** property sets *)
Local Lemma rules_typed al rep its : rules al rep its -> Forall item_typed its.
Proof. intros (H & _). eapply Forall_impl; [|exact H]. intros it (_ & (T & _) & _). exact T. Qed.
Local Lemma rules_values al rep its : rules al rep its -> Forall value_rule its.
Proof. intros (H & _). eapply Forall_impl; [|exact H]. intros it (_ & _ & T). exact T. Qed.
Local Lemma kept_values {R} al rep (items : R -> list item) (rec : list item -> R) its :
  (Forall item_typed its -> incl (items (rec its)) its) -> rules al rep its ->
  Forall value_rule (opt_items items (props_of rec its)).
Proof.
  intros Hi Hr. specialize (Hi (rules_typed _ _ _ Hr)). apply rules_values in Hr.
  assert (G : Forall value_rule (items (rec its))) by (eapply incl_Forall; eassumption).
  destruct its; [constructor|exact G].
Qed.
Local Lemma len_len_mono a b : a <= b -> len_len a <= len_len b.
Proof. unfold len_len. intros H. repeat match goal with |- context [?x <=? ?y] => destruct (N.leb_spec x y) | |- context [?x <? ?y] => destruct (N.ltb_spec x y) end; lia. Qed.
Local Lemma kept_size {R} al rep (items : R -> list item) (rec : list item -> R) its :
  (Forall item_typed its -> blen (items_bytes (items (rec its))) <= blen (items_bytes its)) -> rules al rep its ->
  blen (section_bytes (opt_items items (props_of rec its))) <= blen (section_bytes its).
Proof.
  intros Hi Hr. specialize (Hi (rules_typed _ _ _ Hr)).
  destruct its as [|it its]; [cbn; lia|]. cbn [props_of opt_items]. unfold section_bytes. rewrite !blen_app, !varint_len.
  assert (G := len_len_mono _ _ Hi). lia.
Qed.
Local Lemma occurs_last id its : occurs id its -> exists v, last_of id its = Some v /\ In (id, v) its.
Proof.
  intros H. unfold occurs in H. apply in_map_iff in H as ([i v] & E & Hi). cbn [fst] in E. subst i. unfold last_of.
  destruct (find (fun it => fst it =? id) (rev its)) as [[i w]|] eqn:F.
  - apply find_some in F as [F E]. cbn [fst] in E. apply N.eqb_eq in E. subst i. exists w. split; [reflexivity|apply in_rev, F].
  - exfalso. apply in_rev in Hi. apply (find_none _ _ F) in Hi. cbn [fst] in Hi. rewrite N.eqb_refl in Hi. discriminate Hi.
Qed.
Local Lemma occurs_bytes al rep id its : rules al rep its -> occurs id its -> ptype_of id = Some TStr \/ ptype_of id = Some TBin -> last_bytes id its <> None.
Proof.
  intros R H T. destruct (occurs_last id its H) as (v & E & Hi). unfold last_bytes. rewrite E.
  apply rules_typed in R. rewrite Forall_forall in R. destruct (R _ Hi) as [Tv _]. cbn [fst snd] in Tv.
  destruct T as [T|T]; rewrite T in Tv; destruct v; try discriminate Tv; discriminate.
Qed.
Local Lemma occurs_num al rep id its : rules al rep its -> occurs id its -> ptype_of id = Some TTwo -> last_num id its <> None.
Proof.
  intros R H T. destruct (occurs_last id its H) as (v & E & Hi). unfold last_num. rewrite E.
  apply rules_typed in R. rewrite Forall_forall in R. destruct (R _ Hi) as [Tv _]. cbn [fst snd] in Tv.
  rewrite T in Tv; destruct v; try discriminate Tv; discriminate.
Qed.
Local Lemma bytes_occurs id its : last_bytes id its <> None -> occurs id its.
Proof.
  unfold last_bytes, last_of. destruct (find (fun it => fst it =? id) (rev its)) as [[i w]|] eqn:F; [|congruence].
  intros _. apply find_some in F as [F E]. cbn [fst] in E. apply N.eqb_eq in E. subst i. unfold occurs. apply in_map_iff. exists (id, w).
  split; [reflexivity|apply in_rev, F].
Qed.
Local Lemma method_kept al rep its : rules al rep its -> last_bytes 22 its <> None -> last_bytes 21 its <> None.
Proof.
  intros R H. apply (occurs_bytes al rep); [exact R|apply R, bytes_occurs, H|left; reflexivity].
Qed.
Local Lemma ending_kept {C R} pl (items : R -> list item) (rec : list item -> R) (e : ending C) :
  (forall its, Forall item_typed its -> incl (items (rec its)) its) -> ending_ok (rules_at pl) e ->
  Forall value_rule (opt_items items (props_of rec (props_in e))).
Proof. intros Hi He. destruct e; try constructor. apply (kept_values (allowed_at pl) (repeatable pl)); [apply Hi|exact He]. Qed.
Local Lemma ending_size {C R} pl (items : R -> list item) (rec : list item -> R) (num : C -> N) zero (e : ending C) :
  (forall its, Forall item_typed its -> blen (items_bytes (items (rec its))) <= blen (items_bytes its)) -> ending_ok (rules_at pl) e ->
  num zero = 0 ->
  blen (ending_bytes num (ack_ending items num (code_of zero e) (props_of rec (props_in e)))) <= blen (ending_bytes num e).
Proof.
  intros Hi He Hz. destruct e as [|c|c its]; cbn [code_of props_in props_of ack_ending].
  - rewrite Hz. change (0 =? 0) with true. small.
  - destruct (num c =? 0); small.
  - assert (K := kept_size (allowed_at pl) (repeatable pl) items rec its (Hi its) He).
    destruct its as [|it its]; cbn [props_of ack_ending opt_items] in *.
    + destruct (num c =? 0); small.
    + cbn [ending_bytes]. rewrite !blen_cons. lia.
Qed.

(** *** what is written *)
Local Lemma packet_regular m p : conforms m -> (forall sp code, m <> M_CONNACK sp code []) -> as_packet m = Some p -> regular p.
Proof.
  intros Hm Hn E. destruct m; cbn [as_packet] in E; try discriminate E; injection E as <-; cbn [regular]; try exact I; try reflexivity.
  - destruct props; [|discriminate]. exfalso. eapply Hn; reflexivity.
  - destruct twice; discriminate.
  - cbn [V5Disconnect.properties V5Disconnect.reason_code]. intros r Er Ei. exfalso. destruct e as [|c|c its]; try discriminate Er.
    cbn [props_in] in Er. destruct its as [|it its]; [discriminate Er|]. cbn [props_of] in Er. injection Er as <-.
    revert Ei. apply disconnect_nonempty; [discriminate|apply rules_typed in Hm; exact Hm|]. destruct Hm as (Hm & _). eapply Forall_impl; [|exact Hm]. intros x Hx; apply Hx.
Qed.
Local Lemma packet_standard m p : conforms m -> (forall sp code, m <> M_CONNACK sp code []) -> as_packet m = Some p -> standard_value p.
Proof.
  intros Hm Hn E. destruct m; cbn [as_packet] in E; try discriminate E; injection E as <-;
    cbn [conforms] in Hm; split; cbn [standard_fields packet_items]; try exact I;
    try match goal with |- Forall value_rule [] => constructor end.
  - cbn [V5Connect.protocol V5Connect.client_id V5Connect.last_will V5Connect.login V5Connect.properties].
    destruct Hm as (_ & R & Hc & Hw & Hu & Hp). split; [reflexivity|]. split; [exact Hc|].
    split; [destruct will; [apply Hw|exact I]|]. split.
    + unfold login_of. assert (T0 : text []) by (split; [apply string_nil|]; split; [cbv; discriminate|intros []]).
      destruct user as [[|x u]|], password as [[|y w]|]; cbn [or_empty on_some V5Connect.username]; auto.
    + destruct props as [|it its]; [exact I|]. cbn [props_of on_some]. apply (method_kept _ _ _ R).
  - cbn [V5Connect.properties]. destruct Hm as (_ & R & _ & Hw & _). unfold will_props. cbn [V5Connect.last_will]. apply Forall_app. split.
    + apply (kept_values _ _ _ _ _ (connect_items_incl _) R).
    + destruct will as [w|]; [|constructor]. apply (kept_values _ _ _ _ _ (will_items_incl _) (proj1 Hw)).
  - cbn [V5ConnAck.session_present V5ConnAck.code V5ConnAck.properties]. destruct Hm as (Hs & R). split; [exact Hs|].
    destruct props as [|it its]; [exfalso; eapply Hn; reflexivity|]. eexists. split; [reflexivity|]. apply (method_kept _ _ _ R).
  - apply (kept_values _ _ _ _ _ (connack_items_incl _) (proj2 Hm)).
  - cbn [V5Publish.topic V5Publish.properties V5Publish.qos V5Publish.dup]. destruct Hm as ((H1 & H2 & H3 & H4) & R & _).
    do 3 (split; [assumption|]). split; [|reflexivity]. intros Ht. specialize (H4 Ht). destruct props as [|it its]; [destruct H4|].
    eexists. split; [reflexivity|]. exact (occurs_num _ _ _ _ R H4 eq_refl).
  - apply (kept_values _ _ _ _ _ (publish_items_incl _) (proj1 (proj2 Hm))).
  - cbn [V5Publish.topic V5Publish.properties V5Publish.qos V5Publish.dup]. destruct Hm as ((H1 & H2 & H3 & H4) & _ & R & _).
    do 3 (split; [assumption|]). split; [|destruct twice; discriminate]. intros Ht. specialize (H4 Ht). destruct props as [|it its]; [destruct H4|].
    eexists. split; [reflexivity|]. exact (occurs_num _ _ _ _ R H4 eq_refl).
  - apply (kept_values _ _ _ _ _ (publish_items_incl _) (proj1 (proj2 (proj2 Hm)))).
  - destruct Hm as ([L _] & _). cbn [V5PubAck.pkid]. lia.
  - apply (ending_kept InPubAck); [apply puback_items_incl|apply Hm].
  - destruct Hm as ([L _] & _). cbn [V5PubRec.pkid]. lia.
  - apply (ending_kept InPubRec); [apply pubrec_items_incl|apply Hm].
  - destruct Hm as ([L _] & _). cbn [V5PubRel.pkid]. lia.
  - apply (ending_kept InPubRel); [apply pubrel_items_incl|apply Hm].
  - destruct Hm as ([L _] & _). cbn [V5PubComp.pkid]. lia.
  - apply (ending_kept InPubComp); [apply pubcomp_items_incl|apply Hm].
  - destruct Hm as ([L _] & _ & H3 & H4). cbn [V5Subscribe.pkid V5Subscribe.filters]. split; [lia|]. split; assumption.
  - apply (kept_values _ _ _ _ _ (subscribe_items_incl _) (proj1 (proj2 Hm))).
  - destruct Hm as ([L _] & _ & H3). cbn [V5SubAck.pkid V5SubAck.return_codes]. split; [lia|assumption].
  - apply (kept_values _ _ _ _ _ (suback_items_incl _) (proj1 (proj2 Hm))).
  - destruct Hm as ([L _] & _ & H3 & H4). cbn [V5Unsubscribe.pkid V5Unsubscribe.filters]. split; [lia|]. split; assumption.
  - apply (kept_values _ _ _ _ _ (unsubscribe_items_incl _) (proj1 (proj2 Hm))).
  - destruct Hm as ([L _] & _ & H3). cbn [V5UnsubAck.pkid V5UnsubAck.reasons]. split; [lia|assumption].
  - apply (kept_values _ _ _ _ _ (unsuback_items_incl _) (proj1 (proj2 Hm))).
  - assert (R := packet_regular (M_DISCONNECT e) _ Hm Hn eq_refl). exact R.
  - apply (ending_kept InDisconnect); [apply disconnect_items_incl|apply Hm].
Qed.
Local Lemma given_size o : blen (opt field (given (or_empty o))) <= blen (opt field o).
Proof. destruct o as [[|? ?]|]; cbn [or_empty given opt]; try lia. unfold blen; cbn [List.length]; lia. Qed.
Local Lemma shorter m p : conforms m -> as_packet m = Some p -> blen (content (message_of p)) <= blen (content m).
Proof.
  intros Hm E. destruct m; cbn [as_packet] in E; try discriminate E; injection E as <-; cbn [conforms] in Hm; cbn [message_of content].
  - cbn [V5Connect.properties V5Connect.client_id V5Connect.last_will V5Connect.keep_alive]. destruct Hm as (_ & R & _ & Hw & _).
    assert (K := kept_size _ _ _ _ _ (ProofSections.connect_size _) R).
    assert (Kw : blen (opt (fun w => section_bytes (w_props w) ++ field (w_topic w) ++ field (w_message w))
              (option_map will_of match will with
               | Some w => Some (V5Connect.mkLastWill (w_topic w) (w_message w) (w_qos w) (w_retain w) (props_of will_record (w_props w)))
               | None => None end)) <= blen (opt (fun w => section_bytes (w_props w) ++ field (w_topic w) ++ field (w_message w)) will)).
    { destruct will as [w|]; cbn [option_map opt will_of w_props w_topic w_message V5Connect.lw_properties V5Connect.lw_topic V5Connect.lw_message]; [|lia].
      rewrite !blen_app. assert (K' := kept_size _ _ _ _ _ (will_size _) (proj1 Hw)). lia. }
    assert (Ku := given_size user). assert (Kp := given_size password).
    rewrite !blen_app. unfold name_of, secret_of, login_of. cbn [V5Connect.login].
    replace (match match or_empty user, or_empty password with [], [] => None | u, p => Some (V5Connect.mkLogin u p) end with
             | Some l => V5Connect.username l | None => [] end) with (or_empty user) by (destruct (or_empty user), (or_empty password); reflexivity).
    replace (match match or_empty user, or_empty password with [], [] => None | u, p => Some (V5Connect.mkLogin u p) end with
             | Some l => V5Connect.password l | None => [] end) with (or_empty password) by (destruct (or_empty user), (or_empty password); reflexivity).
    cbn [V5Connect.clean_session]. rewrite !blen_cons. lia.
  - rewrite !blen_app. assert (K := kept_size _ _ _ _ _ (connack_size _) (proj2 Hm)). cbn [V5ConnAck.properties]. rewrite !blen_cons. lia.
  - cbn [V5Publish.qos content]. rewrite !blen_app. assert (K := kept_size _ _ _ _ _ (publish_size _) (proj1 (proj2 Hm))). cbn [V5Publish.properties V5Publish.topic V5Publish.payload]. lia.
  - assert (K := kept_size _ _ _ _ _ (publish_size _) (proj1 (proj2 (proj2 Hm)))).
    destruct twice; cbn [V5Publish.qos content]; rewrite !blen_app; cbn [V5Publish.properties V5Publish.topic V5Publish.payload V5Publish.pkid]; lia.
  - rewrite !blen_app. assert (K := ending_size InPubAck _ _ puback_code V5PubAck.Success e puback_size (proj2 Hm) eq_refl). cbn [V5PubAck.pkid V5PubAck.reason V5PubAck.properties]. lia.
  - rewrite !blen_app. assert (K := ending_size InPubRec _ _ pubrec_code V5PubRec.Success e pubrec_size (proj2 Hm) eq_refl). cbn [V5PubRec.pkid V5PubRec.reason V5PubRec.properties]. lia.
  - rewrite !blen_app. assert (K := ending_size InPubRel _ _ pubrel_code V5PubRel.Success e pubrel_size (proj2 Hm) eq_refl). cbn [V5PubRel.pkid V5PubRel.reason V5PubRel.properties]. lia.
  - rewrite !blen_app. assert (K := ending_size InPubComp _ _ pubcomp_code V5PubComp.Success e pubcomp_size (proj2 Hm) eq_refl). cbn [V5PubComp.pkid V5PubComp.reason V5PubComp.properties]. lia.
  - rewrite !blen_app. assert (K := kept_size _ _ _ _ _ (subscribe_size _) (proj1 (proj2 Hm))). cbn [V5Subscribe.pkid V5Subscribe.properties V5Subscribe.filters]. lia.
  - rewrite !blen_app. assert (K := kept_size _ _ _ _ _ (suback_size _) (proj1 (proj2 Hm))). cbn [V5SubAck.pkid V5SubAck.properties V5SubAck.return_codes]. lia.
  - rewrite !blen_app. assert (K := kept_size _ _ _ _ _ (unsubscribe_size _) (proj1 (proj2 Hm))). cbn [V5Unsubscribe.pkid V5Unsubscribe.properties V5Unsubscribe.filters]. lia.
  - rewrite !blen_app. assert (K := kept_size _ _ _ _ _ (unsuback_size _) (proj1 (proj2 Hm))). cbn [V5UnsubAck.pkid V5UnsubAck.properties V5UnsubAck.reasons]. lia.
  - lia.
  - lia.
  - cbn [V5Disconnect.reason_code V5Disconnect.properties]. destruct e as [|c|c its]; cbn [code_of props_in props_of opt_items].
    + change (disconnect_code V5Disconnect.NormalDisconnection =? 0) with true. small.
    + destruct (disconnect_code c =? 0); small.
    + assert (K := kept_size _ _ _ _ _ (disconnect_size _) Hm). destruct (opt_items disconnect_items (props_of disconnect_record its)) as [|x l].
      * destruct (disconnect_code c =? 0); cbn [ending_bytes]; rewrite !blen_cons; unfold blen; cbn [List.length]; lia.
      * cbn [ending_bytes]. rewrite !blen_cons. lia.
Qed.

(** the packet can be written *)
Lemma forwarded_fits m s rest max p : bytes_ok s -> conforms m -> ~ misread m ->
  starts_with_frame s (header_byte m) (content m) rest -> read s max = (Ok p, rest) -> fits p.
Proof.
  intros Hb Hm Hr Hs H. destruct (read_as m s rest max p Hb Hm Hr Hs H) as [E Hl].
  destruct (read_well_formed s max p rest Hb H) as (H1 & H2 & H3 & H4 & H5 & _).
  assert (D : (exists sp code, m = M_CONNACK sp code []) \/ forall sp code, m <> M_CONNACK sp code []).
  { destruct m; try (right; discriminate). destruct props; [left; eauto|right; discriminate]. }
  assert (Hw : blen (written p) <= max_len); [|repeat (split; [assumption|]); assumption].
  destruct D as [(sp & code & ->)|Hn].
  - injection E as <-. destruct sp; cbv; discriminate.
  - assert (Rg := packet_regular m p Hm Hn E). destruct (message_written p Rg) as [_ ->]. assert (Sh := shorter m p Hm E). lia.
Qed.
(** every message of the standard that is read as what it is can be written again, and (unless it is a CONNACK without
    properties) what is written is a message of the standard that says the same and is not longer *)
Theorem C74_v5_forwarded : forall m s rest max p, bytes_ok s -> conforms m -> ~ misread m ->
  starts_with_frame s (header_byte m) (content m) rest -> read s max = (Ok p, rest) ->
  (forall sp code, m <> M_CONNACK sp code []) ->
  exists n m', write p [] = (Ok n, frame (header_byte m') (content m')) /\
    conforms m' /\ same_message m m' /\ as_packet m' = Some p /\ blen (content m') <= blen (content m).
Proof.
  intros m s rest max p Hb Hm Hr Hs H Hn. destruct (read_as m s rest max p Hb Hm Hr Hs H) as [E Hl].
  destruct (read_well_formed s max p rest Hb H) as (H1 & H2 & H3 & H4 & H5 & _).
  assert (Rg := packet_regular m p Hm Hn E). assert (V := packet_standard m p Hm Hn E). assert (Sh := shorter m p Hm E).
  destruct (message_written p Rg) as [E1 E2].
  assert (Hw : blen (written p) <= max_len) by (rewrite E2; lia).
  assert (Hf : fits p) by (repeat (split; [assumption|]); assumption).
  destruct (write_empty p Hw H4 H3) as [W [n Wn]]. exists n, (message_of p).
  assert (C : conforms (message_of p)) by (apply message_conforms; assumption).
  assert (P : as_packet (message_of p) = Some p) by (rewrite (message_packet p Rg), H5; reflexivity).
  split; [|split; [exact C|split; [|split; [exact P|exact Sh]]]].
  - destruct (write p []) as [r out]. cbn [fst snd] in W, Wn. subst r out. unfold written_wire. rewrite E1, E2. reflexivity.
  - apply (PropMeaning.C62_v5_packet_determines_message m (message_of p) p Hm C E). exact P.
Qed.
(** the exception: such a CONNACK is written as something that is no message of the standard *)
Theorem C74_v5_connack_not_forwarded : forall sp code s rest max p, bytes_ok s ->
  let m := M_CONNACK sp code [] in conforms m ->
  starts_with_frame s (header_byte m) (content m) rest -> read s max = (Ok p, rest) ->
  exists n out, write p [] = (Ok n, out) /\
    ~ exists m', conforms m' /\ blen (content m') <= max_len /\ out = frame (header_byte m') (content m').
Proof.
  intros sp code s rest max p Hb m Hm Hs H.
  assert (Hr : ~ misread m) by (intros (pre & x & E & _); destruct pre; discriminate E).
  destruct (read_as m s rest max p Hb Hm Hr Hs H) as [E Hl].
  destruct (read_well_formed s max p rest Hb H) as (H1 & H2 & H3 & H4 & H5 & _). injection E as <-.
  match goal with |- context [write ?q []] => set (p := q) in * end.
  assert (Hw : blen (written p) <= max_len) by (destruct sp; cbv; discriminate).
  assert (Hf : fits p) by (repeat (split; [assumption|]); assumption).
  destruct (write_empty p Hw H4 H3) as [W [n Wn]]. destruct (write p []) as [r out] eqn:Ew. cbn [fst snd] in W, Wn. subst r.
  exists n, out. split; [reflexivity|]. intros (m' & Hm' & Hl' & Eo).
  assert (V : standard_value p).
  { apply (PropStandard5W.C63_v5_writes_standard p n out Hf Ew). exists m'. split; [exact Hm'|]. split; [|split; [exact Hl'|exact Eo]].
    destruct (PropStandard5W.C63_v5_writes_the_message p n out m' Hf Ew Hm' Hl' Eo) as [G|(_ & c & G & _)]; [exact G|discriminate G]. }
  destruct V as [(_ & r & Er & _) _]. discriminate Er.
Qed.
(** a PUBLISH with two properties in the order the crate does not write, and a PUBACK with a superfluous code; a CONNACK
    with no properties loses its property length and is no message any more *)
Example C74_v5_case :
  let m := M_PUBLISH false true false [116] 7 [(35, VTwo 5); (1, VByte 1)] [9] in
  let s := [0x3A; 12; 0; 1; 116; 0; 7; 5; 35; 0; 5; 1; 1; 9] in
  let k := M_CONNACK true V5ConnAck.Success [] in
  (conforms m /\ ~ misread m /\ bytes_ok s /\ starts_with_frame s (header_byte m) (content m) [] /\ forall sp code, m <> M_CONNACK sp code []) /\
  (exists p, read s 99 = (Ok p, []) /\ write p [] = (Ok 14, [0x3A; 12; 0; 1; 116; 0; 7; 5; 1; 1; 35; 0; 5; 9])) /\
  (exists p, read [0x40; 4; 0; 7; 0; 0] 99 = (Ok p, []) /\ write p [] = (Ok 4, [0x40; 2; 0; 7])) /\
  conforms k /\ starts_with_frame [0x20; 3; 1; 0; 0] (header_byte k) (content k) [] /\
  exists p, read [0x20; 3; 1; 0; 0] 99 = (Ok p, []) /\ write p [] = (Ok 4, [0x20; 2; 1; 0]).
Proof.
  assert (T : text [116]).
  { split; [|split; [cbv; discriminate|intros [H|[]]; discriminate H]]. exists [116]. split; [repeat constructor; lia|reflexivity]. }
  assert (R : rules_at InPublish [(35, VTwo 5); (1, VByte 1)]).
  { split; [|split].
    - constructor; [|constructor; [|constructor]]; (split; [cbn; tauto|]; split; [split; [split; [reflexivity|cbv; reflexivity]|split; exact I]|cbn; try discriminate; lia]).
    - intros id a b c E. cbn [map fst] in E. destruct a as [|x a]; cbn [app] in E; injection E as <- E.
      + destruct b as [|y b]; cbn [app] in E; injection E as E E'; [discriminate E|]. destruct b; discriminate E'.
      + destruct a as [|y a]; cbn [app] in E; injection E as <- E; [destruct b; discriminate E|]. destruct a; discriminate E.
    - intros [H|[H|[]]]; discriminate H. }
  cbv zeta. split; [|split; [|split; [|split; [|split]]]].
  - split; [|split; [|split; [|split]]].
    + cbn [conforms]. split; [|split; [split; cbv; [reflexivity|reflexivity]|split; [exact R|repeat constructor]]].
      split; [exact T|]. split; [intros [H|[]]; discriminate H|]. split; [intros [H|[]]; discriminate H|discriminate].
    + intros (pre & x & E & L). cbn [message_props] in E. destruct pre as [|a [|b pre]]; [discriminate E| |destruct pre; discriminate E].
      injection E as <- <-. vm_compute in L. apply L. reflexivity.
    + repeat constructor.
    + exists [12]. split; [reflexivity|]. split; [apply (lf_last 12); lia|cbv; discriminate].
    + discriminate.
  - eexists. split; [vm_compute; reflexivity|vm_compute; reflexivity].
  - eexists. split; [vm_compute; reflexivity|vm_compute; reflexivity].
  - cbn [conforms]. split; [intros H; exfalso; apply H; reflexivity|].
    split; [constructor|]. split; [intros id a b c E; destruct a; discriminate E|intros []].
  - exists [3]. split; [reflexivity|]. split; [apply (lf_last 3); lia|cbv; discriminate].
  - eexists. split; [vm_compute; reflexivity|vm_compute; reflexivity].
Qed.
Print Assumptions C74_v5_forwarded.
Print Assumptions C74_v5_connack_not_forwarded.

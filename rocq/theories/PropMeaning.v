(** PropMeaning.v -- C62, continued: a decoded packet keeps the meaning of the message, no more and no less. *)
From Verif Require Import Base SpecWire SpecTopic SpecProps SpecPropSets SpecV5 SpecStd5 SpecStd5Mean ProofBase ProofLib ProofV5Read ProofV5 ProofStd5Mean.
From Verif Require V5Connect V5ConnAck V5Publish V5PubAck V5Subscribe V5Disconnect PropStandard5.

Local Lemma same_empty a b : same_properties a b -> a = [] -> b = [].
Proof.
  intros H ->. destruct b as [|it b]; [reflexivity|]. specialize (H (fst it)). cbn [filter] in H. rewrite N.eqb_refl in H. discriminate H.
Qed.
Local Lemma same_sym a b : same_properties a b -> same_properties b a.
Proof. intros H id. symmetry. apply H. Qed.
Local Lemma props_of_same {R} pl (rec : list item -> R) a b : determines pl rec -> rules_at pl a -> rules_at pl b ->
  (props_of rec a = props_of rec b <-> same_properties a b).
Proof.
  intros D Ra Rb. specialize (D a b Ra Rb). unfold props_of. destruct a as [|x a], b as [|y b].
  - split; [intros _ id; reflexivity|reflexivity].
  - split; [discriminate|]. intros H. discriminate (same_empty _ _ H eq_refl).
  - split; [discriminate|]. intros H. discriminate (same_empty _ _ (same_sym _ _ H) eq_refl).
  - split; [intros H; injection H as H; apply D, H|]. intros H. f_equal. apply D, H.
Qed.
Local Lemma no_rules pl : rules_at pl [].
Proof. split; [constructor|]. split; [intros id a b c E; destruct a; discriminate E|intros []]. Qed.
Local Lemma ending_rules {C} pl (e : ending C) : ending_ok (rules_at pl) e -> rules_at pl (props_in e).
Proof. destruct e; intros H; [apply no_rules|apply no_rules|exact H]. Qed.
Local Lemma login_same u pw u' pw' : login_of u pw = login_of u' pw' <-> same_text u u' /\ same_text pw pw'.
Proof.
  unfold login_of, same_text. destruct (or_empty u), (or_empty pw), (or_empty u'), (or_empty pw'); split;
    try discriminate; try (intros [H1 H2]; try discriminate H1; try discriminate H2; congruence); try (intros E; injection E; intros; subst; auto); auto.
Qed.

(** two messages of the standard become the same packet exactly when they say the same: same fields, the same
    properties up to the order of different ones, a reason code 0 written or left out; an empty user name
    or password is the same as none *)
Theorem C62_v5_packet_determines_message : forall m m' p, conforms m -> conforms m' -> as_packet m = Some p ->
  (as_packet m' = Some p <-> same_message m m').
Proof.
  intros m m' p Hm Hm' Ep. rewrite <- Ep.
  assert (Sym : forall A (x y : A), (x = y <-> y = x)) by (intros; split; congruence).
  rewrite (Sym _ (as_packet m')).
  destruct m; destruct m'; cbn [as_packet same_message]; try (split; [discriminate|intros []]);
    cbn [conforms] in Hm, Hm'.
  all: try (match goal with twice : bool |- _ => split; [destruct twice; discriminate|intros []] end).
  - destruct Hm as (_ & Rp & _ & Rw & _), Hm' as (_ & Rp' & _ & Rw' & _).
    rewrite <- (props_of_same InConnect connect_record props props0 determines_connect Rp Rp').
    rewrite <- login_same.
    assert (W : (match will with
        | Some w => Some (V5Connect.mkLastWill (w_topic w) (w_message w) (w_qos w) (w_retain w) (props_of will_record (w_props w)))
        | None => None end = match will0 with
        | Some w => Some (V5Connect.mkLastWill (w_topic w) (w_message w) (w_qos w) (w_retain w) (props_of will_record (w_props w)))
        | None => None end) <-> same_will will will0).
    { destruct will as [w|], will0 as [w'|]; cbn [same_will]; try (split; [discriminate|intros []]); [|tauto].
      rewrite <- (props_of_same InWill will_record (w_props w) (w_props w') determines_will (proj1 Rw) (proj1 Rw')).
      split; [intros E; injection E; auto|]. intros (-> & -> & -> & -> & ->). reflexivity. }
    rewrite <- W. split; [intros E; injection E; auto 10|]. intros (-> & -> & -> & -> & -> & ->). reflexivity.
  - rewrite <- (props_of_same InConnAck connack_record props props0 determines_connack (proj2 Hm) (proj2 Hm')).
    split; [intros E; injection E; auto|]. intros (-> & -> & ->). reflexivity.
  - destruct Hm as (_ & R & _), Hm' as (_ & R' & _).
    rewrite <- (props_of_same InPublish publish_record props props0 determines_publish R R').
    split; [intros E; injection E; auto|]. intros (-> & -> & -> & ->). reflexivity.
  - destruct Hm as (_ & _ & R & _), Hm' as (_ & _ & R' & _).
    rewrite <- (props_of_same InPublish publish_record props props0 determines_publish R R').
    split; [|intros (-> & -> & -> & -> & -> & -> & ->); reflexivity].
    intros E; injection E; intros. split; [destruct twice, twice0; congruence|auto 10].
  - unfold same_ending. rewrite <- (props_of_same InPubAck puback_record _ _ determines_puback (ending_rules _ _ (proj2 Hm)) (ending_rules _ _ (proj2 Hm'))).
    split; [intros E; injection E; auto|]. intros (-> & -> & ->). reflexivity.
  - unfold same_ending. rewrite <- (props_of_same InPubRec pubrec_record _ _ determines_pubrec (ending_rules _ _ (proj2 Hm)) (ending_rules _ _ (proj2 Hm'))).
    split; [intros E; injection E; auto|]. intros (-> & -> & ->). reflexivity.
  - unfold same_ending. rewrite <- (props_of_same InPubRel pubrel_record _ _ determines_pubrel (ending_rules _ _ (proj2 Hm)) (ending_rules _ _ (proj2 Hm'))).
    split; [intros E; injection E; auto|]. intros (-> & -> & ->). reflexivity.
  - unfold same_ending. rewrite <- (props_of_same InPubComp pubcomp_record _ _ determines_pubcomp (ending_rules _ _ (proj2 Hm)) (ending_rules _ _ (proj2 Hm'))).
    split; [intros E; injection E; auto|]. intros (-> & -> & ->). reflexivity.
  - rewrite <- (props_of_same InSubscribe subscribe_record _ _ determines_subscribe (proj1 (proj2 Hm)) (proj1 (proj2 Hm'))).
    split; [intros E; injection E; auto|]. intros (-> & -> & ->). reflexivity.
  - rewrite <- (props_of_same InSubAck suback_record _ _ determines_suback (proj1 (proj2 Hm)) (proj1 (proj2 Hm'))).
    split; [intros E; injection E; auto|]. intros (-> & -> & ->). reflexivity.
  - rewrite <- (props_of_same InUnsubscribe unsubscribe_record _ _ determines_unsubscribe (proj1 (proj2 Hm)) (proj1 (proj2 Hm'))).
    split; [intros E; injection E; auto|]. intros (-> & -> & ->). reflexivity.
  - rewrite <- (props_of_same InUnsubAck unsuback_record _ _ determines_unsuback (proj1 (proj2 Hm)) (proj1 (proj2 Hm'))).
    split; [intros E; injection E; auto|]. intros (-> & -> & ->). reflexivity.
  - tauto.
  - tauto.
  - unfold same_ending. rewrite <- (props_of_same InDisconnect disconnect_record _ _ determines_disconnect (ending_rules _ _ Hm) (ending_rules _ _ Hm')).
    split; [intros E; injection E; auto|]. intros (-> & ->). reflexivity.
Qed.
(** so `read` gives two senders' messages the same packet exactly if they say the same *)
Theorem C62_v5_same_packet_same_meaning : forall m m' s s' rest rest' max p p', bytes_ok s -> bytes_ok s' ->
  conforms m -> conforms m' -> ~ misread m -> ~ misread m' ->
  starts_with_frame s (header_byte m) (content m) rest -> starts_with_frame s' (header_byte m') (content m') rest' ->
  read s max = (Ok p, rest) -> read s' max = (Ok p', rest') ->
  (p = p' <-> same_message m m').
Proof.
  assert (K : forall m s rest max p, bytes_ok s -> conforms m -> ~ misread m ->
            starts_with_frame s (header_byte m) (content m) rest -> read s max = (Ok p, rest) -> as_packet m = Some p).
  { intros m s rest max p Hb Hm Hr Hs H.
    assert (Hl : blen (content m) <= max).
    { apply read_iff in H as (c1 & cd & Hc & Hl & _); [|exact Hb].
      destruct Hs as (f & E & Hf & _), Hc as (g & E' & Hg & _). rewrite E in E'. injection E' as _ E'.
      destruct (lenfield_det _ _ _ _ _ _ Hf Hg E') as (_ & En & Er). rewrite En. exact Hl. }
    assert (U : forall e, ~ unsupported m e).
    { intros e Hu. rewrite (PropStandard5.C62_v5_unsupported m e s rest max Hb Hm Hs Hl Hu) in H. discriminate H. }
    destruct (PropStandard5.C62_v5_standard_accepted m s rest max Hb Hm Hs Hl U Hr) as (q & E & R).
    rewrite R in H. injection H as <-. exact E. }
  intros m m' s s' rest rest' max p p' Hb Hb' Hm Hm' Hr Hr' Hs Hs' H H'.
  assert (E := K _ _ _ _ _ Hb Hm Hr Hs H). assert (E' := K _ _ _ _ _ Hb' Hm' Hr' Hs' H').
  rewrite <- (C62_v5_packet_determines_message m m' p Hm Hm' E), E'. split; [intros ->; reflexivity|intros X; injection X; auto].
Qed.
(** two PUBACK that say the same in different bytes (7; 7 with code 0; 7 with code 0 and no properties), and one
    that does not; a CONNACK with two properties in either order *)
Example C62_v5_meaning_case :
  let a := M_PUBACK 7 Nothing in let b := M_PUBACK 7 (CodeProps V5PubAck.Success []) in
  let c := M_PUBACK 7 (CodeOnly V5PubAck.NotAuthorized) in
  let d := M_CONNACK true V5ConnAck.Success [(17, VFour 9); (33, VTwo 5)] in
  let e := M_CONNACK true V5ConnAck.Success [(33, VTwo 5); (17, VFour 9)] in
  (conforms a /\ conforms b /\ conforms c /\ conforms d /\ conforms e) /\
  same_message a b /\ ~ same_message a c /\ same_message d e /\ d <> e /\
  (forall m, m = a \/ m = d -> ~ misread m) /\
  starts_with_frame [0x40; 2; 0; 7] (header_byte a) (content a) [] /\
  read [0x40; 2; 0; 7] 10 = (Ok (PubAck (V5PubAck.mkPubAck 7 V5PubAck.Success None)), []) /\
  read [0x40; 4; 0; 7; 0; 0] 10 = (Ok (PubAck (V5PubAck.mkPubAck 7 V5PubAck.Success None)), []) /\
  read [0x40; 3; 0; 7; 0x87] 10 = (Ok (PubAck (V5PubAck.mkPubAck 7 V5PubAck.NotAuthorized None)), []).
Proof.
  cbv zeta.
  assert (R : forall l, l = [(17, VFour 9); (33, VTwo 5)] \/ l = [(33, VTwo 5); (17, VFour 9)] -> rules_at InConnAck l).
  { intros l H. split; [|split].
    - assert (G : forall it, it = (17, VFour 9) \/ it = (33, VTwo 5) -> In (fst it) (allowed_at InConnAck) /\ item_ok it /\ value_rule it).
      { intros it [-> | ->]; (split; [cbn; tauto|]; split; [split; [split; [reflexivity|cbv; reflexivity]|split; exact I]|cbn; discriminate]). }
      destruct H as [-> | ->]; (constructor; [apply G; auto|constructor; [apply G; auto|constructor]]).
    - assert (L : forall (i k id : N) x y z, i <> k -> [i; k] = x ++ id :: y ++ id :: z -> False).
      { intros i k id x y z Hn E. destruct x as [|u x]; cbn [app] in E; injection E as <- E.
        - destruct y as [|v y]; cbn [app] in E; injection E as E E'; [auto|]. destruct y; discriminate E'.
        - destruct x as [|v x]; cbn [app] in E; injection E as E E'; [destruct y; discriminate E'|destruct x; discriminate E']. }
      intros id x y z E. exfalso. destruct H as [-> | ->]; cbn [map fst] in E; refine (L _ _ _ _ _ _ _ E); discriminate.
    - destruct H as [-> | ->]; cbn; intros [H|[H|[]]]; discriminate H. }
  assert (I7 : identifier 7) by (vm_compute; split; (reflexivity || discriminate)).
  split. { cbn [conforms ending_ok]. split; [split; [exact I7|exact I]|]. split; [split; [exact I7|apply no_rules]|]. split; [split; [exact I7|exact I]|].
    split; (split; [intros H; exfalso; apply H; reflexivity|apply R; auto]). }
  split; [split; [reflexivity|split; [reflexivity|intros id; reflexivity]]|].
  split; [intros (_ & H & _); discriminate H|].
  split. { split; [reflexivity|]. split; [reflexivity|]. intros id. cbn [filter fst].
    destruct (N.eqb_spec 17 id), (N.eqb_spec 33 id); subst; try discriminate; reflexivity. }
  split; [discriminate|].
  split. { intros m [-> | ->] (pre & x & E & _); cbn [message_props] in E; destruct pre; discriminate E. }
  split. { exists [2]. split; [reflexivity|]. split; [apply (lf_last 2); lia|cbv; discriminate]. }
  vm_compute. auto.
Qed.
Print Assumptions C62_v5_packet_determines_message.
Print Assumptions C62_v5_same_packet_same_meaning.

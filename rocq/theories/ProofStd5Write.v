(** ProofStd5Write.v -- what the v5 `write` writes, and the messages of the standard *)
From Verif Require Import Base SpecWire SpecTopic SpecProps SpecPropSets SpecV5 SpecStd5 SpecStd5Write
  ProofStd ProofBase ProofLib ProofRead ProofProps ProofPropSets ProofSections ProofV5Read ProofV5Write ProofV5 ProofStd5 ProofStd5Sec ProofStd5Not ProofStd5Inj.
From Verif Require V5Connect V5ConnAck V5Publish V5PubAck V5PubRec V5PubRel V5PubComp
  V5Subscribe V5SubAck V5Unsubscribe V5UnsubAck V5Disconnect.

(** *** A property set is written with every property once *)
Definition times (id : N) (its : list item) : nat := count_occ N.eq_dec (map fst its) id.
Lemma times_app id a b : times id (a ++ b) = (times id a + times id b)%nat.
Proof. unfold times. rewrite map_app. apply count_occ_app. Qed.
Lemma times_one {A} id k (f : A -> pval) o : (times id (one k f o) <= if N.eqb k id then 1 else 0)%nat.
Proof.
  unfold times, one. destruct o; cbn [map fst count_occ]; [|destruct (k =? id); lia].
  destruct (N.eq_dec k id) as [->|H]; [rewrite N.eqb_refl; lia|]. apply N.eqb_neq in H. rewrite H. lia.
Qed.
Lemma times_pairs id l : id <> 38 -> times id (pair_items l) = 0%nat.
Proof.
  intros H. unfold times, pair_items. induction l as [|kv l IH]; [reflexivity|]. cbn [map fst count_occ].
  destruct (N.eq_dec 38 id); [congruence|exact IH].
Qed.
Lemma times_ids id l : id <> 11 -> times id (id_items l) = 0%nat.
Proof.
  intros H. unfold times, id_items. induction l as [|kv l IH]; [reflexivity|]. cbn [map fst count_occ].
  destruct (N.eq_dec 11 id); [congruence|exact IH].
Qed.
Lemma times_twice id its a b c : map fst its = a ++ id :: b ++ id :: c -> (2 <= times id its)%nat.
Proof.
  intros E. unfold times. rewrite E, !count_occ_app. cbn [count_occ]. destruct (N.eq_dec id id); [|congruence].
  rewrite count_occ_app. cbn [count_occ]. destruct (N.eq_dec id id); [lia|congruence].
Qed.
(** no property twice, except user properties and subscription identifiers *)
Definition once (rep : list N) (its : list item) : Prop :=
  forall id a b c, map fst its = a ++ id :: b ++ id :: c -> In id rep.
Ltac times_bound :=
  repeat match goal with
  | H : context [times ?id (one ?k ?f ?o)] |- _ =>
      let B := fresh in assert (B := times_one id k f o); revert B; generalize dependent (times id (one k f o)); intros
  end.
Ltac settle :=
  repeat match goal with
  | H : context [N.eqb ?a ?b] |- _ => let v := eval compute in (N.eqb a b) in change (N.eqb a b) with v in H; cbv iota in H
  end.
Ltac solve_once :=
  let id := fresh "id" in let E := fresh "E" in let H := fresh "H" in
  intros id ? ? ? E; apply times_twice in E;
  destruct (N.eq_dec id 38) as [->|H]; [left; reflexivity|];
  try (destruct (N.eq_dec id 11) as [->|?]; [right; left; reflexivity|]);
  exfalso; rewrite ?times_app, ?(times_pairs _ _ H), ?times_ids in E by assumption;
  times_bound;
  repeat match goal with
  | H : context [N.eqb ?k id] |- _ => destruct (N.eqb_spec k id) as [<-|?]; [settle; lia|]
  end; lia.
Lemma connect_once p : once [38] (connect_items p). Proof. unfold connect_items. solve_once. Qed.
Lemma will_once p : once [38] (will_items p). Proof. unfold will_items. solve_once. Qed.
Lemma connack_once p : once [38] (connack_items p). Proof. unfold connack_items. solve_once. Qed.
Lemma publish_once p : once [38; 11] (publish_items p). Proof. unfold publish_items. solve_once. Qed.
Lemma puback_once p : once [38] (puback_items p). Proof. unfold puback_items. solve_once. Qed.
Lemma pubrec_once p : once [38] (pubrec_items p). Proof. unfold pubrec_items. solve_once. Qed.
Lemma pubrel_once p : once [38] (pubrel_items p). Proof. unfold pubrel_items. solve_once. Qed.
Lemma pubcomp_once p : once [38] (pubcomp_items p). Proof. unfold pubcomp_items. solve_once. Qed.
Lemma subscribe_once p : once [38] (subscribe_items p). Proof. unfold subscribe_items. solve_once. Qed.
Lemma suback_once p : once [38] (suback_items p). Proof. unfold suback_items. solve_once. Qed.
Lemma unsubscribe_once p : once [38] (unsubscribe_items p). Proof. unfold unsubscribe_items. solve_once. Qed.
Lemma unsuback_once p : once [38] (unsuback_items p). Proof. unfold unsuback_items. solve_once. Qed.
Lemma disconnect_once p : once [38] (disconnect_items p). Proof. unfold disconnect_items. solve_once. Qed.

(** *** Rules of a written property set *)
Lemma in_one {A} id k (f : A -> pval) o : In id (map fst (one k f o)) <-> k = id /\ o <> None.
Proof.
  unfold one. destruct o; cbn [map fst In]; [|split; [intros []|intros [_ H]; congruence]].
  split; [intros [->|[]]; split; [reflexivity|discriminate]|intros [-> _]; left; reflexivity].
Qed.
Lemma in_pairs id l : In id (map fst (pair_items l)) -> id = 38.
Proof. unfold pair_items. rewrite map_map. intros H. apply in_map_iff in H as (x & <- & _). reflexivity. Qed.
Lemma in_ids id l : In id (map fst (id_items l)) -> id = 11.
Proof. unfold id_items. rewrite map_map. intros H. apply in_map_iff in H as (x & <- & _). reflexivity. Qed.
Ltac find_in :=
  match goal with
  | |- _ \/ _ => first [left; find_in | right; find_in]
  | |- In _ (map fst (one _ _ _)) => apply in_one; split; [reflexivity|assumption]
  end.
Ltac solve_occurs :=
  unfold occurs; rewrite !map_app, !in_app_iff; split;
  [ let H := fresh in intros H;
    repeat match type of H with _ \/ _ => destruct H as [H|H] end;
    first [ apply in_one in H as [E H]; first [discriminate E | exact H]
          | apply in_pairs in H; discriminate H | apply in_ids in H; discriminate H ]
  | intros; find_in ].
Lemma connect_data r : occurs 22 (connect_items r) <-> V5Connect.cp_authentication_data r <> None.
Proof. unfold connect_items. solve_occurs. Qed.
Lemma connect_method r : occurs 21 (connect_items r) <-> V5Connect.cp_authentication_method r <> None.
Proof. unfold connect_items. solve_occurs. Qed.
Lemma connack_data r : occurs 22 (connack_items r) <-> V5ConnAck.authentication_data r <> None.
Proof. unfold connack_items. solve_occurs. Qed.
Lemma connack_method r : occurs 21 (connack_items r) <-> V5ConnAck.authentication_method r <> None.
Proof. unfold connack_items. solve_occurs. Qed.
Lemma publish_alias r : occurs 35 (publish_items r) <-> V5Publish.topic_alias r <> None.
Proof. unfold publish_items. solve_occurs. Qed.

Definition repeatable (pl : place) : list N := match pl with InPublish => [38; 11] | _ => [38] end.
Lemma set_rules {R} pl (items : R -> list item) (o : option R) :
  (forall r, Forall (has_place pl) (items r)) -> (forall r, once (repeatable pl) (items r)) ->
  Forall item_ok (opt_items items o) ->
  (rules_at pl (opt_items items o) <->
   Forall value_rule (opt_items items o) /\ (occurs 22 (opt_items items o) -> occurs 21 (opt_items items o))).
Proof.
  intros Hp Ho Hok. split.
  - intros (H1 & _ & H3). split; [|exact H3]. eapply Forall_impl; [|exact H1]. intros it (_ & _ & H). exact H.
  - intros [Hv Ha]. split; [|split].
    + destruct o as [r|]; cbn [opt_items] in *; [|constructor]. specialize (Hp r). rewrite Forall_forall in *. intros it Hi.
      split; [apply Hp, Hi|]. split; [apply Hok, Hi|apply Hv, Hi].
    + destruct o as [r|]; cbn [opt_items] in *; [apply (Ho r)|]. intros id a b c E. destruct a; discriminate E.
    + exact Ha.
Qed.
(** ... where there is no authentication data *)
Lemma set_rules_plain {R} pl (items : R -> list item) (o : option R) : mem 22 (allowed_at pl) = false ->
  (forall r, Forall (has_place pl) (items r)) -> (forall r, once (repeatable pl) (items r)) ->
  Forall item_ok (opt_items items o) ->
  (rules_at pl (opt_items items o) <-> Forall value_rule (opt_items items o)).
Proof.
  intros Hm Hp Ho Hok. rewrite (set_rules pl items o Hp Ho Hok). split; [intros [H _]; exact H|]. intros H. split; [exact H|].
  intros Hi. exfalso. destruct o as [r|]; [|destruct Hi]. cbn [opt_items] in Hi. unfold occurs in Hi. apply in_map_iff in Hi as (it & E & Hi).
  specialize (Hp r). rewrite Forall_forall in Hp. apply Hp in Hi as [Hi _]. rewrite E in Hi. destruct pl; cbn in Hi; try discriminate Hm; clear - Hi;
  repeat (destruct Hi as [Hi|Hi]; [discriminate Hi|]); exact Hi.
Qed.

(** *** The message a packet value stands for *)
Definition will_of (w : V5Connect.LastWill) : Will :=
  mkWill (opt_items will_items (V5Connect.lw_properties w)) (V5Connect.lw_topic w) (V5Connect.lw_message w)
    (V5Connect.lw_qos w) (V5Connect.lw_retain w).
Definition ack_ending {C R} (items : R -> list item) (num : C -> N) (c : C) (o : option R) : ending C :=
  match o with Some r => CodeProps c (items r) | None => if num c =? 0 then Nothing else CodeOnly c end.
Definition name_of (c : V5Connect.Connect) : bytes :=
  match V5Connect.login c with Some l => V5Connect.username l | None => [] end.
Definition secret_of (c : V5Connect.Connect) : bytes :=
  match V5Connect.login c with Some l => V5Connect.password l | None => [] end.
Definition message_of (p : Packet) : Message :=
  match p with
  | Connect c =>
      M_CONNECT (V5Connect.clean_session c) (V5Connect.keep_alive c) (opt_items connect_items (V5Connect.properties c))
        (V5Connect.client_id c) (option_map will_of (V5Connect.last_will c)) (given (name_of c)) (given (secret_of c))
  | ConnAck c => M_CONNACK (V5ConnAck.session_present c) (V5ConnAck.code c) (opt_items connack_items (V5ConnAck.properties c))
  | Publish q =>
      let its := opt_items publish_items (V5Publish.properties q) in
      match V5Publish.qos q with
      | AtMostOnce => M_PUBLISH0 (V5Publish.retain q) (V5Publish.topic q) its (V5Publish.payload q)
      | AtLeastOnce => M_PUBLISH false (V5Publish.dup q) (V5Publish.retain q) (V5Publish.topic q) (V5Publish.pkid q) its (V5Publish.payload q)
      | ExactlyOnce => M_PUBLISH true (V5Publish.dup q) (V5Publish.retain q) (V5Publish.topic q) (V5Publish.pkid q) its (V5Publish.payload q)
      end
  | PubAck p => M_PUBACK (V5PubAck.pkid p) (ack_ending puback_items puback_code (V5PubAck.reason p) (V5PubAck.properties p))
  | PubRec p => M_PUBREC (V5PubRec.pkid p) (ack_ending pubrec_items pubrec_code (V5PubRec.reason p) (V5PubRec.properties p))
  | PubRel p => M_PUBREL (V5PubRel.pkid p) (ack_ending pubrel_items pubrel_code (V5PubRel.reason p) (V5PubRel.properties p))
  | PubComp p => M_PUBCOMP (V5PubComp.pkid p) (ack_ending pubcomp_items pubcomp_code (V5PubComp.reason p) (V5PubComp.properties p))
  | Subscribe s => M_SUBSCRIBE (V5Subscribe.pkid s) (opt_items subscribe_items (V5Subscribe.properties s)) (V5Subscribe.filters s)
  | SubAck s => M_SUBACK (V5SubAck.pkid s) (opt_items suback_items (V5SubAck.properties s)) (V5SubAck.return_codes s)
  | Unsubscribe u => M_UNSUBSCRIBE (V5Unsubscribe.pkid u) (opt_items unsubscribe_items (V5Unsubscribe.properties u)) (V5Unsubscribe.filters u)
  | UnsubAck u => M_UNSUBACK (V5UnsubAck.pkid u) (opt_items unsuback_items (V5UnsubAck.properties u)) (V5UnsubAck.reasons u)
  | PingReq => M_PINGREQ
  | PingResp => M_PINGRESP
  | Disconnect d =>
      M_DISCONNECT match opt_items disconnect_items (V5Disconnect.properties d) with
        | [] => if disconnect_code (V5Disconnect.reason_code d) =? 0 then Nothing else CodeOnly (V5Disconnect.reason_code d)
        | its => CodeProps (V5Disconnect.reason_code d) its
        end
  end.
(** ... if it stands for one *)
Definition regular (p : Packet) : Prop :=
  match p with
  | Connect c => V5Connect.protocol c = V5
  | ConnAck c => V5ConnAck.properties c <> None
  | Publish q => V5Publish.qos q = AtMostOnce -> V5Publish.dup q = false
  | Disconnect d => forall r, V5Disconnect.properties d = Some r -> disconnect_items r = [] ->
      V5Disconnect.reason_code d = V5Disconnect.NormalDisconnection
  | _ => True
  end.

Lemma opt_given s : opt field (given s) = if nonempty s then field s else [].
Proof. destruct s; reflexivity. Qed.
Lemma ack_ending_bytes {C R} (items : R -> list item) (num : C -> N) id c o :
  ack_body items id (num c) o = be16 id ++ ending_bytes num (ack_ending items num c o).
Proof. unfold ack_body, ack_ending. destruct o; [reflexivity|]. destruct (num c =? 0); reflexivity. Qed.
Lemma message_written p : regular p -> first_byte p = header_byte (message_of p) /\ written p = content (message_of p).
Proof.
  intros Hr. destruct p as [c|c|q|p|p|p|p|s|s|u|u| | |d]; cbn [regular] in Hr;
    try (split; [reflexivity|]; try reflexivity; apply ack_ending_bytes).
  - split; [reflexivity|]. cbn [written message_of content]. rewrite Hr. cbn [level]. change (field MQTT) with [0; 4; 77; 81; 84; 84]. cbn [app].
    assert (F : connect_flags c = flags_byte (V5Connect.clean_session c) (option_map will_of (V5Connect.last_will c)) (given (name_of c)) (given (secret_of c))).
    { unfold connect_flags, flags_byte, name_of, secret_of. destruct (V5Connect.last_will c) as [w|]; cbn [option_map will_of w_retain w_qos];
      (destruct (V5Connect.login c) as [[[|? ?] [|? ?]]|]); cbn [V5Connect.username V5Connect.password given present nonempty bit]; lia. }
    rewrite F. do 8 f_equal. f_equal. f_equal. f_equal. f_equal.
    + destruct (V5Connect.last_will c) as [w|]; reflexivity.
    + rewrite !opt_given. unfold name_of, secret_of. destruct (V5Connect.login c) as [[[|? ?] [|? ?]]|]; reflexivity.
  - split; [reflexivity|]. cbn [written message_of content]. destruct (V5ConnAck.properties c); [reflexivity|congruence].
  - destruct q as [d q r t id ps pl]. cbn [V5Publish.qos V5Publish.dup] in Hr.
    destruct q; [rewrite (Hr eq_refl)| |]; (split; [destruct d, r; reflexivity|reflexivity]).
  - split; [reflexivity|]. cbn [written message_of content body]. destruct (V5Disconnect.properties d) as [r|] eqn:E; cbn [opt_items].
    + destruct (disconnect_items r) as [|it its] eqn:Ei; [|reflexivity]. rewrite (Hr r eq_refl Ei). reflexivity.
    + destruct (disconnect_code (V5Disconnect.reason_code d) =? 0); reflexivity.
Qed.
Lemma props_canon {R} (items : R -> list item) (rec : list item -> R) o : (forall r, rec (items r) = r) ->
  props_of rec (opt_items items o) = canon_props items o.
Proof.
  intros H. destruct o as [r|]; [|reflexivity]. cbn [opt_items canon_props]. destruct (items r) as [|i l] eqn:E; [reflexivity|].
  cbn [props_of nonempty]. rewrite <- E, H. reflexivity.
Qed.
Lemma ack_ending_canon {C R} (items : R -> list item) (rec : list item -> R) (num : C -> N) zero c o : (forall r, rec (items r) = r) ->
  (num c = 0 -> c = zero) ->
  code_of zero (ack_ending items num c o) = c /\ props_of rec (props_in (ack_ending items num c o)) = canon_props items o.
Proof.
  intros H Hz. destruct o as [r|]; cbn [ack_ending].
  - split; [reflexivity|]. exact (props_canon items rec (Some r) H).
  - destruct (N.eqb_spec (num c) 0) as [E|E]; (split; [|reflexivity]); [symmetry; apply Hz, E|reflexivity].
Qed.
Lemma message_packet p : regular p -> as_packet (message_of p) = Some (canon p).
Proof.
  intros Hr. destruct p as [c|c|q|p|p|p|p|s|s|u|u| | |d]; cbn [regular message_of as_packet canon] in *.
  - rewrite (props_canon connect_items connect_record _ connect_record_items), Hr. do 2 f_equal. f_equal.
    + destruct (V5Connect.last_will c) as [w|]; [|reflexivity]. cbn [option_map will_of w_topic w_message w_qos w_retain w_props].
      rewrite (props_canon will_items will_record _ will_record_items). reflexivity.
    + unfold login_of, name_of, secret_of, canon_login. destruct (V5Connect.login c) as [[[|? ?] [|? ?]]|]; reflexivity.
  - rewrite (props_canon connack_items connack_record _ connack_record_items). reflexivity.
  - destruct q as [d q r t id ps pl]. cbn [V5Publish.qos V5Publish.dup V5Publish.retain V5Publish.topic V5Publish.pkid V5Publish.properties V5Publish.payload] in *.
    destruct q; cbn [as_packet positive_qos]; rewrite (props_canon publish_items publish_record _ publish_record_items); try rewrite (Hr eq_refl); reflexivity.
  - destruct (ack_ending_canon puback_items puback_record puback_code V5PubAck.Success (V5PubAck.reason p) (V5PubAck.properties p) puback_record_items (puback_zero _)) as [-> ->]. reflexivity.
  - destruct (ack_ending_canon pubrec_items pubrec_record pubrec_code V5PubRec.Success (V5PubRec.reason p) (V5PubRec.properties p) pubrec_record_items (pubrec_zero _)) as [-> ->]. reflexivity.
  - destruct (ack_ending_canon pubrel_items pubrel_record pubrel_code V5PubRel.Success (V5PubRel.reason p) (V5PubRel.properties p) pubrel_record_items (pubrel_zero _)) as [-> ->]. reflexivity.
  - destruct (ack_ending_canon pubcomp_items pubcomp_record pubcomp_code V5PubComp.Success (V5PubComp.reason p) (V5PubComp.properties p) pubcomp_record_items (pubcomp_zero _)) as [-> ->]. reflexivity.
  - rewrite (props_canon subscribe_items subscribe_record _ subscribe_record_items). reflexivity.
  - rewrite (props_canon suback_items suback_record _ suback_record_items). reflexivity.
  - rewrite (props_canon unsubscribe_items unsubscribe_record _ unsubscribe_record_items). reflexivity.
  - rewrite (props_canon unsuback_items unsuback_record _ unsuback_record_items). reflexivity.
  - reflexivity.
  - reflexivity.
  - rewrite <- (props_canon disconnect_items disconnect_record _ disconnect_record_items).
    destruct (opt_items disconnect_items (V5Disconnect.properties d)) as [|i l]; [|reflexivity].
    destruct (N.eqb_spec (disconnect_code (V5Disconnect.reason_code d)) 0) as [E|E]; [|reflexivity].
    cbn [code_of props_in]. destruct (V5Disconnect.reason_code d); try discriminate E. reflexivity.
Qed.

(** it conforms to the standard just if the value is a standard one *)
Lemma given_text s : is_string s -> short s -> (on_some text (given s) <-> text s).
Proof.
  intros H1 H2. destruct s; [|reflexivity]. split; [|exact (fun _ => I)]. intros _. split; [exact H1|]. split; [exact H2|intros []].
Qed.
Lemma nonzero_id n : u16 n -> (identifier n <-> n <> 0).
Proof. intros H. unfold identifier. split; [intros [L _]; lia|intros L; split; [lia|exact H]]. Qed.
Lemma ack_rules {C R} pl (items : R -> list item) (num : C -> N) c o : mem 22 (allowed_at pl) = false ->
  (forall r, Forall (has_place pl) (items r)) -> (forall r, once (repeatable pl) (items r)) ->
  Forall item_ok (opt_items items o) ->
  (ending_ok (rules_at pl) (ack_ending items num c o) <-> Forall value_rule (opt_items items o)).
Proof.
  intros Hm Hp Ho Hok. assert (H := set_rules_plain pl items o Hm Hp Ho Hok). destruct o as [r|]; [exact H|].
  cbn [opt_items ack_ending]. destruct (num c =? 0); split; intros _; try exact I; constructor.
Qed.
Lemma message_conforms p : fits p -> regular p -> (conforms (message_of p) <-> standard_value p).
Proof.
  intros (Ht & Hs & Hi & Hid & Hl) Hr. assert (Hok := items_ok p Ht Hs Hi). destruct Ht as [Ht _], Hs as [Hs _].
  unfold standard_value.
  destruct p as [c|c|q|p|p|p|p|s|s|u|u| | |d]; cbn [regular message_of conforms standard_fields packet_items typed_fields has_id] in *.
  - destruct Ht as (Hka & Hc & Hw & Hlg). destruct Hs as (Hcs & Hws & Hls). apply Forall_app in Hok as [Ok1 Ok2].
    rewrite Forall_app.
    assert (R1 := set_rules InConnect connect_items _ connect_place connect_once Ok1).
    assert (Ru : on_some text (given (name_of c)) <-> on_some (fun l => text (V5Connect.username l)) (V5Connect.login c)).
    { unfold name_of. destruct (V5Connect.login c) as [l|]; [|reflexivity]. apply given_text; [apply Hlg|apply Hls]. }
    assert (Rp : on_some binary (given (secret_of c))).
    { unfold secret_of. destruct (V5Connect.login c) as [l|]; [|exact I]. destruct Hlg as [_ A], Hls as [_ B].
      destruct (V5Connect.password l); [exact I|]. split; [apply is_utf8_bytes, A|exact B]. }
    assert (Ra : (occurs 22 (opt_items connect_items (V5Connect.properties c)) -> occurs 21 (opt_items connect_items (V5Connect.properties c))) <->
       on_some (fun r => V5Connect.cp_authentication_data r <> None -> V5Connect.cp_authentication_method r <> None) (V5Connect.properties c)).
    { destruct (V5Connect.properties c) as [r|]; cbn [opt_items on_some]; [rewrite connect_data, connect_method; reflexivity|]. split; [exact (fun _ => I)|intros _ []]. }
    assert (Rw : on_some (fun w => rules_at InWill (w_props w) /\ topic_name (w_topic w) /\ binary (w_message w)) (option_map will_of (V5Connect.last_will c)) <->
       on_some (fun w => topic_name (V5Connect.lw_topic w)) (V5Connect.last_will c) /\ Forall value_rule (will_props c)).
    { unfold will_props in *. destruct (V5Connect.last_will c) as [w|]; cbn [option_map on_some will_of w_props w_topic w_message] in *.
      - assert (R2 := set_rules_plain InWill will_items _ eq_refl will_place will_once Ok2). rewrite R2.
        assert (B : binary (V5Connect.lw_message w)) by (split; [apply Hw|apply Hws]). tauto.
      - split; [intros _; split; [exact I|constructor]|exact (fun _ => I)]. }
    rewrite R1, Ru, Ra, Rw. tauto.
  - assert (R1 := set_rules InConnAck connack_items _ connack_place connack_once Hok). rewrite R1.
    destruct (V5ConnAck.properties c) as [r|]; [|congruence]. cbn [opt_items]. rewrite connack_data, connack_method. split.
    + intros (A & B & C). split; [|exact B]. split; [exact A|]. exists r. split; [reflexivity|exact C].
    + intros ((A & r' & E & C) & B). injection E as <-. auto.
  - destruct q as [d q r t id ps pl]. cbn [V5Publish.qos V5Publish.dup V5Publish.retain V5Publish.topic V5Publish.pkid V5Publish.properties V5Publish.payload] in *.
    destruct Ht as (T1 & T2 & T3). assert (R1 := set_rules_plain InPublish publish_items _ eq_refl publish_place publish_once Hok).
    assert (Ra : (t = [] -> occurs 35 (opt_items publish_items ps)) <-> (t = [] -> exists r, ps = Some r /\ V5Publish.topic_alias r <> None)).
    { split; intros H E; specialize (H E).
      - destruct ps as [r'|]; [|destruct H]. exists r'. split; [reflexivity|]. apply publish_alias, H.
      - destruct H as (r' & -> & H). apply publish_alias, H. }
    destruct q; cbn [conforms positive_qos] in *; unfold publish_topic; rewrite R1, Ra.
    + tauto.
    + rewrite (nonzero_id id T2). specialize (Hid eq_refl). assert (AtLeastOnce = AtMostOnce -> d = false) by discriminate. tauto.
    + rewrite (nonzero_id id T2). specialize (Hid eq_refl). assert (ExactlyOnce = AtMostOnce -> d = false) by discriminate. tauto.
  - rewrite (nonzero_id _ Ht), (ack_rules InPubAck puback_items puback_code _ _ eq_refl puback_place puback_once Hok). reflexivity.
  - rewrite (nonzero_id _ Ht), (ack_rules InPubRec pubrec_items pubrec_code _ _ eq_refl pubrec_place pubrec_once Hok). reflexivity.
  - rewrite (nonzero_id _ Ht), (ack_rules InPubRel pubrel_items pubrel_code _ _ eq_refl pubrel_place pubrel_once Hok). reflexivity.
  - rewrite (nonzero_id _ Ht), (ack_rules InPubComp pubcomp_items pubcomp_code _ _ eq_refl pubcomp_place pubcomp_once Hok). reflexivity.
  - rewrite (nonzero_id _ (proj1 Ht)), (set_rules_plain InSubscribe subscribe_items _ eq_refl subscribe_place subscribe_once Hok). tauto.
  - rewrite (nonzero_id _ Ht), (set_rules_plain InSubAck suback_items _ eq_refl suback_place suback_once Hok). tauto.
  - rewrite (nonzero_id _ (proj1 Ht)), (set_rules_plain InUnsubscribe unsubscribe_items _ eq_refl unsubscribe_place unsubscribe_once Hok). tauto.
  - rewrite (nonzero_id _ Ht), (set_rules_plain InUnsubAck unsuback_items _ eq_refl unsuback_place unsuback_once Hok). tauto.
  - split; [intros _; split; [exact I|constructor]|exact (fun _ => I)].
  - split; [intros _; split; [exact I|constructor]|exact (fun _ => I)].
  - assert (R1 := set_rules_plain InDisconnect disconnect_items _ eq_refl disconnect_place disconnect_once Hok).
    destruct (opt_items disconnect_items (V5Disconnect.properties d)) as [|i l].
    + destruct (disconnect_code (V5Disconnect.reason_code d) =? 0); (split; [intros _; split; [exact Hr|constructor]|exact (fun _ => I)]).
    + cbn [ending_ok]. rewrite R1. tauto.
Qed.

Lemma message_formed p : fits p -> regular p -> formed (message_of p).
Proof.
  intros (Ht & Hs & Hi & Hid & Hl) Hr. assert (Hok := items_ok p Ht Hs Hi). destruct Ht as [Ht _], Hs as [Hs _].
  rewrite (proj2 (message_written p Hr)) in Hl.
  assert (W : forall its (a r : bytes), Forall item_ok its -> content (message_of p) = a ++ section_bytes its ++ r -> wf its).
  { intros its a r HF E. split; [exact HF|]. rewrite E in Hl. unfold section_bytes in Hl. autorewrite with blen in Hl. lia. }
  assert (WE : forall C (num : C -> N) (e : ending C) (a : bytes), Forall item_ok (props_in e) -> content (message_of p) = a ++ ending_bytes num e -> wf_ending e).
  { intros C num e a HF E. destruct e as [|c|c its]; try exact I. cbn [wf_ending ending_bytes props_in] in *.
    apply (W _ (a ++ [num c]) [] HF). rewrite E, app_nil_r, <- app_assoc. reflexivity. }
  assert (AO : forall C R (items : R -> list item) (num : C -> N) c o, Forall item_ok (opt_items items o) -> Forall item_ok (props_in (ack_ending items num c o))).
  { intros C R items num c o H. destruct o; [exact H|]. cbn [ack_ending]. destruct (num c =? 0); constructor. }
  destruct p as [c|c|q|p|p|p|p|s|s|u|u| | |d]; cbn [message_of formed packet_items typed_fields] in *.
  - destruct Ht as (Hka & Hc & Hw & Hlg). destruct Hs as (Hcs & Hws & Hls). apply Forall_app in Hok as [Ok1 Ok2].
    split; [exact Hka|]. split; [|split; [exact Hcs|split; [|split]]].
    + eapply W with (a := [0; 4; 77; 81; 84; 84; 5; _] ++ be16 (V5Connect.keep_alive c)); [exact Ok1|]. cbn [content]. rewrite <- !app_assoc. reflexivity.
    + unfold will_props in Ok2. destruct (V5Connect.last_will c) as [w|]; [|exact I]. cbn [option_map on_some will_of w_props w_topic w_message] in *.
      split; [|exact Hws].
      eapply W with (a := [0; 4; 77; 81; 84; 84; 5; _] ++ be16 (V5Connect.keep_alive c) ++ section_bytes (opt_items connect_items (V5Connect.properties c)) ++ field (V5Connect.client_id c)); [exact Ok2|].
      cbn [content opt option_map will_of w_props]. rewrite <- !app_assoc. reflexivity.
    + unfold name_of. destruct (V5Connect.login c) as [l|]; [|exact I]. destruct Hls as [A _]. destruct (V5Connect.username l); [exact I|exact A].
    + unfold secret_of. destruct (V5Connect.login c) as [l|]; [|exact I]. destruct Hls as [_ A]. destruct (V5Connect.password l); [exact I|exact A].
  - eapply W with (r := []); [exact Hok|]. rewrite app_nil_r. reflexivity.
  - destruct Ht as (T1 & T2 & T3). destruct (V5Publish.qos q); cbn [formed].
    + split; [exact Hs|]. eapply W; [exact Hok|reflexivity].
    + split; [exact Hs|]. split; [exact T2|]. eapply W with (a := field (V5Publish.topic q) ++ be16 (V5Publish.pkid q)); [exact Hok|]. rewrite <- app_assoc. reflexivity.
    + split; [exact Hs|]. split; [exact T2|]. eapply W with (a := field (V5Publish.topic q) ++ be16 (V5Publish.pkid q)); [exact Hok|]. rewrite <- app_assoc. reflexivity.
  - split; [exact Ht|]. eapply WE; [apply AO, Hok|reflexivity].
  - split; [exact Ht|]. eapply WE; [apply AO, Hok|reflexivity].
  - split; [exact Ht|]. eapply WE; [apply AO, Hok|reflexivity].
  - split; [exact Ht|]. eapply WE; [apply AO, Hok|reflexivity].
  - split; [apply Ht|]. split; [eapply W; [exact Hok|reflexivity]|exact Hs].
  - split; [exact Ht|]. eapply W; [exact Hok|reflexivity].
  - split; [apply Ht|]. split; [eapply W; [exact Hok|reflexivity]|exact Hs].
  - split; [exact Ht|]. eapply W; [exact Hok|reflexivity].
  - exact I.
  - exact I.
  - eapply WE with (a := []); [|reflexivity]. destruct (opt_items disconnect_items (V5Disconnect.properties d)) as [|i l]; [|exact Hok].
    destruct (disconnect_code (V5Disconnect.reason_code d) =? 0); constructor.
Qed.
Lemma standard_regular p : standard_fields p -> regular p.
Proof.
  destruct p as [c|c|q|p|p|p|p|s|s|u|u| | |d]; cbn [standard_fields regular]; try exact (fun _ => I); try tauto.
  intros (_ & r & -> & _). discriminate.
Qed.
(** the DISCONNECT that loses its reason *)
Definition lost_reason (p : Packet) : Prop :=
  exists code r, p = Disconnect (V5Disconnect.mkDisconnect code (Some r)) /\ disconnect_items r = [] /\
    code <> V5Disconnect.NormalDisconnection.
Lemma disconnect_reason_dec (a : V5Disconnect.DisconnectReasonCode) :
  a = V5Disconnect.NormalDisconnection \/ a <> V5Disconnect.NormalDisconnection.
Proof. destruct a; (left; reflexivity) || (right; discriminate). Qed.
Lemma irregular p m : ~ regular p -> header_byte m = first_byte p -> content m = written p ->
  lost_reason p /\ m = M_DISCONNECT Nothing.
Proof.
  intros Hr H E.
  destruct p as [c|c|q|p|p|p|p|s|s|u|u| | |d]; cbn [regular] in Hr; try (exfalso; apply Hr; exact I).
  - exfalso. destruct m; try discriminate H; try (exfalso; clear -H; cbn [header_byte first_byte] in H; repeat match goal with b : bool |- _ => destruct b end; discriminate H).
    cbn [content written] in E. change (field MQTT) with [0; 4; 77; 81; 84; 84] in E. cbn [app] in E.
    do 6 apply cons_eq in E as [_ E]. apply cons_eq in E as [E _]. apply Hr. destruct (V5Connect.protocol c); [discriminate E|reflexivity].
  - exfalso. destruct m; try discriminate H; try (exfalso; clear -H; cbn [header_byte first_byte] in H; repeat match goal with b : bool |- _ => destruct b end; discriminate H).
    cbn [content written] in E. destruct (V5ConnAck.properties c); [apply Hr; discriminate|]. cbn [app] in E.
    do 2 apply cons_eq in E as [_ E]. apply app_eq_nil in E as [E _].
    assert (L := varint_len_bound (blen (items_bytes props))). rewrite E in L. cbv in L. destruct L as [L _]. apply L. reflexivity.
  - exfalso. destruct q as [d q r t id ps pl]. cbn [V5Publish.qos V5Publish.dup first_byte V5Publish.retain] in *.
    assert (q = AtMostOnce /\ d = true) as [-> ->] by (destruct q, d; try (exfalso; apply Hr; (reflexivity || discriminate)); auto).
    clear - H. destruct m; cbn [header_byte] in H; repeat match goal with b : bool |- _ => destruct b end; discriminate H.
  - destruct m; try discriminate H; try (exfalso; clear -H; cbn [header_byte first_byte] in H; repeat match goal with b : bool |- _ => destruct b end; discriminate H).
    destruct d as [code ps]. cbn [V5Disconnect.properties V5Disconnect.reason_code] in *.
    assert (L : exists r, ps = Some r /\ disconnect_items r = [] /\ code <> V5Disconnect.NormalDisconnection).
    { destruct ps as [r|]; [|exfalso; apply Hr; discriminate]. exists r. split; [reflexivity|].
      destruct (disconnect_items r) as [|i l] eqn:Ei; [|exfalso; apply Hr; intros r' Er; injection Er as <-; rewrite Ei; discriminate].
      split; [reflexivity|]. intros ->. apply Hr. auto. }
    destruct L as (r & -> & Ei & Hn). split; [exists code, r; auto|].
    cbn [written V5Disconnect.properties content] in E. rewrite Ei in E. destruct e; [reflexivity|discriminate E|discriminate E].
Qed.
Lemma regular_dec p : regular p \/ ~ regular p.
Proof.
  destruct p as [c|c|q|p|p|p|p|s|s|u|u| | |d]; cbn [regular]; try (left; exact I).
  - destruct (V5Connect.protocol c); [right; discriminate|left; reflexivity].
  - destruct (V5ConnAck.properties c); [left; discriminate|right; congruence].
  - destruct (V5Publish.qos q), (V5Publish.dup q); try (left; (reflexivity || discriminate)). right. intros H. discriminate (H eq_refl).
  - destruct (V5Disconnect.properties d) as [r|]; [|left; discriminate].
    destruct (disconnect_items r) as [|i l] eqn:E; [|left; intros r' Er; injection Er as <-; rewrite E; discriminate].
    destruct (disconnect_reason_dec (V5Disconnect.reason_code d)) as [H|H]; [left; auto|right].
    intros H'. apply H, (H' r); [reflexivity|exact E].
Qed.

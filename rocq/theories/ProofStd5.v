(** ProofStd5.v -- lemmas for PropStandard5: MQTT 5 *)
From Verif Require Import Base SpecWire SpecTopic SpecProps SpecPropSets SpecErrors SpecV5 SpecPlaces SpecErrorsV5 SpecStd5 ProofStd ProofBase ProofLib
  ProofProps ProofPropSets ProofSections ProofV5Read ProofV5Write ProofV5 ProofErrorsV5.
From Verif Require V5Connect V5ConnAck V5Publish V5PubAck V5PubRec V5PubRel V5PubComp
  V5Subscribe V5SubAck V5Unsubscribe V5UnsubAck V5Disconnect.

Lemma identifiers_ids its : identifiers its = ids_n its.
Proof. reflexivity. Qed.
Lemma rules_allowed allowed rep its : rules allowed rep its -> Forall (allowed_ok allowed) its.
Proof. intros [H _]. eapply Forall_impl; [|exact H]. intros it (H1 & H2 & _). split; assumption. Qed.
Lemma items_pos it its : 0 < blen (items_bytes (it :: its)).
Proof. rewrite items_bytes_cons, blen_app. assert (H := item_long it). lia. Qed.

(** what is read from a section of the standard: all of it, or a front part *)
Lemma std_section_split {R} (rec : list item -> R) allowed its a b suf :
  Forall (allowed_ok allowed) its -> blen (items_bytes its) <= max_len ->
  split_props (blen (items_bytes its)) 0 its = (a, b) ->
  exists sec, section_bytes its ++ suf = sec ++ items_bytes b ++ suf /\
    decodes_props allowed rec (props_of rec a) sec.
Proof.
  intros HF Hl E. destruct its as [|it its].
  - injection E as <- <-. exists [0]. split; [reflexivity|]. split; [apply (lf_last 0); lia|cbv; discriminate].
  - destruct (split_section allowed _ a b HF E) as [H1 H2].
    assert (Ha : exists a', a = it :: a').
    { cbn [split_props] in E. assert (P := items_pos it its). apply N.ltb_lt in P. rewrite P in E.
      match type of E with (let (_, _) := ?x in _) = _ => destruct x as [a' b'] end. injection E as <- <-. eauto. }
    destruct Ha as [a' ->]. unfold props_of.
    exists (varint (blen (items_bytes (it :: its))) ++ items_bytes (it :: a')). split.
    + unfold section_bytes. rewrite H1 at 2. rewrite items_bytes_app, <- !app_assoc. reflexivity.
    + exists (varint (blen (items_bytes (it :: its)))), (blen (items_bytes (it :: its))), (it :: a'), (items_bytes (it :: a')).
      split; [reflexivity|]. split; [apply lenfield_varint, Hl|]. split; [apply varint_len_bound|].
      split; [apply items_pos|]. split; [exact H2|reflexivity].
Qed.
Lemma std_section {R} (rec : list item -> R) allowed its :
  Forall (allowed_ok allowed) its -> blen (items_bytes its) <= max_len ->
  (forall pre x, its = pre ++ [x] -> ids_n pre < blen (item_bytes x)) ->
  decodes_props allowed rec (props_of rec its) (section_bytes its).
Proof.
  intros HF Hl Hi. destruct (split_props (blen (items_bytes its)) 0 its) as [a b] eqn:E.
  assert (Hb := proj1 (split_all its) Hi). rewrite E in Hb. cbn [snd] in Hb. subst b.
  destruct (std_section_split rec allowed its a [] [] HF Hl E) as (sec & E1 & Hd).
  rewrite !app_nil_r in E1. subst sec. destruct (split_section allowed its a [] HF E) as [H1 _].
  rewrite app_nil_r in H1. subst a. exact Hd.
Qed.
Lemma std_section0 {R} (rec : list item -> R) pl its : mem 11 (allowed_at pl) = false ->
  rules_at pl its -> blen (section_bytes its) <= max_len ->
  decodes_props (allowed_at pl) rec (props_of rec its) (section_bytes its).
Proof.
  intros Hm Hr Hl. assert (HF := rules_allowed _ _ _ Hr). apply std_section; [exact HF| |].
  - unfold section_bytes in Hl. autorewrite with blen in Hl. lia.
  - intros pre x ->. assert (ids_n pre = 0) as ->; [|assert (H := item_long x); lia].
    apply (ids_n_place pl); [|exact Hm]. apply Forall_app in HF as [HF _].
    eapply Forall_impl; [|exact HF]. intros it [[[H1 _] _] H2]. split; assumption.
Qed.
Lemma good_std pl its : mem 11 (allowed_at pl) = false -> rules_at pl its -> blen (section_bytes its) <= max_len ->
  good_section pl (section_bytes its).
Proof. intros Hm Hr Hl. eexists. apply std_section0; assumption. Qed.
Lemma once_ids allowed its pre x : rules allowed [38] its -> its = pre ++ [x] -> ids_n pre <= 1.
Proof.
  intros (_ & Hr & _) ->. unfold ids_n.
  destruct (filter (fun it => fst it =? 11) pre) as [|i [|j l]] eqn:E; [cbv; discriminate|cbv; discriminate|exfalso].
  assert (S : exists a b c, pre = a ++ i :: b ++ j :: c /\ fst i = 11 /\ fst j = 11).
  { clear Hr. revert i j l E. induction pre as [|y pre IH]; intros i j l E; [discriminate|]. cbn [filter] in E.
    destruct (N.eqb_spec (fst y) 11) as [Ey|Ey].
    - injection E as -> E. clear IH. exists [].
      assert (S : exists b c, pre = b ++ j :: c /\ fst j = 11).
      { clear i Ey. revert E. induction pre as [|z pre IH]; intros E; [discriminate|]. cbn [filter] in E.
        destruct (N.eqb_spec (fst z) 11) as [Ez|Ez]; [injection E as -> E; exists [], pre; auto|].
        destruct (IH E) as (b & c & -> & Hj). exists (z :: b), c. auto. }
      destruct S as (b & c & -> & Hj). exists b, c. auto.
    - destruct (IH _ _ _ E) as (a & b & c & -> & H1 & H2). exists (y :: a), b, c. auto. }
  destruct S as (a & b & c & -> & H1 & H2).
  specialize (Hr 11 (map fst a) (map fst b) (map fst c ++ [fst x])).
  rewrite !map_app in Hr. cbn [map] in Hr. rewrite map_app in Hr. cbn [map] in Hr. rewrite H1, H2 in Hr.
  rewrite <- app_assoc in Hr. cbn [app] in Hr. rewrite <- app_assoc in Hr. cbn [app] in Hr.
  specialize (Hr eq_refl). destruct Hr as [Hr|[]]; discriminate Hr.
Qed.
Lemma std_section_sub its : rules_at InSubscribe its -> blen (section_bytes its) <= max_len ->
  decodes_props (allowed_at InSubscribe) subscribe_record (props_of subscribe_record its) (section_bytes its).
Proof.
  intros Hr Hl. apply std_section; [exact (rules_allowed _ _ _ Hr)| |].
  - unfold section_bytes in Hl. autorewrite with blen in Hl. lia.
  - intros pre x E. assert (H := once_ids _ _ _ _ Hr E). assert (H' := item_long x). lia.
Qed.

Lemma flags_bits clean will user pw : let fl := flags_byte clean will user pw in
  fl < 256 /\ bit_at 0 fl = false /\ bit_at 1 fl = clean /\ bit_at 2 fl = present will /\
  bit_at 6 fl = present pw /\ bit_at 7 fl = present user /\
  match will with
  | Some w => fl / 8 mod 4 = qos_num (w_qos w) /\ bit_at 5 fl = w_retain w
  | None => fl / 8 mod 8 = 0
  end.
Proof.
  destruct clean, user, pw; (destruct will as [[ps t m q r]|]; [destruct q, r|]); vm_compute; repeat split; reflexivity.
Qed.
Lemma canon_login_of user pw :
  canon_login (Some (V5Connect.mkLogin (or_empty user) (or_empty pw))) = login_of user pw.
Proof. unfold login_of, canon_login. cbn [V5Connect.username V5Connect.password]. destruct (or_empty user), (or_empty pw); reflexivity. Qed.

Lemma std_ack {C R} pl (rec : list item -> R) (num : C -> N) zero id (e : ending C) :
  mem 11 (allowed_at pl) = false -> num zero = 0 -> identifier id -> ending_ok (rules_at pl) e ->
  blen (be16 id ++ ending_bytes num e) <= max_len ->
  decodes_ack (allowed_at pl) rec num (be16 id ++ ending_bytes num e) id (code_of zero e) (props_of rec (props_in e)).
Proof.
  intros Hm Hz [_ Hi] He Hl. split; [exact Hi|]. destruct e as [|c|c ps]; cbn [ending_bytes code_of props_in ending_ok] in *.
  - left. rewrite app_nil_r. auto.
  - right; left. auto.
  - right; right. exists (section_bytes ps), []. rewrite app_nil_r. split; [reflexivity|].
    apply std_section0; [exact Hm|exact He|]. autorewrite with blen in *. lia.
Qed.

Definition std_will (will : option Will) : option V5Connect.LastWill :=
  match will with
  | Some w => Some (V5Connect.mkLastWill (w_topic w) (w_message w) (w_qos w) (w_retain w)
                      (props_of will_record (w_props w)))
  | None => None
  end.
Definition std_will_bytes (will : option Will) : bytes :=
  opt (fun w => section_bytes (w_props w) ++ field (w_topic w) ++ field (w_message w)) will.
Lemma std_will_decodes clean will user pw :
  on_some (fun w => rules_at InWill (w_props w) /\ topic_name (w_topic w) /\ binary (w_message w)) will ->
  blen (std_will_bytes will) <= max_len ->
  decodes_will (flags_byte clean will user pw) (std_will will) (std_will_bytes will).
Proof.
  intros Hw Hl. destruct (flags_bits clean will user pw) as (F & F0 & F1 & F2 & F6 & F7 & FW).
  unfold decodes_will, std_will, std_will_bytes in *. destruct will as [w|]; cbn [opt present on_some] in *.
  - destruct Hw as (Hr & ((T1 & T2 & _) & _) & _ & M).
    cbn [V5Connect.lw_topic V5Connect.lw_message V5Connect.lw_qos V5Connect.lw_retain V5Connect.lw_properties].
    destruct FW. repeat split; try assumption. exists (section_bytes (w_props w)). split; [reflexivity|].
    apply std_section0; [reflexivity|exact Hr|]. rewrite blen_app in Hl. lia.
  - repeat split; assumption.
Qed.

(** a standard message is decoded, a PUBLISH possibly with too few properties *)
Lemma std_publish_split m b1 topic id props payload a b qos dup retain :
  conforms m -> blen (content m) <= max_len -> split_props (blen (items_bytes props)) 0 props = (a, b) ->
  (m = M_PUBLISH0 retain topic props payload /\ qos = AtMostOnce /\ dup = false /\ id = 0 \/
   exists twice, m = M_PUBLISH twice dup retain topic id props payload /\ qos = (if twice then ExactlyOnce else AtLeastOnce)) ->
  b1 = header_byte m ->
  decodes_body b1 (content m)
    (Publish (V5Publish.mkPublish dup qos retain topic id (props_of publish_record a) (items_bytes b ++ payload))).
Proof.
  intros Hc Hl E Hm ->. cbn [decodes_body V5Publish.dup V5Publish.qos V5Publish.retain V5Publish.topic V5Publish.pkid V5Publish.payload V5Publish.properties].
  destruct Hm as [(-> & -> & -> & ->)|(twice & -> & ->)]; cbn [conforms content header_byte] in *.
  - destruct Hc as (((Ht & Hs & _) & _) & Hr & Hp).
    destruct (std_section_split publish_record (allowed_at InPublish) props a b payload) as (sec & E1 & Hd);
      [exact (rules_allowed _ _ _ Hr)| |exact E|].
    { unfold section_bytes in Hl. autorewrite with blen in Hl. lia. }
    destruct retain; (repeat split; try assumption; exists sec; split; [cbn [positive_qos]; rewrite E1; reflexivity|exact Hd]).
  - destruct Hc as (((Ht & Hs & _) & _) & [Hi Hi'] & Hr & Hp).
    destruct (std_section_split publish_record (allowed_at InPublish) props a b payload) as (sec & E1 & Hd);
      [exact (rules_allowed _ _ _ Hr)| |exact E|].
    { unfold section_bytes in Hl. autorewrite with blen in Hl. lia. }
    destruct twice, dup, retain; (repeat split; try assumption; exists sec; split; [cbn [positive_qos]; rewrite E1; reflexivity|exact Hd]).
Qed.

(** the password is a string for the crate *)
Definition utf8_password (m : Message) : Prop :=
  match m with M_CONNECT _ _ _ _ _ _ (Some pw) => is_string pw | _ => True end.

Lemma not_misread_split props m : message_props m = props -> ~ misread m ->
  snd (split_props (blen (items_bytes props)) 0 props) = [].
Proof.
  intros E H. apply split_all. intros pre x Ex. destruct (N.lt_ge_cases (ids_n pre) (blen (item_bytes x))) as [L|L]; [exact L|].
  exfalso. apply H. exists pre, x. rewrite E. split; [exact Ex|exact L].
Qed.
Lemma split_all_eq its (plen c : N) a : split_props plen c its = (a, []) -> a = its.
Proof.
  revert c a. induction its as [|it its IH]; intros c a E; cbn [split_props] in E; [congruence|].
  destruct (c <? plen); [|discriminate E].
  destruct (split_props plen (c + counted (fst it) (blen (item_bytes it))) its) as [a' b'] eqn:E'.
  injection E as <- ->. f_equal. exact (IH _ _ E').
Qed.

Lemma std_decodes m : conforms m -> blen (content m) <= max_len -> (forall e, ~ unsupported m e) -> ~ misread m ->
  exists p, as_packet m = Some p /\ decodes_body (header_byte m) (content m) p.
Proof.
  intros H Hl Hu Hmis. destruct m; cbn [as_packet]; try (eexists; split; [reflexivity|]).
  - (* CONNECT *)
    cbn [conforms header_byte content decodes_body] in *.
    destruct H as (Hka & Hr & (Hc & Hcs & _) & Hw & Hus & Hpw).
    assert (Hp : on_some is_string password).
    { destruct password as [pw|]; [|exact I]. cbn [on_some]. 
      destruct (Utf8.utf8_ok pw) eqn:E; [apply ProofUtf8.utf8_ok_spec, E|].
      exfalso. apply (Hu TopicNotUtf8). apply us_password. intros Hs. apply ProofUtf8.utf8_ok_spec in Hs. congruence. }
    destruct (flags_bits clean will user password) as (F & F0 & F1 & F2 & F6 & F7 & FW).
    fold (std_will will). fold (std_will_bytes will) in *.
    split; [reflexivity|]. cbn [V5Connect.protocol V5Connect.keep_alive V5Connect.client_id V5Connect.clean_session V5Connect.last_will V5Connect.login V5Connect.properties].
    exists (flags_byte clean will user password), (section_bytes props), (std_will_bytes will),
      (opt field user), (opt field password), (or_empty user), (or_empty password), [].
    autorewrite with blen in Hl.
    split; [exact F|]. split; [rewrite app_nil_r; reflexivity|]. split; [exact Hka|]. split; [exact Hc|]. split; [exact Hcs|].
    split; [congruence|]. split; [apply std_section0; [reflexivity|exact Hr|autorewrite with blen; lia]|]. split; [apply std_will_decodes; [exact Hw|autorewrite with blen; lia]|].
    rewrite F6, F7. split; [|split].
    + apply std_opt_string. destruct user; [|exact I]. destruct Hus as (? & ? & _). split; assumption.
    + apply std_opt_string. destruct password; [|exact I]. split; [exact Hp|apply Hpw].
    + symmetry. apply canon_login_of.
  - cbn [conforms header_byte content decodes_body] in *. autorewrite with blen in Hl.
    split; [reflexivity|]. exists (bit session_present), (section_bytes props), []. rewrite app_nil_r. split; [reflexivity|].
    split; [destruct session_present; reflexivity|]. apply std_section0; [reflexivity|apply H|autorewrite with blen; lia].
  - destruct (split_props (blen (items_bytes props)) 0 props) as [a b] eqn:E.
    assert (Hb := not_misread_split props _ (eq_refl : message_props (M_PUBLISH0 retain topic props payload) = props) Hmis). rewrite E in Hb. cbn [snd] in Hb. subst b.
    assert (a = props) by exact (split_all_eq _ _ _ _ E). subst a.
    eapply (std_publish_split _ _ topic 0 props payload props []); [exact H|exact Hl|exact E| |reflexivity]. left. auto.
  - destruct (split_props (blen (items_bytes props)) 0 props) as [a b] eqn:E.
    assert (Hb := not_misread_split props _ (eq_refl : message_props (M_PUBLISH twice dup retain topic id props payload) = props) Hmis). rewrite E in Hb. cbn [snd] in Hb. subst b.
    assert (a = props) by exact (split_all_eq _ _ _ _ E). subst a.
    eapply (std_publish_split _ _ topic id props payload props []); [exact H|exact Hl|exact E| |reflexivity]. right. eauto.
  - split; [reflexivity|]. apply std_ack; [reflexivity|reflexivity|apply H|apply H|exact Hl].
  - split; [reflexivity|]. apply std_ack; [reflexivity|reflexivity|apply H|apply H|exact Hl].
  - split; [reflexivity|]. apply std_ack; [reflexivity|reflexivity|apply H|apply H|exact Hl].
  - split; [reflexivity|]. apply std_ack; [reflexivity|reflexivity|apply H|apply H|exact Hl].
  - (* SUBSCRIBE *)
    cbn [conforms header_byte content decodes_body] in *. autorewrite with blen in Hl.
    destruct H as ([_ Hi] & Hr & Hn & Hf). split; [reflexivity|]. split; [exact Hi|].
    cbn [V5Subscribe.pkid V5Subscribe.filters V5Subscribe.properties].
    exists (section_bytes props), (map options filters). split; [apply std_section_sub; [exact Hr|autorewrite with blen; lia]|]. split.
    + clear - Hf. induction filters as [|f l IH]; [constructor|]. apply Forall_cons_iff in Hf as [Hf Hl].
      cbn [map]. constructor; [|auto]. destruct Hf as ((? & ? & _) & _). unfold options.
      destruct (V5Subscribe.qos f), (V5Subscribe.nolocal f), (V5Subscribe.preserve_retain f), (V5Subscribe.retain_forward_rule f); repeat split; assumption.
    + do 2 f_equal. clear. induction filters as [|f l IH]; [reflexivity|]. cbn [map combine flat_map fst snd]. rewrite <- IH. reflexivity.
  - cbn [conforms header_byte content decodes_body] in *. autorewrite with blen in Hl.
    split; [reflexivity|]. destruct H as ([_ Hi] & Hr & Hn). split; [exact Hi|]. split; [exact Hn|].
    exists (section_bytes props). split; [|reflexivity]. apply std_section0; [reflexivity|exact Hr|autorewrite with blen; lia].
  - cbn [conforms header_byte content decodes_body] in *. autorewrite with blen in Hl.
    split; [reflexivity|]. destruct H as ([_ Hi] & Hr & Hn & Hf). split; [exact Hi|]. split.
    { cbn [V5Unsubscribe.filters]. eapply Forall_impl; [|exact Hf]. intros t ((? & ? & _) & _). split; assumption. }
    exists (section_bytes props). split; [|reflexivity]. apply std_section0; [reflexivity|exact Hr|autorewrite with blen; lia].
  - cbn [conforms header_byte content decodes_body] in *. autorewrite with blen in Hl.
    split; [reflexivity|]. destruct H as ([_ Hi] & Hr & Hn). split; [exact Hi|]. split; [exact Hn|].
    exists (section_bytes props). split; [|reflexivity]. apply std_section0; [reflexivity|exact Hr|autorewrite with blen; lia].
  - reflexivity.
  - reflexivity.
  - destruct e as [|c|c ps]; [exfalso; apply (Hu _ us_disconnect)|exfalso; apply (Hu _ (us_disconnect_code c))|].
    cbn [conforms header_byte content decodes_body ending_ok ending_bytes code_of props_in V5Disconnect.reason_code V5Disconnect.properties] in *.
    autorewrite with blen in Hl.
    split; [reflexivity|]. exists (section_bytes ps), []. rewrite app_nil_r. split; [reflexivity|].
    apply std_section0; [reflexivity|exact H|autorewrite with blen; lia].
  - exfalso. exact (Hu _ (us_auth e)).
Qed.

Lemma std_unsupported m e : conforms m -> blen (content m) <= max_len -> unsupported m e ->
  fails (header_byte m) (content m) e.
Proof.
  intros H Hl Hu. destruct Hu as [cl ka ps id w u pw Hp| |c|en].
  - cbn [conforms content header_byte] in *. fold (std_will_bytes w) in *. autorewrite with blen in Hl. cbn [opt] in Hl.
    destruct H as (Hka & Hr & (Hc & Hcs & _) & Hw & Hus & [Hpb Hps]).
    destruct (flags_bits cl w u (Some pw)) as (F & F0 & F1 & F2 & F6 & F7 & FW).
    eapply (f_missing _ _ _ (connect_head V5 (flags_byte cl w u (Some pw)) ka (section_bytes ps) id ++
       std_will_bytes w ++ opt field u) (field pw) WString).
    + discriminate.
    + unfold connect_head. rewrite <- !app_assoc. reflexivity.
    + eapply (ex_password _ V5 _ _ _ _ (std_will w) _ (or_empty u)); [reflexivity| | | |exact F6].
      * split; [exact Hka|]. split; [apply good_std; [reflexivity|exact Hr|autorewrite with blen; lia]|split; assumption].
      * apply std_will_decodes; [exact Hw|autorewrite with blen; lia].
      * rewrite F7. apply std_opt_string. destruct u; [|exact I]. destruct Hus as (? & ? & _). split; assumption.
    + assert (L := lacks_utf8 pw [] Hps Hp). rewrite app_nil_r in L. exact L.
  - apply f_whole. apply rw_empty. right. reflexivity.
  - eapply (f_section _ _ _ InDisconnect [disconnect_code c] []); [reflexivity| |discriminate|].
    + split; [reflexivity|]. eexists. reflexivity.
    + apply sf_len. apply lacks_end; [cbv; reflexivity|constructor].
  - apply f_whole. apply (rw_type 0xF0). right. reflexivity.
Qed.

(** where a PUBLISH is cut *)
Lemma split_min plen : forall its c a b, split_props plen c its = (a, b) ->
  its = a ++ b /\ (b <> [] -> plen <= c + blen (items_bytes a) + ids_n a) /\
  (forall a1 x a2, a = a1 ++ x :: a2 -> c + blen (items_bytes a1) + ids_n a1 < plen).
Proof.
  induction its as [|it its IH]; intros c a b E; cbn [split_props] in E.
  - injection E as <- <-. split; [reflexivity|]. split; [congruence|]. intros [|? ?] x a2 H; discriminate H.
  - destruct (c <? plen) eqn:Ec.
    + destruct (split_props plen (c + counted (fst it) (blen (item_bytes it))) its) as [a' b'] eqn:E'.
      injection E as <- <-. destruct (IH _ _ _ E') as (H1 & H2 & H3).
      split; [cbn [app]; f_equal; exact H1|]. split.
      * intros Hb. specialize (H2 Hb). rewrite items_bytes_cons, ids_n_cons, blen_app. unfold counted in H2. lia.
      * intros [|y a1] x a2 H; cbn [app] in H; injection H as H H'.
        { change (blen (items_bytes [])) with 0. change (ids_n []) with 0. lia. }
        subst y. specialize (H3 a1 x a2 H'). rewrite items_bytes_cons, ids_n_cons, blen_app. unfold counted in H3. lia.
    + injection E as <- <-. split; [reflexivity|]. split.
      * intros _. change (blen (items_bytes [])) with 0. change (ids_n []) with 0. lia.
      * intros [|? ?] x a2 H; discriminate H.
Qed.
Lemma std_misread m : conforms m -> blen (content m) <= max_len -> misread m ->
  exists a b p, message_props m = a ++ b /\ b <> [] /\
    blen (items_bytes (message_props m)) <= blen (items_bytes a) + identifiers a /\
    (forall a1 x a2, a = a1 ++ x :: a2 -> blen (items_bytes a1) + identifiers a1 < blen (items_bytes (message_props m))) /\
    as_packet (cut m a b) = Some p /\ decodes_body (header_byte m) (content m) p.
Proof.
  intros Hc Hl (pre & x & E & Hx). set (props := message_props m) in *.
  destruct (split_props (blen (items_bytes props)) 0 props) as [a b] eqn:Es.
  destruct (split_min _ _ _ _ _ Es) as (H1 & H2 & H3).
  assert (Hb : b <> []).
  { intros ->. assert (Hs : snd (split_props (blen (items_bytes props)) 0 props) = []) by (rewrite Es; reflexivity).
    rewrite E in Hs. apply split_snoc in Hs. rewrite identifiers_ids in Hx. lia. }
  exists a, b.
  destruct m; cbn [message_props] in props; subst props; try (destruct pre; discriminate E);
    (eexists; split; [exact H1|]; split; [exact Hb|]; split; [exact (H2 Hb)|]; split; [exact H3|]; split; [reflexivity|]).
  - eapply std_publish_split; [exact Hc|exact Hl|exact Es|left; auto|reflexivity].
  - eapply std_publish_split; [exact Hc|exact Hl|exact Es|right; eauto|reflexivity].
Qed.

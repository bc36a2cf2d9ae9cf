(** ProofStd5Not.v -- a standard MQTT 5 message does not deviate *)
From Verif Require Import Base SpecWire SpecTopic SpecProps SpecPropSets SpecV5 SpecPlaces SpecErrorsV5 SpecStd5 SpecStd5Dev
  ProofStd ProofBase ProofLib ProofRead ProofProps ProofPropSets ProofSections ProofPlaces ProofV5Read ProofV5Write ProofV5 ProofErrorsV5 ProofStd5 ProofStd5Sec ProofStd5Dev.
From Verif Require V5Connect V5ConnAck V5Publish V5PubAck V5PubRec V5PubRel V5PubComp
  V5Subscribe V5SubAck V5Unsubscribe V5UnsubAck V5Disconnect.

(** the bytes in front of a section are determined *)
Lemma qos_num_inj q q' : qos_num q = qos_num q' -> q = q'.
Proof. destruct q, q'; cbv; congruence. Qed.
Lemma cons_eq (a b : N) (l l' : bytes) : a :: l = b :: l' -> a = b /\ l = l'.
Proof. intros H. injection H. auto. Qed.
Lemma leads_to_det pl b1 pre pre' (x x' : bytes) : leads_to pl b1 pre -> leads_to pl b1 pre' -> pre ++ x = pre' ++ x' ->
  pre = pre' /\ x = x'.
Proof.
  intros H H' E.
  assert (L : List.length pre = List.length pre' -> pre = pre' /\ x = x').
  { intros L. revert E L. clear. revert pre'. induction pre as [|a pre IH]; intros [|b pre'] E L; try discriminate L; [auto|].
    cbn [app] in E. injection E as -> E. injection L as L. destruct (IH _ E L) as [-> ->]. auto. }
  destruct pl; cbn [leads_to] in H, H'; destruct H as [_ H], H' as [_ H'].
  - destruct H as (fl & ka & _ & _ & ->), H' as (fl' & ka' & _ & _ & ->). apply L. reflexivity.
  - (* InWill *)
    destruct H as (lv & fl & ka & o & sec & cid & _ & _ & Hka & _ & Hc & Hs & ->), H' as (lv' & fl' & ka' & o' & sec' & cid' & _ & _ & Hka' & _ & Hc' & Hs' & ->).
    rewrite <- !app_assoc in E. apply app_inv_head in E. cbn [app] in E. apply cons_eq in E as [<- E]. apply cons_eq in E as [<- E].
    apply be16_inj in E as [-> E]; [|exact Hka|exact Hka'].
    assert (Es : sec = sec' /\ field cid ++ x = field cid' ++ x').
    { destruct Hs as [[-> Hs]|[-> ->]], Hs' as [[Hl Hs']|[Hl Hs']]; try discriminate Hl.
      - exact (good_det InConnect _ _ _ _ (decodes_good _ _ _ _ Hs) (decodes_good _ _ _ _ Hs') E).
      - subst. auto. }
    destruct Es as [-> E']. apply field_inj in E' as [-> ->]; auto.
  - destruct H as (fl & c & _ & ->), H' as (fl' & c' & _ & ->). apply L. reflexivity.
  - destruct H as (q & t & id & Hq & _ & Ht & _ & Hi & ->), H' as (q' & t' & id' & Hq' & _ & Ht' & _ & Hi' & ->).
    assert (q = q') by (apply qos_num_inj; congruence). subst q'. rewrite <- !app_assoc in E. apply field_inj in E as [-> E]; auto.
    destruct (positive_qos q); [|auto]. apply be16_inj in E as [-> ->]; auto.
  - destruct H as (id & c & _ & ->), H' as (id' & c' & _ & ->). apply L. reflexivity.
  - destruct H as (id & c & _ & ->), H' as (id' & c' & _ & ->). apply L. reflexivity.
  - destruct H as (id & c & _ & ->), H' as (id' & c' & _ & ->). apply L. reflexivity.
  - destruct H as (id & c & _ & ->), H' as (id' & c' & _ & ->). apply L. reflexivity.
  - destruct H as (id & _ & ->), H' as (id' & _ & ->). apply L. reflexivity.
  - destruct H as (id & _ & ->), H' as (id' & _ & ->). apply L. reflexivity.
  - destruct H as (id & _ & ->), H' as (id' & _ & ->). apply L. reflexivity.
  - destruct H as (id & _ & ->), H' as (id' & _ & ->). apply L. reflexivity.
  - destruct H as (c & ->), H' as (c' & ->). apply L. reflexivity.
Qed.

(** [at_place m pl pre its rest]: where the message has a section *)
Definition at_place (m : Message) (pl : place) (pre : bytes) (its : list item) (rest : bytes) : Prop :=
  leads_to pl (header_byte m) pre /\ content m = pre ++ section_bytes its ++ rest /\
  rules_at pl its /\ (forall pre x, its = pre ++ [x] -> ids_n pre < blen (item_bytes x)) /\
  (ends_with_section pl -> rest = []).
Lemma few_ids pl its : mem 11 (allowed_at pl) = false -> rules_at pl its ->
  forall pre x, its = pre ++ [x] -> ids_n pre < blen (item_bytes x).
Proof.
  intros Hm Hr pre x E. assert (Hx := item_long x). assert (ids_n pre = 0) as ->; [|lia].
  apply (ids_n_place pl); [|exact Hm]. assert (HF := rules_allowed _ _ _ Hr). rewrite E in HF. apply Forall_app in HF as [HF _].
  eapply Forall_impl; [|exact HF]. intros it [[[H1 _] _] H2]. split; assumption.
Qed.

Ltac nends := let H := fresh in intros H; exfalso; unfold ends_with_section in H; cbn [In] in H; clear - H; repeat (destruct H as [H|H]; [discriminate H|]); exact H.
Lemma wrong_kind (b n k : N) : b / 16 = n -> b / 16 = k -> n <> k -> False.
Proof. congruence. Qed.
Lemma section_place m pl pre (sec rest : bytes) : conforms m -> ~ misread m -> as_packet m <> None -> blen (content m) <= max_len ->
  leads_to pl (header_byte m) pre -> content m = pre ++ sec ++ rest -> sec <> [] ->
  exists its rest', at_place m pl pre its rest'.
Proof.
  intros Hm Hmis Hp Hlen Hl E Hs.
  assert (K : exists k, header_byte m / 16 = k /\ match pl with
     | InConnect | InWill => k = 1 | InConnAck => k = 2 | InPublish => k = 3 | InPubAck => k = 4 | InPubRec => k = 5 | InPubRel => k = 6
     | InPubComp => k = 7 | InSubscribe => k = 8 | InSubAck => k = 9 | InUnsubscribe => k = 10 | InUnsubAck => k = 11 | InDisconnect => k = 14 end).
  { eexists. split; [reflexivity|]. destruct pl; try (apply Hl). destruct Hl as [-> _]. reflexivity. }
  assert (Q : forall pre' its rest', leads_to pl (header_byte m) pre' -> content m = pre' ++ section_bytes its ++ rest' ->
     rules_at pl its -> (forall pre x, its = pre ++ [x] -> ids_n pre < blen (item_bytes x)) ->
     (ends_with_section pl -> rest' = []) -> exists its rest', at_place m pl pre its rest').
  { intros pre' its rest' Hl' E' Hr Hi He. rewrite E' in E. destruct (leads_to_det _ _ _ _ _ _ Hl' Hl E) as [<- _].
    exists its, rest'. split; [exact Hl'|]. split; [exact E'|]. split; [exact Hr|]. split; assumption. }
  assert (SN : forall a b (X : Prop), a :: b = @nil N -> X) by (intros a b X H0; discriminate H0).
  assert (PK : forall t d r, (0x30 + 8 * bit d + (if t : bool then 4 else 2) + bit r) / 16 = 3 /\ (0x30 + 8 * bit d + (if t : bool then 4 else 2) + bit r) / 2 mod 4 = (if t then 2 else 1)) by (intros [] [] []; split; reflexivity).
  assert (PK0 : forall r, (0x30 + bit r) / 16 = 3 /\ (0x30 + bit r) / 2 mod 4 = 0) by (intros []; split; reflexivity).
  destruct m.
  - (* CONNECT *)
    cbn [conforms content header_byte] in *. destruct Hm as (Hka & Hr & (Hc & Hcs & _) & Hw & _).
    destruct (flags_bits clean will user password) as (F & F0 & F1 & F2 & _).
    destruct K as (k & Hk & K). change (0x10 / 16) with 1 in Hk. subst k. destruct pl; try discriminate K.
    + eapply (Q (field MQTT ++ [5; flags_byte clean will user password] ++ be16 keep_alive) props); [| |exact Hr|exact (few_ids InConnect _ eq_refl Hr)|].
      * split; [reflexivity|]. eexists. eexists. split; [exact F|]. split; [exact Hka|reflexivity].
      * rewrite <- !app_assoc. reflexivity.
      * nends.
    + destruct will as [w|].
      * cbn [on_some opt] in *. destruct Hw as (Hwr & _).
        eapply (Q (field MQTT ++ [5; flags_byte clean (Some w) user password] ++ be16 keep_alive ++ section_bytes props ++ field client) (w_props w));
          [| |exact Hwr|exact (few_ids InWill _ eq_refl Hwr)|].
        -- split; [reflexivity|]. exists 5, (flags_byte clean (Some w) user password), keep_alive, (props_of connect_record props), (section_bytes props), client.
           split; [exact F|]. split; [exact F2|]. split; [exact Hka|]. split; [exact Hc|]. split; [exact Hcs|]. split; [|reflexivity].
           left. split; [reflexivity|]. apply std_section0; [reflexivity|exact Hr|]. autorewrite with blen in *. lia.
        -- rewrite <- !app_assoc. reflexivity.
        -- nends.
      * exfalso. destruct Hl as (_ & lv & fl & ka & o & sc & cid & _ & Hb2 & _ & _ & _ & _ & ->). rewrite <- !app_assoc in E.
        change (field MQTT) with [0; 4; 77; 81; 84; 84] in E. cbn [app] in E. injection E as _ Efl _. cbn [present] in F2. congruence.
  - cbn [conforms content header_byte] in *. destruct K as (k & Hk & K). change (0x20 / 16) with 2 in Hk. subst k. destruct pl; try discriminate K.
    destruct Hm as [_ Hr]. eapply (Q [bit session_present; connack_code code] props []); [| |exact Hr|exact (few_ids InConnAck _ eq_refl Hr)|reflexivity].
    + split; [reflexivity|]. eexists. eexists. split; [|reflexivity]. destruct session_present; cbv; reflexivity.
    + rewrite app_nil_r. reflexivity.
  - cbn [conforms content header_byte] in *. destruct (PK0 retain) as [P1 P2]. destruct K as (k & Hk & K). rewrite P1 in Hk. subst k. destruct pl; try discriminate K.
    destruct Hm as (((T1 & T2 & _) & _) & Hr & _). eapply (Q (field topic ++ []) props payload); [| |exact Hr| |nends].
    + split; [exact P1|]. exists AtMostOnce, topic, 1. split; [exact P2|]. split; [exact T1|]. split; [exact T2|]. split; [lia|]. split; [cbv; reflexivity|reflexivity].
    + rewrite <- app_assoc. reflexivity.
    + intros pre' x Ex. destruct (N.lt_ge_cases (ids_n pre') (blen (item_bytes x))) as [L|L]; [exact L|]. exfalso. apply Hmis. exists pre', x. split; assumption.
  - cbn [conforms content header_byte] in *. destruct (PK twice dup retain) as [P1 P2]. destruct K as (k & Hk & K). rewrite P1 in Hk. subst k. destruct pl; try discriminate K.
    destruct Hm as (((T1 & T2 & _) & _) & [I1 I2] & Hr & _). eapply (Q (field topic ++ be16 id) props payload); [| |exact Hr| |nends].
    + split; [exact P1|]. exists (if twice then ExactlyOnce else AtLeastOnce), topic, id. split; [rewrite P2; destruct twice; reflexivity|]. split; [exact T1|]. split; [exact T2|]. split; [exact I1|]. split; [exact I2|]. destruct twice; reflexivity.
    + rewrite <- app_assoc. reflexivity.
    + intros pre' x Ex. destruct (N.lt_ge_cases (ids_n pre') (blen (item_bytes x))) as [L|L]; [exact L|]. exfalso. apply Hmis. exists pre', x. split; assumption.
  - cbn [conforms content header_byte] in *. destruct K as (k & Hk & K). change (0x40 / 16) with 4 in Hk. subst k. destruct pl; try discriminate K.
    destruct Hm as [[_ Hi] He]. destruct e as [|c|c ps]; cbn [ending_bytes ending_ok] in *.
    1,2: exfalso; destruct Hl as (_ & id' & c' & _ & ->); apply Hs; unfold be16 in E; cbn [app] in E; try discriminate E; injection E as _ _ _ E; symmetry in E; apply app_eq_nil in E; apply E.
    eapply (Q (be16 id ++ [puback_code c]) ps []); [| |exact He|exact (few_ids InPubAck _ eq_refl He)|reflexivity].
    + split; [reflexivity|]. eexists. eexists. split; [exact Hi|reflexivity].
    + rewrite app_nil_r, <- app_assoc. reflexivity.
  - cbn [conforms content header_byte] in *. destruct K as (k & Hk & K). change (0x50 / 16) with 5 in Hk. subst k. destruct pl; try discriminate K.
    destruct Hm as [[_ Hi] He]. destruct e as [|c|c ps]; cbn [ending_bytes ending_ok] in *.
    1,2: exfalso; destruct Hl as (_ & id' & c' & _ & ->); apply Hs; unfold be16 in E; cbn [app] in E; try discriminate E; injection E as _ _ _ E; symmetry in E; apply app_eq_nil in E; apply E.
    eapply (Q (be16 id ++ [pubrec_code c]) ps []); [| |exact He|exact (few_ids InPubRec _ eq_refl He)|reflexivity].
    + split; [reflexivity|]. eexists. eexists. split; [exact Hi|reflexivity].
    + rewrite app_nil_r, <- app_assoc. reflexivity.
  - cbn [conforms content header_byte] in *. destruct K as (k & Hk & K). change (0x62 / 16) with 6 in Hk. subst k. destruct pl; try discriminate K.
    destruct Hm as [[_ Hi] He]. destruct e as [|c|c ps]; cbn [ending_bytes ending_ok] in *.
    1,2: exfalso; destruct Hl as (_ & id' & c' & _ & ->); apply Hs; unfold be16 in E; cbn [app] in E; try discriminate E; injection E as _ _ _ E; symmetry in E; apply app_eq_nil in E; apply E.
    eapply (Q (be16 id ++ [pubrel_code c]) ps []); [| |exact He|exact (few_ids InPubRel _ eq_refl He)|reflexivity].
    + split; [reflexivity|]. eexists. eexists. split; [exact Hi|reflexivity].
    + rewrite app_nil_r, <- app_assoc. reflexivity.
  - cbn [conforms content header_byte] in *. destruct K as (k & Hk & K). change (0x70 / 16) with 7 in Hk. subst k. destruct pl; try discriminate K.
    destruct Hm as [[_ Hi] He]. destruct e as [|c|c ps]; cbn [ending_bytes ending_ok] in *.
    1,2: exfalso; destruct Hl as (_ & id' & c' & _ & ->); apply Hs; unfold be16 in E; cbn [app] in E; try discriminate E; injection E as _ _ _ E; symmetry in E; apply app_eq_nil in E; apply E.
    eapply (Q (be16 id ++ [pubcomp_code c]) ps []); [| |exact He|exact (few_ids InPubComp _ eq_refl He)|reflexivity].
    + split; [reflexivity|]. eexists. eexists. split; [exact Hi|reflexivity].
    + rewrite app_nil_r, <- app_assoc. reflexivity.
  - cbn [conforms content header_byte] in *. destruct K as (k & Hk & K). change (0x82 / 16) with 8 in Hk. subst k. destruct pl; try discriminate K.
    destruct Hm as ([_ Hi] & Hr & _). eapply (Q (be16 id) props); [| |exact Hr| |nends].
    + split; [reflexivity|]. eexists. split; [exact Hi|reflexivity].
    + reflexivity.
    + intros pre' x Ex. assert (H := once_ids _ _ _ _ Hr Ex). assert (H' := item_long x). lia.
  - cbn [conforms content header_byte] in *. destruct K as (k & Hk & K). change (0x90 / 16) with 9 in Hk. subst k. destruct pl; try discriminate K.
    destruct Hm as ([_ Hi] & Hr & _). eapply (Q (be16 id) props); [| |exact Hr|exact (few_ids InSubAck _ eq_refl Hr)|nends].
    + split; [reflexivity|]. eexists. split; [exact Hi|reflexivity].
    + reflexivity.
  - cbn [conforms content header_byte] in *. destruct K as (k & Hk & K). change (0xA2 / 16) with 10 in Hk. subst k. destruct pl; try discriminate K.
    destruct Hm as ([_ Hi] & Hr & _). eapply (Q (be16 id) props); [| |exact Hr|exact (few_ids InUnsubscribe _ eq_refl Hr)|nends].
    + split; [reflexivity|]. eexists. split; [exact Hi|reflexivity].
    + reflexivity.
  - cbn [conforms content header_byte] in *. destruct K as (k & Hk & K). change (0xB0 / 16) with 11 in Hk. subst k. destruct pl; try discriminate K.
    destruct Hm as ([_ Hi] & Hr & _). eapply (Q (be16 id) props); [| |exact Hr|exact (few_ids InUnsubAck _ eq_refl Hr)|nends].
    + split; [reflexivity|]. eexists. split; [exact Hi|reflexivity].
    + reflexivity.
  - exfalso. destruct K as (k & Hk & K). cbn [header_byte] in Hk. change (0xC0 / 16) with 12 in Hk. subst k. destruct pl; discriminate K.
  - exfalso. destruct K as (k & Hk & K). cbn [header_byte] in Hk. change (0xD0 / 16) with 13 in Hk. subst k. destruct pl; discriminate K.
  - cbn [conforms content header_byte] in *. destruct K as (k & Hk & K). change (0xE0 / 16) with 14 in Hk. subst k. destruct pl; try discriminate K.
    destruct e as [|c|c ps]; cbn [ending_bytes ending_ok] in *.
    1,2: exfalso; destruct Hl as (_ & c' & ->); apply Hs; cbn [app] in E; try discriminate E; injection E as _ E; symmetry in E; apply app_eq_nil in E; apply E.
    eapply (Q [disconnect_code c] ps []); [| |exact Hm|exact (few_ids InDisconnect _ eq_refl Hm)|reflexivity].
    + split; [reflexivity|]. eexists. reflexivity.
    + rewrite app_nil_r. reflexivity.
  - exfalso. apply Hp. reflexivity.
Qed.
Lemma odd_not_empty pl sec : odd_section pl sec -> sec <> [].
Proof. intros [f plen its bs H _ _ _] E. apply app_eq_nil in E as [-> _]. inversion H. Qed.
Lemma good_not_empty pl sec : good_section pl sec -> sec <> [].
Proof.
  intros H E. apply good_parsed in H as (f & plen & its & bs & E' & H & _). rewrite E in E'. symmetry in E'. apply app_eq_nil in E' as [-> _]. inversion H.
Qed.
Lemma items_fit m pl pre its rest : at_place m pl pre its rest -> blen (content m) <= max_len -> blen (items_bytes its) <= max_len.
Proof. intros (_ & E & _) H. rewrite E in H. unfold section_bytes in H. autorewrite with blen in H. lia. Qed.
Lemma place_good m pl pre its rest : at_place m pl pre its rest -> blen (content m) <= max_len -> good_section pl (section_bytes its).
Proof.
  intros Ha Hl. assert (Hi := items_fit _ _ _ _ _ Ha Hl). destruct Ha as (_ & _ & Hr & Hx & _).
  destruct (std_parsed pl its (rules_allowed _ _ _ Hr) Hi Hx) as (_ & H1 & H2 & H3).
  destruct its as [|it its]; [exists None; split; [exact H1|exact H2]|].
  eexists (Some _), (varint _), _, (it :: its), (items_bytes (it :: its)). split; [reflexivity|]. split; [exact H1|]. split; [exact H2|].
  split; [apply items_pos|]. split; [exact H3|reflexivity].
Qed.
(** a section in a standard message is neither odd nor followed by trailing bytes *)
Lemma std_sections m pl pre sec rest : conforms m -> ~ misread m -> as_packet m <> None -> blen (content m) <= max_len ->
  leads_to pl (header_byte m) pre -> content m = pre ++ sec ++ rest -> good_section pl sec ->
  ~ odd_section pl sec /\ (ends_with_section pl -> rest = []).
Proof.
  intros Hm Hmis Hp Hlen Hl E Hg.
  destruct (section_place m pl pre sec rest Hm Hmis Hp Hlen Hl E (good_not_empty _ _ Hg)) as (its & rest' & Ha).
  assert (Hi := items_fit _ _ _ _ _ Ha Hlen). assert (Hg' := place_good _ _ _ _ _ Ha Hlen).
  destruct Ha as (_ & E' & Hr & Hx & He). rewrite E in E'. apply app_inv_head in E'.
  destruct (good_det pl _ _ _ _ Hg Hg' E') as [-> ->]. split; [|exact He]. apply std_not_odd; assumption.
Qed.

(** CONNECT: nothing behind the end *)
Lemma opt_string_det o b u (ubs r r' : bytes) : on_some short o -> decodes_opt_string b u ubs -> b = present o ->
  opt field o ++ r = ubs ++ r' -> r = r'.
Proof.
  intros Ho Hd Hb E. subst b. unfold decodes_opt_string in Hd. destruct o as [s|]; cbn [present opt on_some] in *.
  - destruct Hd as (-> & _ & Hs). apply field_inj in E; tauto.
  - destruct Hd as (-> & _). exact E.
Qed.
Lemma std_connect_end clean ka props client will user pw c bd (junk : bytes) :
  let m := M_CONNECT clean ka props client will user pw in
  conforms m -> blen (content m) <= max_len -> as_packet m = Some (Connect c) ->
  decodes_body 0x10 bd (Connect c) -> content m = bd ++ junk -> junk = [].
Proof.
  intros m Hm Hlen Hp Hd E. subst m.
  assert (Gw : on_some (fun w => good_section InWill (section_bytes (w_props w))) will).
  { destruct will as [w|]; [|exact I]. cbn [on_some]. apply good_std; [reflexivity|apply Hm|]. cbn [content opt] in Hlen. autorewrite with blen in *. lia. }
  cbn [conforms content as_packet] in *. fold (std_will will) in Hp. fold (std_will_bytes will) in *.
  destruct Hm as (Hka & Hr & (Hc & Hcs & _) & Hw & Hus & Hpw).
  assert (Gp : good_section InConnect (section_bytes props)) by (apply good_std; [reflexivity|exact Hr|autorewrite with blen in *; lia]).
  destruct (flags_bits clean will user pw) as (F & F0 & F1 & F2 & F6 & F7 & _).
  set (fl := flags_byte clean will user pw) in *. clearbody fl.
  destruct Hd as (_ & fl' & sec & wbs & ubs & pbs & u & pw' & junk' & _ & Eb & Hka' & _ & Hcs' & _ & Hsec & Hwd & Hud & Hpd & _).
  rewrite Eb in E. clear Eb.
  injection Hp as <-. cbn [V5Connect.protocol V5Connect.keep_alive V5Connect.client_id V5Connect.last_will level] in *.
  change (field MQTT) with [0; 4; 77; 81; 84; 84] in E. rewrite <- !app_assoc in E. cbn [app] in E.
  do 7 (apply cons_eq in E as [_ E]). apply cons_eq in E as [<- E].
  apply app_inv_head in E.
  apply (good_det InConnect) in E as [_ E]; [|exact Gp|exact (decodes_good _ _ _ _ Hsec)].
  apply app_inv_head in E.
  assert (Ew : opt field user ++ opt field pw = ubs ++ pbs ++ junk' ++ junk).
  { destruct will as [w|]; cbn [std_will std_will_bytes opt on_some decodes_will] in *.
    - destruct Hwd as (_ & _ & _ & _ & _ & _ & wsec & -> & Hws). unfold std_will_bytes in E. cbn [opt] in E. rewrite <- !app_assoc in E.
      apply (good_det InWill) in E as [_ E]; [|exact Gw|exact (decodes_good _ _ _ _ Hws)].
      cbn [V5Connect.lw_topic V5Connect.lw_message] in E. apply app_inv_head in E. apply app_inv_head in E. exact E.
    - destruct Hwd as (-> & _). exact E. }
  apply opt_string_det with (2 := Hud) (3 := F7) in Ew; [|destruct user; [apply Hus|exact I]].
  rewrite <- (app_nil_r (opt field pw)) in Ew.
  apply opt_string_det with (2 := Hpd) (3 := F6) in Ew; [|destruct pw; [apply Hpw|exact I]].
  symmetry in Ew. apply app_eq_nil in Ew. apply Ew.
Qed.

(** SUBSCRIBE: the options bytes *)
Lemma options_det (fs : list V5Subscribe.SubscribeFilter) : forall opts, List.length opts = List.length fs ->
  flat_map (fun f => field (V5Subscribe.path f) ++ [options f]) fs =
  flat_map (fun fo => field (V5Subscribe.path (fst fo)) ++ [snd fo]) (combine fs opts) -> opts = map options fs.
Proof.
  induction fs as [|f fs IH]; intros [|o opts] L E; try discriminate L; [reflexivity|].
  cbn [combine flat_map fst snd map] in *. rewrite <- !app_assoc in E. apply app_inv_head in E. cbn [app] in E.
  apply cons_eq in E as [-> E]. f_equal. apply IH; [injection L; auto|exact E].
Qed.
Lemma options_below f : options f < 64.
Proof. unfold options. destruct (V5Subscribe.qos f), (V5Subscribe.nolocal f), (V5Subscribe.preserve_retain f), (V5Subscribe.retain_forward_rule f); cbv; reflexivity. Qed.

Lemma std_strings m p s : conforms m -> as_packet m = Some p -> In s (strings_in p) -> ~ In 0 s.
Proof.
  intros H E Hi. destruct m; cbn [as_packet] in E; try discriminate E; injection E as <-; cbn [conforms strings_in filters_in V5Subscribe.filters V5Unsubscribe.filters V5Publish.topic] in *; try contradiction.
  - destruct H as (_ & _ & (_ & _ & Hc) & Hw & Hu & _). destruct Hi as [<-|[<-|Hi]]; [exact Hc| |].
    + unfold user_of. cbn [V5Connect.login]. unfold login_of.
      destruct user as [u|]; cbn [or_empty on_some] in *.
      * destruct u as [|x u]; [destruct (or_empty password); intros []|]. cbn [V5Connect.username]. apply Hu.
      * destruct (or_empty password); intros [].
    + unfold will_topics in Hi. cbn [V5Connect.last_will] in Hi. destruct will as [w|]; [|contradiction]. destruct Hi as [<-|[]].
      cbn [on_some] in Hw. destruct Hw as (_ & ((_ & _ & Hw) & _) & _). exact Hw.
  - destruct Hi as [<-|[]]. destruct H as (((_ & _ & H) & _) & _). exact H.
  - destruct Hi as [<-|[]]. destruct H as (((_ & _ & H) & _) & _). exact H.
  - destruct H as (_ & _ & _ & H). apply in_map_iff in Hi as (f & <- & Hf). rewrite Forall_forall in H. destruct (H f Hf) as ((_ & _ & H0) & _). exact H0.
  - destruct H as (_ & _ & _ & H). rewrite Forall_forall in H. destruct (H s Hi) as ((_ & _ & H0) & _). exact H0.
Qed.

Lemma standard_not_deviates m p : conforms m -> ~ misread m -> as_packet m = Some p -> blen (content m) <= max_len ->
  ~ deviates (header_byte m) (content m) p.
Proof.
  intros Hm Hmis Hp Hlen D. assert (Hp' : as_packet m <> None) by congruence.
  destruct D as [p Hq H|q H1 H2|p H|p s H1 H2|c s H1 H2|q H|p s H1 H2|p H1 H2|s sec opts Hg Hlo E H|c H|c H|c H|c H1 H2
    |p pl pre sec rest Hl E H|p pl pre sec junk He Hl Hg E H|p H1 H2|c bd' junk H1 E H].
  - destruct m; cbn [as_packet] in Hp; try discriminate Hp; injection Hp as <-; cbn [kind] in H;
      try (apply (Hq _ eq_refl)); apply H; reflexivity.
  - destruct m; cbn [as_packet] in Hp; try discriminate Hp; injection Hp as <-; cbn in H1, H2; [discriminate H1|destruct twice; discriminate H2].
  - destruct m; cbn [as_packet] in Hp; try discriminate Hp; injection Hp as <-; cbn in H; try discriminate H; injection H as ->; destruct Hm as [[Hm _] _]; lia.
  - exact (std_strings m p s Hm Hp H1 H2).
  - destruct m; cbn [as_packet] in Hp; try discriminate Hp; injection Hp as <-. unfold will_topics in H1. cbn [V5Connect.last_will] in H1.
    destruct will as [w|]; [|contradiction]. destruct H1 as [<-|[]]. cbn in Hm. destruct Hm as (_ & _ & _ & (_ & (_ & N1 & N2 & N3) & _) & _).
    cbn in H2. destruct H2 as [H2|[H2|H2]]; contradiction.
  - assert (G : forall topic props, publish_topic topic props -> rules_at InPublish props ->
      In PLUS topic \/ In HASH topic \/ topic = [] /\ match props_of publish_record props with Some r => V5Publish.topic_alias r = None | None => True end -> False).
    { intros topic props (_ & N1 & N2 & N3) Hr [G|[G|[G1 G2]]]; try contradiction. specialize (N3 G1).
      apply (occurs_alias props (rules_allowed _ _ _ Hr)) in N3. destruct props as [|it props]; [apply N3; reflexivity|]. exact (N3 G2). }
    destruct m; cbn [as_packet] in Hp; try discriminate Hp; injection Hp as <-; cbn [V5Publish.topic V5Publish.properties] in H; cbn [conforms] in Hm; eapply G; try exact H; apply Hm.
  - assert (G : topic_filter s).
    { destruct m; cbn [as_packet] in Hp; try discriminate Hp; injection Hp as <-; cbn in H1; try contradiction; cbn [conforms] in Hm; destruct Hm as (_ & _ & _ & Hm).
      - apply in_map_iff in H1 as (f & <- & Hf). rewrite Forall_forall in Hm. exact (Hm f Hf).
      - rewrite Forall_forall in Hm. exact (Hm s H1). }
    destruct G as (_ & G1 & G2 & G3). destruct H2 as [H2|[H2|H2]]; contradiction.
  - destruct m; cbn [as_packet] in Hp; try discriminate Hp; injection Hp as <-; cbn in H1, H2; try (destruct H1; discriminate); cbn [conforms] in Hm; destruct Hm as (_ & _ & Hm & _).
    + apply map_eq_nil in H2. contradiction.
    + contradiction.
  - destruct m; cbn [as_packet] in Hp; try discriminate Hp; injection Hp as <-.
    cbn [V5Subscribe.filters V5Subscribe.pkid] in *. cbn [content] in *. apply app_inv_head in E.
    assert (Gs : good_section InSubscribe (section_bytes props)).
    { eexists. apply std_section; [exact (rules_allowed _ _ _ (proj1 (proj2 Hm)))| |].
      - unfold section_bytes in Hlen. autorewrite with blen in Hlen. lia.
      - intros pre x Ex. assert (Ho := once_ids _ _ _ _ (proj1 (proj2 Hm)) Ex). assert (H' := item_long x). lia. }
    apply (good_det InSubscribe) in E as [_ E]; [|exact Gs|exact Hg].
    apply options_det in E; [|exact Hlo]. subst opts. apply Exists_exists in H as (o & Hi & Ho).
    apply in_map_iff in Hi as (f & <- & _). assert (L := options_below f). lia.
  - destruct m; cbn [as_packet] in Hp; try discriminate Hp; injection Hp as <-. discriminate H.
  - destruct m; cbn [as_packet] in Hp; try discriminate Hp; injection Hp as <-.
    assert (B : byte_at 7 (content (M_CONNECT clean keep_alive props client will user password)) = flags_byte clean will user password) by reflexivity.
    rewrite B in H. destruct (flags_bits clean will user password) as (_ & F0 & _). congruence.
  - destruct m; cbn [as_packet] in Hp; try discriminate Hp; injection Hp as <-.
    cbn [content] in H. unfold byte_at in H. cbn [app nth] in H. destruct session_present; cbv in H; congruence.
  - destruct m; cbn [as_packet] in Hp; try discriminate Hp; injection Hp as <-. cbn in H1, H2. destruct Hm as [Hm _]. specialize (Hm H2). congruence.
  - exact (proj1 (std_sections m pl pre sec rest Hm Hmis Hp' Hlen Hl E (odd_good _ _ H)) H).
  - exact (H (proj2 (std_sections m pl pre sec junk Hm Hmis Hp' Hlen Hl E Hg) He)).
  - destruct m; cbn [as_packet] in Hp; try discriminate Hp; injection Hp as <-; try (destruct H1; discriminate); apply H2; reflexivity.
  - destruct m; try discriminate Hp. apply H. exact (std_connect_end _ _ _ _ _ _ _ _ _ _ Hm Hlen Hp H1 E).
Qed.

Lemma decodes_det b1 bd p q : b1 < 256 -> bytes_ok bd -> blen bd <= max_len -> decodes_body b1 bd p -> decodes_body b1 bd q -> p = q.
Proof.
  intros Hb1 Hb Hl H1 H2. apply (frame_complete b1 [] bd p Hb1 Hb (ProofProps.le_huge _ Hl)) in H1. apply (frame_complete b1 [] bd q Hb1 Hb (ProofProps.le_huge _ Hl)) in H2. congruence.
Qed.
Lemma fails_decodes b1 bd e p : b1 < 256 -> bytes_ok bd -> blen bd <= max_len -> fails b1 bd e -> decodes_body b1 bd p -> False.
Proof.
  intros Hb1 Hb Hl H1 H2. apply (frame_complete b1 [] bd p Hb1 Hb (ProofProps.le_huge _ Hl)) in H2. apply (frame_fails b1 [] bd e Hb1 Hb (ProofProps.le_huge _ Hl)) in H1. congruence.
Qed.
(** a standard message is refused, misread or decoded *)
Lemma supported_dec m : (exists e, unsupported m e) \/ (forall e, ~ unsupported m e).
Proof.
  destruct m; try (right; intros e0 H; inversion H; fail).
  - destruct password as [pw|]; [|right; intros e H; inversion H]. destruct (Utf8.utf8_ok pw) eqn:E.
    + right. intros e H. inversion H; subst. apply ProofUtf8.utf8_ok_spec in E. contradiction.
    + left. eexists. apply us_password. intros H. apply ProofUtf8.utf8_ok_spec in H. congruence.
  - destruct e as [|c|c ps]; [left; eexists; constructor|left; eexists; constructor|right; intros e H; inversion H].
  - left. eexists. constructor.
Qed.
Lemma misread_dec m : {misread m} + {~ misread m}.
Proof.
  assert (L : forall l : list item, {pre_x : list item * item | l = fst pre_x ++ [snd pre_x]} + {l = []}).
  { intros l. destruct (rev l) as [|x r] eqn:E.
    - right. apply (f_equal (@rev _)) in E. rewrite rev_involutive in E. exact E.
    - left. exists (rev r, x). apply (f_equal (@rev _)) in E. rewrite rev_involutive in E. exact E. }
  destruct (L (message_props m)) as [[[pre x] E]|E]; [|right; apply nothing_misread, E]. cbn [fst snd] in E.
  destruct (blen (item_bytes x) <=? identifiers pre) eqn:B; [left|right].
  - exists pre, x. split; [exact E|]. lia.
  - intros (pre' & x' & E' & B'). rewrite E in E'. apply app_inj_tail in E' as [<- <-]. lia.
Qed.

(** ProofStd5Dev.v -- every accepted MQTT 5 frame is standard or deviates *)
From Verif Require Import Base SpecWire SpecTopic SpecProps SpecPropSets SpecV5 SpecPlaces SpecErrorsV5 SpecStd5 SpecStd5Dev
  ProofStd ProofBase ProofLib ProofRead ProofProps ProofPropSets ProofSections ProofPlaces ProofV5Read ProofV5Write ProofV5 ProofErrorsV5 ProofStd5 ProofStd5Sec.
From Verif Require V5Connect V5ConnAck V5Publish V5PubAck V5PubRec V5PubRel V5PubComp
  V5Subscribe V5SubAck V5Unsubscribe V5UnsubAck V5Disconnect.

Definition represents (b1 : N) (bd : bytes) (p : Packet) : Prop :=
  exists m, conforms m /\ b1 = header_byte m /\ bd = content m /\ as_packet m = Some p /\ ~ misread m.
Lemma nothing_misread m : message_props m = [] -> ~ misread m.
Proof. intros H (pre & x & E & _). rewrite H in E. destruct pre; discriminate E. Qed.

Lemma text_or b1 bd p s : In s (strings_in p) -> is_string s -> short s -> text s \/ deviates b1 bd p.
Proof.
  intros Hi Hu Hs. destruct (in_dec_n 0 s) as [H|H]; [right; eapply dv_null; eassumption|]. left. repeat split; assumption.
Qed.
Lemma filters_are_strings p s : In s (filters_in p) -> In s (strings_in p).
Proof. destruct p; intros H; try exact H; destruct H. Qed.
Lemma filter_or b1 bd p s : In s (filters_in p) -> is_string s -> short s -> topic_filter s \/ deviates b1 bd p.
Proof.
  intros Hi Hu Hs.
  destruct (text_or b1 bd p s) as [Ht|Ht]; [apply filters_are_strings, Hi|exact Hu|exact Hs| |right; exact Ht].
  destruct (list_eq_dec N.eq_dec s []) as [->|Hn]; [right; apply (dv_filter _ _ _ []); auto|].
  destruct (hash_dec s); [|right; apply (dv_filter _ _ _ s); auto].
  destruct (plus_dec s); [|right; apply (dv_filter _ _ _ s); auto].
  left. split; [exact Ht|]. auto.
Qed.
Lemma filters_or b1 bd p l : incl l (filters_in p) -> Forall (fun s => is_string s /\ short s) l ->
  Forall topic_filter l \/ deviates b1 bd p.
Proof.
  induction l as [|s l IH]; intros Hi Hf; [left; constructor|].
  apply Forall_cons_iff in Hf as [[Hu Hs] Hf].
  destruct (filter_or b1 bd p s) as [H|H]; [apply Hi; left; reflexivity|exact Hu|exact Hs| |right; exact H].
  destruct IH as [H'|H']; [intros x Hx; apply Hi; right; exact Hx|exact Hf| |right; exact H'].
  left. constructor; assumption.
Qed.
Lemma id_or b1 bd p n : packet_id p = Some n -> u16 n -> identifier n \/ deviates b1 bd p.
Proof.
  intros Hi Hn. destruct (N.eq_dec n 0) as [->|n0]; [right; apply dv_id; exact Hi|]. left. split; [lia|exact Hn].
Qed.
Lemma header_or b1 bd p hi lo : (forall q, p <> Publish q) -> b1 / 16 = hi ->
  (if (kind p =? 6) || (kind p =? 8) || (kind p =? 10) then 2 else 0) = lo ->
  b1 = 16 * hi + lo \/ deviates b1 bd p.
Proof.
  intros Hp Hh Hl. destruct (N.eq_dec (b1 mod 16) lo) as [H|H].
  - left. rewrite (N.div_mod b1 16) by lia. rewrite Hh, H. reflexivity.
  - right. apply dv_header; [exact Hp|]. rewrite Hl. exact H.
Qed.
Lemma sec_or {R} b1 bd p pl (rec : list item -> R) o pre sec rest :
  leads_to pl b1 pre -> bd = pre ++ sec ++ rest -> decodes_props (allowed_at pl) rec o sec ->
  (exists its, rules_at pl its /\ sec = section_bytes its /\ o = props_of rec its /\
     (forall pre x, its = pre ++ [x] -> ids_n pre < blen (item_bytes x))) \/ deviates b1 bd p.
Proof.
  intros Hl E Hd. destruct (section_or pl rec o sec Hd) as [H|H]; [left; exact H|right]. exact (dv_section _ _ p pl pre sec rest Hl E H).
Qed.
Lemma decodes_good {R} pl (rec : list item -> R) o sec : decodes_props (allowed_at pl) rec o sec -> good_section pl sec.
Proof.
  intros H. destruct o as [r|]; cbn [decodes_props] in H.
  - destruct H as (f & plen & its & bs & H1 & H2 & H3 & H4 & H5 & _). exists (Some its), f, plen, its, bs. auto 6.
  - exists None. exact H.
Qed.
Lemma junk_or {R} b1 bd p pl (rec : list item -> R) o pre sec (junk : bytes) : ends_with_section pl ->
  leads_to pl b1 pre -> bd = pre ++ sec ++ junk -> decodes_props (allowed_at pl) rec o sec -> junk = [] \/ deviates b1 bd p.
Proof.
  intros He Hl E Hd. destruct junk as [|x l]; [left; reflexivity|right].
  apply (dv_trailing _ _ p pl pre sec (x :: l)); auto; [exact (decodes_good _ _ _ _ Hd)|discriminate].
Qed.

(** acknowledgements *)
Lemma ack_or {C R} b1 bd p pl (rec : list item -> R) (num : C -> N) id c o :
  (forall c c', num c = num c' -> c = c') -> ends_with_section pl ->
  leads_to pl b1 (be16 id ++ [num c]) -> packet_id p = Some id ->
  decodes_ack (allowed_at pl) rec num bd id c o ->
  (exists e, identifier id /\ ending_ok (rules_at pl) e /\ bd = be16 id ++ ending_bytes num e /\
     (forall zero, num zero = 0 -> code_of zero e = c) /\ props_of rec (props_in e) = o) \/ deviates b1 bd p.
Proof.
  intros Hnum Hends Hl Hp (Hid & H).
  destruct (id_or b1 bd p id Hp Hid) as [Hi|Hi]; [|right; exact Hi].
  destruct H as [(-> & Hz & ->)|[(-> & ->)|(sec & junk & E & Hd)]].
  - left. exists Nothing. split; [exact Hi|]. split; [exact I|]. split; [symmetry; apply app_nil_r|]. split; [|reflexivity].
    intros zero H0. apply Hnum. cbn [code_of]. congruence.
  - left. exists (CodeOnly c). split; [exact Hi|]. split; [exact I|]. split; [reflexivity|]. split; [reflexivity|reflexivity].
  - assert (E' : bd = (be16 id ++ [num c]) ++ sec ++ junk) by (rewrite E, <- app_assoc; reflexivity).
    destruct (junk_or b1 bd p pl rec o _ sec junk Hends Hl E' Hd) as [->|H]; [|right; exact H].
    destruct (sec_or b1 bd p pl rec o _ sec [] Hl E' Hd) as [(its & Hr & -> & -> & _)|H]; [|right; exact H].
    left. exists (CodeProps c its). split; [exact Hi|]. split; [exact Hr|]. split; [rewrite E, app_nil_r; reflexivity|]. split; reflexivity.
Qed.

(** CONNECT *)
Lemma connect_standard_or b1 bd c : b1 < 256 -> bytes_ok bd -> decodes_body b1 bd (Connect c) ->
  represents b1 bd (Connect c) \/ deviates b1 bd (Connect c).
Proof.
  intros Hb Hbd Hdec. assert (Hdec' := Hdec).
  destruct Hdec as (Hk & fl & sec & wbs & ubs & pbs & u & pw & junk & Hfl & E & Hka & Hcu & Hcs & Hcl & Hsec & Hw & Hu & Hp & Hl).
  destruct (header_or b1 bd (Connect c) 1 0) as [H1|H1]; [discriminate|exact Hk|reflexivity| |right; exact H1].
  assert (F7 : byte_at 7 bd = fl) by (rewrite E; reflexivity).
  destruct (V5Connect.protocol c) eqn:Epr; [right; apply dv_level; exact Epr|].
  destruct (bit_at 0 fl) eqn:E0; [right; apply dv_reserved; rewrite F7; exact E0|].
  assert (Lu : user_of c = u).
  { unfold user_of. rewrite Hl. unfold canon_login. cbn [V5Connect.username V5Connect.password].
    destruct u, pw; reflexivity. }
  destruct junk as [|j junk].
  2: { right. apply (dv_trailing_connect _ _ c (field MQTT ++ [5; fl] ++ be16 (V5Connect.keep_alive c) ++ sec ++ field (V5Connect.client_id c) ++ wbs ++ ubs ++ pbs) (j :: junk)).
       - split; [exact Hk|]. exists fl, sec, wbs, ubs, pbs, u, pw, []. rewrite Epr, app_nil_r. cbn [level]. auto 15.
       - rewrite E. cbn [level]. rewrite <- !app_assoc. reflexivity.
       - discriminate. }
  rewrite app_nil_r in E. cbn [level] in E.
  assert (Hlead : leads_to InConnect b1 (field MQTT ++ [5; fl] ++ be16 (V5Connect.keep_alive c))).
  { split; [exact Hk|]. exists fl, (V5Connect.keep_alive c). auto. }
  destruct (sec_or b1 bd (Connect c) InConnect connect_record (V5Connect.properties c) _ sec
     (field (V5Connect.client_id c) ++ wbs ++ ubs ++ pbs) Hlead) as [(its & Hr & Esec & Eprops & _)|H]; [rewrite E, <- !app_assoc; reflexivity|exact Hsec| |right; exact H].
  destruct (text_or b1 bd (Connect c) (V5Connect.client_id c)) as [Hct|H]; [left; reflexivity|exact Hcu|exact Hcs| |right; exact H].
  assert (Hus : is_string u /\ short u).
  { unfold decodes_opt_string in Hu. destruct (bit_at 7 fl); [tauto|]. destruct Hu as [_ ->]. split; [apply string_nil|cbv; discriminate]. }
  destruct (text_or b1 bd (Connect c) u) as [Hut|H]; [right; left; exact Lu|apply Hus|apply Hus| |right; exact H].
  assert (Hwn : (exists w, std_will w = V5Connect.last_will c /\ std_will_bytes w = wbs /\
      on_some (fun w => rules_at InWill (w_props w) /\ topic_name (w_topic w) /\ binary (w_message w)) w /\
      match w with Some w => bit_at 2 fl = true /\ fl / 8 mod 4 = qos_num (w_qos w) /\ bit_at 5 fl = w_retain w
      | None => bit_at 2 fl = false /\ fl / 8 mod 8 = 0 end) \/ deviates b1 bd (Connect c)).
  { unfold decodes_will in Hw. destruct (V5Connect.last_will c) as [w|] eqn:Ew.
    2: { left. exists None. destruct Hw as (-> & ? & ?). repeat split; assumption. }
    destruct Hw as (W2 & Wq & Wr & Wt & Wts & Wm & wsec & Ewb & Wsec).
    assert (Hleadw : leads_to InWill b1 (field MQTT ++ [5; fl] ++ be16 (V5Connect.keep_alive c) ++ sec ++ field (V5Connect.client_id c))).
    { split; [exact Hk|]. exists 5, fl, (V5Connect.keep_alive c), (V5Connect.properties c), sec, (V5Connect.client_id c). auto 10. }
    destruct (sec_or b1 bd (Connect c) InWill will_record (V5Connect.lw_properties w) _ wsec
      ((field (V5Connect.lw_topic w) ++ field (V5Connect.lw_message w)) ++ ubs ++ pbs) Hleadw) as [(wits & Wr1 & Wes & Wep & _)|H];
      [rewrite E, Ewb, <- !app_assoc; reflexivity|exact Wsec| |right; exact H].
    assert (Hin : In (V5Connect.lw_topic w) (will_topics c)) by (unfold will_topics; rewrite Ew; left; reflexivity).
    destruct (text_or b1 bd (Connect c) (V5Connect.lw_topic w)) as [Htt|H]; [right; right; exact Hin|exact Wt|exact Wts| |right; exact H].
    destruct (list_eq_dec N.eq_dec (V5Connect.lw_topic w) []) as [Hn|Hn]; [right; apply (dv_will_topic _ _ _ _ Hin); auto|].
    destruct (in_dec_n PLUS (V5Connect.lw_topic w)); [right; apply (dv_will_topic _ _ _ _ Hin); auto|].
    destruct (in_dec_n HASH (V5Connect.lw_topic w)); [right; apply (dv_will_topic _ _ _ _ Hin); auto|].
    left. exists (Some (mkWill wits (V5Connect.lw_topic w) (V5Connect.lw_message w) (V5Connect.lw_qos w) (V5Connect.lw_retain w))).
    cbn [std_will std_will_bytes w_topic w_message w_qos w_retain w_props opt on_some].
    split; [rewrite <- Wep; destruct w; reflexivity|]. split; [unfold std_will_bytes; cbn [opt w_props w_topic w_message]; rewrite Ewb, Wes; reflexivity|].
    split; [|auto]. split; [exact Wr1|]. split; [split; auto|]. split; [|exact Wm].
    rewrite E, Ewb, !bytes_ok_app in Hbd. destruct Hbd as (_ & _ & _ & _ & _ & (_ & _ & B) & _).
    unfold field in B. rewrite bytes_ok_app in B. apply B. }
  destruct Hwn as [(w & Ew & Ewb & Hwc & Hwf)|H]; [|right; exact H].
  left. exists (M_CONNECT (V5Connect.clean_session c) (V5Connect.keep_alive c) its (V5Connect.client_id c) w
     (if bit_at 7 fl then Some u else None) (if bit_at 6 fl then Some pw else None)).
  split.
  { cbn [conforms]. split; [exact Hka|]. split; [exact Hr|]. split; [exact Hct|]. split; [exact Hwc|].
    split; [destruct (bit_at 7 fl); [exact Hut|exact I]|].
    unfold decodes_opt_string in Hp. destruct (bit_at 6 fl); [|exact I]. destruct Hp as (-> & _ & Hps). split; [|exact Hps].
    rewrite E, !bytes_ok_app in Hbd. destruct Hbd as (_ & _ & _ & _ & _ & _ & _ & B).
    unfold field in B. rewrite bytes_ok_app in B. apply B. }
  split; [rewrite H1; reflexivity|]. split; [|split; [|apply nothing_misread; reflexivity]].
  - rewrite E. cbn [content]. fold (std_will_bytes w). rewrite Ewb, Esec.
    assert (G : fl = flags_byte (V5Connect.clean_session c) w (if bit_at 7 fl then Some u else None) (if bit_at 6 fl then Some pw else None)).
    { rewrite (flags_sum fl Hfl) at 1. rewrite E0, Hcl. unfold flags_byte. destruct w as [w|].
      - destruct Hwf as (W2 & W4 & W5). rewrite W2, W4, W5. destruct (bit_at 7 fl), (bit_at 6 fl); cbn [present bit]; lia.
      - destruct Hwf as (W2 & W8). destruct (no_will_bits fl Hfl W8) as [W4 W5]. rewrite W2, W4, W5. destruct (bit_at 7 fl), (bit_at 6 fl); cbn [present bit]; lia. }
    rewrite <- G. change (field MQTT) with [0; 4; 77; 81; 84; 84]. cbn [app]. do 8 f_equal. do 4 f_equal.
    unfold decodes_opt_string in Hu, Hp. f_equal.
    + destruct (bit_at 7 fl); destruct Hu as (-> & _); reflexivity.
    + destruct (bit_at 6 fl); destruct Hp as (-> & _); reflexivity.
  - cbn [as_packet]. fold (std_will w). rewrite Ew, <- Eprops. do 2 f_equal. rewrite <- canon_login_of.
    replace (or_empty (if bit_at 7 fl then Some u else None)) with u by
      (unfold decodes_opt_string in Hu; destruct (bit_at 7 fl); [reflexivity|]; destruct Hu as (_ & ->); reflexivity).
    replace (or_empty (if bit_at 6 fl then Some pw else None)) with pw by
      (unfold decodes_opt_string in Hp; destruct (bit_at 6 fl); [reflexivity|]; destruct Hp as (_ & ->); reflexivity).
    rewrite <- Hl, <- Epr. destruct c; reflexivity.
Qed.

(** PUBLISH *)
Lemma occurs_alias its : Forall (allowed_ok (allowed_at InPublish)) its ->
  (occurs 35 its <-> last_num 35 its <> None).
Proof.
  intros HF. unfold last_num. split.
  - intros H. destruct (last_of 35 its) as [v|] eqn:El.
    + apply last_of_in in El. rewrite Forall_forall in HF. destruct (HF _ El) as [([Ht _] & _) _]. cbn [fst snd] in Ht.
      destruct v; (discriminate || (vm_compute in Ht; discriminate Ht)).
    + exfalso. unfold last_of in El. destruct (find (fun it : N * pval => fst it =? 35) (rev its)) eqn:Ef; [discriminate|].
      unfold occurs in H. apply in_map_iff in H as (it & Ei & Hi). apply in_rev in Hi.
      assert (Hn := find_none _ _ Ef it Hi). cbv beta in Hn. rewrite Ei in Hn. discriminate Hn.
  - intros H. destruct (last_of 35 its) as [v|] eqn:El; [|congruence]. apply last_of_in in El.
    exact (in_map fst _ _ El).
Qed.
Lemma publish_standard_or b1 bd q : b1 < 256 -> bytes_ok bd -> decodes_body b1 bd (Publish q) ->
  represents b1 bd (Publish q) \/ deviates b1 bd (Publish q).
Proof.
  intros Hb Hbd H. destruct q as [d q r t id props pl].
  cbn [decodes_body V5Publish.dup V5Publish.qos V5Publish.retain V5Publish.topic V5Publish.pkid V5Publish.payload V5Publish.properties] in H.
  destruct H as (Hk & Hd & Hq & Hr & Hu & Hs & Hid & sec & E & Hsec).
  set (p := Publish (V5Publish.mkPublish d q r t id props pl)).
  assert (S := publish_sum b1 Hb Hk). rewrite <- Hd, Hq, <- Hr in S.
  destruct (text_or b1 bd p t) as [Ht|Ht]; [left; reflexivity|exact Hu|exact Hs| |right; exact Ht].
  destruct (in_dec_n PLUS t) as [H|Hplus]; [right; apply dv_topic; left; exact H|].
  destruct (in_dec_n HASH t) as [H|Hhash]; [right; apply dv_topic; right; left; exact H|].
  assert (Hlead : leads_to InPublish b1 (field t ++ (if positive_qos q then be16 id else []))).
  { split; [exact Hk|]. destruct (positive_qos q) eqn:Eq.
    - exists q, t, id. rewrite Eq. destruct Hid. auto 10.
    - exists q, t, 1. rewrite Eq. split; [exact Hq|]. split; [exact Hu|]. split; [exact Hs|]. split; [lia|]. split; [cbv; reflexivity|reflexivity]. }
  destruct (sec_or b1 bd p InPublish publish_record props _ sec pl Hlead) as [(its & Hru & -> & -> & Hi)|H];
    [rewrite E, <- !app_assoc; reflexivity|exact Hsec| |right; exact H].
  assert (Hal : (t = [] -> occurs 35 its) \/ deviates b1 bd p).
  { destruct t as [|x t]; [|left; discriminate].
    destruct (in_dec_n 35 (map fst its)) as [H|H]; [left; intros _; exact H|right]. apply dv_topic. right; right.
    split; [reflexivity|]. cbn [V5Publish.properties].
    destruct its as [|it its]; [exact I|]. cbn [props_of publish_record V5Publish.topic_alias].
    destruct (last_num 35 (it :: its)) eqn:El; [|reflexivity]. exfalso. apply H.
    apply (occurs_alias _ (rules_allowed _ _ _ Hru)). rewrite El. discriminate. }
  destruct Hal as [Hal|H]; [|right; exact H].
  assert (Bp : bytes_ok pl) by (rewrite E, !bytes_ok_app in Hbd; apply Hbd).
  assert (Hpt : publish_topic t its) by (split; [exact Ht|]; auto).
  assert (Hmis : forall m, message_props m = its -> ~ misread m).
  { intros m Em (pre & x & Ex & Hx). rewrite Em in Ex. specialize (Hi pre x Ex). rewrite identifiers_ids in Hx. lia. }
  unfold p. destruct q; cbn [positive_qos qos_num] in *.
  + destruct d; [right; apply dv_dup; reflexivity|]. left. exists (M_PUBLISH0 r t its pl).
    split; [split; [exact Hpt|]; split; assumption|]. split; [rewrite S; cbn [header_byte bit]; lia|].
    split; [exact E|]. split; [subst id; reflexivity|apply Hmis; reflexivity].
  + left. exists (M_PUBLISH false d r t id its pl). split; [split; [exact Hpt|]; split; [exact Hid|]; split; assumption|].
    split; [rewrite S; cbn [header_byte]; lia|]. split; [exact E|]. split; [reflexivity|apply Hmis; reflexivity].
  + left. exists (M_PUBLISH true d r t id its pl). split; [split; [exact Hpt|]; split; [exact Hid|]; split; assumption|].
    split; [rewrite S; cbn [header_byte]; lia|]. split; [exact E|]. split; [reflexivity|apply Hmis; reflexivity].
Qed.

(** SUBSCRIBE: an options byte below 64 is the one of the filter *)
Lemma options_low f o : o < 64 -> o mod 4 = qos_num (V5Subscribe.qos f) ->
  V5Subscribe.nolocal f = bit_at 2 o -> V5Subscribe.preserve_retain f = bit_at 3 o ->
  o / 16 mod 4 = rule_num (V5Subscribe.retain_forward_rule f) -> o = options f.
Proof.
  intros Ho H1 H2 H3 H4. unfold options. rewrite <- H1, H2, H3, <- H4. assert (Ho' : o < 256) by lia.
  clear H1 H2 H3 H4 f. revert o Ho' Ho.
  apply (all_bytes (fun o => o < 64 -> o = o mod 4 + 4 * bit (bit_at 2 o) + 8 * bit (bit_at 3 o) + 16 * (o / 16 mod 4))
    (fun o => negb (o <? 64) || (o =? o mod 4 + 4 * bit (bit_at 2 o) + 8 * bit (bit_at 3 o) + 16 * (o / 16 mod 4)))); [|vm_compute; reflexivity].
  intros o H Ho. apply N.ltb_lt in Ho. rewrite Ho in H. cbn [negb orb] in H. apply N.eqb_eq in H. exact H.
Qed.
Lemma options_or b1 bd s sec opts : good_section InSubscribe sec ->
  Forall2 (fun f o =>
    o mod 4 = qos_num (V5Subscribe.qos f) /\
    V5Subscribe.nolocal f = bit_at 2 o /\ V5Subscribe.preserve_retain f = bit_at 3 o /\
    o / 16 mod 4 = rule_num (V5Subscribe.retain_forward_rule f) /\
    is_string (V5Subscribe.path f) /\ short (V5Subscribe.path f)) (V5Subscribe.filters s) opts ->
  bd = be16 (V5Subscribe.pkid s) ++ sec
     ++ flat_map (fun fo => field (V5Subscribe.path (fst fo)) ++ [snd fo]) (combine (V5Subscribe.filters s) opts) ->
  opts = map options (V5Subscribe.filters s) \/ deviates b1 bd (Subscribe s).
Proof.
  intros Hg HF E.
  assert (D : Forall (fun o => o < 64) opts \/ Exists (fun o => 64 <= o) opts).
  { clear. induction opts as [|o l [IH|IH]]; [left; constructor| |right; right; exact IH].
    destruct (N.lt_ge_cases o 64) as [H|H]; [left; constructor; assumption|right; left; exact H]. }
  destruct D as [D|D].
  - left. clear E Hg. revert D. induction HF as [|f o fs os H HF IH]; intros D; [reflexivity|].
    apply Forall_cons_iff in D as [D1 D2]. cbn [map]. destruct H as (H1 & H2 & H3 & H4 & _).
    rewrite <- (options_low f o D1 H1 H2 H3 H4), <- (IH D2). reflexivity.
  - right. apply (dv_options _ _ s sec opts Hg); [|exact E|exact D]. symmetry. clear - HF. induction HF; [reflexivity|]. cbn [List.length]. f_equal. assumption.
Qed.

Ltac orr H := destruct H as [H|H]; [|right; exact H].
Lemma standard_or_deviates b1 bd p : b1 < 256 -> bytes_ok bd -> decodes_body b1 bd p ->
  represents b1 bd p \/ deviates b1 bd p.
Proof.
  intros Hb Hbd H. destruct p as [c|c|q|p|p|p|p|s|s|u|u| | |d]; [apply connect_standard_or; assumption| |apply publish_standard_or; assumption|..]; cbn [decodes_body] in H.
  - (* CONNACK *)
    destruct H as (Hk & fl & sec & junk & E & Hsp & Hd).
    destruct (header_or b1 bd (ConnAck c) 2 0) as [H1|H1]; [discriminate|exact Hk|reflexivity| |right; exact H1].
    assert (Hfl : fl < 256) by (rewrite E in Hbd; apply bytes_ok_cons in Hbd; apply Hbd).
    assert (Hlead : leads_to InConnAck b1 [fl; connack_code (V5ConnAck.code c)]) by (split; [exact Hk|]; exists fl, (V5ConnAck.code c); auto).
    destruct (junk_or b1 bd (ConnAck c) InConnAck _ _ _ sec junk (or_introl eq_refl) Hlead E Hd) as [->|H]; [|right; exact H].
    destruct (sec_or b1 bd (ConnAck c) InConnAck _ _ _ sec [] Hlead E Hd) as [(its & Hr & -> & Ep & _)|H]; [|right; exact H].
    rewrite app_nil_r in E.
    destruct (N.le_gt_cases 2 fl) as [H2|H2]; [right; apply dv_ack_flags; rewrite E; exact H2|].
    assert (Hs : (V5ConnAck.code c <> V5ConnAck.Success -> V5ConnAck.session_present c = false) \/ deviates b1 bd (ConnAck c)).
    { assert (Hc : {V5ConnAck.code c = V5ConnAck.Success} + {V5ConnAck.code c <> V5ConnAck.Success}) by (destruct (V5ConnAck.code c); (left; reflexivity) || (right; discriminate)).
      destruct Hc as [Hc|Hc]; [left; congruence|]. destruct (V5ConnAck.session_present c) eqn:Es; [right; apply dv_session; assumption|left; reflexivity]. }
    orr Hs. left. exists (M_CONNACK (V5ConnAck.session_present c) (V5ConnAck.code c) its).
    split; [split; assumption|]. split; [rewrite H1; reflexivity|]. split; [|split; [|apply nothing_misread; reflexivity]].
    + rewrite E. cbn [content app]. f_equal. rewrite Hsp. assert (fl = 0 \/ fl = 1) as [->| ->] by lia; reflexivity.
    + cbn [as_packet]. rewrite <- Ep. destruct c; reflexivity.
  - destruct H as (Hk & H).
    destruct (header_or b1 bd (PubAck p) 4 0) as [H1|H1]; [discriminate|exact Hk|reflexivity| |right; exact H1].
    destruct (ack_or b1 bd (PubAck p) InPubAck puback_record puback_code (V5PubAck.pkid p) (V5PubAck.reason p) (V5PubAck.properties p)) as [(e & Hi & He & E & Hc & Ho)|D];
      [intros [] []; cbv; congruence|cbv; tauto|split; [exact Hk|]; eexists; eexists; split; [apply H|reflexivity]|reflexivity|exact H|left|right; exact D].
    exists (M_PUBACK (V5PubAck.pkid p) e). split; [split; assumption|]. split; [rewrite H1; reflexivity|]. split; [exact E|]. split; [|apply nothing_misread; reflexivity].
    cbn [as_packet]. rewrite (Hc V5PubAck.Success eq_refl), Ho. destruct p; reflexivity.
  - destruct H as (Hk & H).
    destruct (header_or b1 bd (PubRec p) 5 0) as [H1|H1]; [discriminate|exact Hk|reflexivity| |right; exact H1].
    destruct (ack_or b1 bd (PubRec p) InPubRec pubrec_record pubrec_code (V5PubRec.pkid p) (V5PubRec.reason p) (V5PubRec.properties p)) as [(e & Hi & He & E & Hc & Ho)|D];
      [intros [] []; cbv; congruence|cbv; tauto|split; [exact Hk|]; eexists; eexists; split; [apply H|reflexivity]|reflexivity|exact H|left|right; exact D].
    exists (M_PUBREC (V5PubRec.pkid p) e). split; [split; assumption|]. split; [rewrite H1; reflexivity|]. split; [exact E|]. split; [|apply nothing_misread; reflexivity].
    cbn [as_packet]. rewrite (Hc V5PubRec.Success eq_refl), Ho. destruct p; reflexivity.
  - destruct H as (Hk & H).
    destruct (header_or b1 bd (PubRel p) 6 2) as [H1|H1]; [discriminate|exact Hk|reflexivity| |right; exact H1].
    destruct (ack_or b1 bd (PubRel p) InPubRel pubrel_record pubrel_code (V5PubRel.pkid p) (V5PubRel.reason p) (V5PubRel.properties p)) as [(e & Hi & He & E & Hc & Ho)|D];
      [intros [] []; cbv; congruence|cbv; tauto|split; [exact Hk|]; eexists; eexists; split; [apply H|reflexivity]|reflexivity|exact H|left|right; exact D].
    exists (M_PUBREL (V5PubRel.pkid p) e). split; [split; assumption|]. split; [rewrite H1; reflexivity|]. split; [exact E|]. split; [|apply nothing_misread; reflexivity].
    cbn [as_packet]. rewrite (Hc V5PubRel.Success eq_refl), Ho. destruct p; reflexivity.
  - destruct H as (Hk & H).
    destruct (header_or b1 bd (PubComp p) 7 0) as [H1|H1]; [discriminate|exact Hk|reflexivity| |right; exact H1].
    destruct (ack_or b1 bd (PubComp p) InPubComp pubcomp_record pubcomp_code (V5PubComp.pkid p) (V5PubComp.reason p) (V5PubComp.properties p)) as [(e & Hi & He & E & Hc & Ho)|D];
      [intros [] []; cbv; congruence|cbv; tauto|split; [exact Hk|]; eexists; eexists; split; [apply H|reflexivity]|reflexivity|exact H|left|right; exact D].
    exists (M_PUBCOMP (V5PubComp.pkid p) e). split; [split; assumption|]. split; [rewrite H1; reflexivity|]. split; [exact E|]. split; [|apply nothing_misread; reflexivity].
    cbn [as_packet]. rewrite (Hc V5PubComp.Success eq_refl), Ho. destruct p; reflexivity.
  - (* SUBSCRIBE *)
    destruct H as (Hk & Hi & sec & opts & Hd & HF & E).
    destruct (header_or b1 bd (Subscribe s) 8 2) as [H1|H1]; [discriminate|exact Hk|reflexivity| |right; exact H1].
    destruct (id_or b1 bd (Subscribe s) (V5Subscribe.pkid s)) as [Hn|Hn]; [reflexivity|exact Hi| |right; exact Hn].
    destruct (filters_or b1 bd (Subscribe s) (map V5Subscribe.path (V5Subscribe.filters s))) as [Hfs|H]; [apply incl_refl| | |right; exact H].
    { clear - HF. induction HF; constructor; tauto. }
    assert (Hne : V5Subscribe.filters s <> [] \/ deviates b1 bd (Subscribe s)).
    { destruct (V5Subscribe.filters s) eqn:Ef; [right|left; discriminate]. apply dv_no_filter; [left; reflexivity|]. cbn [filters_in]. rewrite Ef. reflexivity. }
    orr Hne.
    assert (Ho := options_or b1 bd s sec opts (decodes_good _ _ _ _ Hd) HF E). orr Ho.
    assert (Hlead : leads_to InSubscribe b1 (be16 (V5Subscribe.pkid s))) by (split; [exact Hk|]; eexists; split; [exact Hi|reflexivity]).
    destruct (sec_or b1 bd (Subscribe s) InSubscribe _ _ _ sec _ Hlead E Hd) as [(its & Hr & -> & Ep & _)|H]; [|right; exact H].
    left. exists (M_SUBSCRIBE (V5Subscribe.pkid s) its (V5Subscribe.filters s)).
    split; [split; [exact Hn|]; split; [exact Hr|]; split; [exact Hne|]; rewrite Forall_map in Hfs; exact Hfs|].
    split; [rewrite H1; reflexivity|]. split; [|split; [|apply nothing_misread; reflexivity]].
    + rewrite E, Ho. cbn [content]. do 2 f_equal. clear. induction (V5Subscribe.filters s) as [|f l IH]; [reflexivity|]. cbn [map combine flat_map fst snd]. rewrite IH. reflexivity.
    + cbn [as_packet]. rewrite <- Ep. destruct s; reflexivity.
  - (* SUBACK *)
    destruct H as (Hk & Hi & Hne & sec & Hd & E).
    destruct (header_or b1 bd (SubAck s) 9 0) as [H1|H1]; [discriminate|exact Hk|reflexivity| |right; exact H1].
    destruct (id_or b1 bd (SubAck s) (V5SubAck.pkid s)) as [Hn|Hn]; [reflexivity|exact Hi| |right; exact Hn].
    assert (Hlead : leads_to InSubAck b1 (be16 (V5SubAck.pkid s))) by (split; [exact Hk|]; eexists; split; [exact Hi|reflexivity]).
    destruct (sec_or b1 bd (SubAck s) InSubAck _ _ _ sec _ Hlead E Hd) as [(its & Hr & -> & Ep & _)|H]; [|right; exact H].
    left. exists (M_SUBACK (V5SubAck.pkid s) its (V5SubAck.return_codes s)).
    split; [split; [exact Hn|]; split; assumption|].
    split; [rewrite H1; reflexivity|]. split; [exact E|split; [|apply nothing_misread; reflexivity]].
    cbn [as_packet]. rewrite <- Ep. destruct s; reflexivity.
  - (* UNSUBSCRIBE *)
    destruct H as (Hk & Hi & HF & sec & Hd & E).
    destruct (header_or b1 bd (Unsubscribe u) 10 2) as [H1|H1]; [discriminate|exact Hk|reflexivity| |right; exact H1].
    destruct (id_or b1 bd (Unsubscribe u) (V5Unsubscribe.pkid u)) as [Hn|Hn]; [reflexivity|exact Hi| |right; exact Hn].
    destruct (filters_or b1 bd (Unsubscribe u) (V5Unsubscribe.filters u)) as [Hfs|H]; [apply incl_refl|exact HF| |right; exact H].
    assert (Hne : V5Unsubscribe.filters u <> [] \/ deviates b1 bd (Unsubscribe u)).
    { destruct (V5Unsubscribe.filters u) eqn:Ef; [right|left; discriminate]. apply dv_no_filter; [right; reflexivity|]. cbn [filters_in]. exact Ef. }
    orr Hne.
    assert (Hlead : leads_to InUnsubscribe b1 (be16 (V5Unsubscribe.pkid u))) by (split; [exact Hk|]; eexists; split; [exact Hi|reflexivity]).
    destruct (sec_or b1 bd (Unsubscribe u) InUnsubscribe _ _ _ sec _ Hlead E Hd) as [(its & Hr & -> & Ep & _)|H]; [|right; exact H].
    left. exists (M_UNSUBSCRIBE (V5Unsubscribe.pkid u) its (V5Unsubscribe.filters u)).
    split; [split; [exact Hn|]; split; [exact Hr|]; split; assumption|].
    split; [rewrite H1; reflexivity|]. split; [exact E|split; [|apply nothing_misread; reflexivity]].
    cbn [as_packet]. rewrite <- Ep. destruct u; reflexivity.
  - (* UNSUBACK *)
    destruct H as (Hk & Hi & Hne & sec & Hd & E).
    destruct (header_or b1 bd (UnsubAck u) 11 0) as [H1|H1]; [discriminate|exact Hk|reflexivity| |right; exact H1].
    destruct (id_or b1 bd (UnsubAck u) (V5UnsubAck.pkid u)) as [Hn|Hn]; [reflexivity|exact Hi| |right; exact Hn].
    assert (Hlead : leads_to InUnsubAck b1 (be16 (V5UnsubAck.pkid u))) by (split; [exact Hk|]; eexists; split; [exact Hi|reflexivity]).
    destruct (sec_or b1 bd (UnsubAck u) InUnsubAck _ _ _ sec _ Hlead E Hd) as [(its & Hr & -> & Ep & _)|H]; [|right; exact H].
    left. exists (M_UNSUBACK (V5UnsubAck.pkid u) its (V5UnsubAck.reasons u)).
    split; [split; [exact Hn|]; split; assumption|].
    split; [rewrite H1; reflexivity|]. split; [exact E|split; [|apply nothing_misread; reflexivity]].
    cbn [as_packet]. rewrite <- Ep. destruct u; reflexivity.
  - destruct (header_or b1 bd PingReq 12 0) as [H1|H1]; [discriminate|exact H|reflexivity| |right; exact H1].
    destruct bd as [|x bd]; [|right; apply dv_trailing_ping; [left; reflexivity|discriminate]].
    left. exists M_PINGREQ. split; [exact I|]. split; [rewrite H1; reflexivity|]. split; [reflexivity|]. split; [reflexivity|]. apply nothing_misread. reflexivity.
  - destruct (header_or b1 bd PingResp 13 0) as [H1|H1]; [discriminate|exact H|reflexivity| |right; exact H1].
    destruct bd as [|x bd]; [|right; apply dv_trailing_ping; [right; reflexivity|discriminate]].
    left. exists M_PINGRESP. split; [exact I|]. split; [rewrite H1; reflexivity|]. split; [reflexivity|]. split; [reflexivity|]. apply nothing_misread. reflexivity.
  - destruct H as (Hk & sec & junk & E & Hd).
    assert (Hlead : leads_to InDisconnect b1 [disconnect_code (V5Disconnect.reason_code d)]) by (split; [exact Hk|]; eexists; reflexivity).
    destruct (junk_or b1 bd (Disconnect d) InDisconnect disconnect_record (V5Disconnect.properties d) [disconnect_code (V5Disconnect.reason_code d)] sec junk) as [->|H]; [cbv; tauto|exact Hlead|exact E|exact Hd| |right; exact H].
    destruct (sec_or b1 bd (Disconnect d) InDisconnect _ _ _ sec [] Hlead E Hd) as [(its & Hr & -> & Ep & _)|H]; [|right; exact H].
    rewrite app_nil_r in E. left. exists (M_DISCONNECT (CodeProps (V5Disconnect.reason_code d) its)).
    split; [exact Hr|]. split; [exact Hk|]. split; [exact E|]. split; [|apply nothing_misread; reflexivity].
    cbn [as_packet code_of props_in]. rewrite <- Ep. destruct d; reflexivity.
Qed.

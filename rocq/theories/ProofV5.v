(** ProofV5.v -- consequences for the v5 module: round trip, canonical values,
    re-encoding, streams. *)
From Verif Require Import ProofBase Utf8 ProofUtf8 Lib ProofLib SpecFrame ProofCheck ProofRead ProofBits
  SpecStream ProofStream ProofV4 SpecProps SpecPropSets ProofProps ProofPropSets SpecV5 ProofV5Write ProofV5Read
  ProofSections.

Lemma read_gread s max : read s max = gread read_frame s max.
Proof. reflexivity. Qed.

Lemma positive_dec p : {has_id p} + {~ has_id p}.
Proof.
  destruct p; try (left; exact I). cbn [has_id].
  destruct (positive_qos (V5Publish.qos p)); [|left; discriminate].
  destruct (N.eq_dec (V5Publish.pkid p) 0) as [E|E].
  - right. intros H. apply H; [reflexivity|exact E].
  - left. intros _. exact E.
Qed.
Lemma smalls_dec its : {smalls its} + {~ smalls its}.
Proof.
  apply Forall_dec. intros [id v]. destruct v as [n|n|n|n|s|s|k w]; try (left; exact I).
  cbn [snd value_small]. destruct (n <=? max_len) eqn:E; [left; lia|right; lia].
Qed.

(** *** ranges of the encoded bytes *)
Lemma first_byte_ok p : first_byte p < 256.
Proof.
  destruct p; cbn [first_byte]; try lia.
  destruct (V5Publish.dup p), (V5Publish.qos p), (V5Publish.retain p); cbn; lia.
Qed.
Lemma connect_flags_ok c : connect_flags c < 256.
Proof.
  unfold connect_flags.
  destruct (V5Connect.clean_session c), (V5Connect.last_will c) as [[t m [] [] pr]|], (V5Connect.login c) as [[u p]|];
    cbn [V5Connect.lw_qos V5Connect.lw_retain V5Connect.username V5Connect.password bit qos_num];
    try (destruct (nonempty u), (nonempty p)); cbn [bit]; lia.
Qed.
Lemma ptype_byte id t : ptype_of id = Some t -> id < 256.
Proof.
  intros H. destruct (ptype_property _ _ H) as (ty & _ & <- & _). destruct ty; cbn; lia.
Qed.
Lemma item_bytes_ok it : item_typed it -> value_small (snd it) -> bytes_ok (item_bytes it).
Proof.
  intros [Hp Hv] Hs. unfold item_bytes. apply bytes_ok_cons. split; [exact (ptype_byte _ _ Hp)|].
  destruct (snd it) as [n|n|n|n|s|s|k v]; cbn [value_typed value_small value_bytes] in *.
  - apply bytes_ok_cons. split; [exact Hv|apply bytes_ok_nil].
  - apply bytes_ok_be16.
  - unfold be32, bytes_ok, u8. repeat constructor; apply N.mod_lt; discriminate.
  - apply varint_bytes, Hs.
  - apply bytes_ok_field, is_utf8_bytes, Hv.
  - apply bytes_ok_field, Hv.
  - apply bytes_ok_app. split; apply bytes_ok_field, is_utf8_bytes, Hv.
Qed.
Lemma items_bytes_ok its : Forall item_typed its -> smalls its -> bytes_ok (items_bytes its).
Proof.
  unfold smalls. intros HF HS. induction HF as [|it its Hi _ IH]; [apply bytes_ok_nil|].
  apply Forall_cons_iff in HS as [H1 H2]. rewrite items_bytes_cons. apply bytes_ok_app.
  split; [apply item_bytes_ok; assumption|auto].
Qed.
Lemma section_ok its : Forall item_typed its -> smalls its -> blen (section_bytes its) <= max_len ->
  bytes_ok (section_bytes its).
Proof.
  intros H1 H2 H3. unfold section_bytes. apply bytes_ok_app.
  split; [apply varint_bytes, items_of_section, H3|apply items_bytes_ok; assumption].
Qed.

Lemma ack_body_ok {R} (items : R -> list item) id code o :
  Forall item_typed (opt_items items o) -> smalls (opt_items items o) -> code < 256 ->
  blen (ack_body items id code o) <= max_len -> bytes_ok (ack_body items id code o).
Proof.
  intros H1 H2 Hc Hl. unfold ack_body in *. apply bytes_ok_app. split; [apply bytes_ok_be16|].
  destruct o as [r|]; cbn [opt_items] in *.
  - apply bytes_ok_cons. split; [exact Hc|]. apply section_ok; auto. autorewrite with blen in *. lia.
  - destruct (code =? 0); [apply bytes_ok_nil|]. apply bytes_ok_cons. split; [exact Hc|apply bytes_ok_nil].
Qed.
Lemma section_in a its b : blen (a ++ section_bytes its ++ b) <= max_len -> blen (section_bytes its) <= max_len.
Proof. autorewrite with blen. lia. Qed.
Lemma codes_ok {C} (f : C -> N) l : (forall c, f c < 256) -> bytes_ok (map f l).
Proof. intros H. apply Forall_map, Forall_forall. intros c _. apply H. Qed.
Ltac byte_codes := let c := fresh "c" in intros c; destruct c; reflexivity.

Lemma written_bytes p : typed p -> small_ids p -> blen (written p) <= max_len -> bytes_ok (written p).
Proof.
  intros [Ht Hi] Hs Hl. unfold small_ids in Hs. fold (smalls (packet_items p)) in Hs.
  destruct p as [c|c|p|p|p|p|p|s|s|u|u| | |d]; cbn [typed_fields packet_items] in *.
  - apply Forall_app in Hi as [Hi1 Hi2]. apply Forall_app in Hs as [Hs1 Hs2].
    unfold written in *. destruct Ht as (Hka & Hcu & Hw & Hlg).
    autorewrite with blen in Hl.
    repeat (rewrite bytes_ok_app || rewrite bytes_ok_cons); repeat split; try apply bytes_ok_be16; try apply bytes_ok_nil.
    + apply bytes_ok_field, is_utf8_bytes, utf8_MQTT.
    + destruct (V5Connect.protocol c); cbn; lia.
    + apply connect_flags_ok.
    + apply section_ok; auto. autorewrite with blen. lia.
    + apply bytes_ok_field, is_utf8_bytes, Hcu.
    + unfold will_props in *. destruct (V5Connect.last_will c) as [w|]; cbn [opt on_some] in *; [|apply bytes_ok_nil].
      unfold will_bytes in *. destruct Hw. rewrite !bytes_ok_app. repeat split; auto using bytes_ok_field, is_utf8_bytes.
      apply section_ok; auto. autorewrite with blen in *. lia.
    + destruct (V5Connect.login c) as [l|]; cbn [opt on_some] in *; [|apply bytes_ok_nil].
      destruct Hlg as [Hu Hp]. unfold login_bytes. apply bytes_ok_app.
      split; [destruct (nonempty (V5Connect.username l))|destruct (nonempty (V5Connect.password l))];
        auto using bytes_ok_nil, bytes_ok_field, is_utf8_bytes.
  - unfold written in *. autorewrite with blen in Hl. repeat (rewrite bytes_ok_app || rewrite bytes_ok_cons). repeat split.
    + destruct (V5ConnAck.session_present c); cbn; lia.
    + destruct (V5ConnAck.code c); cbn; lia.
    + apply bytes_ok_nil.
    + destruct (V5ConnAck.properties c) as [r|]; cbn [opt_items] in *; [|apply bytes_ok_nil].
      apply section_ok; auto. lia.
  - unfold written, body in *. destruct Ht as (Hu & Hid & Hpl). autorewrite with blen in Hl.
    rewrite !bytes_ok_app. repeat split; auto using bytes_ok_field, is_utf8_bytes.
    + destruct (positive_qos (V5Publish.qos p)); [apply bytes_ok_be16|apply bytes_ok_nil].
    + apply section_ok; auto. autorewrite with blen. lia.
  - apply ack_body_ok; auto. destruct (V5PubAck.reason p); reflexivity.
  - apply ack_body_ok; auto. destruct (V5PubRec.reason p); reflexivity.
  - apply ack_body_ok; auto. destruct (V5PubRel.reason p); reflexivity.
  - apply ack_body_ok; auto. destruct (V5PubComp.reason p); reflexivity.
  - unfold written, body in *. destruct Ht as [Hid Hf]. rewrite !bytes_ok_app. repeat split.
    + apply bytes_ok_be16.
    + apply section_ok; auto. eapply section_in, Hl.
    + clear - Hf. induction Hf as [|f l Hf _ IH]; [constructor|]. cbn [flat_map].
      rewrite !bytes_ok_app, bytes_ok_cons. repeat split; auto using bytes_ok_nil, bytes_ok_field, is_utf8_bytes.
      unfold options, u8. destruct (V5Subscribe.qos f), (V5Subscribe.nolocal f), (V5Subscribe.preserve_retain f), (V5Subscribe.retain_forward_rule f); cbn; lia.
  - unfold written, body in *. rewrite !bytes_ok_app. repeat split.
    + apply bytes_ok_be16.
    + apply section_ok; auto. eapply section_in, Hl.
    + apply codes_ok. byte_codes.
  - unfold written, body in *. destruct Ht as [Hid Hf]. rewrite !bytes_ok_app. repeat split.
    + apply bytes_ok_be16.
    + apply section_ok; auto. eapply section_in, Hl.
    + clear - Hf. induction Hf as [|f l Hf _ IH]; [constructor|]. cbn [flat_map].
      rewrite !bytes_ok_app. auto using bytes_ok_field, is_utf8_bytes.
  - unfold written, body in *. rewrite !bytes_ok_app. repeat split.
    + apply bytes_ok_be16.
    + apply section_ok; auto. eapply section_in, Hl.
    + apply codes_ok. byte_codes.
  - apply bytes_ok_nil.
  - apply bytes_ok_nil.
  - assert (Hc : disconnect_code (V5Disconnect.reason_code d) < 256) by (destruct (V5Disconnect.reason_code d); reflexivity).
    unfold written, body in *. destruct (V5Disconnect.properties d) as [r|]; cbn [opt_items] in *.
    + destruct (disconnect_items r) as [|it its]; [apply bytes_ok_nil|]. apply bytes_ok_cons. split; [exact Hc|].
      apply section_ok; auto. autorewrite with blen in *. lia.
    + destruct (disconnect_code (V5Disconnect.reason_code d) =? 0); [apply bytes_ok_nil|].
      apply bytes_ok_cons. split; [exact Hc|apply bytes_ok_nil].
Qed.
Lemma wire_bytes p : fits p -> bytes_ok (written_wire p).
Proof.
  intros (Ht & _ & Hi & _ & Hl). apply frame_bytes; auto using first_byte_ok, written_bytes.
Qed.

(** *** the grammar contains the encodings *)
Lemma bit_at_connect c :
  let f := connect_flags c in
  bit_at 1 f = V5Connect.clean_session c /\
  bit_at 2 f = is_some (V5Connect.last_will c) /\
  f / 8 mod 8 = match V5Connect.last_will c with
                | Some w => qos_num (V5Connect.lw_qos w) + 4 * bit (V5Connect.lw_retain w) | None => 0 end /\
  f / 8 mod 4 = match V5Connect.last_will c with
                | Some w => qos_num (V5Connect.lw_qos w) | None => 0 end /\
  bit_at 5 f = match V5Connect.last_will c with Some w => V5Connect.lw_retain w | None => false end /\
  bit_at 6 f = match V5Connect.login c with Some l => nonempty (V5Connect.password l) | None => false end /\
  bit_at 7 f = match V5Connect.login c with Some l => nonempty (V5Connect.username l) | None => false end.
Proof.
  cbv zeta. unfold connect_flags.
  destruct (V5Connect.clean_session c), (V5Connect.last_will c) as [[t m [] [] pr]|], (V5Connect.login c) as [[u p]|];
    cbn [V5Connect.lw_qos V5Connect.lw_retain V5Connect.username V5Connect.password is_some];
    try (destruct (nonempty u), (nonempty p)); repeat split; reflexivity.
Qed.

Lemma ids_n_pairs l : ids_n (pair_items l) = 0.
Proof. induction l as [|kv l IH]; [reflexivity|]. exact IH. Qed.
Lemma ids_n_one {A} id (f : A -> pval) o : (id =? 11) = false -> ids_n (one id f o) = 0.
Proof. intros H. destruct o; [|reflexivity]. unfold one, ids_n. cbn [filter fst]. rewrite H. reflexivity. Qed.
Lemma ids_n_ids l : ids_n (id_items l) = blen l.
Proof.
  induction l as [|n l IH]; [reflexivity|]. unfold id_items in *. cbn [map]. rewrite ids_n_cons, IH. cbn [fst].
  rewrite blen_cons. reflexivity.
Qed.
Lemma split_snoc pre x :
  snd (split_props (blen (items_bytes (pre ++ [x]))) 0 (pre ++ [x])) = [] <-> ids_n pre < blen (item_bytes x).
Proof.
  rewrite <- split_all. split.
  - intros H. exact (H pre x eq_refl).
  - intros H pre' x' E. apply app_inj_tail in E as [<- <-]. exact H.
Qed.

(** the sections a publish can be read back from *)
Lemma publish_split p :
  let its := opt_items publish_items (V5Publish.properties p) in
  ids_fit p <-> snd (split_props (blen (items_bytes its)) 0 its) = [].
Proof.
  cbv zeta. unfold ids_fit. destruct (V5Publish.properties p) as [r|]; cbn [opt_items]; [|split; reflexivity].
  unfold publish_items.
  set (A := one 1 VByte (V5Publish.payload_format_indicator r)
    ++ one 2 VFour (V5Publish.message_expiry_interval r)
    ++ one 35 VTwo (V5Publish.topic_alias r)
    ++ one 8 VStr (V5Publish.response_topic r)
    ++ one 9 VBin (V5Publish.correlation_data r)
    ++ pair_items (V5Publish.user_properties r)).
  assert (HA : ids_n A = 0).
  { unfold A. rewrite !ids_n_app, ids_n_pairs, !ids_n_one by reflexivity. reflexivity. }
  match goal with |- context [split_props _ 0 ?its] =>
    replace its with ((A ++ id_items (V5Publish.subscription_identifiers r)) ++ one 3 VStr (V5Publish.content_type r))
      by (unfold A; rewrite <- !app_assoc; reflexivity) end.
  clearbody A. set (ids := V5Publish.subscription_identifiers r).
  destruct (V5Publish.content_type r) as [ct|]; cbn [one].
  - rewrite split_snoc, ids_n_app, HA, ids_n_ids. unfold item_bytes. cbn [snd value_bytes fst]. autorewrite with blen. lia.
  - rewrite app_nil_r. destruct (rev ids) as [|l t] eqn:E.
    + assert (Ei : ids = []) by (rewrite <- (rev_involutive ids), E; reflexivity).
      rewrite Ei. cbn [id_items map]. rewrite app_nil_r. split; [intros _|intros _; exact I].
      apply split_all. intros pre x Ex. rewrite Ex, ids_n_app in HA. assert (Hx := item_long x). lia.
    + assert (Ei : ids = rev t ++ [l]) by (rewrite <- (rev_involutive ids), E; reflexivity).
      rewrite Ei. unfold id_items. rewrite map_app. cbn [map]. rewrite app_assoc, split_snoc, ids_n_app, HA.
      fold (id_items (rev t)). rewrite ids_n_ids. unfold item_bytes. cbn [snd value_bytes fst]. autorewrite with blen. lia.
Qed.
Lemma subscribe_split o :
  let its := opt_items subscribe_items o in snd (split_props (blen (items_bytes its)) 0 its) = [].
Proof.
  cbv zeta. destruct o as [r|]; cbn [opt_items]; [|reflexivity]. apply split_all. intros pre x E.
  assert (Hx := item_long x).
  assert (H : ids_n (subscribe_items r) <= 1).
  { unfold subscribe_items. rewrite ids_n_app, ids_n_pairs. destruct (V5Subscribe.id r); cbv; discriminate. }
  rewrite E, ids_n_app in H. lia.
Qed.

Lemma section_decodes0 {R} pl (rec : list item -> R) items
  (H1 : forall r, rec (items r) = r) (H2 : forall r, Forall (has_place pl) (items r)) o :
  mem 11 (allowed_at pl) = false -> Forall item_ok (opt_items items o) ->
  blen (section_bytes (opt_items items o)) <= max_len ->
  decodes_props (allowed_at pl) rec (canon_props items o) (section_bytes (opt_items items o)).
Proof.
  intros Hm Hok Hl. apply section_decodes; auto.
  - apply items_of_section, Hl.
  - eapply split_place; [apply opt_place, H2|exact Hm].
Qed.

Lemma ack_decodes {C R} pl (rec : list item -> R) items (num : C -> N)
  (H1 : forall r, rec (items r) = r) (H2 : forall r, Forall (has_place pl) (items r)) id c o :
  mem 11 (allowed_at pl) = false -> Forall item_ok (opt_items items o) -> u16 id ->
  blen (ack_body items id (num c) o) <= max_len ->
  decodes_ack (allowed_at pl) rec num (ack_body items id (num c) o) id c (canon_props items o).
Proof.
  intros Hm Hok Hid Hl. split; [exact Hid|]. unfold ack_body in *. destruct o as [r|].
  - right; right. exists (section_bytes (items r)), []. rewrite app_nil_r. split; [reflexivity|].
    apply (section_decodes0 pl rec items H1 H2 (Some r) Hm Hok). cbn [opt_items]. autorewrite with blen in *. lia.
  - destruct (N.eqb_spec (num c) 0) as [E|E].
    + left. rewrite app_nil_r. auto.
    + right; left. auto.
Qed.

Lemma items_ok p : typed p -> short_fields p -> small_ids p -> Forall item_ok (packet_items p).
Proof.
  intros [_ H1] [_ H2] H3. unfold small_ids in H3. rewrite Forall_forall in *. intros it Hi.
  split; [apply H1, Hi|]. split; [apply H2, Hi|apply H3, Hi].
Qed.

Lemma decodes_written p : fits p -> readable p -> decodes_body (first_byte p) (written p) (canon p).
Proof.
  intros (Ht & Hs & Hi & Hid & Hl) Hp. assert (Hok := items_ok p Ht Hs Hi).
  destruct Ht as [Ht _]. destruct Hs as [Hs _].
  destruct p as [c|c|p|p|p|p|p|s|s|u|u| | |d];
    cbn [canon decodes_body first_byte packet_items typed_fields readable] in *.
  - (* Connect *)
    cbn [V5Connect.protocol V5Connect.keep_alive V5Connect.client_id V5Connect.clean_session V5Connect.last_will V5Connect.login V5Connect.properties].
    split; [reflexivity|]. apply Forall_app in Hok as [Hok1 Hok2].
    destruct (bit_at_connect c) as (B1 & B2 & B8 & B4 & B5 & B6 & B7).
    destruct Ht as (Hka & Hcu & Hw & Hlg). destruct Hs as (Hcs & Hws & Hls).
    exists (connect_flags c), (section_bytes (opt_items connect_items (V5Connect.properties c))), (opt will_bytes (V5Connect.last_will c)).
    exists (match V5Connect.login c with Some l => if nonempty (V5Connect.username l) then field (V5Connect.username l) else [] | None => [] end).
    exists (match V5Connect.login c with Some l => if nonempty (V5Connect.password l) then field (V5Connect.password l) else [] | None => [] end).
    exists (match V5Connect.login c with Some l => V5Connect.username l | None => [] end).
    exists (match V5Connect.login c with Some l => V5Connect.password l | None => [] end), [].
    split; [apply connect_flags_ok|]. split.
    { cbn [written]. destruct (V5Connect.login c) as [l|]; cbn [opt]; unfold login_bytes; rewrite ?app_nil_r; reflexivity. }
    unfold written in Hl. autorewrite with blen in Hl.
    split; [exact Hka|]. split; [exact Hcu|]. split; [exact Hcs|]. split; [congruence|].
    split.
    { rewrite Hp. apply section_decodes0; auto using connect_record_items, connect_place. autorewrite with blen. lia. }
    split.
    { unfold decodes_will. unfold will_props in *. destruct (V5Connect.last_will c) as [w|] eqn:Ew; cbn [opt is_some option_map on_some] in *.
      - destruct Hw, Hws. cbn [canon_will V5Connect.lw_qos V5Connect.lw_retain V5Connect.lw_topic V5Connect.lw_message V5Connect.lw_properties].
        repeat split; auto. exists (section_bytes (opt_items will_items (V5Connect.lw_properties w))). split; [reflexivity|].
        apply section_decodes0; auto using will_record_items, will_place. unfold will_bytes in Hl. autorewrite with blen in *. lia.
      - auto. }
    rewrite B6, B7. unfold decodes_opt_string.
    destruct (V5Connect.login c) as [[u pw]|] eqn:El; cbn [V5Connect.username V5Connect.password on_some] in *.
    + destruct Hlg as [Hu Hpw]. destruct Hls as [Hus Hps]. cbn [V5Connect.username V5Connect.password] in *.
      split; [|split].
      * destruct (nonempty u) eqn:En; [repeat split; assumption|]. split; [reflexivity|apply nonempty_false; assumption].
      * destruct (nonempty pw) eqn:En; [repeat split; assumption|]. split; [reflexivity|apply nonempty_false; assumption].
      * reflexivity.
    + repeat split; auto.
  - (* ConnAck *)
    split; [reflexivity|]. unfold written in *. destruct (V5ConnAck.properties c) as [r|] eqn:Ep; [|congruence].
    cbn [V5ConnAck.session_present V5ConnAck.code V5ConnAck.properties].
    exists (bit (V5ConnAck.session_present c)), (section_bytes (connack_items r)), []. rewrite app_nil_r.
    split; [reflexivity|]. split; [destruct (V5ConnAck.session_present c); reflexivity|].
    apply (section_decodes0 InConnAck connack_record connack_items connack_record_items connack_place (Some r)); auto.
    cbn [opt_items]. autorewrite with blen in *. lia.
  - (* Publish *)
    cbn [V5Publish.dup V5Publish.qos V5Publish.retain V5Publish.topic V5Publish.pkid V5Publish.payload V5Publish.properties].
    destruct (bit_at_publish (V5Publish.dup p) (V5Publish.qos p) (V5Publish.retain p)) as (B1 & B2 & B3 & B4).
    destruct Ht as (Hu & Hpk & Hpl). do 6 (split; [auto|]). split.
    + cbn [has_id] in Hid. destruct (positive_qos (V5Publish.qos p)) eqn:Eq; [|reflexivity].
      specialize (Hid eq_refl). split; [lia|exact Hpk].
    + exists (section_bytes (opt_items publish_items (V5Publish.properties p))). split.
      * cbn [written body]. destruct (positive_qos (V5Publish.qos p)); reflexivity.
      * apply section_decodes; auto using publish_record_items, publish_place.
        { apply items_of_section. unfold written, body in Hl. autorewrite with blen in *. lia. }
        apply publish_split, Hp.
  - split; [reflexivity|]. apply ack_decodes; auto using puback_record_items, puback_place.
  - split; [reflexivity|]. apply ack_decodes; auto using pubrec_record_items, pubrec_place.
  - split; [reflexivity|]. apply ack_decodes; auto using pubrel_record_items, pubrel_place.
  - split; [reflexivity|]. apply ack_decodes; auto using pubcomp_record_items, pubcomp_place.
  - (* Subscribe *)
    cbn [V5Subscribe.pkid V5Subscribe.filters V5Subscribe.properties].
    split; [reflexivity|]. destruct Ht as [Hpk Hf]. split; [exact Hpk|].
    exists (section_bytes (opt_items subscribe_items (V5Subscribe.properties s))), (map options (V5Subscribe.filters s)).
    split; [|split].
    + apply section_decodes; auto using subscribe_record_items, subscribe_place; [|apply subscribe_split].
      apply items_of_section. eapply section_in, Hl.
    + clear - Hf Hs. induction (V5Subscribe.filters s) as [|f l IH]; [constructor|].
      apply Forall_cons_iff in Hf as [Hf Hfl]. apply Forall_cons_iff in Hs as [Hs Hsl].
      cbn [map]. constructor; [|auto]. unfold options.
      destruct (V5Subscribe.qos f), (V5Subscribe.nolocal f), (V5Subscribe.preserve_retain f), (V5Subscribe.retain_forward_rule f); repeat split; assumption.
    + cbn [written body]. do 2 f_equal. clear. induction (V5Subscribe.filters s) as [|f l IH]; [reflexivity|].
      cbn [map combine flat_map fst snd]. rewrite IH. reflexivity.
  - split; [reflexivity|]. split; [exact Ht|]. split; [exact Hp|]. cbn [V5SubAck.pkid V5SubAck.return_codes V5SubAck.properties].
    eexists. split; [|reflexivity]. apply section_decodes0; auto using suback_record_items, suback_place. eapply section_in, Hl.
  - split; [reflexivity|]. destruct Ht as [Hpk Hf]. split; [exact Hpk|]. split.
    + rewrite Forall_forall in *. intros t Hin. auto.
    + eexists. split; [|reflexivity]. apply section_decodes0; auto using unsubscribe_record_items, unsubscribe_place. eapply section_in, Hl.
  - split; [reflexivity|]. split; [exact Ht|]. split; [exact Hp|]. cbn [V5UnsubAck.pkid V5UnsubAck.reasons V5UnsubAck.properties].
    eexists. split; [|reflexivity]. apply section_decodes0; auto using unsuback_record_items, unsuback_place. eapply section_in, Hl.
  - reflexivity.
  - reflexivity.
  - destruct Hp as (r & Ep & Hne). split; [reflexivity|]. cbn [V5Disconnect.reason_code V5Disconnect.properties].
    unfold written, body in *. rewrite Ep in *. cbn [opt_items] in *.
    exists (section_bytes (disconnect_items r)), []. rewrite app_nil_r. split.
    + destruct (disconnect_items r); [contradiction|reflexivity].
    + apply (section_decodes0 InDisconnect disconnect_record disconnect_items disconnect_record_items disconnect_place (Some r)); auto.
      cbn [opt_items]. destruct (disconnect_items r); [contradiction|]. autorewrite with blen in *. lia.
Qed.

(** *** whatever decodes is a well-formed canonical value, with an encoding at most a few
    bytes longer than the body it came from *)
Lemma value_enc_len v vb : value_short v -> value_enc v vb -> blen (value_bytes v) <= blen vb /\ blen vb <= 131074.
Proof.
  intros Hs H. destruct v as [n|n|n|n|s|s|k w]; cbn [value_enc value_short] in *.
  1-3: subst vb; split; [apply N.le_refl|vm_compute; discriminate].
  - destruct H as [H Hl]. assert (Hb := lenfield_bound _ _ H Hl). split; [|lia].
    cbn [value_bytes]. exact (varint_minimal _ _ H Hb).
  - subst vb. unfold short in *. cbn [value_bytes]. autorewrite with blen. lia.
  - subst vb. unfold short in *. cbn [value_bytes]. autorewrite with blen. lia.
  - subst vb. destruct Hs. unfold short in *. cbn [value_bytes]. autorewrite with blen. lia.
Qed.
Lemma reads_len allowed plen c its bs c' : reads allowed plen c its bs c' ->
  blen (items_bytes its) <= blen bs /\ c + blen bs <= c' /\ (c' = c \/ c + blen bs <= plen + 131075).
Proof.
  induction 1 as [c|c id v vb its bs c' Hc Hin Hok Henc Hr (IH1 & IH2 & IH3)].
  - change (items_bytes []) with (@nil N). change (blen (@nil N)) with 0. lia.
  - destruct (value_enc_len v vb) as [Hv1 Hv2]; [apply Hok|exact Henc|].
    rewrite items_bytes_cons, blen_app. unfold item_bytes. cbn [fst snd]. autorewrite with blen.
    unfold counted in *. destruct (id =? 11); (split; [lia|]; split; [lia|]; right; lia).
Qed.
Lemma len_len_step a b : b <= a + 131075 -> b <= max_len -> blen (varint b) <= blen (varint a) + 2.
Proof.
  intros H1 H2. rewrite !varint_len. unfold len_len, max_len in *.
  repeat match goal with |- context [if ?c then _ else _] => destruct c eqn:? end; lia.
Qed.
Lemma varint_mono a b : a <= b -> blen (varint a) <= blen (varint b).
Proof.
  intros H. rewrite !varint_len. unfold len_len.
  repeat match goal with |- context [if ?c then _ else _] => destruct c eqn:? end; lia.
Qed.

Section Decoded.
  Context {R : Type} (pl : place) (rec : list item -> R) (items : R -> list item).
  Hypothesis incl_items : forall its, Forall item_typed its -> incl (items (rec its)) its.
  Hypothesis size : forall its, Forall item_typed its ->
    blen (items_bytes (items (rec its))) <= blen (items_bytes its).
  Hypothesis nonempty_items : forall its, its <> [] -> Forall item_typed its ->
    Forall (fun it => In (fst it) (allowed_at pl)) its -> items (rec its) <> [].
  Lemma decoded_props o sec : blen sec <= max_len -> decodes_props (allowed_at pl) rec o sec ->
    Forall item_ok (opt_items items o) /\ canon_props items o = o /\
    blen (section_bytes (opt_items items o)) <= blen sec + 2.
  Proof.
    intros Hl Hd. destruct o as [r|]; cbn [opt_items decodes_props] in *.
    - destruct Hd as (f & plen & its & bs & -> & Hf & Hf4 & Hpos & (c' & Hr & Hc') & ->).
      assert (Ha := reads_items _ _ _ _ _ _ Hr). destruct (reads_len _ _ _ _ _ _ Hr) as (L1 & L2 & L3).
      assert (Hty : Forall item_typed its) by (eapply Forall_impl; [|exact Ha]; intros it [H _]; apply H).
      split; [|split].
      + apply Forall_forall. intros it Hi. apply incl_items in Hi; [|exact Hty]. rewrite Forall_forall in Ha.
        apply (Ha it Hi).
      + unfold canon_props. assert (Hn : items (rec its) <> []).
        { apply nonempty_items; auto.
          - intros ->. inversion Hr. subst. lia.
          - eapply Forall_impl; [|exact Ha]. intros it [_ H]. exact H. }
        destruct (items (rec its)); [contradiction|reflexivity].
      + assert (Hs := size its Hty). rewrite blen_app in Hl. rewrite blen_section.
        assert (Hx := varint_minimal f plen Hf (lenfield_bound f plen Hf Hf4)).
        assert (Hstep := len_len_step plen (blen (items_bytes (items (rec its)))) ltac:(lia) ltac:(lia)).
        rewrite blen_app. lia.
    - split; [constructor|]. split; [reflexivity|]. destruct Hd as [Hd _].
      assert (Hx := varint_minimal sec 0 Hd ltac:(unfold max_len; lia)). change (blen (section_bytes [])) with 1.
      change (blen (varint 0)) with 1 in Hx. lia.
  Qed.
  Lemma decoded_ack {C} (num : C -> N) bd id c o : blen bd <= max_len ->
    decodes_ack (allowed_at pl) rec num bd id c o ->
    Forall item_ok (opt_items items o) /\ canon_props items o = o /\
    blen (ack_body items id (num c) o) <= blen bd + 2.
  Proof.
    intros Hl [_ [(-> & H0 & ->)|[(-> & ->)|(sec & junk & -> & Hd)]]].
    - unfold ack_body. cbn [opt_items canon_props]. rewrite H0. change (0 =? 0) with true. cbv iota. rewrite app_nil_r.
      split; [constructor|]. split; [reflexivity|]. lia.
    - unfold ack_body. cbn [opt_items canon_props]. split; [constructor|]. split; [reflexivity|].
      destruct (num c =? 0); autorewrite with blen; lia.
    - autorewrite with blen in Hl. destruct (decoded_props o sec) as (H1 & H2 & H3); [lia|exact Hd|].
      split; [exact H1|]. split; [exact H2|]. unfold ack_body. destruct o as [r|]; cbn [opt_items] in *.
      + autorewrite with blen in *. lia.
      + destruct (num c =? 0); autorewrite with blen in *; lia.
  Qed.
End Decoded.

Lemma ok_parts its : Forall item_ok its -> Forall item_typed its /\ Forall (fun it => value_short (snd it)) its /\ smalls its.
Proof.
  intros H. split; [|split]; (eapply Forall_impl; [|exact H]); intros it (H1 & H2 & H3); assumption.
Qed.
Definition decoded_ok (p : Packet) : Prop :=
  (typed_fields p /\ match p with
  | Connect c =>
      short (V5Connect.client_id c) /\
      on_some (fun w => short (V5Connect.lw_topic w) /\ short (V5Connect.lw_message w)) (V5Connect.last_will c) /\
      on_some (fun l => short (V5Connect.username l) /\ short (V5Connect.password l)) (V5Connect.login c)
  | Publish p => short (V5Publish.topic p)
  | Subscribe s => Forall (fun f => short (V5Subscribe.path f)) (V5Subscribe.filters s)
  | Unsubscribe u => Forall short (V5Unsubscribe.filters u)
  | _ => True
  end) /\ Forall item_ok (packet_items p) /\ has_id p /\ canonical p.

Lemma canon_login_idem u pw : canon_login (canon_login (Some (V5Connect.mkLogin u pw))) = canon_login (Some (V5Connect.mkLogin u pw)).
Proof.
  unfold canon_login at 2 3. cbn [V5Connect.username V5Connect.password].
  destruct (nonempty u || nonempty pw) eqn:E; [|reflexivity]. unfold canon_login. cbn [V5Connect.username V5Connect.password]. rewrite E. reflexivity.
Qed.

Lemma decodes_fits b1 bd p : bytes_ok bd -> blen bd <= max_len -> decodes_body b1 bd p ->
  typed p /\ short_fields p /\ small_ids p /\ has_id p /\ canonical p /\
  blen (written p) <= blen bd + (if match p with Connect _ => true | _ => false end then 4 else 2).
Proof.
  intros Hb Hl Hd.
  assert (Hgoal : decoded_ok p /\ blen (written p) <= blen bd + (if match p with Connect _ => true | _ => false end then 4 else 2)).
  2: { destruct Hgoal as (((H1 & H2) & H3 & H4 & H5) & H6). destruct (ok_parts _ H3) as (K1 & K2 & K3). repeat split; auto. }
  unfold decoded_ok, canonical.
  destruct p as [c|c|p|p|p|p|p|s|s|u|u| | |d]; cbn [decodes_body] in Hd;
    cbn [typed_fields packet_items has_id canon].
  - (* Connect *)
    destruct Hd as (_ & flags & sec & wbs & ubs & pbs & u & pw & junk & Hf & Ebd & Hka & Hcu & Hcs & Hcl & Hpr & Hw & Hu & Hp & Hlg).
    assert (Hbytes : bytes_ok wbs).
    { rewrite Ebd in Hb. repeat (rewrite bytes_ok_app in Hb || rewrite bytes_ok_cons in Hb). tauto. }
    rewrite Ebd in Hl. autorewrite with blen in Hl. change (blen MQTT) with 4 in Hl.
    assert (Hpr' : Forall item_ok (opt_items connect_items (V5Connect.properties c)) /\
       canon_props connect_items (V5Connect.properties c) = V5Connect.properties c /\
       blen (section_bytes (opt_items connect_items (V5Connect.properties c))) <= blen sec + 2).
    { destruct (V5Connect.protocol c).
      - destruct Hpr as [-> ->]. split; [constructor|]. split; [reflexivity|vm_compute; discriminate].
      - eapply decoded_props; [apply connect_items_incl|apply connect_size|apply connect_nonempty| |exact Hpr]. lia. }
    destruct Hpr' as (P1 & P2 & P3).
    assert (Hw' : on_some typed_will (V5Connect.last_will c) /\
       on_some (fun w => short (V5Connect.lw_topic w) /\ short (V5Connect.lw_message w)) (V5Connect.last_will c) /\
       Forall item_ok (will_props c) /\ option_map canon_will (V5Connect.last_will c) = V5Connect.last_will c /\
       blen (opt will_bytes (V5Connect.last_will c)) <= blen wbs + 2).
    { unfold will_props. unfold decodes_will in Hw. destruct (V5Connect.last_will c) as [w|]; cbn [on_some opt option_map].
      - destruct Hw as (_ & _ & _ & Hu1 & Hs1 & Hs2 & wsec & -> & Hwp).
        destruct (decoded_props InWill will_record will_items will_items_incl will_size will_nonempty _ wsec
          ltac:(autorewrite with blen in Hl; lia) Hwp) as (W1 & W2 & W3).
        split; [split; [assumption|]|].
        { rewrite !bytes_ok_app in Hbytes. destruct Hbytes as (_ & _ & Hx). apply bytes_ok_app in Hx. apply Hx. }
        split; [split; assumption|]. split; [exact W1|]. split.
        + f_equal. unfold canon_will. rewrite W2. destruct w; reflexivity.
        + unfold will_bytes. autorewrite with blen in *. lia.
      - destruct Hw as (-> & _). repeat split; try constructor. apply N.le_0_l. }
    destruct Hw' as (Hw1 & Hw2 & Hw3 & Hw4 & Hw5).
    assert (Hus : is_string u /\ short u /\ blen (if nonempty u then field u else []) <= blen ubs).
    { unfold decodes_opt_string in Hu. destruct (bit_at 7 flags).
      - destruct Hu as (-> & H1 & H2). repeat split; auto. destruct (nonempty u); autorewrite with blen; lia.
      - destruct Hu as (-> & ->). repeat split; [exists []; repeat constructor| | ]; cbv; discriminate. }
    assert (Hps : is_string pw /\ short pw /\ blen (if nonempty pw then field pw else []) <= blen pbs).
    { unfold decodes_opt_string in Hp. destruct (bit_at 6 flags).
      - destruct Hp as (-> & H1 & H2). repeat split; auto. destruct (nonempty pw); autorewrite with blen; lia.
      - destruct Hp as (-> & ->). repeat split; [exists []; repeat constructor| | ]; cbv; discriminate. }
    destruct Hus as (Hu1 & Hu2 & Hu3). destruct Hps as (Hp1 & Hp2 & Hp3).
    assert (Hlogin : on_some typed_login (V5Connect.login c) /\
      on_some (fun l => short (V5Connect.username l) /\ short (V5Connect.password l)) (V5Connect.login c) /\
      blen (opt login_bytes (V5Connect.login c)) <= blen ubs + blen pbs).
    { rewrite Hlg. cbn [canon_login V5Connect.username V5Connect.password].
      destruct (nonempty u || nonempty pw); cbn [on_some opt]; [|repeat split; apply N.le_0_l].
      unfold typed_login, login_bytes. cbn [V5Connect.username V5Connect.password]. repeat split; auto.
      rewrite blen_app. lia. }
    destruct Hlogin as (L1 & L2 & L3).
    split.
    + split; [split|]; [auto|auto|]. split; [apply Forall_app; auto|]. split; [exact I|].
      f_equal. rewrite P2, Hw4. rewrite Hlg, canon_login_idem. rewrite <- Hlg. destruct c; reflexivity.
    + rewrite Ebd. unfold written. autorewrite with blen. autorewrite with blen in P3. lia.
  - (* ConnAck *)
    destruct Hd as (_ & flags & sec & junk & -> & _ & Hp). autorewrite with blen in Hl.
    destruct (decoded_props InConnAck connack_record connack_items connack_items_incl connack_size connack_nonempty _ sec
      ltac:(lia) Hp) as (P1 & P2 & P3).
    split.
    + repeat split; auto. rewrite P2. destruct c; reflexivity.
    + unfold written. destruct (V5ConnAck.properties c); cbn [opt_items] in P3; autorewrite with blen in *; lia.
  - (* Publish *)
    destruct Hd as (_ & _ & _ & _ & Hu & Hs & Hid & sec & Ebd & Hp).
    assert (Hpl : bytes_ok (V5Publish.payload p)).
    { rewrite Ebd in Hb. rewrite !bytes_ok_app in Hb. tauto. }
    rewrite Ebd in *. autorewrite with blen in Hl.
    destruct (decoded_props InPublish publish_record publish_items publish_items_incl publish_size publish_nonempty _ sec
      ltac:(lia) Hp) as (P1 & P2 & P3).
    split.
    + split; [split|]; auto.
      { repeat split; auto. destruct (positive_qos (V5Publish.qos p)); [apply Hid|rewrite Hid; reflexivity]. }
      split; [exact P1|]. split; [intros Hq; rewrite Hq in Hid; lia|].
      rewrite P2. destruct p as [dd qq rr tt id pp ll]. cbn [V5Publish.dup V5Publish.qos V5Publish.retain V5Publish.topic V5Publish.pkid V5Publish.payload V5Publish.properties] in *.
      destruct (positive_qos qq); [reflexivity|rewrite Hid; reflexivity].
    + unfold written, body. autorewrite with blen in *. lia.
  - destruct Hd as [_ Hd]. assert (Hid := proj1 Hd).
    destruct (decoded_ack InPubAck puback_record puback_items puback_items_incl puback_size puback_nonempty _ _ _ _ _ Hl Hd) as (P1 & P2 & P3).
    repeat split; auto. rewrite P2. destruct p; reflexivity.
  - destruct Hd as [_ Hd]. assert (Hid := proj1 Hd).
    destruct (decoded_ack InPubRec pubrec_record pubrec_items pubrec_items_incl pubrec_size pubrec_nonempty _ _ _ _ _ Hl Hd) as (P1 & P2 & P3).
    repeat split; auto. rewrite P2. destruct p; reflexivity.
  - destruct Hd as [_ Hd]. assert (Hid := proj1 Hd).
    destruct (decoded_ack InPubRel pubrel_record pubrel_items pubrel_items_incl pubrel_size pubrel_nonempty _ _ _ _ _ Hl Hd) as (P1 & P2 & P3).
    repeat split; auto. rewrite P2. destruct p; reflexivity.
  - destruct Hd as [_ Hd]. assert (Hid := proj1 Hd).
    destruct (decoded_ack InPubComp pubcomp_record pubcomp_items pubcomp_items_incl pubcomp_size pubcomp_nonempty _ _ _ _ _ Hl Hd) as (P1 & P2 & P3).
    repeat split; auto. rewrite P2. destruct p; reflexivity.
  - (* Subscribe *)
    destruct Hd as (_ & Hid & sec & opts & Hp & HF & ->). autorewrite with blen in Hl.
    destruct (decoded_props InSubscribe subscribe_record subscribe_items subscribe_items_incl subscribe_size subscribe_nonempty _ sec
      ltac:(lia) Hp) as (P1 & P2 & P3).
    split.
    + split; [split; [split; [exact Hid|]|]|].
      * clear - HF. induction HF as [|f o l l' H _ IH]; constructor; [apply H|exact IH].
      * clear - HF. induction HF as [|f o l l' H _ IH]; constructor; [apply H|exact IH].
      * repeat split; auto. rewrite P2. destruct s; reflexivity.
    + assert (Hfs : blen (flat_map (fun f => field (V5Subscribe.path f) ++ [options f]) (V5Subscribe.filters s)) <=
        blen (flat_map (fun fo => field (V5Subscribe.path (fst fo)) ++ [snd fo]) (combine (V5Subscribe.filters s) opts))).
      { clear - HF. induction HF as [|f o l l' H _ IH]; [apply N.le_refl|].
        cbn [flat_map combine fst snd]. rewrite !blen_app. change (blen [options f]) with 1. change (blen [o]) with 1. lia. }
      unfold written, body. rewrite !blen_app, !blen_be16. lia.
  - destruct Hd as (_ & Hid & Hne & sec & Hp & ->). autorewrite with blen in Hl.
    destruct (decoded_props InSubAck suback_record suback_items suback_items_incl suback_size suback_nonempty _ sec
      ltac:(lia) Hp) as (P1 & P2 & P3).
    split.
    + repeat split; auto. rewrite P2. destruct s; reflexivity.
    + unfold written, body. rewrite !blen_app, !blen_be16. lia.
  - destruct Hd as (_ & Hid & HF & sec & Hp & ->). autorewrite with blen in Hl.
    destruct (decoded_props InUnsubscribe unsubscribe_record unsubscribe_items unsubscribe_items_incl unsubscribe_size unsubscribe_nonempty _ sec
      ltac:(lia) Hp) as (P1 & P2 & P3).
    split.
    + split; [split; [split; [exact Hid|]|]|].
      * eapply Forall_impl; [|exact HF]. cbn. tauto.
      * eapply Forall_impl; [|exact HF]. cbn. tauto.
      * repeat split; auto. rewrite P2. destruct u; reflexivity.
    + unfold written, body. rewrite !blen_app, !blen_be16. lia.
  - destruct Hd as (_ & Hid & Hne & sec & Hp & ->). autorewrite with blen in Hl.
    destruct (decoded_props InUnsubAck unsuback_record unsuback_items unsuback_items_incl unsuback_size unsuback_nonempty _ sec
      ltac:(lia) Hp) as (P1 & P2 & P3).
    split.
    + repeat split; auto. rewrite P2. destruct u; reflexivity.
    + unfold written, body. rewrite !blen_app, !blen_be16. lia.
  - repeat split; try constructor; apply N.le_0_l.
  - repeat split; try constructor; apply N.le_0_l.
  - (* Disconnect *)
    destruct Hd as (_ & sec & junk & -> & Hp). autorewrite with blen in Hl.
    destruct (decoded_props InDisconnect disconnect_record disconnect_items disconnect_items_incl disconnect_size disconnect_nonempty _ sec
      ltac:(lia) Hp) as (P1 & P2 & P3).
    split.
    + repeat split; auto. rewrite P2. destruct d; reflexivity.
    + unfold written, body. autorewrite with blen.
      destruct (V5Disconnect.properties d) as [r|]; cbn [opt_items] in *.
      * destruct (disconnect_items r); [apply N.le_0_l|]. autorewrite with blen in *. lia.
      * destruct (disconnect_code (V5Disconnect.reason_code d) =? 0); autorewrite with blen; lia.
Qed.

Lemma canon_props_idem {R} (items : R -> list item) o : canon_props items (canon_props items o) = canon_props items o.
Proof.
  unfold canon_props. destruct o as [r|]; [|reflexivity]. destruct (nonempty (items r)) eqn:E; [|reflexivity].
  rewrite E. reflexivity.
Qed.
Lemma canon_canonical p : canonical (canon p).
Proof.
  unfold canonical.
  destruct p as [c|c|p|p|p|p|p|s|s|u|u| | |d]; cbn [canon]; try reflexivity;
    try (f_equal; cbn; rewrite canon_props_idem; reflexivity).
  - f_equal. cbn [V5Connect.protocol V5Connect.keep_alive V5Connect.client_id V5Connect.clean_session V5Connect.last_will V5Connect.login V5Connect.properties].
    rewrite canon_props_idem. f_equal.
    + destruct (V5Connect.last_will c) as [w|]; [|reflexivity]. cbn [option_map]. f_equal. unfold canon_will. cbn. rewrite canon_props_idem. reflexivity.
    + destruct (V5Connect.login c) as [[u pw]|]; [apply canon_login_idem|reflexivity].
  - f_equal. cbn. rewrite canon_props_idem. destruct (positive_qos (V5Publish.qos p)); reflexivity.
Qed.

(** *** round trip *)
Lemma read_wire p rest max : fits p -> readable p -> bytes_ok rest -> blen (written p) <= max ->
  read (written_wire p ++ rest) max = (Ok (canon p), rest).
Proof.
  intros Hf Hp Hr Hm. apply read_iff.
  - apply bytes_ok_app. split; [apply wire_bytes, Hf|exact Hr].
  - exists (first_byte p), (written p). split; [|split; [exact Hm|apply decodes_written; assumption]].
    exists (varint (blen (written p))). unfold written_wire, frame. cbn [app]. rewrite <- app_assoc.
    split; [reflexivity|]. split; [apply lenfield_varint, Hf|]. apply varint_len_bound.
Qed.

Lemma connect_dec p : {c | p = Connect c} + {not_connect p}.
Proof. destruct p; try (right; exact I). left. eauto. Qed.
Lemma write_empty p : blen (written p) <= max_len -> has_id p -> small_ids p ->
  snd (write p []) = written_wire p /\ exists n, fst (write p []) = Ok n.
Proof.
  intros Hl Hi Hs. destruct (connect_dec p) as [[c ->]|Hc].
  - rewrite connect_write_empty by assumption. split; [reflexivity|eexists; reflexivity].
  - assert (W := write_ok p Hc Hi Hs Hl []). rewrite W. split; [reflexivity|eexists; reflexivity].
Qed.
Lemma write_fits p : fits p -> exists n, write p [] = (Ok n, written_wire p).
Proof.
  intros (_ & _ & Hs & Hi & Hl). destruct (write_empty p Hl Hi Hs) as [H1 [n H2]]. exists n.
  destruct (write p []) as [r out]. cbn [fst snd] in *. congruence.
Qed.

Lemma written_body p : ~ deviates p -> written p = body p.
Proof.
  destruct p as [c|c|p|p|p|p|p|s|s|u|u| | |d]; try reflexivity; cbn [deviates]; intros H.
  - unfold written, body. destruct (V5Connect.protocol c); [contradiction|]. rewrite <- !app_assoc. reflexivity.
  - unfold written, body. destruct (V5ConnAck.properties c) as [r|]; [reflexivity|contradiction].
  - unfold written, body. destruct (V5Disconnect.properties d) as [r|]; [|reflexivity]. cbn [opt_items].
    destruct (disconnect_items r) as [|it its] eqn:E; [|reflexivity].
    destruct (N.eqb_spec (disconnect_code (V5Disconnect.reason_code d)) 0) as [E0|E0]; [reflexivity|].
    exfalso. apply H. exists r. split; [reflexivity|]. split; [exact E|]. intros Hn. rewrite Hn in E0. apply E0; reflexivity.
Qed.
Lemma level_byte c : exists t, body (Connect c) = 0 :: 4 :: 77 :: 81 :: 84 :: 84 :: level (V5Connect.protocol c) :: t.
Proof. eexists. reflexivity. Qed.
(** for CONNECT at level 4, CONNACK and DISCONNECT: the standard asks for other bytes *)
Lemma written_other p : deviates p -> blen (written p) <> blen (body p).
Proof.
  destruct p as [c|c|p|p|p|p|p|s|s|u|u| | |d]; cbn [deviates]; try contradiction; intros H.
  - unfold written, body. rewrite H. rewrite !blen_app.
    assert (Hx : 1 <= blen (section_bytes (opt_items connect_items (V5Connect.properties c)))).
    { rewrite blen_section. assert (H1 := varint_len_bound (blen (items_bytes (opt_items connect_items (V5Connect.properties c))))). lia. }
    assert (Hy : blen (opt will_bytes_311 (V5Connect.last_will c)) <= blen (opt will_bytes (V5Connect.last_will c))).
    { destruct (V5Connect.last_will c); [|apply N.le_refl]. cbn [opt]. unfold will_bytes, will_bytes_311. rewrite !blen_app. lia. }
    lia.
  - unfold written, body. rewrite H. cbn [opt_items]. rewrite !blen_app. change (blen (section_bytes [])) with 1.
    change (blen []) with 0. lia.
  - destruct H as (r & E & Ei & Hn). unfold written, body. rewrite E. cbn [opt_items]. rewrite Ei.
    destruct (V5Disconnect.reason_code d); try contradiction; discriminate.
Qed.

Lemma declared_written p : has_id p -> declared_len p = blen (written p).
Proof. exact (has_id_declared p). Qed.

Lemma write_appends p : ~ is_connect p -> exists r out, forall buf, write p buf = (r, buf ++ out).
Proof.
  intros Hc. assert (Hn : not_connect p) by (destruct p; try exact I; apply Hc; exact I).
  destruct (N.le_gt_cases (declared_len p) max_len) as [Hl|Hl].
  - destruct (positive_dec p) as [Hi|Hi].
    + destruct (smalls_dec (packet_items p)) as [Hs|Hs].
      * rewrite declared_written in Hl by exact Hi. eexists; eexists; intros buf. apply (write_ok p Hn Hi Hs Hl).
      * eexists; eexists; intros buf. apply (write_big_id p Hl Hi Hs).
    + eexists; eexists; intros buf. apply (write_id_zero p Hl Hi).
  - eexists; eexists; intros buf. apply (write_too_long p Hl).
Qed.
Lemma write_size p buf n buf' : ~ is_connect p -> write p buf = (Ok n, buf') -> blen buf' = blen buf + n.
Proof.
  intros Hc. assert (Hn : not_connect p) by (destruct p; try exact I; apply Hc; exact I).
  destruct (N.le_gt_cases (declared_len p) max_len) as [Hl|Hl].
  - destruct (positive_dec p) as [Hi|Hi].
    + destruct (smalls_dec (packet_items p)) as [Hs|Hs].
      * rewrite declared_written in Hl by exact Hi. rewrite (write_ok p Hn Hi Hs Hl buf). intros H.
        apply pair_ok_inv in H as [<- <-]. apply blen_app.
      * rewrite (write_big_id p Hl Hi Hs buf). discriminate.
    + rewrite (write_id_zero p Hl Hi buf). discriminate.
  - rewrite (write_too_long p Hl buf). discriminate.
Qed.
Lemma connect_body_min c : 10 <= blen (written (Connect c)).
Proof. unfold written. rewrite !blen_app. change (blen (field MQTT)) with 6. change (blen [level (V5Connect.protocol c); connect_flags c]) with 2. rewrite blen_be16. lia. Qed.
Lemma flags_index_lt c fl buf : flags_index c < blen (buf ++ frame 0x10 (connect_body_with fl c)).
Proof.
  unfold flags_index, frame. rewrite blen_app, blen_cons, blen_app, !connect_body_with_len.
  assert (H := connect_body_min c). lia.
Qed.
Lemma connect_size c buf n buf' : write (Connect c) buf = (Ok n, buf') ->
  n = blen (written (Connect c)) /\ blen buf' = blen buf + 1 + blen (varint n) + n.
Proof.
  destruct (N.le_gt_cases (blen (written (Connect c))) max_len) as [Hl|Hl].
  - rewrite connect_write_general by exact Hl. intros H. apply pair_ok_inv in H as [<- <-]. split; [reflexivity|].
    rewrite overwrite_len by apply flags_index_lt. unfold frame.
    rewrite blen_app, blen_cons, blen_app, !connect_body_with_len. lia.
  - rewrite (write_too_long (Connect c) Hl buf). discriminate.
Qed.

(** every write is one of four cases *)
Inductive wcase (p : Packet) (buf : bytes) : outcome N * bytes -> Prop :=
| w_long : max_len < declared_len p -> wcase p buf (Err PayloadTooLong, buf ++ [first_byte p])
| w_zero : declared_len p <= max_len -> ~ has_id p -> wcase p buf (Err PacketIdZero, buf ++ id_zero_output p)
| w_big : declared_len p <= max_len -> has_id p -> ~ small_ids p ->
    wcase p buf (Err PayloadTooLong, buf ++ big_id_output p)
| w_done n out : declared_len p <= max_len -> has_id p -> small_ids p -> wcase p buf (Ok n, out).
Lemma write_cases p buf : wcase p buf (write p buf).
Proof.
  destruct (N.le_gt_cases (declared_len p) max_len) as [Hl|Hl].
  - destruct (positive_dec p) as [Hi|Hi].
    + destruct (smalls_dec (packet_items p)) as [Hs|Hs].
      * assert (Hl' := Hl). rewrite declared_written in Hl' by exact Hi. destruct (connect_dec p) as [[c ->]|Hc].
        -- rewrite connect_write_general by exact Hl'. apply w_done; assumption.
        -- rewrite (write_ok p Hc Hi Hs Hl' buf). apply w_done; assumption.
      * rewrite (write_big_id p Hl Hi Hs buf). apply w_big; assumption.
    + rewrite (write_id_zero p Hl Hi buf). apply w_zero; assumption.
  - rewrite (write_too_long p Hl buf). apply w_long; assumption.
Qed.
Lemma write_outcome p buf :
  (fst (write p buf) = Err PayloadTooLong <-> max_len < declared_len p \/ has_id p /\ ~ small_ids p) /\
  (fst (write p buf) = Err PacketIdZero <-> declared_len p <= max_len /\ ~ has_id p) /\
  ((exists n, fst (write p buf) = Ok n) <-> blen (written p) <= max_len /\ has_id p /\ small_ids p) /\
  (fst (write p buf) = Err PayloadTooLong \/ fst (write p buf) = Err PacketIdZero \/
   exists n, fst (write p buf) = Ok n).
Proof.
  assert (Hd := declared_written p).
  destruct (write_cases p buf) as [Hl|Hl Hi|Hl Hi Hs|n out Hl Hi Hs]; cbn [fst].
  - assert (Hx : ~ exists n, @Err N PayloadTooLong = Ok n) by (intros [? ?]; discriminate).
    assert (Hy : has_id p -> ~ blen (written p) <= max_len) by (intros Hi; specialize (Hd Hi); lia).
    assert (Hz : @Err N PayloadTooLong <> Err PacketIdZero) by discriminate.
    assert (Hw : ~ declared_len p <= max_len) by lia. tauto.
  - assert (Hx : ~ exists n, @Err N PacketIdZero = Ok n) by (intros [? ?]; discriminate).
    assert (Hz : @Err N PacketIdZero <> Err PayloadTooLong) by discriminate.
    assert (Hw : ~ max_len < declared_len p) by lia. tauto.
  - assert (Hx : ~ exists n, @Err N PayloadTooLong = Ok n) by (intros [? ?]; discriminate).
    assert (Hz : @Err N PayloadTooLong <> Err PacketIdZero) by discriminate.
    tauto.
  - specialize (Hd Hi). rewrite Hd in *.
    assert (Hx : exists m, Ok n = Ok m) by eauto.
    assert (Hy : Ok n <> Err PacketIdZero) by discriminate.
    assert (Hz : Ok n <> Err PayloadTooLong) by discriminate.
    assert (Hw : ~ max_len < blen (written p)) by lia. tauto.
Qed.
Lemma write_failed p buf e buf' : write p buf = (Err e, buf') ->
  (e = PayloadTooLong /\ max_len < declared_len p /\ buf' = buf ++ [first_byte p]) \/
  (e = PacketIdZero /\ ~ has_id p /\ buf' = buf ++ id_zero_output p) \/
  (e = PayloadTooLong /\ ~ small_ids p /\ buf' = buf ++ big_id_output p).
Proof.
  intros H. assert (Hw := write_cases p buf). rewrite H in Hw. inversion Hw; subst; auto.
Qed.
Lemma write_failed_dirty p buf e buf' : write p buf = (Err e, buf') ->
  exists out, out <> [] /\ buf' = buf ++ out.
Proof.
  intros H. apply write_failed in H as [(_ & _ & ->)|[(_ & Hi & ->)|(_ & _ & ->)]].
  - exists [first_byte p]. split; [discriminate|reflexivity].
  - exists (id_zero_output p). split; [|reflexivity].
    destruct p; try (exfalso; apply Hi; exact I). discriminate.
  - exists (big_id_output p). split; [discriminate|reflexivity].
Qed.

(** *** prefixes, streams *)
Lemma wire_shape p : written_wire p = first_byte p :: varint (blen (written p)) ++ written p.
Proof. reflexivity. Qed.
Lemma wire_prefix_free p q r r' : fits p -> fits q -> readable p -> readable q ->
  canonical p -> canonical q -> bytes_ok r -> bytes_ok r' ->
  written_wire p ++ r = written_wire q ++ r' -> p = q /\ r = r'.
Proof.
  intros Hp Hq Pp Pq Cp Cq Hr Hr' E.
  assert (H1 := read_wire p r (N.max (blen (written p)) (blen (written q))) Hp Pp Hr ltac:(lia)).
  rewrite E in H1. rewrite (read_wire q r' (N.max (blen (written p)) (blen (written q))) Hq Pq Hr' ltac:(lia)) in H1.
  rewrite Cp, Cq in H1. injection H1 as -> ->. auto.
Qed.
Lemma wire_prefix p pre suf max : fits p -> blen (written p) <= max -> written_wire p = pre ++ suf -> suf <> [] ->
  exists n, read pre max = (Err (InsufficientBytes n), pre) /\ 1 <= n /\ n <= blen suf.
Proof.
  intros Hp Hm E Hs. rewrite wire_shape in E.
  eapply (g_prefix read_frame); eauto.
  - rewrite <- wire_shape. apply wire_bytes, Hp.
  - apply lenfield_varint, Hp.
  - apply varint_len_bound.
Qed.

(** a receiver that also looks at whether bytes were consumed *)
Lemma stream_chunks chunks chunks' max :
  Forall bytes_ok chunks -> concat chunks = concat chunks' ->
  receive read max true (Waiting, []) chunks = receive read max true (Waiting, []) chunks'.
Proof. apply (chunking read_frame max true). left. reflexivity. Qed.
Lemma receiver_exhausts chunks max : Forall bytes_ok chunks ->
  match snd (receive read max true (Waiting, []) chunks) with
  | (Waiting, buf) => exists n, check buf max = Err (InsufficientBytes n)
  | (Stopped, _) => True
  end.
Proof.
  intros HF.
  assert (Hw : true = true \/ forall b1 f bd, b1 < 256 -> bytes_ok bd -> is_insufficient (rframe read_frame b1 f bd) = false)
    by (left; reflexivity).
  change (settled max (snd (receive (gread read_frame) max true (Waiting, []) chunks))).
  rewrite (receive_concat read_frame max true Hw) by (auto using start_settled, bytes_ok_nil).
  apply feed_settled; auto using bytes_ok_nil. apply Forall_concat, HF.
Qed.

(** without a consumed InsufficientBytes the naive receiver does the same *)
Lemma drain_naive {P} (rd : bytes -> N -> outcome P * bytes) max : forall fuel buf,
  Forall (fun r => is_insufficient r = false) (fst (drain rd max true fuel buf)) ->
  drain rd max false fuel buf = drain rd max true fuel buf.
Proof.
  induction fuel as [|fuel IH]; intros buf; cbn [drain]; [reflexivity|].
  destruct (rd buf max) as [r buf']. cbn [andb negb]. rewrite andb_true_r.
  destruct (blen buf' <? blen buf); cbn [negb]; [|rewrite ?andb_true_r; reflexivity].
  rewrite andb_false_r. specialize (IH buf'). destruct (drain rd max true fuel buf') as [evs st]. cbn [fst]. intros H.
  apply Forall_cons_iff in H as [H1 H2]. rewrite H1, (IH H2). reflexivity.
Qed.
Lemma feed_naive {P} (rd : bytes -> N -> outcome P * bytes) max st c :
  Forall (fun r => is_insufficient r = false) (fst (feed rd max true st c)) ->
  feed rd max false st c = feed rd max true st c.
Proof. destruct st as [[|] buf]; cbn [feed]; [apply drain_naive|reflexivity]. Qed.
Lemma receive_naive {P} (rd : bytes -> N -> outcome P * bytes) max : forall chunks st,
  Forall (fun r => is_insufficient r = false) (fst (receive rd max true st chunks)) ->
  receive rd max false st chunks = receive rd max true st chunks.
Proof.
  induction chunks as [|c cs IH]; intros st; cbn [receive]; [reflexivity|].
  assert (Hf := feed_naive rd max st c). destruct (feed rd max true st c) as [evs st'] eqn:E. cbn [fst] in Hf.
  specialize (IH st'). destruct (receive rd max true st' cs) as [evs' st'']. cbn [fst] in *. intros H.
  apply Forall_app in H as [H1 H2]. rewrite (Hf H1), (IH H2). reflexivity.
Qed.

Definition frame_of (p : Packet) : N * bytes * bytes := (first_byte p, varint (blen (written p)), written p).
Lemma stream_packets ps chunks max careful :
  Forall (fun p => fits p /\ readable p /\ canonical p /\ blen (written p) <= max) ps ->
  concat chunks = flat_map written_wire ps ->
  receive read max careful (Waiting, []) chunks = (map Ok ps, (Waiting, [])).
Proof.
  intros HF E.
  assert (Hok : bytes_ok (flat_map written_wire ps)).
  { clear - HF. induction HF as [|p l (Hf & _) _ IH]; [constructor|]. cbn [flat_map].
    apply bytes_ok_app. split; [apply wire_bytes, Hf|exact IH]. }
  assert (Hc : receive read max true (Waiting, []) chunks = (map Ok ps, (Waiting, []))).
  { rewrite (stream_chunks chunks [flat_map written_wire ps]).
    - cbn [receive feed app].
      assert (Hd : drain read max true (S (List.length (flat_map written_wire ps))) (flat_map written_wire ps) = (map Ok ps, (Waiting, []))).
      { assert (E1 : flat_map written_wire ps = flat_map fbytes (map frame_of ps)).
        { clear. induction ps as [|p l IH]; [reflexivity|]. cbn [flat_map map]. rewrite IH. reflexivity. }
        rewrite E1. replace (map Ok ps) with (map (fresult read_frame) (map frame_of ps)).
        - apply (drain_frames read_frame max true).
          + left. reflexivity.
          + clear - HF. induction HF as [|p l (Hf & _ & _ & Hm) _ IH]; [constructor|]. constructor; [|exact IH].
            unfold fok, frame_of. cbn [fst snd]. split; [apply (wire_bytes p Hf)|].
            split; [apply lenfield_varint, Hf|]. split; [apply varint_len_bound|exact Hm].
          + lia.
        - clear - HF. induction HF as [|p l (Hf & Hp & Hc & Hm) _ IH]; [reflexivity|]. cbn [map]. f_equal; [|exact IH].
          unfold fresult, frame_of. cbn [fst snd]. unfold rframe.
          assert (Hx := frame_complete (first_byte p) (first_byte p :: varint (blen (written p))) (written p) (canon p)
            (first_byte_ok p) (written_bytes p (proj1 Hf) ltac:(apply Hf) ltac:(apply Hf)) ltac:(apply le_huge, Hf) (decodes_written p Hf Hp)).
          unfold ProofV4Read.hd in Hx. rewrite blen_cons in Hx. cbn [app] in Hx. rewrite Hx, Hc. reflexivity. }
      rewrite Hd. rewrite app_nil_r. reflexivity.
    - apply Forall_forall. intros c Hc. rewrite <- E in Hok. clear - Hok Hc.
      induction chunks as [|d l IH]; [contradiction|]. cbn [concat] in Hok. apply bytes_ok_app in Hok as [H1 H2].
      destruct Hc as [->|Hc]; auto.
    - cbn [concat]. rewrite app_nil_r. exact E. }
  destruct careful; [exact Hc|]. rewrite receive_naive; [exact Hc|]. rewrite Hc. cbn [fst]. clear.
  induction ps; constructor; auto.
Qed.

Lemma read_zero b1 f rest max : bytes_ok (b1 :: f ++ rest) -> lenfield f 0 -> blen f <= 4 ->
  read (b1 :: f ++ rest) max = (zero_length_result b1, rest).
Proof.
  intros Hb Hf Hl. rewrite read_gread. change (f ++ rest) with (f ++ [] ++ rest).
  rewrite g_frame by (auto; autorewrite with blen; lia). f_equal.
  apply bytes_ok_cons in Hb as [Hb1 _].
  unfold rframe, read_frame, packet_type, zero_length_result. cbn [byte1 remaining_len]. rewrite ProofBits.shiftr4 by exact Hb1.
  change (blen [] =? 0) with true.
  assert (Hn : b1 / 16 < 16) by lia. destruct (b1 / 16) as [|n]; [reflexivity|].
  do 4 (try destruct n as [n|n|]); try reflexivity; exfalso; lia.
Qed.

(** *** what is read *)
Lemma read_decoded s max p rest : bytes_ok s -> read s max = (Ok p, rest) ->
  exists b1 bd, starts_with_frame s b1 bd rest /\ blen bd <= max /\ blen bd <= max_len /\ bytes_ok bd /\ b1 < 256 /\ decodes_body b1 bd p.
Proof.
  intros Hb H. apply read_iff in H as (b1 & bd & (f & -> & Hf & Hl) & Hm & Hd); [|exact Hb].
  exists b1, bd. split; [exists f; auto|]. split; [exact Hm|]. split; [apply (lenfield_bound f _ Hf Hl)|].
  apply bytes_ok_cons in Hb as [Hb1 Hb]. apply bytes_ok_app in Hb as [_ Hb]. apply bytes_ok_app in Hb. repeat split; auto; apply Hb.
Qed.
Lemma read_well_formed s max p rest : bytes_ok s -> read s max = (Ok p, rest) ->
  typed p /\ short_fields p /\ small_ids p /\ has_id p /\ canonical p /\
  exists b1 t, s = b1 :: t /\ b1 / 16 = kind p.
Proof.
  intros Hb H. destruct (read_decoded s max p rest Hb H) as (b1 & bd & (f & -> & _) & _ & Hmax & Hbd & _ & Hd).
  destruct (decodes_fits b1 bd p Hbd Hmax Hd) as (H1 & H2 & H3 & H4 & H5 & _).
  do 5 (split; [assumption|]). exists b1, (f ++ bd ++ rest). split; [reflexivity|].
  destruct p; cbn [decodes_body kind] in *; try (apply Hd); try assumption. destruct Hd as [-> _]. reflexivity.
Qed.
Lemma reencode s max p rest : bytes_ok s -> read s max = (Ok p, rest) ->
  (exists n, write p [] = (Ok n, written_wire p) /\ blen (written p) <= max_len) \/
  (exists out, write p [] = (Err PayloadTooLong, out) /\ max_len < blen (written p)).
Proof.
  intros Hb H. destruct (read_well_formed s max p rest Hb H) as (H1 & H2 & H3 & H4 & H5 & _).
  destruct (N.le_gt_cases (blen (written p)) max_len) as [Hl|Hl].
  - left. destruct (write_fits p) as [n Hn]; [repeat split; auto|]; try apply H1; try apply H2. exists n. auto.
  - right. rewrite <- (declared_written p H4) in Hl. rewrite (write_too_long p Hl []). rewrite declared_written in Hl by exact H4. eauto.
Qed.
Lemma read_rejects s b1 bd rest max : bytes_ok s ->
  starts_with_frame s b1 bd rest -> blen bd <= max -> (forall p, ~ decodes_body b1 bd p) ->
  exists e, read s max = (Err e, rest).
Proof.
  intros Hb (f & -> & Hf & Hl) Hm Hn. rewrite read_gread, g_frame by assumption.
  assert (Hb' := Hb). apply bytes_ok_cons in Hb' as [Hb1 Hb']. apply bytes_ok_app in Hb' as [_ Hb']. apply bytes_ok_app in Hb' as [Hbd _].
  assert (Hs := frame_sound b1 (b1 :: f) bd Hb1 Hbd (le_huge _ (lenfield_bound f _ Hf Hl))). unfold ProofV4Read.hd in Hs. cbn [app] in Hs.
  rewrite blen_cons in Hs. unfold rframe.
  destruct (read_frame _ _) as [p|e| |]; try contradiction; [exfalso; exact (Hn p Hs)|eauto].
Qed.

(** ProofV5Write.v -- exact effect of every v5 `write`. *)
From Verif Require Import ProofBase Lib ProofLib ProofRead ProofV4Write SpecProps SpecPropSets ProofProps ProofPropSets
  V5Property SpecV5.
From Verif Require V5Ping.

Definition smalls (its : list item) : Prop := Forall (fun it => value_small (snd it)) its.

Lemma blen_section its : blen (section_bytes its) = blen (varint (blen (items_bytes its))) + blen (items_bytes its).
Proof. unfold section_bytes. apply blen_app. Qed.
#[export] Hint Rewrite blen_section : blen.

(** the two forms in which a packet writes its property section *)
Section OptSection.
  Context {R : Type} (items : R -> list item) (pw : R -> writer unit).
  Hypothesis pw_spec : forall r b, pw r b = put_section (blen (items_bytes (items r))) (items r) b.

  Lemma props_writes r : smalls (items r) -> blen (items_bytes (items r)) <= max_len ->
    writes (pw r) (Ok tt) (section_bytes (items r)).
  Proof. intros H1 H2 b. rewrite pw_spec. apply put_section_ok; assumption. Qed.
  Lemma opt_section_writes o : smalls (opt_items items o) ->
    blen (section_bytes (opt_items items o)) <= max_len ->
    writes (match o with Some properties => pw properties | None => write_remaining_length 0 ;;w wret tt end)
      (Ok tt) (section_bytes (opt_items items o)).
  Proof.
    intros H1 H2. rewrite blen_section in H2. destruct o as [r|]; cbn [opt_items] in *.
    - apply props_writes; [assumption|lia].
    - eapply writes_eq; [eapply writes_bind; [apply writes_remaining_length; vm_compute; discriminate|apply writes_ret]|reflexivity|reflexivity].
  Qed.
  (** ... and where a subscription identifier is too large *)
  Lemma split_big its : ~ smalls its ->
    exists id n b, its = before_big its ++ (id, VVar n) :: b /\ smalls (before_big its) /\ max_len < n.
  Proof.
    unfold smalls. induction its as [|[id v] its IH]; intros H; [exfalso; apply H; constructor|].
    assert (Hd : (exists n, v = VVar n /\ max_len < n) \/ value_small v).
    { destruct v as [n|n|n|n|s|s|k v]; try (right; exact I).
      destruct (N.le_gt_cases n max_len) as [Hn|Hn]; [right; exact Hn|left; eauto]. }
    destruct Hd as [[n [-> Hn]]|Hv].
    - exists id, n, its. cbn [before_big]. replace (n <=? max_len) with false by lia.
      repeat split; [constructor|exact Hn].
    - assert (E : before_big ((id, v) :: its) = (id, v) :: before_big its).
      { destruct v; cbn [before_big]; try reflexivity. cbn [value_small] in Hv.
        replace (n <=? max_len) with true by lia. reflexivity. }
      destruct IH as (id' & n & b & E1 & E2 & E3).
      { intros Hs. apply H. constructor; assumption. }
      exists id', n, b. unfold item in *. rewrite E.
      repeat split; [cbn [app]; f_equal; exact E1|constructor; assumption|exact E3].
  Qed.
  Lemma section_big o : (forall it, In it (opt_items items o) -> forall n, snd it = VVar n -> fst it = 11) ->
    ~ smalls (opt_items items o) -> blen (items_bytes (opt_items items o)) <= max_len ->
    writes (match o with Some properties => pw properties | None => write_remaining_length 0 ;;w wret tt end)
      (Err PayloadTooLong)
      (varint (blen (items_bytes (opt_items items o))) ++ items_bytes (before_big (opt_items items o)) ++ [11]).
  Proof.
    intros Hid Hs Hl. destruct o as [r|]; cbn [opt_items] in *; [|exfalso; apply Hs; constructor].
    destruct (split_big _ Hs) as (id & n & b & E & E2 & E3).
    assert (Ei : id = 11).
    { apply (Hid (id, VVar n)) with (n := n); [|reflexivity]. rewrite E. apply in_or_app. right. left. reflexivity. }
    subst id. intros buf. rewrite pw_spec.
    assert (W := put_section_big (before_big (items r)) 11 n b E2 E3).
    unfold item in *. rewrite <- E in W. apply (W Hl).
  Qed.
End OptSection.
Section OptLen.
  Context {R : Type} (items : R -> list item) (pl : R -> N).
  Hypothesis pl_spec : forall r, pl r = blen (items_bytes (items r)).
  Lemma opt_section_len o len :
    match o with Some properties => add_props_len len (pl properties) | None => len + 1 end
    = len + blen (section_bytes (opt_items items o)).
  Proof.
    destruct o as [r|]; cbn [opt_items].
    - unfold add_props_len. rewrite pl_spec, blen_section, blen_varint. reflexivity.
    - reflexivity.
  Qed.
  Lemma some_section_len r len : add_props_len len (pl r) = len + blen (section_bytes (items r)).
  Proof. unfold add_props_len. rewrite pl_spec, blen_section, blen_varint. reflexivity. Qed.
End OptLen.

Lemma var_is_11 id : ptype_of id = Some TVar -> id = 11.
Proof.
  intros Ht. destruct (N.eq_dec id 11) as [E|E]; [exact E|].
  exfalso. revert Ht E. clear. destruct id as [|p]; [discriminate|].
  do 6 (destruct p as [p|p|]; try discriminate; try (intros _ E; apply E; reflexivity)).
Qed.

(** *** code tables *)
Lemma connack_num c : V5ConnAck.code_u8 c = connack_code c. Proof. destruct c; reflexivity. Qed.
Lemma puback_num c : V5PubAck.code_u8 c = puback_code c. Proof. destruct c; reflexivity. Qed.
Lemma pubrec_num c : V5PubRec.code_u8 c = pubrec_code c. Proof. destruct c; reflexivity. Qed.
Lemma pubrel_num c : V5PubRel.code_u8 c = pubrel_code c. Proof. destruct c; reflexivity. Qed.
Lemma pubcomp_num c : V5PubComp.code_u8 c = pubcomp_code c. Proof. destruct c; reflexivity. Qed.
Lemma suback_num c : V5SubAck.code_u8 c = suback_code c. Proof. destruct c; reflexivity. Qed.
Lemma unsuback_num c : V5UnsubAck.code_u8 c = unsuback_code c. Proof. destruct c; reflexivity. Qed.
Lemma disconnect_num c : V5Disconnect.code_u8 c = disconnect_code c. Proof. destruct c; reflexivity. Qed.

(** *** acks *)
Section Ack.
  Context {R : Type} (items : R -> list item) (pw : R -> writer unit) (pl : R -> N).
  Hypothesis pw_spec : forall r b, pw r b = put_section (blen (items_bytes (items r))) (items r) b.
  Hypothesis pl_spec : forall r, pl r = blen (items_bytes (items r)).
  Variables (b1 id code : N) (o : option R).

  Definition ack_len : N :=
    let len := 2 + 1 in
    if (code =? 0) && is_none o then 2
    else match o with Some properties => add_props_len len (pl properties) | None => len end.
  Definition ack_write : writer N :=
    let len := ack_len in
    put_u8 b1 ;;w
    count <-w write_remaining_length len ;;
    put_u16 id ;;w
    if (code =? 0) && is_none o then wret 4
    else
      put_u8 code ;;w
      when_some o pw ;;w
      wret (1 + count + len).

  Lemma ack_len_spec : ack_len = blen (ack_body items id code o).
  Proof.
    unfold ack_len, ack_body. destruct o as [r|]; cbn [is_none is_some negb].
    - rewrite andb_false_r. cbv zeta. rewrite (some_section_len items pl pl_spec). autorewrite with blen. lia.
    - rewrite andb_true_r. destruct (code =? 0); reflexivity.
  Qed.
  Lemma ack_writes : smalls (opt_items items o) -> blen (ack_body items id code o) <= max_len ->
    writes ack_write (Ok (blen (frame b1 (ack_body items id code o)))) (frame b1 (ack_body items id code o)).
  Proof.
    intros Hs Hl. unfold ack_write. cbv zeta.
    destruct ((code =? 0) && is_none o) eqn:E.
    - assert (Eb : ack_body items id code o = be16 id).
      { unfold ack_body. destruct o; [rewrite andb_false_r in E; discriminate|].
        rewrite andb_true_r in E. rewrite E. apply app_nil_r. }
      rewrite ack_len_spec. rewrite Eb in *. weq. wnorm.
    - rewrite ack_len_spec. apply writes_frame; [reflexivity|exact Hl|]. intros n.
      unfold ack_body in *. destruct o as [r|]; cbn [when_some opt_items] in *.
      + eapply writes_eq; [|reflexivity|].
        * wstep. wstep. eapply writes_bind; [|wprim].
          apply props_writes with (items := items); [exact pw_spec|exact Hs|].
          autorewrite with blen in Hl. lia.
        * wnorm.
      + rewrite andb_true_r in E. rewrite E in *. weq. wnorm.
  Qed.
  Lemma ack_long : max_len < blen (ack_body items id code o) -> writes ack_write (Err PayloadTooLong) [b1].
  Proof. intros Hl. apply writes_frame_long. rewrite ack_len_spec. exact Hl. Qed.
End Ack.

Lemma puback_is_ack p : V5PubAck.write p =
  ack_write V5PubAck.props_write V5PubAck.props_len 0x40 (V5PubAck.pkid p) (puback_code (V5PubAck.reason p)) (V5PubAck.properties p).
Proof. unfold V5PubAck.write, V5PubAck.len, V5PubAck.reason_eqb. rewrite !puback_num. reflexivity. Qed.
Lemma pubrec_is_ack p : V5PubRec.write p =
  ack_write V5PubRec.props_write V5PubRec.props_len 0x50 (V5PubRec.pkid p) (pubrec_code (V5PubRec.reason p)) (V5PubRec.properties p).
Proof. unfold V5PubRec.write, V5PubRec.len, V5PubRec.reason_eqb. rewrite !pubrec_num. reflexivity. Qed.
Lemma pubrel_is_ack p : V5PubRel.write p =
  ack_write V5PubRel.props_write V5PubRel.props_len 0x62 (V5PubRel.pkid p) (pubrel_code (V5PubRel.reason p)) (V5PubRel.properties p).
Proof. unfold V5PubRel.write, V5PubRel.len, V5PubRel.reason_eqb. rewrite !pubrel_num. reflexivity. Qed.
Lemma pubcomp_is_ack p : V5PubComp.write p =
  ack_write V5PubComp.props_write V5PubComp.props_len 0x70 (V5PubComp.pkid p) (pubcomp_code (V5PubComp.reason p)) (V5PubComp.properties p).
Proof. unfold V5PubComp.write, V5PubComp.len, V5PubComp.reason_eqb. rewrite !pubcomp_num. reflexivity. Qed.

(** *** the predicted length is the length of the body *)
Lemma will_len w : V5Connect.lw_len w = blen (will_bytes w).
Proof.
  unfold V5Connect.lw_len, will_bytes. cbv zeta.
  rewrite (opt_section_len will_items V5Connect.wp_props_len will_props_len). autorewrite with blen. lia.
Qed.
Lemma login_len_spec l : V5Connect.login_len l = blen (login_bytes l).
Proof.
  unfold V5Connect.login_len, login_bytes. cbv zeta. rewrite ?is_empty_nonempty.
  destruct (nonempty (V5Connect.username l)), (nonempty (V5Connect.password l)); autorewrite with blen; lia.
Qed.
Lemma connect_len c : V5Connect.len c = blen (written (Connect c)).
Proof.
  unfold V5Connect.len, written. cbv zeta.
  rewrite (opt_section_len connect_items V5Connect.cp_props_len connect_props_len).
  autorewrite with blen. change (blen V5Connect.mqtt_name) with 4. change (blen MQTT) with 4.
  destruct (V5Connect.last_will c) as [w|], (V5Connect.login c) as [l|]; cbn [opt];
    rewrite ?will_len, ?login_len_spec; autorewrite with blen; lia.
Qed.
Lemma connack_len c : V5ConnAck.len c = blen (written (ConnAck c)).
Proof.
  unfold V5ConnAck.len, written. cbv zeta. destruct (V5ConnAck.properties c) as [r|]; [|reflexivity].
  rewrite (some_section_len connack_items V5ConnAck.props_len connack_props_len). autorewrite with blen. lia.
Qed.
Lemma publish_declared p : V5Publish.len p = declared_len (Publish p).
Proof.
  unfold V5Publish.len, declared_len, body. cbv zeta. rewrite qos_eqb_most.
  rewrite (opt_section_len publish_items V5Publish.props_len publish_props_len).
  destruct (positive_qos (V5Publish.qos p)), (V5Publish.pkid p =? 0); cbn [negb andb];
    autorewrite with blen; lia.
Qed.
Lemma has_id_declared p : has_id p -> declared_len p = blen (written p).
Proof.
  destruct p; try reflexivity. cbn [has_id declared_len written]. intros H.
  destruct (positive_qos (V5Publish.qos p)); [|reflexivity].
  replace (V5Publish.pkid p =? 0) with false by lia. reflexivity.
Qed.
Lemma subscribe_len s : V5Subscribe.len s = blen (body (Subscribe s)).
Proof.
  unfold V5Subscribe.len, body. cbv zeta.
  rewrite (opt_section_len subscribe_items V5Subscribe.props_len subscribe_props_len).
  autorewrite with blen.
  rewrite (fold_len_flat_map V5Subscribe.filter_len (fun f => field (V5Subscribe.path f) ++ [options f])); [lia|].
  intros f. unfold V5Subscribe.filter_len. autorewrite with blen. lia.
Qed.
Lemma suback_len s : V5SubAck.len s = blen (body (SubAck s)).
Proof.
  unfold V5SubAck.len, body. cbv zeta.
  rewrite (opt_section_len suback_items V5SubAck.props_len suback_props_len). autorewrite with blen. lia.
Qed.
Lemma unsubscribe_len u : V5Unsubscribe.len u = blen (body (Unsubscribe u)).
Proof.
  unfold V5Unsubscribe.len, body. cbv zeta.
  rewrite (opt_section_len unsubscribe_items V5Unsubscribe.props_len unsubscribe_props_len).
  autorewrite with blen.
  rewrite <- (fold_len_flat_map (fun t => blen t + 2) field).
  - replace (fold_left (fun s t => 2 + s + blen t) (V5Unsubscribe.filters u) 0)
      with (fold_left (fun s t => s + (blen t + 2)) (V5Unsubscribe.filters u) 0); [lia|].
    generalize 0. induction (V5Unsubscribe.filters u) as [|t l IH]; intros a; [reflexivity|].
    cbn [fold_left]. replace (2 + a + blen t) with (a + (blen t + 2)) by lia. apply IH.
  - intros t. autorewrite with blen. lia.
Qed.
Lemma unsuback_len u : V5UnsubAck.len u = blen (body (UnsubAck u)).
Proof.
  unfold V5UnsubAck.len, body. cbv zeta.
  rewrite (opt_section_len unsuback_items V5UnsubAck.props_len unsuback_props_len). autorewrite with blen. lia.
Qed.

Lemma options_spec f :
  (let options := 0 in
   let options := N.lor options (qos_u8 (V5Subscribe.qos f)) in
   let options := if V5Subscribe.nolocal f then N.lor options (N.shiftl 1 2) else options in
   let options := if V5Subscribe.preserve_retain f then N.lor options (N.shiftl 1 3) else options in
   match V5Subscribe.retain_forward_rule f with
   | V5Subscribe.OnEverySubscribe => N.lor options (N.shiftl 0 4)
   | V5Subscribe.OnNewSubscribe => N.lor options (N.shiftl 1 4)
   | V5Subscribe.Never => N.lor options (N.shiftl 2 4)
   end) = options f.
Proof. destruct f as [p [] [] [] []]; reflexivity. Qed.
Lemma filter_writes f : writes (V5Subscribe.filter_write f) (Ok tt) (field (V5Subscribe.path f) ++ [options f]).
Proof.
  unfold V5Subscribe.filter_write. assert (H := options_spec f). cbv zeta in *. rewrite H. wstep. wprim.
Qed.

(** *** DISCONNECT *)
Lemma disconnect_normal c : V5Disconnect.reason_eqb c V5Disconnect.NormalDisconnection = (disconnect_code c =? 0).
Proof. unfold V5Disconnect.reason_eqb. rewrite disconnect_num. reflexivity. Qed.
Lemma value_nonempty v : 1 <= blen (value_bytes v).
Proof.
  destruct v as [n|n|n|n|s|s|k v]; cbn [value_bytes].
  - reflexivity.
  - rewrite blen_be16. lia.
  - rewrite blen_be32. lia.
  - apply varint_len_bound.
  - rewrite blen_field. lia.
  - rewrite blen_field. lia.
  - rewrite blen_app, blen_field. lia.
Qed.
Lemma section_long its : its <> [] -> 3 <= blen (section_bytes its).
Proof.
  intros H. rewrite blen_section. assert (Hv := varint_len_bound (blen (items_bytes its))).
  destruct its as [|it its]; [contradiction|].
  assert (V := value_nonempty (snd it)).
  assert (E : blen (items_bytes (it :: its)) = 1 + blen (value_bytes (snd it)) + blen (items_bytes its)).
  { unfold items_bytes. cbn [flat_map]. unfold item_bytes at 1. autorewrite with blen. lia. }
  lia.
Qed.
Lemma disconnect_len d : written (Disconnect d) <> [] -> V5Disconnect.len d = blen (written (Disconnect d)).
Proof.
  unfold V5Disconnect.len, written, body. rewrite disconnect_normal. intros H.
  destruct (V5Disconnect.properties d) as [r|]; cbn [is_none is_some negb opt_items] in *.
  - rewrite andb_false_r. cbv zeta.
    rewrite (some_section_len disconnect_items V5Disconnect.props_len disconnect_props_len).
    destruct (disconnect_items r) as [|it its]; [contradiction|]. autorewrite with blen. lia.
  - rewrite andb_true_r. destruct (disconnect_code (V5Disconnect.reason_code d) =? 0); [contradiction|reflexivity].
Qed.
Lemma disconnect_len_2 d : (V5Disconnect.len d =? 2) = negb (nonempty (written (Disconnect d))).
Proof.
  destruct (written (Disconnect d)) as [|x l] eqn:E; cbn [nonempty negb].
  - revert E. unfold V5Disconnect.len, written, body. rewrite disconnect_normal.
    destruct (V5Disconnect.properties d) as [r|]; cbn [is_none is_some negb opt_items] in *.
    + rewrite andb_false_r. cbv zeta.
      rewrite (some_section_len disconnect_items V5Disconnect.props_len disconnect_props_len).
      destruct (disconnect_items r) as [|it its]; [reflexivity|discriminate].
    + rewrite andb_true_r. destruct (disconnect_code (V5Disconnect.reason_code d) =? 0); [reflexivity|discriminate].
  - assert (Hn : written (Disconnect d) <> []) by (rewrite E; discriminate).
    rewrite (disconnect_len d Hn). revert Hn. clear E. unfold written, body.
    destruct (V5Disconnect.properties d) as [r|]; cbn [opt_items].
    + assert (L := section_long (disconnect_items r)).
      destruct (disconnect_items r) as [|it its]; [contradiction|]. intros _.
      rewrite blen_cons. assert (3 <= blen (section_bytes (it :: its))) by (apply L; discriminate). lia.
    + destruct (disconnect_code (V5Disconnect.reason_code d) =? 0); [contradiction|reflexivity].
Qed.

Lemma items_of_section its : blen (section_bytes its) <= max_len -> blen (items_bytes its) <= max_len.
Proof. rewrite blen_section. lia. Qed.

Definition not_connect (p : Packet) : Prop := match p with Connect _ => False | _ => True end.

Ltac body_bound Hl := first [assumption | cbn [written body] in Hl; autorewrite with blen in Hl |- *; lia].
Ltac sect it pw spec Hs Hl := 
  first [ eapply writes_bind; [apply (opt_section_writes it pw spec); [exact Hs|body_bound Hl]|cbv beta] ].

Lemma write_ok p : not_connect p -> has_id p -> small_ids p -> blen (written p) <= max_len ->
  writes (write p) (Ok (blen (written_wire p))) (written_wire p).
Proof.
  intros Hc Hi Hs Hl. unfold small_ids in Hs. destruct p; cbn [write]; try contradiction; unfold written_wire.
  - (* ConnAck *) unfold V5ConnAck.write. cbv zeta. apply writes_frame; [apply connack_len|rewrite connack_len; exact Hl|].
    intros n. cbn [written packet_items] in *. rewrite connack_num.
    destruct (V5ConnAck.properties p) as [r|]; cbn [opt_items when_some] in *.
    + eapply writes_eq; [|reflexivity|].
      * wstep. wstep. eapply writes_bind; [|wprim].
        apply props_writes with (items := connack_items); [exact connack_props_write|exact Hs|].
        autorewrite with blen in Hl. lia.
      * wnorm.
    + weq. wnorm.
  - (* Publish *) unfold V5Publish.write. cbv zeta. rewrite publish_first_byte.
    assert (Hd := has_id_declared _ Hi). cbn [written] in *.
    rewrite publish_declared, Hd.
    apply writes_frame; [reflexivity|exact Hl|].
    intros n. rewrite qos_eqb_most. unfold has_id in Hi. cbn [packet_items] in Hs.
    assert (Hq : writes (if positive_qos (V5Publish.qos p)
        then if V5Publish.pkid p =? 0 then werr PacketIdZero else put_u16 (V5Publish.pkid p) else wret tt)
       (Ok tt) (if positive_qos (V5Publish.qos p) then be16 (V5Publish.pkid p) else [])).
    { destruct (positive_qos (V5Publish.qos p)); [|apply writes_ret].
      replace (V5Publish.pkid p =? 0) with false by lia. apply writes_put_u16. }
    eapply writes_eq; [|reflexivity|].
    + wstep. eapply writes_bind; [exact Hq|cbv beta].
      eapply writes_bind; [apply (opt_section_writes publish_items V5Publish.props_write publish_props_write); [exact Hs|]|cbv beta].
      { revert Hl. cbn [body]. clear. destruct (positive_qos (V5Publish.qos p)); autorewrite with blen; lia. }
      wsteps.
    + cbn [body]. wnorm.
  - cbn [written body packet_items] in *. rewrite puback_is_ack.
    apply (ack_writes puback_items); [exact puback_props_write|exact puback_props_len|exact Hs|exact Hl].
  - cbn [written body packet_items] in *. rewrite pubrec_is_ack.
    apply (ack_writes pubrec_items); [exact pubrec_props_write|exact pubrec_props_len|exact Hs|exact Hl].
  - cbn [written body packet_items] in *. rewrite pubrel_is_ack.
    apply (ack_writes pubrel_items); [exact pubrel_props_write|exact pubrel_props_len|exact Hs|exact Hl].
  - cbn [written body packet_items] in *. rewrite pubcomp_is_ack.
    apply (ack_writes pubcomp_items); [exact pubcomp_props_write|exact pubcomp_props_len|exact Hs|exact Hl].
  - (* Subscribe *) unfold V5Subscribe.write. cbv zeta. rewrite subscribe_len. cbn [written packet_items] in *.
    apply writes_frame; [reflexivity|exact Hl|].
    intros n. eapply writes_eq; [|reflexivity|].
    + wstep. sect subscribe_items V5Subscribe.props_write subscribe_props_write Hs Hl.
      eapply writes_bind; [apply writes_for_each; intros f _; apply filter_writes|wprim].
    + cbn [body]. wnorm.
  - (* SubAck *) unfold V5SubAck.write. cbv zeta. rewrite suback_len. cbn [written packet_items] in *.
    apply writes_frame; [reflexivity|exact Hl|].
    intros n. eapply writes_eq; [|reflexivity|].
    + wstep. sect suback_items V5SubAck.props_write suback_props_write Hs Hl. wsteps.
    + cbn [body]. rewrite (map_ext _ _ suback_num). wnorm.
  - (* Unsubscribe *) unfold V5Unsubscribe.write. cbv zeta. rewrite unsubscribe_len. cbn [written packet_items] in *.
    apply writes_frame; [reflexivity|exact Hl|].
    intros n. eapply writes_eq; [|reflexivity|].
    + wstep. sect unsubscribe_items V5Unsubscribe.props_write unsubscribe_props_write Hs Hl.
      eapply writes_bind; [apply writes_for_each with (g := field); intros f _; wprim|wprim].
    + cbn [body]. wnorm.
  - (* UnsubAck *) unfold V5UnsubAck.write. cbv zeta. rewrite unsuback_len. cbn [written packet_items] in *.
    apply writes_frame; [reflexivity|exact Hl|].
    intros n. eapply writes_eq; [|reflexivity|].
    + wstep. sect unsuback_items V5UnsubAck.props_write unsuback_props_write Hs Hl. wsteps.
    + cbn [body]. rewrite (map_ext _ _ unsuback_num). wnorm.
  - unfold V5Ping.pingreq_write, put_slice. weq. wnorm.
  - unfold V5Ping.pingresp_write, put_slice. weq. wnorm.
  - (* Disconnect *) unfold V5Disconnect.write. cbv zeta. rewrite disconnect_len_2.
    destruct (written (Disconnect p)) as [|x l] eqn:E; cbn [nonempty negb].
    + assert (H2 := disconnect_len_2 p). rewrite E in H2. cbn [nonempty negb] in H2. apply N.eqb_eq in H2.
      rewrite H2. weq. wnorm.
    + assert (Hn : written (Disconnect p) <> []) by (rewrite E; discriminate).
      rewrite (disconnect_len p Hn). rewrite <- E in *.
      apply writes_frame; [reflexivity|exact Hl|].
      intros n. rewrite disconnect_num. revert Hn Hl Hs. clear. unfold written, body, packet_items.
      destruct (V5Disconnect.properties p) as [r|]; cbn [opt_items when_some].
      * destruct (disconnect_items r) as [|it its] eqn:Er; [contradiction|]. rewrite <- Er. intros _ Hl Hs.
        eapply writes_eq; [|reflexivity|].
        { wstep. eapply writes_bind; [|wprim].
          apply props_writes with (items := disconnect_items); [exact disconnect_props_write|exact Hs|].
          autorewrite with blen in Hl. lia. }
        wnorm.
      * destruct (disconnect_code (V5Disconnect.reason_code p) =? 0); [contradiction|]. intros _ _ _. weq. wnorm.
Qed.

(** *** failing writes *)
Lemma write_too_long p : max_len < declared_len p ->
  writes (write p) (Err PayloadTooLong) [first_byte p].
Proof.
  intros Hl. destruct p; cbn [write declared_len] in *.
  - (* Connect *) unfold V5Connect.write. cbv zeta. apply writes_frame_long. rewrite connect_len; exact Hl.
  - unfold V5ConnAck.write. cbv zeta. apply writes_frame_long. rewrite connack_len; exact Hl.
  - (* Publish *) unfold V5Publish.write. cbv zeta. rewrite publish_first_byte.
    apply writes_frame_long. rewrite publish_declared. exact Hl.
  - rewrite puback_is_ack. apply (ack_long puback_items); [exact puback_props_write|exact puback_props_len|exact Hl].
  - rewrite pubrec_is_ack. apply (ack_long pubrec_items); [exact pubrec_props_write|exact pubrec_props_len|exact Hl].
  - rewrite pubrel_is_ack. apply (ack_long pubrel_items); [exact pubrel_props_write|exact pubrel_props_len|exact Hl].
  - rewrite pubcomp_is_ack. apply (ack_long pubcomp_items); [exact pubcomp_props_write|exact pubcomp_props_len|exact Hl].
  - apply writes_frame_long. rewrite subscribe_len; exact Hl.
  - apply writes_frame_long. rewrite suback_len; exact Hl.
  - apply writes_frame_long. rewrite unsubscribe_len; exact Hl.
  - apply writes_frame_long. rewrite unsuback_len; exact Hl.
  - exfalso; cbv in Hl; discriminate.
  - exfalso; cbv in Hl; discriminate.
  - unfold V5Disconnect.write. cbv zeta. rewrite disconnect_len_2.
    destruct (written (Disconnect p)) as [|x l] eqn:E; [exfalso; cbv in Hl; discriminate|].
    cbn [nonempty negb]. apply writes_frame_long.
    rewrite disconnect_len; rewrite E; [exact Hl|discriminate].
Qed.
Lemma write_id_zero p : declared_len p <= max_len -> ~ has_id p ->
  writes (write p) (Err PacketIdZero) (id_zero_output p).
Proof.
  intros Hl Hi. destruct p; cbn [write has_id] in *; try (exfalso; apply Hi; exact I).
  assert (Hq : positive_qos (V5Publish.qos p) = true)
    by (destruct (positive_qos (V5Publish.qos p)); [reflexivity|exfalso; apply Hi; discriminate]).
  assert (Hz : V5Publish.pkid p = 0).
  { destruct (N.eq_dec (V5Publish.pkid p) 0) as [E|E]; [exact E|].
    exfalso; apply Hi; intros _; exact E. }
  unfold V5Publish.write. cbv zeta. rewrite publish_first_byte, publish_declared.
  rewrite qos_eqb_most, Hq, Hz. eapply writes_eq.
  - wstep. eapply writes_bind; [apply writes_remaining_length; exact Hl|cbv beta].
    wstep. apply writes_bind_err. change (0 =? 0) with true. cbv iota. apply writes_err.
  - reflexivity.
  - unfold id_zero_output. cbn [app]. rewrite app_nil_r. reflexivity.
Qed.

(** only PUBLISH and SUBSCRIBE have subscription identifiers *)
Lemma place_small pl its : Forall (has_place pl) its -> mem 11 (allowed_at pl) = false -> smalls its.
Proof.
  intros H Hm. unfold smalls. apply Forall_forall. intros it Hi.
  rewrite Forall_forall in H. destruct (H it Hi) as [Hp Ht].
  destruct it as [id v]. cbn [fst snd] in *. destruct v; try exact I.
  exfalso. rewrite (var_is_11 _ Ht) in Hp. apply mem_in in Hp. congruence.
Qed.
Lemma opt_place {R} pl (items : R -> list item) (H : forall r, Forall (has_place pl) (items r)) o :
  Forall (has_place pl) (opt_items items o).
Proof. destruct o; [apply H|constructor]. Qed.
Lemma ids_are_11 pl its : Forall (has_place pl) its -> forall it, In it its -> forall n, snd it = VVar n -> fst it = 11.
Proof.
  intros H [id v] Hi n Hv. rewrite Forall_forall in H. destruct (H _ Hi) as [_ Ht].
  cbn [fst snd] in *. subst v. apply var_is_11, Ht.
Qed.
Lemma small_ids_other p : match p with Publish _ | Subscribe _ => False | _ => True end -> small_ids p.
Proof.
  unfold small_ids. intros H. destruct p; try contradiction; cbn [packet_items].
  - apply Forall_app. split; [apply (place_small InConnect); [apply opt_place, connect_place|reflexivity]|].
    unfold will_props. destruct (V5Connect.last_will p); [|constructor].
    apply (place_small InWill); [apply opt_place, will_place|reflexivity].
  - apply (place_small InConnAck); [apply opt_place, connack_place|reflexivity].
  - apply (place_small InPubAck); [apply opt_place, puback_place|reflexivity].
  - apply (place_small InPubRec); [apply opt_place, pubrec_place|reflexivity].
  - apply (place_small InPubRel); [apply opt_place, pubrel_place|reflexivity].
  - apply (place_small InPubComp); [apply opt_place, pubcomp_place|reflexivity].
  - apply (place_small InSubAck); [apply opt_place, suback_place|reflexivity].
  - apply (place_small InUnsubscribe); [apply opt_place, unsubscribe_place|reflexivity].
  - apply (place_small InUnsubAck); [apply opt_place, unsuback_place|reflexivity].
  - constructor.
  - constructor.
  - apply (place_small InDisconnect); [apply opt_place, disconnect_place|reflexivity].
Qed.
Lemma write_big_id p : declared_len p <= max_len -> has_id p -> ~ small_ids p ->
  writes (write p) (Err PayloadTooLong) (big_id_output p).
Proof.
  intros Hl Hi Hs. destruct p; try (exfalso; apply Hs, small_ids_other; exact I); cbn [write].
  - (* Publish *) unfold V5Publish.write. cbv zeta. rewrite publish_first_byte.
    assert (Hd := has_id_declared _ Hi). rewrite publish_declared.
    rewrite qos_eqb_most. unfold has_id in Hi. unfold small_ids in Hs. cbn [packet_items] in Hs.
    assert (Hq : writes (if positive_qos (V5Publish.qos p)
        then if V5Publish.pkid p =? 0 then werr PacketIdZero else put_u16 (V5Publish.pkid p) else wret tt)
       (Ok tt) (if positive_qos (V5Publish.qos p) then be16 (V5Publish.pkid p) else [])).
    { destruct (positive_qos (V5Publish.qos p)); [|apply writes_ret].
      replace (V5Publish.pkid p =? 0) with false by lia. apply writes_put_u16. }
    eapply writes_eq; [|reflexivity|].
    + wstep. eapply writes_bind; [apply writes_remaining_length; exact Hl|cbv beta].
      wstep. eapply writes_bind; [exact Hq|cbv beta].
      apply writes_bind_err. apply (section_big publish_items V5Publish.props_write publish_props_write).
      * apply (ids_are_11 InPublish). apply opt_place, publish_place.
      * exact Hs.
      * revert Hl. rewrite Hd. cbn [written body]. clear.
        destruct (positive_qos (V5Publish.qos p)); autorewrite with blen; lia.
    + unfold big_id_output. cbn [before_section packet_items]. wnorm.
  - (* Subscribe *) unfold V5Subscribe.write. cbv zeta. rewrite subscribe_len.
    unfold small_ids in Hs. cbn [packet_items] in Hs. cbn [declared_len written] in Hl.
    eapply writes_eq; [|reflexivity|].
    + wstep. eapply writes_bind; [apply writes_remaining_length; exact Hl|cbv beta].
      wstep. apply writes_bind_err.
      apply (section_big subscribe_items V5Subscribe.props_write subscribe_props_write).
      * apply (ids_are_11 InSubscribe). apply opt_place, subscribe_place.
      * exact Hs.
      * revert Hl. cbn [body]. clear. autorewrite with blen; lia.
    + unfold big_id_output. cbn [before_section packet_items declared_len written]. wnorm.
Qed.

(** *** CONNECT *)
Lemma will_writes w : blen (will_bytes w) <= max_len ->
  writes (V5Connect.lw_write w)
  (Ok (4 + 8 * qos_num (V5Connect.lw_qos w) + 32 * bit (V5Connect.lw_retain w))) (will_bytes w).
Proof.
  intros Hl. unfold V5Connect.lw_write. cbv zeta. eapply writes_eq.
  - eapply writes_bind; [apply (opt_section_writes will_items V5Connect.wp_props_write will_props_write)|cbv beta; wsteps].
    + apply (place_small InWill); [apply opt_place, will_place|reflexivity].
    + revert Hl. unfold will_bytes. rewrite blen_app. lia.
  - destruct (V5Connect.lw_qos w), (V5Connect.lw_retain w); reflexivity.
  - unfold will_bytes. wnorm.
Qed.
Lemma login_writes l : writes (V5Connect.login_write l)
  (Ok (64 * bit (nonempty (V5Connect.password l)) + 128 * bit (nonempty (V5Connect.username l)))) (login_bytes l).
Proof.
  unfold V5Connect.login_write. cbv zeta. rewrite !is_empty_nonempty. unfold login_bytes.
  destruct (nonempty (V5Connect.username l)), (nonempty (V5Connect.password l));
    (eapply writes_eq; [eapply writes_bind; [wsteps|cbv beta; wsteps]|reflexivity|wnorm]).
Qed.
Lemma plus_lor_flags cl w l :
  let f := 2 * bit cl in
  let f := match w with Some w => N.lor f (4 + 8 * qos_num (V5Connect.lw_qos w) + 32 * bit (V5Connect.lw_retain w)) | None => f end in
  match l with Some l => N.lor f (64 * bit (nonempty (V5Connect.password l)) + 128 * bit (nonempty (V5Connect.username l))) | None => f end
  = 2 * bit cl
  + match w with Some w => 4 + 8 * qos_num (V5Connect.lw_qos w) + 32 * bit (V5Connect.lw_retain w) | None => 0 end
  + match l with Some l => 64 * bit (nonempty (V5Connect.password l)) + 128 * bit (nonempty (V5Connect.username l)) | None => 0 end.
Proof.
  cbv zeta.
  destruct cl, w as [[t m [] [] pr]|], l as [[u p]|]; cbn [V5Connect.lw_qos V5Connect.lw_retain V5Connect.username V5Connect.password];
    try (destruct (nonempty u), (nonempty p)); reflexivity.
Qed.

Definition flags_index (c : V5Connect.Connect) : N := 8 + blen (varint (blen (written (Connect c)))).
Lemma connect_body_with_len c fl : blen (connect_body_with fl c) = blen (written (Connect c)).
Proof. unfold written, connect_body_with. autorewrite with blen. reflexivity. Qed.

Lemma connect_write_general c buf : blen (written (Connect c)) <= max_len ->
  write (Connect c) buf =
    (Ok (blen (written (Connect c))),
     overwrite (flags_index c) (connect_flags c)
       (buf ++ frame 0x10 (connect_body_with (2 * bit (V5Connect.clean_session c)) c))).
Proof.
  intros Hl. cbn [write]. unfold V5Connect.write. cbv zeta. rewrite connect_len.
  set (raw := frame 0x10 (connect_body_with (2 * bit (V5Connect.clean_session c)) c)).
  assert (Hb : blen (section_bytes (opt_items connect_items (V5Connect.properties c))) <= max_len /\
               forall w, V5Connect.last_will c = Some w -> blen (will_bytes w) <= max_len).
  { revert Hl. unfold written. rewrite !blen_app. intros Hl. split; [lia|].
    intros w Ew. rewrite Ew in Hl. cbn [opt] in Hl. lia. }
  destruct Hb as [Hb Hw].
  set (n := blen (written (Connect c))) in *.
  rewrite plain_flags_spec.
  assert (Hlv : writes (match V5Connect.protocol c with V4 => put_u8 4 | V5 => put_u8 5 end)
                 (Ok tt) [level (V5Connect.protocol c)])
    by (destruct (V5Connect.protocol c); apply writes_put_u8).
  assert (Hsec := opt_section_writes connect_items V5Connect.cp_props_write connect_props_write (V5Connect.properties c)
    (place_small InConnect _ (opt_place InConnect _ connect_place _) eq_refl) Hb).
  do 8 (erewrite run_bind by wprim; cbv beta).
  erewrite run_bind with (o := opt will_bytes (V5Connect.last_will c))
    (a := match V5Connect.last_will c with Some w => N.lor (2 * bit (V5Connect.clean_session c)) (4 + 8 * qos_num (V5Connect.lw_qos w) + 32 * bit (V5Connect.lw_retain w)) | None => 2 * bit (V5Connect.clean_session c) end).
  2: { destruct (V5Connect.last_will c) as [w|]; cbn [opt]; [|apply writes_ret].
       eapply writes_eq; [eapply writes_bind; [apply will_writes, Hw; reflexivity|apply writes_ret]|reflexivity|apply app_nil_r]. }
  erewrite run_bind with (o := opt login_bytes (V5Connect.login c)) (a := connect_flags c).
  2: { unfold connect_flags. rewrite <- (plus_lor_flags (V5Connect.clean_session c) (V5Connect.last_will c) (V5Connect.login c)). cbv zeta.
       destruct (V5Connect.login c) as [l|]; cbn [opt]; [|apply writes_ret].
       eapply writes_eq; [eapply writes_bind; [apply login_writes|apply writes_ret]|reflexivity|apply app_nil_r]. }
  rewrite <- !app_assoc.
  match goal with |- context [set_index ?i ?v ;;w _] => replace i with (flags_index c) by (unfold flags_index; fold n; lia) end.
  match goal with |- context [buf ++ ?o] => replace o with raw end.
  2: { unfold raw, frame. rewrite connect_body_with_len. fold n. cbn [app]. reflexivity. }
  unfold set_index, wbind, overwrite.
  assert (Hlen : (N.to_nat (flags_index c) < List.length (buf ++ raw))%nat).
  { rewrite <- (to_nat_blen (buf ++ raw)). unfold flags_index. fold n.
    assert (H : 8 + blen (varint n) < blen (buf ++ raw)); [|lia].
    unfold raw, frame. rewrite connect_body_with_len. fold n. autorewrite with blen.
    unfold connect_body_with. autorewrite with blen. change (blen MQTT) with 4. lia. }
  rewrite list_set_spec by exact Hlen.
  reflexivity.
Qed.

Lemma connect_write_empty c : blen (written (Connect c)) <= max_len ->
  write (Connect c) [] = (Ok (blen (written (Connect c))), written_wire (Connect c)).
Proof.
  intros Hl. rewrite connect_write_general by exact Hl. f_equal.
  cbn [app]. unfold overwrite, flags_index, written_wire, frame. cbn [first_byte].
  set (n := blen (written (Connect c))).
  assert (Hn : blen (connect_body_with (2 * bit (V5Connect.clean_session c)) c) = n)
    by apply connect_body_with_len.
  rewrite Hn.
  set (pre := 16 :: varint n ++ field MQTT ++ [level (V5Connect.protocol c)]).
  set (post := be16 (V5Connect.keep_alive c)
    ++ section_bytes (opt_items connect_items (V5Connect.properties c)) ++ field (V5Connect.client_id c)
    ++ opt will_bytes (V5Connect.last_will c) ++ opt login_bytes (V5Connect.login c)).
  assert (E : forall fl, 16 :: varint n ++ connect_body_with fl c = pre ++ fl :: post).
  { intros fl. unfold pre, post, connect_body_with. cbn [app]. rewrite <- !app_assoc. reflexivity. }
  rewrite E. change (written (Connect c)) with (connect_body_with (connect_flags c) c). rewrite E.
  assert (Hp : N.to_nat (8 + blen (varint n)) = List.length pre).
  { rewrite <- to_nat_blen. f_equal. unfold pre. autorewrite with blen. change (blen MQTT) with 4. lia. }
  rewrite Hp. rewrite firstn_app_exact by reflexivity.
  replace (S (List.length pre)) with (List.length (pre ++ [2 * bit (V5Connect.clean_session c)])) by (rewrite app_length; cbn; lia).
  replace (pre ++ 2 * bit (V5Connect.clean_session c) :: post) with ((pre ++ [2 * bit (V5Connect.clean_session c)]) ++ post) by (rewrite <- app_assoc; reflexivity).
  rewrite skipn_app_exact by reflexivity. reflexivity.
Qed.

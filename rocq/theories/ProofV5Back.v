(** ProofV5Back.v -- which packets come back when what was written is read. *)
From Verif Require Import ProofBase Lib ProofLib ProofRead SpecFrame ProofCheck ProofBits ProofV4Read ProofUtf8 ProofV4
  SpecProps SpecPropSets V5Property ProofProps ProofPropSets SpecV5 ProofV5Write ProofV5Read ProofSections ProofV5.

(** reading a written packet runs the decoder on its body *)
Lemma written_frame p rest max : typed p -> small_ids p -> blen (written p) <= max_len -> bytes_ok rest -> blen (written p) <= max ->
  starts_with_frame (written_wire p ++ rest) (first_byte p) (written p) rest /\ bytes_ok (written_wire p ++ rest) /\
  read (written_wire p ++ rest) max =
    (read_frame (ProofV4Read.hd (first_byte p) (first_byte p :: varint (blen (written p))) (written p))
       ((first_byte p :: varint (blen (written p))) ++ written p), rest).
Proof.
  intros Ht Hi Hl Hr Hm.
  assert (Hb : bytes_ok (written_wire p)) by (apply frame_bytes; auto using first_byte_ok, written_bytes). rewrite wire_shape in *. cbn [app] in *. rewrite <- app_assoc.
  assert (Hbb : bytes_ok (first_byte p :: varint (blen (written p)) ++ written p ++ rest)).
  { apply bytes_ok_cons in Hb as [H1 H2]. apply bytes_ok_app in H2 as [H2 H3].
    apply bytes_ok_cons. split; [assumption|]. apply bytes_ok_app. split; [assumption|]. apply bytes_ok_app. auto. }
  split; [|split; [exact Hbb|]].
  - exists (varint (blen (written p))). repeat split; [apply lenfield_varint, Hl|apply varint_len_bound].
  - apply read_complete_frame; [exact Hbb|apply lenfield_varint, Hl|apply varint_len_bound|exact Hm].
Qed.
Lemma read_back_decodes p q rest max : typed p -> small_ids p -> blen (written p) <= max_len -> bytes_ok rest -> blen (written p) <= max ->
  read (written_wire p ++ rest) max = (Ok q, rest) <-> decodes_body (first_byte p) (written p) q.
Proof.
  intros Ht Hi Hl Hr Hm. destruct (written_frame p rest max Ht Hi Hl Hr Hm) as (Hs & Hb & E). split.
  - rewrite E. intros H. apply (f_equal fst) in H. cbn [fst] in H.
    assert (Hx := written_bytes p Ht Hi Hl).
    assert (Hd := frame_sound (first_byte p) (first_byte p :: varint (blen (written p))) (written p)
      (first_byte_ok p) Hx (le_huge _ Hl)). rewrite H in Hd. exact Hd.
  - intros Hd. apply read_iff; [exact Hb|]. exists (first_byte p), (written p). auto.
Qed.

(** a field shifted by one byte only repeats itself when it is empty *)
Lemma shifted_field s r r' : 0 :: field s ++ r = field s ++ r' -> short s -> s = [].
Proof.
  unfold field, be16, short. cbn [app]. intros H Hs. injection H as H1 H2 _. apply blen_0. lia.
Qed.

Lemma lenfield_zero f n s s' : lenfield f n -> f ++ s = 0 :: s' -> f = [0] /\ n = 0 /\ s = s'.
Proof.
  intros H E. destruct H as [b Hb|b l n Hb Hl]; cbn [app] in E; injection E as E1 E2; subst; [auto|lia].
Qed.
Lemma decodes_props_zero {R} al (rec : list item -> R) o sec s s' : decodes_props al rec o sec -> sec ++ s = 0 :: s' ->
  sec = [0] /\ o = None /\ s = s'.
Proof.
  destruct o as [r|]; cbn [decodes_props].
  - intros (f & plen & its & bs & -> & Hf & _ & Hp & _) E. rewrite <- app_assoc in E.
    apply (lenfield_zero _ _ _ _ Hf) in E. lia.
  - intros [Hf _] E. apply (lenfield_zero _ _ _ _ Hf) in E. intuition.
Qed.
Lemma opt_field_zero b u ubs s s' : decodes_opt_string b u ubs -> 
  0 :: (if nonempty u then field u else []) ++ s = ubs ++ s' -> (nonempty u = true -> b = true) -> u = [].
Proof.
  unfold decodes_opt_string. intros Hd E Hb. destruct (nonempty u) eqn:En; [|apply nonempty_false, En].
  rewrite Hb in Hd by reflexivity. destruct Hd as (-> & _ & Hs). eapply shifted_field; [exact E|exact Hs].
Qed.
Lemma dprops_len {R} al (rec : list item -> R) o bs : decodes_props al rec o bs -> 1 <= blen bs.
Proof.
  destruct o as [r|]; cbn [decodes_props].
  - intros (g & plen & its & sec & -> & Hg & _). apply lenfield_nonempty in Hg. autorewrite with blen. lia.
  - intros [Hg _]. apply lenfield_nonempty in Hg. exact Hg.
Qed.
Lemma section_nil : section_bytes [] = [0]. Proof. reflexivity. Qed.
Lemma canon_none {R} (items : R -> list item) o : canon_props items o = None <-> opt_items items o = [].
Proof.
  destruct o as [r|]; cbn; [|tauto]. destruct (items r); cbn; split; intros H; try reflexivity; discriminate.
Qed.

Lemma cons2_inv {A} (a b a' b' : A) x y : a :: b :: x = a' :: b' :: y -> b = b' /\ x = y.
Proof. intros H. injection H. auto. Qed.
Lemma connect_blank c : fits (Connect c) -> V5Connect.protocol c = V4 ->
  decodes_body 0x10 (written (Connect c)) (canon (Connect c)) -> blank_311 (Connect c).
Proof.
  intros (Ht & Hs & _) Hp Hd. cbn [decodes_body canon] in Hd.
  cbn [V5Connect.protocol V5Connect.keep_alive V5Connect.client_id V5Connect.clean_session V5Connect.last_will V5Connect.login V5Connect.properties] in Hd.
  destruct Hd as (_ & flags & sec & wbs & ubs & pbs & u & pw & junk & Hf & Ebd & Hka & Hcu & Hcs & Hcl & Hsec & Hw & Hu & Hpw & Hl).
  rewrite Hp in Hsec. destruct Hsec as [-> Hpr]. apply canon_none in Hpr.
  unfold written in Ebd. rewrite Hpr, section_nil in Ebd.
  apply app_inv_head in Ebd. apply cons2_inv in Ebd as [Ef E1]. rewrite <- Ef in *. clear flags Ef.
  apply app_inv_head in E1. cbn [app] in E1.
  assert (Ec : V5Connect.client_id c = []) by (eapply shifted_field; [exact E1|exact Hcs]).
  destruct (bit_at_connect c) as (_ & _ & _ & _ & _ & B6 & B7).
  rewrite Ec in E1. change (field []) with [0; 0] in E1. cbn [app] in E1.
  apply cons2_inv in E1 as [_ E1].
  cbn [blank_311]. split; [exact Hp|]. split; [exact Ec|]. split; [exact Hpr|].
  assert (Hw' : on_some (fun w => V5Connect.lw_topic w = [] /\ V5Connect.lw_message w = [] /\
      opt_items will_items (V5Connect.lw_properties w) = []) (V5Connect.last_will c) /\
      0 :: opt login_bytes (V5Connect.login c) = ubs ++ pbs ++ junk).
  { unfold decodes_will in Hw. destruct (V5Connect.last_will c) as [w|]; cbn [option_map opt on_some] in *.
    - destruct Hw as (_ & _ & _ & _ & Hts & Hms & sw & -> & Hsw).
      cbn [canon_will V5Connect.lw_topic V5Connect.lw_message V5Connect.lw_properties] in *.
      rewrite <- app_assoc in E1. symmetry in E1.
      destruct (decodes_props_zero _ _ _ _ _ _ Hsw E1) as (-> & Hn & E2). apply canon_none in Hn.
      unfold will_bytes in E2. rewrite Hn, section_nil, <- !app_assoc in E2. cbn [app] in E2. symmetry in E2.
      assert (Et : V5Connect.lw_topic w = []) by (eapply shifted_field; [exact E2|exact Hts]).
      rewrite Et in E2. change (field []) with [0; 0] in E2. cbn [app] in E2. apply cons2_inv in E2 as [_ E2].
      assert (Em : V5Connect.lw_message w = []) by (eapply shifted_field; [exact E2|exact Hms]).
      rewrite Em in E2. change (field []) with [0; 0] in E2. cbn [app] in E2. apply cons2_inv in E2 as [_ E2].
      auto.
    - destruct Hw as [-> _]. split; [exact I|]. exact E1. }
  destruct Hw' as [Hw' E3]. split; [exact Hw'|]. rewrite B6, B7 in *.
  destruct (V5Connect.login c) as [[lu lp]|]; cbn [on_some opt] in *; [|exact I].
  cbn [V5Connect.username V5Connect.password] in *. unfold login_bytes in E3. cbn [V5Connect.username V5Connect.password] in E3.
  assert (Hun : lu = []).
  { destruct (nonempty lu) eqn:En; [|apply nonempty_false, En].
    destruct Hu as (-> & _ & Hus). 
    assert (Eu : lu = u); [|subst u; eapply shifted_field; eassumption].
    clear - Hl En. unfold canon_login in Hl. cbn [V5Connect.username V5Connect.password] in Hl. rewrite En in Hl.
    cbn [orb] in Hl. destruct (nonempty u || nonempty pw); [injection Hl; auto|discriminate]. }
  split; [exact Hun|]. subst lu. cbn [nonempty] in *.
  destruct (nonempty lp) eqn:En; [|apply nonempty_false, En].
  destruct Hu as [-> ->]. destruct Hpw as (-> & _ & Hps). cbn [app] in E3.
  assert (Eu : lp = pw); [|subst pw; eapply (shifted_field _ []); [rewrite app_nil_r; eassumption|assumption]].
  clear - Hl En. unfold canon_login in Hl. cbn [V5Connect.username V5Connect.password nonempty orb] in Hl. rewrite En in Hl.
  destruct (nonempty pw); [injection Hl; auto|discriminate].
Qed.

Lemma blank_decodes p : fits p -> blank_311 p -> decodes_body (first_byte p) (written p) (canon p).
Proof.
  destruct p as [c| | | | | | | | | | | | |]; cbn [blank_311]; try contradiction.
  intros (Ht & Hs & _) (Hp & Hc & Hpr & Hw & Hl). cbn [first_byte decodes_body canon].
  cbn [V5Connect.protocol V5Connect.keep_alive V5Connect.client_id V5Connect.clean_session V5Connect.last_will V5Connect.login V5Connect.properties].
  split; [reflexivity|]. destruct (bit_at_connect c) as (B1 & B2 & B8 & B4 & B5 & B6 & B7).
  destruct Ht as [(Hka & Hcu & Htw & _) _]. destruct Hs as [(Hcs & Hsw & _) _].
  exists (connect_flags c), [], (opt will_bytes (V5Connect.last_will c)), [], [], [], [], [0].
  split; [apply connect_flags_ok|].
  assert (Elog : opt login_bytes (V5Connect.login c) = []).
  { destruct (V5Connect.login c) as [[lu lp]|]; [|reflexivity]. cbn in Hl. destruct Hl as [-> ->]. reflexivity. }
  assert (B6' : bit_at 6 (connect_flags c) = false).
  { rewrite B6. destruct (V5Connect.login c) as [[lu lp]|]; [|reflexivity]. cbn in Hl. destruct Hl as [-> ->]. reflexivity. }
  assert (B7' : bit_at 7 (connect_flags c) = false).
  { rewrite B7. destruct (V5Connect.login c) as [[lu lp]|]; [|reflexivity]. cbn in Hl. destruct Hl as [-> ->]. reflexivity. }
  split.
  { unfold written. rewrite Elog, Hpr, Hc, section_nil. cbn [app]. do 4 f_equal.
    destruct (V5Connect.last_will c) as [[wt wm wq wr wp]|]; cbn [opt on_some V5Connect.lw_topic V5Connect.lw_message V5Connect.lw_properties] in *; [|reflexivity].
    destruct Hw as (-> & -> & Ew). unfold will_bytes. cbn [V5Connect.lw_topic V5Connect.lw_message V5Connect.lw_properties]. rewrite Ew. reflexivity. }
  split; [exact Hka|]. split; [exact Hcu|]. split; [exact Hcs|]. split; [congruence|].
  split; [rewrite Hp; split; [reflexivity|apply canon_none, Hpr]|].
  split.
  { unfold decodes_will. destruct (V5Connect.last_will c) as [w|] eqn:Ew; cbn [opt is_some option_map on_some] in *.
    - destruct Htw, Hsw. destruct Hw as (W1 & W2 & W3).
      cbn [canon_will V5Connect.lw_qos V5Connect.lw_retain V5Connect.lw_topic V5Connect.lw_message V5Connect.lw_properties].
      repeat split; auto. exists [0]. unfold will_bytes. rewrite W3. split; [reflexivity|].
      replace (canon_props will_items (V5Connect.lw_properties w)) with (@None V5Connect.WillProperties)
        by (symmetry; apply canon_none, W3). split; [apply (lf_last 0); lia|discriminate].
    - auto. }
  rewrite B6', B7'. repeat split.
  destruct (V5Connect.login c) as [[lu lp]|]; [|reflexivity]. cbn in Hl. destruct Hl as [-> ->]. reflexivity.
Qed.

Lemma items_bytes_nil its : items_bytes its = [] -> its = [].
Proof. destruct its; [reflexivity|discriminate]. Qed.

(** exactly the readable ones decode to themselves *)
Lemma decodes_readable p : fits p -> decodes_body (first_byte p) (written p) (canon p) -> readable p \/ blank_311 p.
Proof.
  intros Hf Hd. assert (Hok := items_ok p ltac:(apply Hf) ltac:(apply Hf) ltac:(apply Hf)).
  destruct p as [c|c|p|p|p|p|p|s|s|u|u| | |d]; try (left; exact I); cbn [readable].
  - destruct (V5Connect.protocol c) eqn:Ep; [right|left; reflexivity]. apply connect_blank; auto.
  - left. intros En. cbn [decodes_body canon written] in Hd.
    cbn [V5ConnAck.session_present V5ConnAck.code V5ConnAck.properties] in Hd. rewrite En in Hd.
    destruct Hd as (_ & flags & sec & junk & E & _ & Hp). cbn [app] in E. apply cons2_inv in E as [_ E].
    symmetry in E. apply app_eq_nil in E as [-> _]. apply dprops_len in Hp. rewrite blen_nil in Hp. lia.
  - left. apply publish_split. cbn zeta.
    cbn [decodes_body canon written body packet_items] in *.
    cbn [V5Publish.dup V5Publish.qos V5Publish.retain V5Publish.topic V5Publish.pkid V5Publish.payload V5Publish.properties] in Hd.
    destruct Hd as (_ & _ & _ & _ & _ & _ & _ & sec & E & Hp).
    apply app_inv_head in E.
    assert (E1 : section_bytes (opt_items publish_items (V5Publish.properties p)) = sec)
      by (destruct (positive_qos (V5Publish.qos p)); apply app_inv_head in E; apply app_inv_tail in E; exact E).
    clear E. rename E1 into E.
    destruct (V5Publish.properties p) as [r|] eqn:Er; cbn [opt_items] in *; [|reflexivity].
    unfold canon_props in Hp. destruct (nonempty (publish_items r)) eqn:En;
      [|apply nonempty_false in En; rewrite En; reflexivity].
    destruct (split_props (blen (items_bytes (publish_items r))) 0 (publish_items r)) as [a b] eqn:Es. cbn [snd].
    assert (Hl : blen (written (Publish p)) <= max_len) by apply Hf.
    assert (Hls : blen (section_bytes (publish_items r)) <= max_len).
    { cbn [written body] in Hl. rewrite Er in Hl. cbn [opt_items] in Hl. rewrite !blen_app in Hl. lia. }
    destruct (section_split InPublish publish_record publish_items publish_record_items publish_place r a b [] Hok
      ltac:(intros Hx; rewrite Hx in En; discriminate) (items_of_section _ Hls) Es) as (sec' & E' & Hp').
    assert (L1 : blen sec' <= max_len).
    { apply (f_equal blen) in E'. rewrite !blen_app in E'. lia. }
    subst sec. assert (X1 := publish_extract_ok _ _ [] (le_huge _ Hls) Hp).
    assert (X2 := publish_extract_ok _ _ (items_bytes b ++ []) (le_huge _ L1) Hp').
    rewrite <- E', X1 in X2. injection X2 as _ X2. rewrite app_nil_r in X2. symmetry in X2. apply items_bytes_nil, X2.
  - left. cbn [decodes_body canon] in Hd. apply Hd.
  - left. cbn [decodes_body canon] in Hd. apply Hd.
  - left. cbn [decodes_body canon written] in Hd.
    cbn [V5Disconnect.reason_code V5Disconnect.properties] in Hd. destruct Hd as (_ & sec & junk & E & Hp).
    destruct (V5Disconnect.properties d) as [r|] eqn:Er.
    + exists r. split; [reflexivity|]. intros En. rewrite En in E. discriminate.
    + exfalso. unfold body in E. rewrite Er in E. cbn [opt_items] in E.
      destruct (disconnect_code (V5Disconnect.reason_code d) =? 0); [discriminate|].
      injection E as E. symmetry in E. apply app_eq_nil in E as [-> _]. apply dprops_len in Hp. rewrite blen_nil in Hp. lia.
Qed.

Lemma read_back_exact p rest max : fits p -> bytes_ok rest -> blen (written p) <= max ->
  (read (written_wire p ++ rest) max = (Ok (canon p), rest) <-> readable p \/ blank_311 p).
Proof.
  intros Hf Hr Hm. rewrite read_back_decodes by (auto; apply Hf). split.
  - apply decodes_readable, Hf.
  - intros [H|H]; [apply decodes_written; assumption|apply blank_decodes; assumption].
Qed.

(** *** what happens with the others *)
Lemma connack_none c rest max : V5ConnAck.properties c = None -> bytes_ok rest -> 2 <= max ->
  read (written_wire (ConnAck c) ++ rest) max = (Err (InsufficientBytes 1), rest).
Proof.
  intros En Hr Hm. assert (Ew : written (ConnAck c) = [bit (V5ConnAck.session_present c); connack_code (V5ConnAck.code c)])
    by (cbn [written]; rewrite En; reflexivity).
  destruct (written_frame (ConnAck c) rest max) as (_ & _ & E); rewrite ?Ew; auto.
  - split; [exact I|]. cbn [packet_items]. rewrite En. constructor.
  - unfold small_ids. cbn [packet_items]. rewrite En. constructor.
  - vm_compute. discriminate.
  - rewrite E, Ew. f_equal. destruct (V5ConnAck.session_present c), (V5ConnAck.code c); reflexivity.
Qed.
Lemma disconnect_blank d rest max : opt_items disconnect_items (V5Disconnect.properties d) = [] -> bytes_ok rest -> 1 <= max ->
  read (written_wire (Disconnect d) ++ rest) max =
    (Err (match V5Disconnect.properties d with
          | Some _ => PayloadRequired
          | None => if disconnect_code (V5Disconnect.reason_code d) =? 0 then PayloadRequired else InsufficientBytes 1
          end), rest).
Proof.
  intros En Hr Hm.
  assert (Ew : written (Disconnect d) = match V5Disconnect.properties d with
    | Some _ => [] 
    | None => if disconnect_code (V5Disconnect.reason_code d) =? 0 then [] else [disconnect_code (V5Disconnect.reason_code d)]
    end).
  { cbn [written body]. rewrite En. destruct (V5Disconnect.properties d) as [r|]; [|reflexivity].
    cbn [opt_items] in En. rewrite En. reflexivity. }
  assert (Hl : blen (written (Disconnect d)) <= 1).
  { rewrite Ew. destruct (V5Disconnect.properties d); [vm_compute; discriminate|]. 
    destruct (disconnect_code (V5Disconnect.reason_code d) =? 0); vm_compute; discriminate. }
  destruct (written_frame (Disconnect d) rest max) as (_ & _ & E); auto.
  - split; [exact I|]. cbn [packet_items]. rewrite En. constructor.
  - unfold small_ids. cbn [packet_items]. rewrite En. constructor.
  - unfold max_len. lia.
  - lia.
  - rewrite E, Ew. f_equal. destruct (V5Disconnect.properties d); [reflexivity|].
    destruct (V5Disconnect.reason_code d); reflexivity.
Qed.
Lemma section_decodes1 {R} pl (rec : list item -> R) items ex o s
  (H1 : forall r, rec (items r) = r) (H2 : forall r, Forall (has_place pl) (items r))
  (Hx : forall o bs s, blen bs <= huge -> decodes_props (allowed_at pl) rec o bs -> ex (bs ++ s) = Ok (o, s)) :
  mem 11 (allowed_at pl) = false -> Forall item_ok (opt_items items o) ->
  blen (section_bytes (opt_items items o)) <= max_len ->
  ex (section_bytes (opt_items items o) ++ s) = Ok (canon_props items o, s).
Proof.
  intros Hm Hok Hl. apply Hx; [exact (le_huge _ Hl)|]. apply section_decodes0; auto.
Qed.
Lemma suback_empty s rest max : fits (SubAck s) -> V5SubAck.return_codes s = [] -> bytes_ok rest ->
  blen (written (SubAck s)) <= max ->
  read (written_wire (SubAck s) ++ rest) max = (Err MalformedPacket, rest).
Proof.
  intros Hf En Hr Hm. assert (Hok := items_ok _ ltac:(apply Hf) ltac:(apply Hf) ltac:(apply Hf)). cbn [packet_items] in Hok.
  assert (Hl : blen (written (SubAck s)) <= max_len) by apply Hf.
  destruct (written_frame (SubAck s) rest max) as (_ & _ & E); auto; try apply Hf. rewrite E. f_equal.
  unfold read_frame, Lib.packet_type. cbn [ProofV4Read.hd byte1 remaining_len first_byte].
  change (N.shiftr 144 4) with 9. cbn [obind].
  cbn [written body] in *. rewrite En in *. cbn [map] in *. rewrite app_nil_r in *.
  set (sec := section_bytes _) in *. replace (blen (be16 (V5SubAck.pkid s) ++ sec) =? 0) with false by (autorewrite with blen; lia).
  unfold V5SubAck.read. rewrite (rbind_ok _ _ _ tt (be16 (V5SubAck.pkid s) ++ sec)) by (apply advance_app; reflexivity).
  rewrite (rbind_ok _ _ _ _ _ (read_u16_be16 (V5SubAck.pkid s) sec ltac:(apply Hf))).
  rewrite (rbind_ok _ _ _ (canon_props suback_items (V5SubAck.properties s)) []); [reflexivity|].
  rewrite <- (app_nil_r sec). apply (section_decodes1 InSubAck suback_record); auto using suback_record_items, suback_place, suback_extract_ok.
  fold sec. autorewrite with blen in Hl. lia.
Qed.
Lemma unsuback_empty s rest max : fits (UnsubAck s) -> V5UnsubAck.reasons s = [] -> bytes_ok rest ->
  blen (written (UnsubAck s)) <= max ->
  read (written_wire (UnsubAck s) ++ rest) max = (Err MalformedPacket, rest).
Proof.
  intros Hf En Hr Hm. assert (Hok := items_ok _ ltac:(apply Hf) ltac:(apply Hf) ltac:(apply Hf)). cbn [packet_items] in Hok.
  assert (Hl : blen (written (UnsubAck s)) <= max_len) by apply Hf.
  destruct (written_frame (UnsubAck s) rest max) as (_ & _ & E); auto; try apply Hf. rewrite E. f_equal.
  unfold read_frame, Lib.packet_type. cbn [ProofV4Read.hd byte1 remaining_len first_byte].
  change (N.shiftr 176 4) with 11. cbn [obind].
  cbn [written body] in *. rewrite En in *. cbn [map] in *. rewrite app_nil_r in *.
  set (sec := section_bytes _) in *. replace (blen (be16 (V5UnsubAck.pkid s) ++ sec) =? 0) with false by (autorewrite with blen; lia).
  unfold V5UnsubAck.read. rewrite (rbind_ok _ _ _ tt (be16 (V5UnsubAck.pkid s) ++ sec)) by (apply advance_app; reflexivity).
  rewrite (rbind_ok _ _ _ _ _ (read_u16_be16 (V5UnsubAck.pkid s) sec ltac:(apply Hf))).
  rewrite (rbind_ok _ _ _ (canon_props unsuback_items (V5UnsubAck.properties s)) []); [reflexivity|].
  rewrite <- (app_nil_r sec). apply (section_decodes1 InUnsubAck unsuback_record); auto using unsuback_record_items, unsuback_place, unsuback_extract_ok.
  fold sec. autorewrite with blen in Hl. lia.
Qed.
(** a publish with properties: those the reader leaves behind end up in the payload *)
Lemma publish_back p r a b rest max : fits (Publish p) -> V5Publish.properties p = Some r -> publish_items r <> [] ->
  split_props (blen (items_bytes (publish_items r))) 0 (publish_items r) = (a, b) ->
  bytes_ok rest -> blen (written (Publish p)) <= max ->
  read (written_wire (Publish p) ++ rest) max =
    (Ok (Publish (V5Publish.mkPublish (V5Publish.dup p) (V5Publish.qos p) (V5Publish.retain p) (V5Publish.topic p)
       (if positive_qos (V5Publish.qos p) then V5Publish.pkid p else 0)
       (Some (publish_record a)) (items_bytes b ++ V5Publish.payload p))), rest).
Proof.
  intros Hf Er Hne Es Hr Hm. apply read_back_decodes; auto; try apply Hf.
  assert (Hok := items_ok _ ltac:(apply Hf) ltac:(apply Hf) ltac:(apply Hf)). cbn [packet_items] in Hok. rewrite Er in Hok.
  assert (Hl : blen (written (Publish p)) <= max_len) by apply Hf.
  destruct Hf as ([(Hu & Hpk & Hpl) _] & [Hs _] & _ & Hid & _).
  cbn [decodes_body first_byte].
  cbn [V5Publish.dup V5Publish.qos V5Publish.retain V5Publish.topic V5Publish.pkid V5Publish.payload V5Publish.properties].
  destruct (bit_at_publish (V5Publish.dup p) (V5Publish.qos p) (V5Publish.retain p)) as (B1 & B2 & B3 & B4).
  do 6 (split; [auto|]). split.
  { cbn [has_id] in Hid. destruct (positive_qos (V5Publish.qos p)) eqn:Eq; [|reflexivity].
    specialize (Hid eq_refl). split; [lia|exact Hpk]. }
  cbn [written body] in *. rewrite Er in *. cbn [opt_items] in *.
  assert (Hls : blen (section_bytes (publish_items r)) <= max_len) by (rewrite !blen_app in Hl; lia).
  destruct (section_split InPublish publish_record publish_items publish_record_items publish_place r a b (V5Publish.payload p) Hok
      Hne (items_of_section _ Hls) Es) as (sec' & E' & Hp').
  exists sec'. split; [|exact Hp']. rewrite E'. destruct (positive_qos (V5Publish.qos p)); reflexivity.
Qed.

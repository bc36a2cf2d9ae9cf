(** ProofPlaces.v -- decoding of a frame, factored at its property section: what happens
    behind the section depends only on the property set read and the bytes behind it. *)
From Verif Require Import ProofBase Lib ProofLib ProofRead SpecFrame ProofCheck ProofBits ProofV4Read ProofUtf8 ProofV4
  SpecProps SpecPropSets V5Property ProofProps ProofPropSets SpecV5 ProofV5Write ProofV5Read ProofSections SpecPlaces.

Definition factors (pl : place) {R} (rec : list item -> R) (ex : reader (option R))
    (b1 : N) (pre : bytes) : Prop :=
  (forall o bs s, blen bs <= huge -> decodes_props (allowed_at pl) rec o bs -> ex (bs ++ s) = Ok (o, s)) /\
  (forall f plen its bs c id s, lenfield f plen -> blen f <= 4 -> blen bs <= huge ->
     reads (allowed_at pl) plen 0 its bs c -> c < plen -> ~ In id (allowed_at pl) ->
     ex (f ++ bs ++ id :: s) = Err (InvalidPropertyType id)) /\
  (forall a b, same_props a b -> rec a = rec b) /\
  exists k, forall hdr s, 1 <= blen s ->
    read_frame (ProofV4Read.hd b1 hdr (pre ++ s)) (hdr ++ pre ++ s) =
    match ex s with Ok (o, s') => k o s' | Err e => Err e | Panic => Panic | Diverge => Diverge end.

Lemma rbind_factor {A B C} (m : reader A) (k : A -> reader B) (f : outcome (B * bytes) -> C) s :
  f (rbind m k s) = match m s with
                    | Ok (a, s') => f (k a s') | Err e => f (Err e) | Panic => f Panic | Diverge => f Diverge
                    end.
Proof. unfold rbind. destruct (m s) as [[a s']|e| |]; reflexivity. Qed.

Lemma read_frame_type b1 hdr bd : b1 < 256 -> 1 <= blen bd ->
  read_frame (ProofV4Read.hd b1 hdr bd) (hdr ++ bd) =
  (match Lib.packet_type (ProofV4Read.hd b1 hdr bd) with
   | Ok PT_Connect => wrap Connect (V5Connect.read (ProofV4Read.hd b1 hdr bd) (hdr ++ bd))
   | Ok PT_ConnAck => wrap ConnAck (V5ConnAck.read (ProofV4Read.hd b1 hdr bd) (hdr ++ bd))
   | Ok PT_Publish => wrap Publish (V5Publish.read (ProofV4Read.hd b1 hdr bd) (hdr ++ bd))
   | Ok PT_PubAck => wrap PubAck (V5PubAck.read (ProofV4Read.hd b1 hdr bd) (hdr ++ bd))
   | Ok PT_PubRec => wrap PubRec (V5PubRec.read (ProofV4Read.hd b1 hdr bd) (hdr ++ bd))
   | Ok PT_PubRel => wrap PubRel (V5PubRel.read (ProofV4Read.hd b1 hdr bd) (hdr ++ bd))
   | Ok PT_PubComp => wrap PubComp (V5PubComp.read (ProofV4Read.hd b1 hdr bd) (hdr ++ bd))
   | Ok PT_Subscribe => wrap Subscribe (V5Subscribe.read (ProofV4Read.hd b1 hdr bd) (hdr ++ bd))
   | Ok PT_SubAck => wrap SubAck (V5SubAck.read (ProofV4Read.hd b1 hdr bd) (hdr ++ bd))
   | Ok PT_Unsubscribe => wrap Unsubscribe (V5Unsubscribe.read (ProofV4Read.hd b1 hdr bd) (hdr ++ bd))
   | Ok PT_UnsubAck => wrap UnsubAck (V5UnsubAck.read (ProofV4Read.hd b1 hdr bd) (hdr ++ bd))
   | Ok PT_PingReq => Ok PingReq
   | Ok PT_PingResp => Ok PingResp
   | Ok PT_Disconnect => wrap Disconnect (V5Disconnect.read (ProofV4Read.hd b1 hdr bd) (hdr ++ bd))
   | Err e => Err e | Panic => Panic | Diverge => Diverge
   end).
Proof.
  intros Hb1 Hne. unfold read_frame. destruct (Lib.packet_type _) as [t|e| |]; try reflexivity.
  cbn [obind ProofV4Read.hd remaining_len]. replace (blen bd =? 0) with false by lia. reflexivity.
Qed.
Lemma type_of_b1 b1 hdr bd n : b1 < 256 -> b1 / 16 = n ->
  Lib.packet_type (ProofV4Read.hd b1 hdr bd) =
  match n with
  | 1 => Ok PT_Connect | 2 => Ok PT_ConnAck | 3 => Ok PT_Publish | 4 => Ok PT_PubAck | 5 => Ok PT_PubRec
  | 6 => Ok PT_PubRel | 7 => Ok PT_PubComp | 8 => Ok PT_Subscribe | 9 => Ok PT_SubAck | 10 => Ok PT_Unsubscribe
  | 11 => Ok PT_UnsubAck | 12 => Ok PT_PingReq | 13 => Ok PT_PingResp | 14 => Ok PT_Disconnect
  | n => Err (InvalidPacketType n)
  end.
Proof.
  intros Hb1 <-. unfold Lib.packet_type. cbn [ProofV4Read.hd byte1]. rewrite shiftr4 by assumption. reflexivity.
Qed.

Section AckPlace.
  Context {C R P : Type} (f : N -> outcome C) (num : C -> N) (ok : C)
    (ex : reader (option R)) (mk : N -> C -> option R -> P) (w : P -> Packet).
  Hypothesis f_of : forall c, f (num c) = Ok c.
  Lemma ack_factor b1 hdr id c s : u16 id -> 1 <= blen s ->
    wrap w (ack_read f ok ex mk (ProofV4Read.hd b1 hdr ((be16 id ++ [num c]) ++ s)) (hdr ++ (be16 id ++ [num c]) ++ s)) =
    match ex s with Ok (o, s') => (fun o _ => Ok (w (mk id c o))) o s' | Err e => Err e | Panic => Panic | Diverge => Diverge end.
  Proof.
    intros Hid Hs. unfold ack_read. cbn [ProofV4Read.hd fixed_header_len remaining_len].
    rewrite (rbind_ok _ _ _ tt ((be16 id ++ [num c]) ++ s)) by (apply advance_app; reflexivity).
    rewrite <- app_assoc, (rbind_ok _ _ _ _ _ (read_u16_be16 _ _ Hid)). cbn [app].
    autorewrite with blen.
    replace (2 + (1 + blen s) =? 2) with false by lia. replace (2 + (1 + blen s) <? 4) with false by lia.
    rewrite (rbind_ok _ _ _ _ _ (read_u8_cons _ _)). unfold rbind, rlift. rewrite f_of.
    destruct (ex s) as [[o s']|e| |]; reflexivity.
  Qed.
End AckPlace.

Ltac start_place :=
  intros hdr s Hs; rewrite read_frame_type by (auto; autorewrite with blen; lia);
  erewrite type_of_b1 by eassumption; cbv iota;
  match goal with |- context [advance (fixed_header_len (ProofV4Read.hd ?b1 hdr ?bd))] => idtac | _ => idtac end.

Lemma place_factor pl b1 pre : b1 < 256 -> blen pre <= huge -> leads_to pl b1 pre ->
  exists R (rec : list item -> R) ex, factors pl rec ex b1 pre.
Proof.
  intros Hb1 Hm Hl.
  destruct pl; cbn [leads_to] in Hl.
  - destruct Hl as (H1 & flags & ka & Hf & Hka & ->). eexists; exists connect_record, V5Connect.cp_extract.
    split; [exact connect_extract_ok|]. split; [exact connect_extract_bad|]. split; [exact connect_same|].
    eexists. start_place. unfold V5Connect.read.
    rewrite (rbind_ok _ _ _ tt _) by (apply advance_app; reflexivity).
    rewrite <- !app_assoc. cbn [app].
    rewrite (rbind_ok _ _ _ _ _ (read_string_field MQTT _ ltac:(cbv; discriminate) ltac:(apply utf8_ok_spec; reflexivity))).
    rewrite (rbind_ok _ _ _ _ _ (read_u8_cons _ _)).
    change (bytes_eqb MQTT V5Connect.mqtt_name) with true. cbn [negb].
    rewrite (rbind_ok _ _ _ V5 (flags :: be16 ka ++ s)) by reflexivity.
    rewrite (rbind_ok _ _ _ _ _ (read_u8_cons _ _)).
    rewrite (rbind_ok _ _ _ _ _ (read_u16_be16 _ _ Hka)).
    cbv beta iota zeta. rewrite (rbind_factor V5Connect.cp_extract). reflexivity.
  - destruct Hl as (H1 & lv & flags & ka & o & sec & cid & Hf & Hbit & Hka & Hcu & Hcs & Hsec & Epre).
    assert (Hms : blen sec <= huge) by (rewrite Epre in Hm; autorewrite with blen in Hm; lia). subst pre.
    eexists; exists will_record, V5Connect.wp_extract.
    split; [exact will_extract_ok|]. split; [exact will_extract_bad|]. split; [exact will_same|].
    eexists. start_place. unfold V5Connect.read.
    rewrite (rbind_ok _ _ _ tt _) by (apply advance_app; reflexivity).
    rewrite <- !app_assoc. cbn [app].
    rewrite (rbind_ok _ _ _ _ _ (read_string_field MQTT _ ltac:(cbv; discriminate) ltac:(apply utf8_ok_spec; reflexivity))).
    rewrite (rbind_ok _ _ _ _ _ (read_u8_cons _ _)).
    change (bytes_eqb MQTT V5Connect.mqtt_name) with true. cbn [negb].
    match goal with |- context [rbind (match ?l with 0 => _ | _ => _ end) _ ?s] =>
      rewrite (rbind_ok _ _ _ (if lv =? 5 then V5 else V4) s) by (destruct Hsec as [[-> _]|[-> _]]; reflexivity) end.
    rewrite (rbind_ok _ _ _ _ _ (read_u8_cons _ _)).
    rewrite (rbind_ok _ _ _ _ _ (read_u16_be16 _ _ Hka)).
    match goal with |- context [rbind (match (if lv =? 5 then V5 else V4) with _ => _ end) _ (sec ++ ?s)] =>
      rewrite (rbind_ok _ _ (sec ++ s) (if lv =? 5 then o else None) s) end.
    2: { destruct Hsec as [[-> Hsec]|[-> ->]]; [apply connect_extract_ok; assumption|reflexivity]. }
    rewrite (rbind_ok _ _ _ _ _ (read_string_field _ _ Hcs Hcu)).
    unfold V5Connect.lw_read. rewrite mask4, Hbit by assumption. cbn [negb].
    rewrite (rbind_factor (rbind V5Connect.wp_extract _)). unfold rbind at 1.
    destruct (V5Connect.wp_extract s) as [[o' s']|e| |]; [|reflexivity..]. reflexivity.
  - destruct Hl as (H1 & flags & c & Hf & ->). eexists; exists connack_record, V5ConnAck.extract.
    split; [exact connack_extract_ok|]. split; [exact connack_extract_bad|]. split; [exact connack_same|].
    eexists. start_place. unfold V5ConnAck.read.
    rewrite (rbind_ok _ _ _ tt _) by (apply advance_app; reflexivity).
    cbn [app]. rewrite (rbind_ok _ _ _ _ _ (read_u8_cons _ _)). rewrite (rbind_ok _ _ _ _ _ (read_u8_cons _ _)).
    rewrite (rbind_ok _ _ _ c s) by (unfold rlift; rewrite connack_of; reflexivity).
    cbv zeta. rewrite (rbind_factor V5ConnAck.extract). reflexivity.
  - destruct Hl as (H1 & q & t & id & Hq & Htu & Hts & Hid & Hidu & ->). eexists; exists publish_record, V5Publish.extract.
    split; [exact publish_extract_ok|]. split; [exact publish_extract_bad|]. split; [exact publish_same|].
    eexists. start_place. unfold V5Publish.read.
    cbn [ProofV4Read.hd byte1] in *. rewrite pub_qos_bits, Hq by assumption. unfold rbind at 1, rlift. rewrite qos_of_num.
    rewrite (rbind_ok _ _ _ tt _) by (apply advance_app; reflexivity).
    rewrite <- !app_assoc. rewrite (rbind_ok _ _ _ _ _ (read_string_field _ _ Hts Htu)).
    rewrite (rbind_ok _ _ _ (if positive_qos q then id else 0) s)
      by (destruct q; cbn [positive_qos app]; [reflexivity| |]; rewrite read_u16_be16; auto).
    assert (E0 : negb (qos_eqb q AtMostOnce) && ((if positive_qos q then id else 0) =? 0) = false)
      by (destruct q; cbn [positive_qos qos_eqb negb andb] in *; [reflexivity| |]; lia).
    cbv beta zeta. rewrite E0. rewrite (rbind_factor V5Publish.extract). reflexivity.
  - destruct Hl as (H1 & id & c & Hid & ->). eexists; exists puback_record, V5PubAck.extract.
    split; [exact puback_extract_ok|]. split; [exact puback_extract_bad|]. split; [exact puback_same|].
    eexists. start_place. refine (eq_trans (ack_factor V5PubAck.reason_of puback_code V5PubAck.Success V5PubAck.extract V5PubAck.mkPubAck PubAck puback_of b1 hdr id c s Hid Hs) _).
    reflexivity.
  - destruct Hl as (H1 & id & c & Hid & ->). eexists; exists pubrec_record, V5PubRec.extract.
    split; [exact pubrec_extract_ok|]. split; [exact pubrec_extract_bad|]. split; [exact pubrec_same|].
    eexists. start_place. refine (eq_trans (ack_factor V5PubRec.reason_of pubrec_code V5PubRec.Success V5PubRec.extract V5PubRec.mkPubRec PubRec pubrec_of b1 hdr id c s Hid Hs) _).
    reflexivity.
  - destruct Hl as (H1 & id & c & Hid & ->). eexists; exists pubrel_record, V5PubRel.extract.
    split; [exact pubrel_extract_ok|]. split; [exact pubrel_extract_bad|]. split; [exact pubrel_same|].
    eexists. start_place. refine (eq_trans (ack_factor V5PubRel.reason_of pubrel_code V5PubRel.Success V5PubRel.extract V5PubRel.mkPubRel PubRel pubrel_of b1 hdr id c s Hid Hs) _).
    reflexivity.
  - destruct Hl as (H1 & id & c & Hid & ->). eexists; exists pubcomp_record, V5PubComp.extract.
    split; [exact pubcomp_extract_ok|]. split; [exact pubcomp_extract_bad|]. split; [exact pubcomp_same|].
    eexists. start_place. refine (eq_trans (ack_factor V5PubComp.reason_of pubcomp_code V5PubComp.Success V5PubComp.extract V5PubComp.mkPubComp PubComp pubcomp_of b1 hdr id c s Hid Hs) _).
    reflexivity.
  - destruct Hl as (H1 & id & Hid & ->). eexists; exists subscribe_record, V5Subscribe.extract.
    split; [exact subscribe_extract_ok|]. split; [exact subscribe_extract_bad|]. split; [exact subscribe_same|].
    eexists. start_place. unfold V5Subscribe.read.
    rewrite (rbind_ok _ _ _ tt _) by (apply advance_app; reflexivity).
    rewrite (rbind_ok _ _ _ _ _ (read_u16_be16 _ _ Hid)).
    rewrite (rbind_factor V5Subscribe.extract). reflexivity.
  - destruct Hl as (H1 & id & Hid & ->). eexists; exists suback_record, V5SubAck.extract.
    split; [exact suback_extract_ok|]. split; [exact suback_extract_bad|]. split; [exact suback_same|].
    eexists. start_place. unfold V5SubAck.read.
    rewrite (rbind_ok _ _ _ tt _) by (apply advance_app; reflexivity).
    rewrite (rbind_ok _ _ _ _ _ (read_u16_be16 _ _ Hid)).
    rewrite (rbind_factor V5SubAck.extract). reflexivity.
  - destruct Hl as (H1 & id & Hid & ->). eexists; exists unsubscribe_record, V5Unsubscribe.extract.
    split; [exact unsubscribe_extract_ok|]. split; [exact unsubscribe_extract_bad|]. split; [exact unsubscribe_same|].
    eexists. start_place. unfold V5Unsubscribe.read.
    rewrite (rbind_ok _ _ _ tt _) by (apply advance_app; reflexivity).
    rewrite (rbind_ok _ _ _ _ _ (read_u16_be16 _ _ Hid)).
    rewrite (rbind_factor V5Unsubscribe.extract). reflexivity.
  - destruct Hl as (H1 & id & Hid & ->). eexists; exists unsuback_record, V5UnsubAck.extract.
    split; [exact unsuback_extract_ok|]. split; [exact unsuback_extract_bad|]. split; [exact unsuback_same|].
    eexists. start_place. unfold V5UnsubAck.read.
    rewrite (rbind_ok _ _ _ tt _) by (apply advance_app; reflexivity).
    rewrite (rbind_ok _ _ _ _ _ (read_u16_be16 _ _ Hid)).
    rewrite (rbind_factor V5UnsubAck.extract). reflexivity.
  - destruct Hl as (-> & c & ->). eexists; exists disconnect_record, V5Disconnect.extract.
    split; [exact disconnect_extract_ok|]. split; [exact disconnect_extract_bad|]. split; [exact disconnect_same|].
    eexists. intros hdr s Hs; rewrite read_frame_type by (auto; autorewrite with blen; lia).
    rewrite (type_of_b1 _ _ _ 14 Hb1 eq_refl). cbv iota.
    unfold V5Disconnect.read. cbv zeta.
    rewrite (rbind_ok _ _ _ tt _) by (apply advance_app; reflexivity).
    cbn [ProofV4Read.hd byte1 remaining_len].
    change (negb (N.shiftr 0xE0 4 =? packet_type_u8 PT_Disconnect)) with false.
    change (negb (N.land 0xE0 15 =? 0)) with false. cbv iota.
    replace (blen ([disconnect_code c] ++ s) =? 0) with false by (autorewrite with blen; lia). cbn [app].
    rewrite (rbind_ok _ _ _ _ _ (read_u8_cons _ _)).
    rewrite (rbind_ok _ _ _ c s) by (unfold rlift; rewrite disconnect_of; reflexivity).
    rewrite (rbind_factor V5Disconnect.extract). reflexivity.
Qed.

Lemma section_dec {R} pl (rec : list item -> R) f plen its bs : lenfield f plen -> blen f <= 4 -> 0 < plen ->
  section (allowed_at pl) plen its bs -> decodes_props (allowed_at pl) rec (Some (rec its)) (f ++ bs).
Proof. intros. exists f, plen, its, bs. repeat split; assumption. Qed.

(** an identifier that does not belong to the packet, behind any number of properties
    that do *)
Lemma place_bad s pl b1 pre f plen its bs c id suf rest max : bytes_ok s ->
  leads_to pl b1 pre -> lenfield f plen -> blen f <= 4 ->
  reads (allowed_at pl) plen 0 its bs c -> c < plen -> ~ In id (allowed_at pl) ->
  starts_with_frame s b1 (pre ++ f ++ bs ++ id :: suf) rest ->
  blen (pre ++ f ++ bs ++ id :: suf) <= max ->
  read s max = (Err (InvalidPropertyType id), rest).
Proof.
  intros Hb Hl Hf Hf4 Hr Hc Hid (g & -> & Hg & Hg4) Hm.
  assert (Hb1 : b1 < 256) by (apply bytes_ok_cons in Hb; apply Hb).
  assert (Hbd := le_huge _ (lenfield_bound _ _ Hg Hg4)).
  rewrite read_complete_frame by assumption. f_equal.
  autorewrite with blen in Hbd.
  destruct (place_factor pl b1 pre Hb1 ltac:(lia) Hl) as (R & rec & ex & _ & Hbad & _ & k & Hk).
  rewrite Hk by (autorewrite with blen; lia).
  rewrite (Hbad f plen its bs c id suf) by (auto; lia). reflexivity.
Qed.

(** two sections with the same property set, before the same bytes, give the same result *)
Lemma place_same s s' pl b1 pre f plen its bs f' plen' its' bs' suf rest max :
  bytes_ok s -> bytes_ok s' -> leads_to pl b1 pre ->
  lenfield f plen -> blen f <= 4 -> 0 < plen -> section (allowed_at pl) plen its bs ->
  lenfield f' plen' -> blen f' <= 4 -> 0 < plen' -> section (allowed_at pl) plen' its' bs' ->
  same_props its its' ->
  starts_with_frame s b1 (pre ++ f ++ bs ++ suf) rest -> blen (pre ++ f ++ bs ++ suf) <= max ->
  starts_with_frame s' b1 (pre ++ f' ++ bs' ++ suf) rest -> blen (pre ++ f' ++ bs' ++ suf) <= max ->
  read s max = read s' max.
Proof.
  intros Hb Hb' Hl Hf Hf4 Hp Hs Hf' Hf4' Hp' Hs' Hsame (g & -> & Hg & Hg4) Hm (g' & -> & Hg' & Hg4') Hm'.
  assert (Hb1 : b1 < 256) by (apply bytes_ok_cons in Hb; apply Hb).
  assert (Hbd := le_huge _ (lenfield_bound _ _ Hg Hg4)). assert (Hbd' := le_huge _ (lenfield_bound _ _ Hg' Hg4')).
  rewrite !read_complete_frame by assumption. f_equal.
  autorewrite with blen in Hbd, Hbd'.
  assert (Hn := lenfield_nonempty _ _ Hf). assert (Hn' := lenfield_nonempty _ _ Hf').
  destruct (place_factor pl b1 pre Hb1 ltac:(lia) Hl) as (R & rec & ex & Hok & _ & Hrec & k & Hk).
  rewrite !Hk by (autorewrite with blen; lia).
  rewrite (app_assoc f bs suf), (Hok (Some (rec its))) by
    (first [autorewrite with blen; lia | apply (section_dec pl rec f plen); assumption]).
  rewrite (app_assoc f' bs' suf), (Hok (Some (rec its'))) by
    (first [autorewrite with blen; lia | apply (section_dec pl rec f' plen'); assumption]).
  rewrite (Hrec its its' Hsame). reflexivity.
Qed.

(** how much of the frame a section takes *)
Lemma reads_pos allowed plen c its bs c' : reads allowed plen c its bs c' ->
  c' = c + blen bs + ids_n its.
Proof.
  induction 1 as [c|c id v vb its bs c' Hc Hin Hok He Hr IH].
  - change (ids_n []) with 0. change (blen []) with 0. lia.
  - rewrite ids_n_cons. autorewrite with blen. unfold counted in IH. cbn [fst]. lia.
Qed.
Lemma ids_n_all its : Forall item_ok its -> ids_n its = blen (all_ids its).
Proof.
  induction 1 as [|[id v] its [[Hp _] _] _ IH]; [reflexivity|]. rewrite ids_n_cons. cbn [fst snd] in *.
  change (all_ids ((id, v) :: its)) with (match v with VVar n => if id =? 11 then [n] else [] | _ => [] end ++ all_ids its).
  destruct (N.eqb_spec id 11) as [->|Hne].
  - destruct v; try discriminate Hp. rewrite IH. cbn [app]. rewrite blen_cons. lia.
  - rewrite IH. destruct v; reflexivity.
Qed.
Lemma reads_app allowed plen : forall its c bs c', reads allowed plen c its bs c' ->
  forall its0 it, its = its0 ++ [it] ->
  exists bs0 vb c0, bs = bs0 ++ fst it :: vb /\ value_enc (snd it) vb /\ In (fst it) allowed /\ item_ok it /\
    reads allowed plen c its0 bs0 c0 /\ c0 < plen /\ c' = c0 + counted (fst it) (1 + blen vb).
Proof.
  intros its c bs c' H. induction H as [c|c id v vb its bs c' Hc Hin Hok He Hr IH]; intros its0 it E.
  - destruct its0; discriminate E.
  - destruct its0 as [|x its0]; cbn [app] in E; injection E as E1 E2.
    + subst it. subst its. inversion Hr; subst. exists [], vb, c. cbn [fst snd app].
      rewrite app_nil_r. repeat split; auto; try apply Hok. constructor.
    + destruct (IH _ _ E2) as (bs0 & vb0 & c0 & -> & H1 & H2 & H3 & H4 & H5 & H6). subst x.
      exists (id :: vb ++ bs0), vb0, c0. split; [cbn [app]; rewrite <- app_assoc; reflexivity|].
      repeat split; auto; try apply H3. constructor; auto.
Qed.
Lemma reads_relen allowed plen plen' c its bs c' : reads allowed plen c its bs c' ->
  c' <= plen' -> reads allowed plen' c its bs c'.
Proof.
  induction 1 as [c|c id v vb its bs c' Hc Hin Hok He Hr IH]; intros H; constructor; auto.
  apply reads_pos in Hr. unfold counted in Hr. destruct (id =? 11); lia.
Qed.
Lemma reads_snoc allowed plen c its bs c' id v vb : reads allowed plen c its bs c' ->
  c' < plen -> In id allowed -> item_ok (id, v) -> value_enc v vb ->
  reads allowed plen c (its ++ [(id, v)]) (bs ++ id :: vb) (c' + counted id (1 + blen vb)).
Proof.
  induction 1 as [c|c id' v' vb' its bs c' Hc Hin Hok He Hr IH]; intros H1 H2 H3 H4; cbn [app].
  - replace (id :: vb) with (id :: vb ++ []) by (rewrite app_nil_r; reflexivity). constructor; auto. constructor.
  - rewrite <- app_assoc. constructor; auto.
Qed.

(** [bs] without its last property is shorter than declared, [bs] is at least as long
    -- up to one byte per subscription identifier; every declared length in this range
    describes the same section *)
Lemma section_extent allowed plen its bs : 0 < plen -> section allowed plen its bs ->
  exists its0 it bs0 vb, its = its0 ++ [it] /\ bs = bs0 ++ fst it :: vb /\ value_enc (snd it) vb /\
    blen bs0 + blen (all_ids its0) < plen /\ plen <= blen bs + blen (all_ids its) /\
    forall plen', blen bs0 + blen (all_ids its0) < plen' -> plen' <= blen bs + blen (all_ids its) ->
      section allowed plen' its bs.
Proof.
  intros Hp (c & Hr & Hc).
  assert (Hok : Forall item_ok its)
    by (apply reads_items in Hr; eapply Forall_impl; [|exact Hr]; intros a Ha; apply Ha).
  destruct (list_eq_dec N.eq_dec (map fst its) []) as [E|E].
  - destruct its; [|discriminate E]. inversion Hr; subst. lia.
  - destruct (exists_last (l := its)) as (its0 & it & ->); [intros ->; apply E; reflexivity|].
    destruct (reads_app _ _ _ _ _ _ Hr its0 it eq_refl) as (bs0 & vb & c0 & -> & H1 & H2 & H3 & H4 & H5 & H6).
    exists its0, it, bs0, vb. split; [reflexivity|]. split; [reflexivity|]. split; [exact H1|].
    assert (Hpos := reads_pos _ _ _ _ _ _ Hr). assert (Hpos0 := reads_pos _ _ _ _ _ _ H4).
    rewrite ids_n_all in Hpos by assumption.
    rewrite ids_n_all in Hpos0 by (apply Forall_app in Hok; apply Hok).
    split; [lia|]. split; [lia|]. intros plen' L1 L2. exists c. split; [|lia].
    rewrite H6. destruct it as [id v]. cbn [fst snd] in *.
    apply reads_snoc; auto; [|lia]. apply (reads_relen allowed plen); [exact H4|lia].
Qed.

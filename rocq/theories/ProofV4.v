(** ProofV4.v -- consequences for the v4 module: round trip, canonical values,
    re-encoding, streams. *)
From Verif Require Import ProofBase Utf8 ProofUtf8 Lib ProofLib SpecFrame ProofCheck ProofRead ProofBits
  SpecStream ProofStream SpecV4 ProofV4Write ProofV4Read.

Lemma read_gread s max : read s max = gread read_frame s max.
Proof. reflexivity. Qed.

Lemma positive_dec p : {has_id p} + {~ has_id p}.
Proof.
  destruct p; try (left; exact I). cbn [has_id].
  destruct (positive_qos (V4Publish.qos p)); [|left; discriminate].
  destruct (N.eq_dec (V4Publish.pkid p) 0) as [E|E].
  - right. intros H. apply H; [reflexivity|exact E].
  - left. intros _. exact E.
Qed.

(** *** ranges of the encoded bytes *)
Lemma first_byte_ok p : first_byte p < 256.
Proof.
  destruct p; cbn [first_byte]; try lia.
  destruct (V4Publish.dup p), (V4Publish.qos p), (V4Publish.retain p); cbn; lia.
Qed.
Lemma connect_flags_ok c : connect_flags c < 256.
Proof.
  unfold connect_flags.
  destruct (V4Connect.clean_session c), (V4Connect.last_will c) as [[t m [] []]|], (V4Connect.login c) as [[u p]|];
    cbn [V4Connect.lw_qos V4Connect.lw_retain V4Connect.username V4Connect.password bit qos_num];
    try (destruct (nonempty u), (nonempty p)); cbn [bit]; lia.
Qed.
Lemma utf8_MQTT : is_utf8 MQTT.
Proof. apply utf8_ok_spec. reflexivity. Qed.
Lemma body_bytes p : typed p -> bytes_ok (body p).
Proof.
  destruct p; cbn [typed body]; intros H;
    repeat (rewrite bytes_ok_app || rewrite bytes_ok_cons); repeat split;
    try apply bytes_ok_be16; try apply bytes_ok_nil.
  - apply bytes_ok_field. apply is_utf8_bytes, utf8_MQTT.
  - destruct (V4Connect.protocol c); cbn; lia.
  - apply connect_flags_ok.
  - apply bytes_ok_field, is_utf8_bytes, H.
  - destruct H as (_ & _ & Hw & _). destruct (V4Connect.last_will c) as [w|]; cbn [opt]; [|apply bytes_ok_nil].
    apply bytes_ok_app. split; apply bytes_ok_field; [apply is_utf8_bytes|]; apply Hw.
  - destruct H as (_ & _ & _ & Hlg). destruct (V4Connect.login c) as [l|]; cbn [opt]; [|apply bytes_ok_nil].
    destruct Hlg as [Hu Hp]. unfold login_bytes. apply bytes_ok_app.
    split; [destruct (nonempty (V4Connect.username l))|destruct (nonempty (V4Connect.password l))];
      auto using bytes_ok_nil, bytes_ok_field, is_utf8_bytes.
  - destruct (V4ConnAck.session_present c); cbn; lia.
  - destruct (V4ConnAck.code c); cbn; lia.
  - apply bytes_ok_field, is_utf8_bytes, H.
  - destruct (positive_qos (V4Publish.qos p)); [apply bytes_ok_be16|apply bytes_ok_nil].
  - apply H.
  - destruct H as [_ H]. induction H as [|f l Hf _ IH]; [constructor|]. cbn [flat_map].
    rewrite !bytes_ok_app, bytes_ok_cons. repeat split; auto using bytes_ok_nil, bytes_ok_field, is_utf8_bytes.
    destruct (V4Subscribe.qos f); cbn; lia.
  - induction (V4SubAck.return_codes s) as [|c l IH]; [constructor|]. cbn [map]. apply bytes_ok_cons.
    split; [destruct c as [[]|]; cbn; lia|exact IH].
  - destruct H as [_ H]. induction H as [|f l Hf _ IH]; [constructor|]. cbn [flat_map].
    rewrite !bytes_ok_app. auto using bytes_ok_field, is_utf8_bytes.
Qed.
Lemma frame_bytes b1 bd : b1 < 256 -> bytes_ok bd -> blen bd <= max_len -> bytes_ok (frame b1 bd).
Proof.
  intros. unfold frame. apply bytes_ok_cons. split; [assumption|]. apply bytes_ok_app.
  split; [apply varint_bytes; assumption|assumption].
Qed.
Lemma wire_bytes p : fits p -> bytes_ok (wire p).
Proof.
  intros (Ht & _ & _ & Hl). apply frame_bytes; auto using first_byte_ok, body_bytes.
Qed.

(** *** the grammar contains the encodings *)
Lemma bit_at_connect c :
  let f := connect_flags c in
  bit_at 1 f = V4Connect.clean_session c /\
  bit_at 2 f = is_some (V4Connect.last_will c) /\
  f / 8 mod 8 = match V4Connect.last_will c with
                | Some w => qos_num (V4Connect.lw_qos w) + 4 * bit (V4Connect.lw_retain w) | None => 0 end /\
  f / 8 mod 4 = match V4Connect.last_will c with
                | Some w => qos_num (V4Connect.lw_qos w) | None => 0 end /\
  bit_at 5 f = match V4Connect.last_will c with Some w => V4Connect.lw_retain w | None => false end /\
  bit_at 6 f = match V4Connect.login c with Some l => nonempty (V4Connect.password l) | None => false end /\
  bit_at 7 f = match V4Connect.login c with Some l => nonempty (V4Connect.username l) | None => false end.
Proof.
  cbv zeta. unfold connect_flags.
  destruct (V4Connect.clean_session c), (V4Connect.last_will c) as [[t m [] []]|], (V4Connect.login c) as [[u p]|];
    cbn [V4Connect.lw_qos V4Connect.lw_retain V4Connect.username V4Connect.password is_some];
    try (destruct (nonempty u), (nonempty p)); repeat split; reflexivity.
Qed.
Lemma bit_at_publish d q r :
  let b := 0x30 + 8 * bit d + 2 * qos_num q + bit r in
  b / 16 = 3 /\ bit_at 3 b = d /\ b / 2 mod 4 = qos_num q /\ bit_at 0 b = r.
Proof. destruct d, q, r; repeat split; reflexivity. Qed.

Lemma nonempty_false {A} (l : list A) : nonempty l = false -> l = [].
Proof. destruct l; [reflexivity|discriminate]. Qed.

Lemma decodes_wire p : fits p -> has_payload p -> decodes_body (first_byte p) (body p) (canon p).
Proof.
  intros (Ht & Hs & Hi & Hl) Hp. destruct p; cbn [canon decodes_body first_byte].
  - (* Connect *)
    cbn [V4Connect.protocol V4Connect.keep_alive V4Connect.client_id V4Connect.clean_session V4Connect.last_will V4Connect.login].
    split; [reflexivity|].
    destruct (bit_at_connect c) as (B1 & B2 & B8 & B4 & B5 & B6 & B7).
    destruct Ht as (Hka & Hcu & Hw & Hlg). destruct Hs as (Hcs & Hws & Hls).
    exists (connect_flags c), (opt will_bytes (V4Connect.last_will c)).
    exists (match V4Connect.login c with Some l => if nonempty (V4Connect.username l) then field (V4Connect.username l) else [] | None => [] end).
    exists (match V4Connect.login c with Some l => if nonempty (V4Connect.password l) then field (V4Connect.password l) else [] | None => [] end).
    exists (match V4Connect.login c with Some l => V4Connect.username l | None => [] end).
    exists (match V4Connect.login c with Some l => V4Connect.password l | None => [] end), [].
    split; [apply connect_flags_ok|]. split.
    { cbn [body]. destruct (V4Connect.login c) as [l|]; cbn [opt]; unfold login_bytes; rewrite ?app_nil_r; reflexivity. }
    split; [exact Hka|]. split; [exact Hcu|]. split; [exact Hcs|]. split; [congruence|].
    split.
    { unfold decodes_will. destruct (V4Connect.last_will c) as [w|] eqn:Ew; cbn [opt is_some] in *.
      - destruct Hw, Hws. repeat split; auto.
      - auto. }
    rewrite B6, B7. unfold decodes_opt_string.
    destruct (V4Connect.login c) as [[u pw]|] eqn:El; cbn [V4Connect.username V4Connect.password on_some] in *.
    + destruct Hlg as [Hu Hpw]. destruct Hls as [Hus Hps]. cbn [V4Connect.username V4Connect.password] in *.
      split; [|split].
      * destruct (nonempty u) eqn:En; [repeat split; assumption|]. split; [reflexivity|apply nonempty_false; assumption].
      * destruct (nonempty pw) eqn:En; [repeat split; assumption|]. split; [reflexivity|apply nonempty_false; assumption].
      * reflexivity.
    + repeat split; auto.
  - (* ConnAck *)
    split; [reflexivity|]. eexists; eexists. split; [reflexivity|].
    destruct (V4ConnAck.session_present c); reflexivity.
  - (* Publish *)
    cbn [V4Publish.dup V4Publish.qos V4Publish.retain V4Publish.topic V4Publish.pkid V4Publish.payload].
    destruct (bit_at_publish (V4Publish.dup p) (V4Publish.qos p) (V4Publish.retain p)) as (B1 & B2 & B3 & B4).
    destruct Ht as (Hu & Hid & Hpl). repeat split; auto.
    + cbn [body]. destruct (positive_qos (V4Publish.qos p)); reflexivity.
    + cbn [has_id] in Hi. destruct (positive_qos (V4Publish.qos p)) eqn:Eq; [|reflexivity].
      specialize (Hi eq_refl). split; [lia|exact Hid].
  - split; [reflexivity|]. split; [exact Ht|]. exists []. rewrite app_nil_r. reflexivity.
  - split; [reflexivity|]. split; [exact Ht|]. exists []. rewrite app_nil_r. reflexivity.
  - split; [reflexivity|]. split; [exact Ht|]. exists []. rewrite app_nil_r. reflexivity.
  - split; [reflexivity|]. split; [exact Ht|]. exists []. rewrite app_nil_r. reflexivity.
  - (* Subscribe *)
    split; [reflexivity|]. destruct Ht as [Hid Hf]. split; [exact Hid|]. split; [exact Hp|].
    exists (map (fun f => qos_num (V4Subscribe.qos f)) (V4Subscribe.filters s)). cbn [short_fields] in Hs.
    split.
    + clear - Hf Hs. induction (V4Subscribe.filters s) as [|f l IH]; [constructor|].
      apply Forall_cons_iff in Hf as [Hf Hfl]. apply Forall_cons_iff in Hs as [Hs Hsl].
      cbn [map]. constructor; [|auto]. destruct (V4Subscribe.qos f); repeat split; assumption.
    + cbn [body]. f_equal. clear. induction (V4Subscribe.filters s) as [|f l IH]; [reflexivity|].
      cbn [map combine flat_map fst snd]. rewrite IH. reflexivity.
  - split; [reflexivity|]. split; [exact Ht|]. split; [exact Hp|reflexivity].
  - split; [reflexivity|]. destruct Ht as [Hid Hf]. split; [exact Hid|]. split; [|reflexivity].
    cbn [short_fields] in Hs. rewrite Forall_forall in *. intros t Hin. auto.
  - split; [reflexivity|]. split; [exact Ht|reflexivity].
  - reflexivity.
  - reflexivity.
  - reflexivity.
Qed.

(** *** whatever decodes is a well-formed canonical value with a body no longer
    than the one it came from *)
Lemma decodes_fits b1 bd p : bytes_ok bd -> blen bd <= max_len -> decodes_body b1 bd p ->
  fits p /\ has_payload p /\ canonical p /\ blen (body p) <= blen bd.
Proof.
  intros Hb Hl Hd. unfold fits.
  assert (Hgoal : (typed p /\ short_fields p /\ has_id p) /\ has_payload p /\ canonical p /\ blen (body p) <= blen bd).
  2: { destruct Hgoal as ((H1 & H2 & H3) & H4 & H5 & H6). repeat split; auto. lia. }
  destruct p; cbn [decodes_body] in Hd; cbn [typed short_fields has_id has_payload canonical].
  - destruct Hd as (_ & flags & wbs & ubs & pbs & u & pw & junk & Hf & Ebd & Hka & Hcu & Hcs & Hcl & Hw & Hu & Hp & Hlg).
    rewrite canon_login_spec in Hlg.
    assert (Hbytes : bytes_ok wbs).
    { rewrite Ebd in Hb. repeat (rewrite bytes_ok_app in Hb || rewrite bytes_ok_cons in Hb). tauto. }
    assert (Hw' : on_some typed_will (V4Connect.last_will c) /\
       on_some (fun w => short (V4Connect.lw_topic w) /\ short (V4Connect.lw_message w)) (V4Connect.last_will c) /\
       blen (opt will_bytes (V4Connect.last_will c)) = blen wbs).
    { unfold decodes_will in Hw. destruct (V4Connect.last_will c) as [w|]; cbn [on_some opt].
      - destruct Hw as (_ & _ & _ & -> & Hu1 & Hs1 & Hs2). repeat split; auto.
        apply bytes_ok_app in Hbytes as [_ Hbytes]. apply bytes_ok_app in Hbytes. apply Hbytes.
      - destruct Hw as (-> & _). auto. }
    destruct Hw' as (Hw1 & Hw2 & Hw3).
    assert (Hus : is_string u /\ short u /\ blen (if nonempty u then field u else []) <= blen ubs).
    { unfold decodes_opt_string in Hu. destruct (bit_at 7 flags).
      - destruct Hu as (-> & H1 & H2). repeat split; auto. destruct (nonempty u); autorewrite with blen; lia.
      - destruct Hu as (-> & ->). repeat split; [exists []; repeat constructor| | ]; cbv; discriminate. }
    assert (Hps : is_string pw /\ short pw /\ blen (if nonempty pw then field pw else []) <= blen pbs).
    { unfold decodes_opt_string in Hp. destruct (bit_at 6 flags).
      - destruct Hp as (-> & H1 & H2). repeat split; auto. destruct (nonempty pw); autorewrite with blen; lia.
      - destruct Hp as (-> & ->). repeat split; [exists []; repeat constructor| | ]; cbv; discriminate. }
    destruct Hus as (Hu1 & Hu2 & Hu3). destruct Hps as (Hp1 & Hp2 & Hp3).
    rewrite !nonempty_empty, <- negb_orb in Hlg.
    assert (Hlen : blen (body (Connect c)) <= blen bd).
    { rewrite Ebd. cbn [body]. autorewrite with blen. rewrite Hw3.
      assert (Hx : blen (opt login_bytes (V4Connect.login c)) <= blen ubs + blen pbs); [|lia].
      rewrite Hlg. destruct (nonempty u || nonempty pw); cbn [negb opt];
        [|autorewrite with blen; lia].
      unfold login_bytes. cbn [V4Connect.username V4Connect.password]. autorewrite with blen. lia. }
    repeat split; auto; rewrite Hlg; destruct (nonempty u || nonempty pw) eqn:En; cbn [negb on_some]; auto.
    split; assumption.
  - destruct Hd as (_ & flags & junk & -> & _). repeat split; auto. cbn [body]. autorewrite with blen. lia.
  - destruct Hd as (_ & _ & _ & _ & Ebd & Hu & Hs & Hid).
    assert (Hpl : bytes_ok (V4Publish.payload p)).
    { rewrite Ebd in Hb. rewrite !bytes_ok_app in Hb. tauto. }
    rewrite Ebd. cbn [body]. repeat split; auto.
    + destruct (positive_qos (V4Publish.qos p)); [apply Hid|rewrite Hid; cbv; reflexivity].
    + intros Hq. rewrite Hq in Hid. lia.
    + intros Hq. rewrite Hq in Hid. exact Hid.
    + lia.
  - destruct Hd as (_ & Hid & junk & ->). repeat split; auto. cbn [body]. autorewrite with blen. lia.
  - destruct Hd as (_ & Hid & junk & ->). repeat split; auto. cbn [body]. autorewrite with blen. lia.
  - destruct Hd as (_ & Hid & junk & ->). repeat split; auto. cbn [body]. autorewrite with blen. lia.
  - destruct Hd as (_ & Hid & junk & ->). repeat split; auto. cbn [body]. autorewrite with blen. lia.
  - destruct Hd as (_ & Hid & Hne & options & HF & ->).
    split; [split; [split; [exact Hid|]|split; [|exact I]]|].
    + clear - HF. induction HF as [|f o l l' H _ IH]; constructor; [apply H|exact IH].
    + clear - HF. induction HF as [|f o l l' H _ IH]; constructor; [apply H|exact IH].
    + repeat split; auto. cbn [body]. autorewrite with blen.
      apply N.add_le_mono_l. clear - HF. induction HF as [|f o l l' H _ IH]; [cbn; lia|].
      cbn [flat_map combine fst snd]. autorewrite with blen. lia.
  - destruct Hd as (_ & Hid & Hne & ->). repeat split; auto. cbn [body]. lia.
  - destruct Hd as (_ & Hid & HF & ->).
    split; [split; [split; [exact Hid|]|split; [|exact I]]|].
    + eapply Forall_impl; [|exact HF]. cbn. tauto.
    + eapply Forall_impl; [|exact HF]. cbn. tauto.
    + repeat split; auto. cbn [body]. lia.
  - destruct Hd as (_ & Hid & ->). repeat split; auto. cbn [body]. lia.
  - repeat split; auto. cbn [body]. autorewrite with blen. lia.
  - repeat split; auto. cbn [body]. autorewrite with blen. lia.
  - repeat split; auto. cbn [body]. autorewrite with blen. lia.
Qed.

Lemma canonical_canon p : canonical p -> canon p = p.
Proof.
  destruct p; cbn [canonical canon]; auto; intros H.
  - f_equal. destruct c as [pr ka cid cl w [l|]]; cbn [V4Connect.login on_some canon_login V4Connect.protocol V4Connect.keep_alive V4Connect.client_id V4Connect.clean_session V4Connect.last_will] in *.
    + rewrite H. reflexivity.
    + reflexivity.
  - f_equal. destruct p as [d q r t id pl]; cbn [V4Publish.dup V4Publish.qos V4Publish.retain V4Publish.topic V4Publish.pkid V4Publish.payload] in *.
    destruct (positive_qos q); [reflexivity|]. rewrite H; reflexivity.
Qed.
Lemma canon_canonical p : canonical (canon p).
Proof.
  destruct p; cbn [canonical canon]; auto.
  - cbn. destruct (V4Connect.login c) as [l|]; cbn [canon_login on_some]; [|exact I].
    destruct (nonempty (V4Connect.username l) || nonempty (V4Connect.password l)) eqn:E; cbn [on_some]; [exact E|exact I].
  - cbn. intros ->. reflexivity.
Qed.

(** *** round trip *)
Lemma read_wire p rest max : fits p -> has_payload p -> bytes_ok rest -> blen (body p) <= max ->
  read (wire p ++ rest) max = (Ok (canon p), rest).
Proof.
  intros Hf Hp Hr Hm. apply read_iff.
  - apply bytes_ok_app. split; [apply wire_bytes, Hf|exact Hr].
  - exists (first_byte p), (body p). split; [|split; [exact Hm|apply decodes_wire; assumption]].
    exists (varint (blen (body p))). unfold wire, frame. cbn [app]. rewrite <- app_assoc.
    split; [reflexivity|]. split; [apply lenfield_varint, Hf|]. apply varint_len_bound.
Qed.

Lemma write_empty p : blen (body p) <= max_len -> has_id p ->
  snd (write p []) = wire p /\ exists n, fst (write p []) = Ok n.
Proof.
  intros Hl Hi. assert (Hc : (exists c, p = Connect c) \/ not_connect p) by (destruct p; cbn; eauto).
  destruct Hc as [[c ->]|Hc].
  - rewrite connect_write_empty by assumption. split; [reflexivity|eexists; reflexivity].
  - assert (W := write_ok p Hc Hi Hl []). rewrite W. split; [reflexivity|eexists; reflexivity].
Qed.

Lemma connect_dec p : {c | p = Connect c} + {not_connect p}.
Proof. destruct p; try (right; exact I). left. eauto. Qed.
Lemma declared_body p : has_id p -> declared_len p = blen (body p).
Proof.
  destruct p; cbn [has_id declared_len]; intros H; try reflexivity.
  destruct (positive_qos (V4Publish.qos p)) eqn:E; cbn [andb]; [|reflexivity].
  specialize (H eq_refl). replace (V4Publish.pkid p =? 0) with false by lia. reflexivity.
Qed.

Lemma write_appends p : ~ is_connect p -> exists r out, forall buf, write p buf = (r, buf ++ out).
Proof.
  intros Hc. assert (Hn : not_connect p) by (destruct p; try exact I; apply Hc; exact I).
  destruct (N.le_gt_cases (declared_len p) max_len) as [Hl|Hl].
  - destruct (positive_dec p) as [Hi|Hi].
    + rewrite declared_body in Hl by exact Hi. eexists; eexists; intros buf. apply (write_ok p Hn Hi Hl).
    + eexists; eexists; intros buf. apply (write_id_zero p Hl Hi).
  - eexists; eexists; intros buf. apply (write_too_long p Hl).
Qed.
Lemma write_size p buf n buf' : ~ is_connect p -> write p buf = (Ok n, buf') -> blen buf' = blen buf + n.
Proof.
  intros Hc. assert (Hn : not_connect p) by (destruct p; try exact I; apply Hc; exact I).
  destruct (N.le_gt_cases (declared_len p) max_len) as [Hl|Hl].
  - destruct (positive_dec p) as [Hi|Hi].
    + rewrite declared_body in Hl by exact Hi. rewrite (write_ok p Hn Hi Hl buf). intros H.
      injection H as <- <-. autorewrite with blen. reflexivity.
    + rewrite (write_id_zero p Hl Hi buf). discriminate.
  - rewrite (write_too_long p Hl buf). discriminate.
Qed.
Lemma overwrite_len i v l : i < blen l -> blen (overwrite i v l) = blen l.
Proof.
  intros H. unfold overwrite, blen in *. rewrite app_length. cbn [List.length].
  rewrite firstn_length, skipn_length. lia.
Qed.
Lemma connect_body_min c : 10 <= blen (body (Connect c)).
Proof. cbn [body]. autorewrite with blen. change (blen MQTT) with 4. lia. Qed.
Lemma flags_index_lt c fl buf : flags_index c < blen (buf ++ frame 0x10 (connect_body_with fl c)).
Proof.
  unfold flags_index, frame. rewrite blen_app, blen_cons, blen_app, !connect_body_with_len.
  assert (H := connect_body_min c). lia.
Qed.
Lemma pair_ok_inv {A B} (a a' : A) (b b' : B) : (Ok a, b) = (Ok a', b') -> a = a' /\ b = b'.
Proof. intros H. injection H as -> ->. auto. Qed.
Lemma connect_size c buf n buf' : write (Connect c) buf = (Ok n, buf') ->
  n = blen (body (Connect c)) /\ blen buf' = blen buf + 1 + blen (varint n) + n.
Proof.
  destruct (N.le_gt_cases (blen (body (Connect c))) max_len) as [Hl|Hl].
  - rewrite connect_write_general by exact Hl. intros H. apply pair_ok_inv in H as [<- <-]. split; [reflexivity|].
    rewrite overwrite_len by apply flags_index_lt. unfold frame.
    rewrite blen_app, blen_cons, blen_app, !connect_body_with_len. lia.
  - rewrite (write_too_long (Connect c) Hl buf). discriminate.
Qed.

Lemma write_outcome p buf :
  (fst (write p buf) = Err PayloadTooLong <-> max_len < declared_len p) /\
  (fst (write p buf) = Err PacketIdZero <-> declared_len p <= max_len /\ ~ has_id p) /\
  ((exists n, fst (write p buf) = Ok n) <-> blen (body p) <= max_len /\ has_id p) /\
  (fst (write p buf) = Err PayloadTooLong \/ fst (write p buf) = Err PacketIdZero \/
   exists n, fst (write p buf) = Ok n).
Proof.
  assert (Hcase :
    (max_len < declared_len p /\ fst (write p buf) = Err PayloadTooLong) \/
    (declared_len p <= max_len /\ ~ has_id p /\ fst (write p buf) = Err PacketIdZero) \/
    (declared_len p <= max_len /\ has_id p /\ exists n, fst (write p buf) = Ok n)).
  { destruct (N.le_gt_cases (declared_len p) max_len) as [Hl|Hl].
    - destruct (positive_dec p) as [Hi|Hi].
      + right; right. split; [exact Hl|]. split; [exact Hi|]. rewrite declared_body in Hl by exact Hi.
        destruct (connect_dec p) as [[c ->]|Hc].
        * rewrite connect_write_general by exact Hl. eexists; reflexivity.
        * rewrite (write_ok p Hc Hi Hl buf). eexists; reflexivity.
      + right; left. rewrite (write_id_zero p Hl Hi buf). auto.
    - left. rewrite (write_too_long p Hl buf). auto. }
  assert (Hb : has_id p -> declared_len p = blen (body p)) by apply declared_body.
  destruct Hcase as [[Hl E]|[[Hl [Hi E]]|[Hl [Hi [n E]]]]]; rewrite E.
  - assert (Hx : ~ exists n, @Err N PayloadTooLong = Ok n) by (intros [? ?]; discriminate).
    assert (Hy : has_id p -> ~ blen (body p) <= max_len) by (intros Hi; specialize (Hb Hi); lia).
    assert (Hz : @Err N PayloadTooLong <> Err PacketIdZero) by discriminate.
    assert (Hw : ~ declared_len p <= max_len) by lia. tauto.
  - assert (Hx : ~ exists n, @Err N PacketIdZero = Ok n) by (intros [? ?]; discriminate).
    assert (Hz : @Err N PacketIdZero <> Err PayloadTooLong) by discriminate.
    assert (Hw : ~ max_len < declared_len p) by lia. tauto.
  - specialize (Hb Hi). rewrite Hb in *.
    assert (Hx : exists m, Ok n = Ok m) by eauto.
    assert (Hy : Ok n <> Err PacketIdZero) by discriminate.
    assert (Hz : Ok n <> Err PayloadTooLong) by discriminate.
    assert (Hw : ~ max_len < blen (body p)) by lia. tauto.
Qed.

Lemma write_failed p buf e buf' : write p buf = (Err e, buf') ->
  (e = PayloadTooLong /\ max_len < declared_len p /\ buf' = buf ++ [first_byte p]) \/
  (e = PacketIdZero /\ ~ has_id p /\ buf' = buf ++ id_zero_output p).
Proof.
  intros H. destruct (N.le_gt_cases (declared_len p) max_len) as [Hl|Hl].
  - destruct (positive_dec p) as [Hi|Hi].
    + rewrite declared_body in Hl by exact Hi. destruct (connect_dec p) as [[c ->]|Hc].
      * rewrite connect_write_general in H by exact Hl. discriminate.
      * rewrite (write_ok p Hc Hi Hl buf) in H. discriminate.
    + right. rewrite (write_id_zero p Hl Hi buf) in H. injection H as <- <-. auto.
  - left. rewrite (write_too_long p Hl buf) in H. injection H as <- <-. auto.
Qed.
Lemma write_failed_dirty p buf e buf' : write p buf = (Err e, buf') ->
  exists out, out <> [] /\ buf' = buf ++ out.
Proof.
  intros H. apply write_failed in H as [(_ & _ & ->)|(_ & Hi & ->)].
  - exists [first_byte p]. split; [discriminate|reflexivity].
  - exists (id_zero_output p). split; [|reflexivity].
    destruct p; try (exfalso; apply Hi; exact I). discriminate.
Qed.

(** *** re-encoding, prefixes, streams *)
Lemma wire_shape p : wire p = first_byte p :: varint (blen (body p)) ++ body p.
Proof. reflexivity. Qed.
Lemma wire_prefix_free p q r r' : fits p -> fits q -> has_payload p -> has_payload q ->
  canonical p -> canonical q -> bytes_ok r -> bytes_ok r' ->
  wire p ++ r = wire q ++ r' -> p = q /\ r = r'.
Proof.
  intros Hp Hq Pp Pq Cp Cq Hr Hr' E.
  assert (H1 := read_wire p r (N.max (blen (body p)) (blen (body q))) Hp Pp Hr ltac:(lia)).
  rewrite E in H1. rewrite (read_wire q r' (N.max (blen (body p)) (blen (body q))) Hq Pq Hr' ltac:(lia)) in H1.
  rewrite (canonical_canon p Cp), (canonical_canon q Cq) in H1. injection H1 as -> ->. auto.
Qed.
Lemma wire_prefix p pre suf max : fits p -> blen (body p) <= max -> wire p = pre ++ suf -> suf <> [] ->
  exists n, read pre max = (Err (InsufficientBytes n), pre) /\ 1 <= n /\ n <= blen suf.
Proof.
  intros Hp Hm E Hs. rewrite wire_shape in E.
  eapply (g_prefix read_frame); eauto.
  - rewrite <- wire_shape. apply wire_bytes, Hp.
  - apply lenfield_varint, Hp.
  - apply varint_len_bound.
Qed.
Lemma reencode s max p rest : bytes_ok s -> read s max = (Ok p, rest) ->
  exists n out, write p [] = (Ok n, out) /\ blen out + blen rest <= blen s /\
    forall rest', bytes_ok rest' -> read (out ++ rest') max = (Ok p, rest').
Proof.
  intros Hb H. apply read_iff in H as (b1 & bd & (f & -> & Hf & Hl) & Hm & Hd); [|exact Hb].
  assert (Hbd : bytes_ok bd).
  { apply bytes_ok_cons in Hb as [_ Hb]. apply bytes_ok_app in Hb as [_ Hb]. apply bytes_ok_app in Hb. apply Hb. }
  assert (Hmax := lenfield_bound f _ Hf Hl).
  destruct (decodes_fits b1 bd p Hbd Hmax Hd) as (Hfit & Hpl & Hc & Hlen).
  destruct (write_empty p) as [E1 [n E2]]; [apply Hfit|apply Hfit|].
  exists n, (wire p). split; [|split].
  - destruct (write p []); cbn [fst snd] in *. congruence.
  - unfold wire, frame. autorewrite with blen.
    assert (Hmono : blen (varint (blen (body p))) <= blen (varint (blen bd))).
    { rewrite !varint_len. unfold len_len.
      repeat match goal with |- context [if ?c then _ else _] => destruct c eqn:? end; lia. }
    assert (Hmin := varint_minimal f (blen bd) Hf Hmax). lia.
  - intros rest' Hr'. rewrite read_wire by (auto; lia). rewrite canonical_canon by exact Hc. reflexivity.
Qed.

Lemma no_insufficient b1 f bd : b1 < 256 -> bytes_ok bd -> is_insufficient (rframe read_frame b1 f bd) = false.
Proof.
  intros Hb1 Hbd. assert (Hs := frame_sound b1 (b1 :: f) bd Hb1 Hbd). unfold hd in Hs. cbn [app] in Hs.
  rewrite blen_cons in Hs. unfold rframe. destruct (read_frame _ _) as [p|e| |]; try reflexivity.
  destruct e; try reflexivity. exfalso. exact (Hs n eq_refl).
Qed.
Lemma stream_chunks chunks chunks' max :
  Forall bytes_ok chunks -> concat chunks = concat chunks' ->
  receive read max false (Waiting, []) chunks = receive read max false (Waiting, []) chunks'.
Proof.
  apply (chunking read_frame max false). right. intros. apply no_insufficient; assumption.
Qed.
Definition frame_of (p : Packet) : N * bytes * bytes := (first_byte p, varint (blen (body p)), body p).
Lemma stream_packets ps chunks max :
  Forall (fun p => fits p /\ has_payload p /\ canonical p /\ blen (body p) <= max) ps ->
  concat chunks = flat_map wire ps ->
  receive read max false (Waiting, []) chunks = (map Ok ps, (Waiting, [])).
Proof.
  intros HF E.
  assert (Hok : bytes_ok (flat_map wire ps)).
  { clear - HF. induction HF as [|p l (Hf & _) _ IH]; [constructor|]. cbn [flat_map].
    apply bytes_ok_app. split; [apply wire_bytes, Hf|exact IH]. }
  rewrite (stream_chunks chunks [flat_map wire ps]).
  - cbn [receive feed app].
    assert (Hd : drain read max false (S (List.length (flat_map wire ps))) (flat_map wire ps) = (map Ok ps, (Waiting, []))).
    { assert (E1 : flat_map wire ps = flat_map fbytes (map frame_of ps)).
      { clear. induction ps as [|p l IH]; [reflexivity|]. cbn [flat_map map]. rewrite IH. reflexivity. }
      rewrite E1. replace (map Ok ps) with (map (fresult read_frame) (map frame_of ps)).
      - apply (drain_frames read_frame max false).
        + right. intros. apply no_insufficient; assumption.
        + clear - HF. induction HF as [|p l (Hf & _ & _ & Hm) _ IH]; [constructor|]. constructor; [|exact IH].
          unfold fok, frame_of. cbn [fst snd]. split; [apply (wire_bytes p Hf)|].
          split; [apply lenfield_varint, Hf|]. split; [apply varint_len_bound|exact Hm].
        + lia.
      - clear - HF. induction HF as [|p l (Hf & Hp & Hc & Hm) _ IH]; [reflexivity|]. cbn [map]. f_equal; [|exact IH].
        unfold fresult, frame_of. cbn [fst snd]. unfold rframe.
        assert (Hx := frame_complete (first_byte p) (first_byte p :: varint (blen (body p))) (body p) (canon p)
          (first_byte_ok p) (body_bytes p (proj1 Hf)) (decodes_wire p Hf Hp)).
        unfold hd in Hx. rewrite blen_cons in Hx. cbn [app] in Hx. rewrite Hx, canonical_canon by exact Hc. reflexivity. }
    rewrite Hd. rewrite app_nil_r. reflexivity.
  - apply Forall_forall. intros c Hc. rewrite <- E in Hok. clear - Hok Hc.
    induction chunks as [|d l IH]; [contradiction|]. cbn [concat] in Hok. apply bytes_ok_app in Hok as [H1 H2].
    destruct Hc as [->|Hc]; auto.
  - cbn [concat]. rewrite app_nil_r. exact E.
Qed.

Lemma read_zero b1 f rest max : bytes_ok (b1 :: f ++ rest) -> lenfield f 0 -> blen f <= 4 ->
  read (b1 :: f ++ rest) max = (zero_length_result b1, rest).
Proof.
  intros Hb Hf Hl. rewrite read_gread. change (f ++ rest) with (f ++ [] ++ rest).
  rewrite g_frame by (auto; autorewrite with blen; lia). f_equal.
  apply bytes_ok_cons in Hb as [Hb1 _].
  unfold rframe, read_frame, packet_type, zero_length_result. cbn [byte1 remaining_len]. rewrite ProofBits.shiftr4 by exact Hb1.
  change (blen [] =? 0) with true.
  assert (Hn : b1 / 16 < 16) by lia. destruct (b1 / 16) as [|n]; [reflexivity|].
  do 4 (try destruct n as [n|n|]); try reflexivity; exfalso; lia.
Qed.

Lemma empty_payload_rejected p rest max :
  fits p -> ~ has_payload p -> bytes_ok rest -> blen (body p) <= max ->
  exists e, read (wire p ++ rest) max = (Err e, rest) /\
    e = match p with Subscribe _ => EmptySubscription | _ => MalformedPacket end.
Proof.
  intros Hf Hp Hr Hm.
  assert (E : wire p ++ rest = first_byte p :: varint (blen (body p)) ++ body p ++ rest)
    by (unfold wire, frame; cbn [app]; rewrite <- app_assoc; reflexivity).
  assert (Hb : bytes_ok (wire p ++ rest)) by (apply bytes_ok_app; split; [apply wire_bytes, Hf|exact Hr]).
  rewrite E in *. rewrite read_gread, g_frame; auto; [|apply lenfield_varint, Hf|apply varint_len_bound].
  eexists. split; [|reflexivity]. f_equal.
  assert (Hid := proj1 Hf).
  destruct p as [| | | | | | |s|s| | | | |]; cbn [has_payload] in Hp; try (exfalso; apply Hp; exact I).
  - destruct s as [id fs]. cbn [V4Subscribe.filters] in Hp. destruct fs; [|exfalso; apply Hp; discriminate].
    cbn [body V4Subscribe.pkid V4Subscribe.filters flat_map typed] in *.
    assert (Hadv : advance 2 ([0x82; 2] ++ be16 id ++ []) = Ok (tt, be16 id ++ [])) by (apply advance_app; reflexivity).
    unfold rframe, read_frame. change (varint (blen (be16 id ++ []))) with [2].
    cbn [packet_type byte1 remaining_len]. change (N.shiftr 130 4) with 8. cbn [obind].
    change (blen (be16 id ++ []) =? 0) with false. cbn [wrap]. unfold V4Subscribe.read. cbn [fixed_header_len].
    change (1 + blen [2]) with 2. rewrite (rbind_ok _ _ _ _ _ Hadv).
    rewrite (rbind_ok _ _ _ _ _ (read_u16_be16 _ _ (proj1 Hid))). reflexivity.
  - destruct s as [id fs]. cbn [V4SubAck.return_codes] in Hp. destruct fs; [|exfalso; apply Hp; discriminate].
    cbn [body V4SubAck.pkid V4SubAck.return_codes map typed] in *.
    assert (Hadv : advance 2 ([0x90; 2] ++ be16 id ++ []) = Ok (tt, be16 id ++ [])) by (apply advance_app; reflexivity).
    unfold rframe, read_frame. change (varint (blen (be16 id ++ []))) with [2].
    cbn [packet_type byte1 remaining_len]. change (N.shiftr 144 4) with 9. cbn [obind].
    change (blen (be16 id ++ []) =? 0) with false. cbn [wrap]. unfold V4SubAck.read. cbn [fixed_header_len].
    change (1 + blen [2]) with 2. rewrite (rbind_ok _ _ _ _ _ Hadv).
    rewrite (rbind_ok _ _ _ _ _ (read_u16_be16 _ _ Hid)). reflexivity.
Qed.

Lemma receiver_exhausts chunks max : Forall bytes_ok chunks ->
  match snd (receive read max false (Waiting, []) chunks) with
  | (Waiting, buf) => exists n, check buf max = Err (InsufficientBytes n)
  | (Stopped, _) => True
  end.
Proof.
  intros HF.
  assert (Hw : false = true \/ forall b1 f bd, b1 < 256 -> bytes_ok bd -> is_insufficient (rframe read_frame b1 f bd) = false)
    by (right; intros; apply no_insufficient; assumption).
  change (settled max (snd (receive (gread read_frame) max false (Waiting, []) chunks))).
  rewrite (receive_concat read_frame max false Hw) by (auto using start_settled, bytes_ok_nil).
  apply feed_settled; auto using bytes_ok_nil. apply Forall_concat, HF.
Qed.

Lemma read_well_formed s max p rest : bytes_ok s -> read s max = (Ok p, rest) ->
  fits p /\ has_payload p /\ canonical p /\ exists b1 t, s = b1 :: t /\ b1 / 16 = kind p.
Proof.
  intros Hb H. apply read_iff in H as (b1 & bd & (f & -> & Hf & Hl) & Hm & Hd); [|exact Hb].
  assert (Hbd : bytes_ok bd).
  { apply bytes_ok_cons in Hb as [_ Hb]. apply bytes_ok_app in Hb as [_ Hb]. apply bytes_ok_app in Hb. apply Hb. }
  destruct (decodes_fits b1 bd p Hbd (lenfield_bound f _ Hf Hl) Hd) as (H1 & H2 & H3 & _).
  split; [exact H1|]. split; [exact H2|]. split; [exact H3|]. exists b1, (f ++ bd ++ rest). split; [reflexivity|].
  destruct p; cbn [decodes_body kind] in *; try (apply Hd); assumption.
Qed.
Lemma read_rejects s b1 bd rest max : bytes_ok s ->
  starts_with_frame s b1 bd rest -> blen bd <= max -> (forall p, ~ decodes_body b1 bd p) ->
  exists e, read s max = (Err e, rest).
Proof.
  intros Hb (f & -> & Hf & Hl) Hm Hn. rewrite read_gread, g_frame by assumption.
  assert (Hb' := Hb). apply bytes_ok_cons in Hb' as [Hb1 Hb']. apply bytes_ok_app in Hb' as [_ Hb']. apply bytes_ok_app in Hb' as [Hbd _].
  assert (Hs := frame_sound b1 (b1 :: f) bd Hb1 Hbd). unfold hd in Hs. cbn [app] in Hs.
  rewrite blen_cons in Hs. unfold rframe.
  destruct (read_frame _ _) as [p|e| |]; try contradiction; [exfalso; exact (Hn p Hs)|eauto].
Qed.

(** PropBridge.v -- C80: bridging the two versions of the protocol. *)
From Verif Require Import ProofBase Lib ProofLib SpecFrame SpecWire SpecProps SpecPropSets ProofProps SpecBridge SpecStream SpecRelease SpecSource.
From Verif Require PropV5Props PropSource PropSourceStream ProofSrcFits SpecV4 SpecV5 V4Mod V5Mod ProofV4Read ProofV5Read ProofV4 ProofV5 PropV4 PropV5.

Lemma up_facts p q : SpecV4.fits p -> SpecV4.has_payload p -> SpecV4.canonical p -> up p = Some q ->
  blen (SpecV5.written q) <= blen (SpecV4.body p) + 2 /\
  (SpecV5.typed q /\ SpecV5.short_fields q /\ SpecV5.small_ids q /\ SpecV5.has_id q) /\
  SpecV5.readable q /\ SpecV5.canon q = received q.
Proof.
  intros (Ht & Hs & Hi & _) Hp Hc H.
  destruct p as [c|c|p|p|p|p|p|s|s|u|u| | |]; cbn [up] in H; try discriminate H.
  - injection H as <-. destruct c as [pr ka id cs w l].
    cbn in Ht, Hs, Hi, Hp, Hc. destruct Ht as (T1 & T2 & T3 & T4). destruct Hs as (S1 & S2 & S3).
    split; [|split; [split; [|split; [|split]]|split]].
    + cbn [SpecV5.written SpecV4.body V5Connect.protocol V4Connect.protocol V5Connect.keep_alive V4Connect.keep_alive V5Connect.client_id V4Connect.client_id V5Connect.properties V5Connect.last_will V4Connect.last_will V5Connect.login V4Connect.login].
      change (section_bytes (SpecV5.opt_items connect_items None)) with [0].
      assert (E : opt SpecV5.login_bytes (option_map up_login l) = opt SpecV4.login_bytes l) by (destruct l as [l|]; reflexivity).
      rewrite E.
      assert (E2 : blen (opt SpecV5.will_bytes (option_map up_will w)) <= blen (opt SpecV4.will_bytes w) + 1).
      { destruct w as [w|]; cbn [option_map opt]; [|change (@blen N []) with 0; lia].
        unfold SpecV5.will_bytes, SpecV4.will_bytes. cbn [up_will V5Connect.lw_properties V5Connect.lw_topic V5Connect.lw_message].
        change (section_bytes (SpecV5.opt_items will_items None)) with [0]. rewrite (blen_app [0]). change (blen [0]) with 1. lia. }
      autorewrite with blen. lia.
    + split; [|destruct w; constructor]. cbn. repeat split; try assumption.
      * destruct w as [w|]; [|exact I]. exact T3.
      * destruct l as [l|]; [|exact I]. exact T4.
    + split; [|destruct w; constructor]. cbn. repeat split; try assumption.
      * destruct w as [w|]; [|exact I]. exact S2.
      * destruct l as [l|]; [|exact I]. exact S3.
    + destruct w; constructor.
    + exact I.
    + reflexivity.
    + cbn. f_equal. f_equal.
      * destruct w; reflexivity.
      * destruct l as [l|]; [|reflexivity]. cbn. cbn in Hc. rewrite Hc. reflexivity.
  - injection H as <-. destruct c as [sp cd]. cbn. repeat split; try constructor; try discriminate; try lia.
  - destruct p as [d qs r t id pl]. cbn [up V4Publish.topic] in H. cbn in Ht, Hs, Hi, Hc.
    destruct t as [|t0 t']; [discriminate|]. injection H as <-.
    split; [|split; [split; [|split; [|split]]|split]].
    + cbn [SpecV5.written SpecV5.body SpecV4.body V5Publish.topic V4Publish.topic V5Publish.qos V4Publish.qos V5Publish.pkid V4Publish.pkid V5Publish.properties V5Publish.payload V4Publish.payload].
      change (section_bytes (SpecV5.opt_items publish_items None)) with [0]. rewrite !blen_app. change (blen [0]) with 1. lia.
    + split; [exact Ht|constructor].
    + split; [exact Hs|constructor].
    + constructor.
    + exact Hi.
    + exact I.
    + cbn. f_equal. f_equal. destruct (positive_qos qs); [reflexivity|]. symmetry. apply Hc. reflexivity.
  - injection H as <-. cbn. repeat split; try constructor; try assumption; try (unfold be16; autorewrite with blen; lia).
  - injection H as <-. cbn. repeat split; try constructor; try assumption; try (unfold be16; autorewrite with blen; lia).
  - injection H as <-. cbn. repeat split; try constructor; try assumption; try (unfold be16; autorewrite with blen; lia).
  - injection H as <-. cbn. repeat split; try constructor; try assumption; try (unfold be16; autorewrite with blen; lia).
  - injection H as <-. destruct s as [id fs]. cbn in Ht, Hs. destruct Ht as [T1 T2].
    split; [|split; [split; [|split; [|split]]|split]]; try (split; [|constructor]); try constructor.
    + cbn [SpecV5.written SpecV5.body SpecV4.body V5Subscribe.pkid V4Subscribe.pkid V5Subscribe.filters V4Subscribe.filters V5Subscribe.properties].
      change (section_bytes (SpecV5.opt_items subscribe_items None)) with [0]. rewrite !blen_app.
      assert (E : blen (flat_map (fun f => field (V5Subscribe.path f) ++ [SpecV5.options f]) (map up_filter fs)) =
                  blen (flat_map (fun f => field (V4Subscribe.path f) ++ [qos_num (V4Subscribe.qos f)]) fs)).
      { clear. induction fs as [|f fs IH]; [reflexivity|]. cbn [map flat_map]. rewrite !blen_app, IH. reflexivity. }
      rewrite E. change (blen [0]) with 1. lia.
    + exact T1.
    + apply Forall_map. exact T2.
    + apply Forall_map. exact Hs.
  - injection H as <-. destruct s as [id cs]. cbn in Ht, Hs, Hp.
    split; [|split; [split; [|split; [|split]]|split]]; try (split; [|constructor]); try constructor.
    + cbn [SpecV5.written SpecV5.body SpecV4.body V5SubAck.pkid V4SubAck.pkid V5SubAck.return_codes V4SubAck.return_codes V5SubAck.properties].
      change (section_bytes (SpecV5.opt_items suback_items None)) with [0]. rewrite !blen_app. unfold blen. rewrite !map_length. change (N.of_nat (Datatypes.length [0])) with 1. lia.
    + exact Ht.
    + cbn. intros E. apply map_eq_nil in E. exact (Hp E).
  - injection H as <-. destruct u as [id fs]. cbn in Ht, Hs. destruct Ht as [T1 T2].
    split; [|split; [split; [|split; [|split]]|split]]; try (split; [|constructor]); try constructor; try assumption.
    cbn [SpecV5.written SpecV5.body SpecV4.body V5Unsubscribe.pkid V4Unsubscribe.pkid V5Unsubscribe.filters V4Unsubscribe.topics V5Unsubscribe.properties].
    change (section_bytes (SpecV5.opt_items unsubscribe_items None)) with [0]. autorewrite with blen. lia.
  - injection H as <-. cbn. repeat split; try constructor; try lia.
  - injection H as <-. cbn. repeat split; try constructor; try lia.
Qed.

Lemma login_size (b7 b6 : bool) u pw ubs pbs : decodes_opt_string b7 u ubs -> decodes_opt_string b6 pw pbs ->
  blen (opt SpecV4.login_bytes (option_map down_login (SpecV5.canon_login (Some (V5Connect.mkLogin u pw))))) <= blen ubs + blen pbs.
Proof.
  intros Hu Hp.
  assert (A : forall (b : bool) x bs, decodes_opt_string b x bs -> blen (if nonempty x then field x else []) <= blen bs).
  { intros b x bs H. destruct b.
    - destruct H as [-> _]. destruct (nonempty x); [lia|]. change (@blen N []) with 0. lia.
    - destruct H as [-> ->]. cbn. lia. }
  assert (A1 := A _ _ _ Hu). assert (A2 := A _ _ _ Hp).
  unfold SpecV5.canon_login. cbn [V5Connect.username V5Connect.password].
  destruct (nonempty u || nonempty pw); cbn [option_map opt down_login]; [|change (@blen N []) with 0; lia].
  unfold SpecV4.login_bytes. cbn [down_login V4Connect.username V4Connect.password V5Connect.username V5Connect.password]. rewrite blen_app. lia.
Qed.
Lemma down_facts b1 bd q p : bytes_ok bd -> blen bd <= max_len -> SpecV5.decodes_body b1 bd q -> down q = Some p ->
  blen (SpecV4.body p) <= blen bd /\ SpecV4.fits p /\ SpecV4.has_payload p /\ SpecV4.canonical p.
Proof.
  intros Hb Hl Hd H. destruct (ProofV5.decodes_fits b1 bd q Hb Hl Hd) as (Ht & Hs & _ & Hi & Hc & _).
  destruct Ht as [Ht _]. destruct Hs as [Hs _].
  enough (G : blen (SpecV4.body p) <= blen bd /\ (SpecV4.typed p /\ SpecV4.short_fields p /\ SpecV4.has_id p) /\ SpecV4.has_payload p /\ SpecV4.canonical p).
  { destruct G as (G1 & (G2 & G3 & G4) & G5 & G6). split; [exact G1|]. split; [|auto]. split; [exact G2|]. split; [exact G3|]. split; [exact G4|lia]. }
  destruct q as [c|c|x|x|x|x|x|s|s|u|u| | |d]; cbn [down SpecV5.decodes_body] in *.
  - injection H as <-. destruct c as [pr ka id cs w l props].
    cbn [V5Connect.protocol V5Connect.keep_alive V5Connect.client_id V5Connect.clean_session V5Connect.last_will V5Connect.login V5Connect.properties] in *.
    destruct Hd as (_ & flags & sec & wbs & ubs & pbs & us & pw & junk & _ & -> & Hka & _ & _ & _ & _ & Hw & Hu & Hp & Hlo).
    cbn in Ht, Hs. destruct Ht as (T1 & T2 & T3 & T4). destruct Hs as (S1 & S2 & S3).
    split; [|split; [split; [|split]|split]].
    + cbn [SpecV4.body V4Connect.protocol V4Connect.keep_alive V4Connect.client_id V4Connect.last_will V4Connect.login V4Connect.clean_session].
      assert (L := login_size _ _ _ _ _ _ Hu Hp). rewrite <- Hlo in L.
      assert (W : blen (opt SpecV4.will_bytes (option_map down_will w)) <= blen wbs).
      { destruct w as [w|]; cbn [option_map opt]; [|change (@blen N []) with 0; lia].
        destruct Hw as (_ & _ & _ & _ & _ & _ & sec' & -> & _). unfold SpecV4.will_bytes, down_will. cbn [V4Connect.lw_topic V4Connect.lw_message].
        rewrite !blen_app. lia. }
      rewrite !blen_app, !blen_cons. lia.
    + cbn. repeat split; try assumption.
      * destruct w as [w|]; [|exact I]. exact T3.
      * destruct l as [l|]; [|exact I]. exact T4.
    + cbn. repeat split; try assumption.
      * destruct w as [w|]; [|exact I]. exact S2.
      * destruct l as [l|]; [|exact I]. exact S3.
    + exact I.
    + exact I.
    + cbn. subst l. unfold SpecV5.canon_login. cbn [V5Connect.username V5Connect.password].
      destruct (nonempty us || nonempty pw) eqn:E; [|exact I]. exact E.
  - destruct c as [sp cd props]. cbn [V5ConnAck.code V5ConnAck.session_present] in *. destruct (down_connack cd) as [code|]; [|discriminate]. injection H as <-.
    destruct Hd as (_ & flags & sec & junk & -> & _).
    split; [|cbn; auto]. cbn [SpecV4.body]. rewrite !blen_cons. change (@blen N []) with 0. lia.
  - destruct x as [dp qs r t id props pl]. cbn [V5Publish.topic V5Publish.dup V5Publish.qos V5Publish.retain V5Publish.pkid V5Publish.payload V5Publish.properties] in *.
    destruct t as [|t0 t']; [discriminate|]. injection H as <-. cbn in Ht, Hs, Hi.
    destruct Hd as (_ & _ & _ & _ & _ & _ & Hid & sec & -> & _).
    split; [|split; [split; [exact Ht|split; [exact Hs|exact Hi]]|split; [exact I|]]].
    + cbn [SpecV4.body V4Publish.topic V4Publish.qos V4Publish.pkid V4Publish.payload]. rewrite !blen_app. lia.
    + cbn. intros E. rewrite E in Hid. exact Hid.
  - injection H as <-. split; [|split; [split; [exact Ht|split; exact I]|split; exact I]]. cbn [SpecV4.body V4PubAck.pkid].
    destruct Hd as (_ & _ & [[-> _]|[[-> _]|(sec & junk & -> & _)]]); rewrite ?blen_app; lia.
  - injection H as <-. split; [|split; [split; [exact Ht|split; exact I]|split; exact I]]. cbn [SpecV4.body V4PubRec.pkid].
    destruct Hd as (_ & _ & [[-> _]|[[-> _]|(sec & junk & -> & _)]]); rewrite ?blen_app; lia.
  - injection H as <-. split; [|split; [split; [exact Ht|split; exact I]|split; exact I]]. cbn [SpecV4.body V4PubRel.pkid].
    destruct Hd as (_ & _ & [[-> _]|[[-> _]|(sec & junk & -> & _)]]); rewrite ?blen_app; lia.
  - injection H as <-. split; [|split; [split; [exact Ht|split; exact I]|split; exact I]]. cbn [SpecV4.body V4PubComp.pkid].
    destruct Hd as (_ & _ & [[-> _]|[[-> _]|(sec & junk & -> & _)]]); rewrite ?blen_app; lia.
  - destruct s as [id fs props]. cbn [V5Subscribe.pkid V5Subscribe.filters V5Subscribe.properties] in *.
    assert (E : p = V4Mod.Subscribe (V4Subscribe.mkSubscribe id (map down_filter fs)) /\ fs <> []) by (destruct fs; [discriminate|]; injection H as <-; split; [reflexivity|discriminate]).
    destruct E as [-> Hne]. cbn in Ht, Hs. destruct Ht as [T1 T2].
    destruct Hd as (_ & _ & sec & opts & _ & HF & ->).
    split; [|split; [split; [|split]|split]].
    + cbn [SpecV4.body V4Subscribe.pkid V4Subscribe.filters]. rewrite !blen_app.
      assert (E : blen (flat_map (fun f => field (V4Subscribe.path f) ++ [qos_num (V4Subscribe.qos f)]) (map down_filter fs)) =
                  blen (flat_map (fun fo => field (V5Subscribe.path (fst fo)) ++ [snd fo]) (combine fs opts))).
      { clear - HF. induction HF as [|f o fs opts _ _ IH]; [reflexivity|]. cbn [map flat_map combine fst snd]. rewrite !blen_app, IH. reflexivity. }
      rewrite E. lia.
    + split; [exact T1|]. apply Forall_map. exact T2.
    + apply Forall_map. exact Hs.
    + exact I.
    + cbn. intros E. apply map_eq_nil in E. exact (Hne E).
    + exact I.
  - injection H as <-. destruct s as [id cs props]. cbn [V5SubAck.pkid V5SubAck.return_codes V5SubAck.properties] in *.
    destruct Hd as (_ & _ & Hne & sec & _ & ->).
    split; [|split; [split; [exact Ht|split; exact I]|split; [|exact I]]].
    + cbn [SpecV4.body V4SubAck.pkid V4SubAck.return_codes]. rewrite !blen_app. unfold blen. rewrite !map_length. lia.
    + cbn. intros E. apply map_eq_nil in E. exact (Hne E).
  - injection H as <-. destruct u as [id fs props]. cbn [V5Unsubscribe.pkid V5Unsubscribe.filters V5Unsubscribe.properties] in *.
    destruct Hd as (_ & _ & _ & sec & _ & ->).
    split; [|split; [split; [exact Ht|split; [exact Hs|exact I]]|split; exact I]].
    cbn [SpecV4.body V4Unsubscribe.pkid V4Unsubscribe.topics]. rewrite !blen_app. lia.
  - injection H as <-. destruct u as [id rs props]. cbn [V5UnsubAck.pkid V5UnsubAck.reasons V5UnsubAck.properties] in *.
    destruct Hd as (_ & _ & _ & sec & _ & ->).
    split; [|split; [split; [exact Ht|split; exact I]|split; exact I]].
    cbn [SpecV4.body V4UnsubAck.pkid]. rewrite !blen_app. lia.
  - injection H as <-. split; [|cbn; auto]. cbn [SpecV4.body]. change (@blen N []) with 0. lia.
  - injection H as <-. split; [|cbn; auto]. cbn [SpecV4.body]. change (@blen N []) with 0. lia.
  - injection H as <-. split; [|cbn; auto]. cbn [SpecV4.body]. change (@blen N []) with 0. lia.
Qed.

Lemma varint_grows a b : b <= a + 2 -> blen (varint b) <= blen (varint a) + 1.
Proof.
  intros H. rewrite !varint_len. unfold len_len.
  repeat match goal with |- context [?x <=? ?y] => destruct (x <=? y) eqn:?; rewrite ?N.leb_le, ?N.leb_gt in * end; lia.
Qed.
(** what the reader of either version got: the frame it was in *)
Lemma v4_got s max p rest : bytes_ok s -> V4Mod.read s max = (Ok p, rest) ->
  SpecV4.fits p /\ SpecV4.has_payload p /\ SpecV4.canonical p /\ blen (SpecV4.body p) <= max /\ blen (SpecV4.wire p) + blen rest <= blen s.
Proof.
  intros Hb H. apply ProofV4Read.read_iff in H as (b1 & bd & (f & -> & Hf & Hl) & Hm & Hd); [|exact Hb].
  assert (Hbd : bytes_ok bd).
  { apply bytes_ok_cons in Hb as [_ Hb]. apply bytes_ok_app in Hb as [_ Hb]. apply bytes_ok_app in Hb. apply Hb. }
  destruct (ProofV4.decodes_fits b1 bd p Hbd (lenfield_bound f _ Hf Hl) Hd) as (H1 & H2 & H3 & H4).
  repeat (split; [assumption|]). split; [lia|].
  unfold SpecV4.wire, frame. autorewrite with blen.
  assert (V := varint_minimal f _ Hf (lenfield_bound f _ Hf Hl)). assert (W := ProofV5.varint_mono _ _ H4). lia.
Qed.
Lemma v5_got s max q rest p : bytes_ok s -> V5Mod.read s max = (Ok q, rest) -> down q = Some p ->
  SpecV4.fits p /\ SpecV4.has_payload p /\ SpecV4.canonical p /\ blen (SpecV4.body p) <= max /\ blen (SpecV4.wire p) + blen rest <= blen s.
Proof.
  intros Hb H E. apply ProofV5Read.read_iff in H as (b1 & bd & (f & -> & Hf & Hl) & Hm & Hd); [|exact Hb].
  assert (Hbd : bytes_ok bd).
  { apply bytes_ok_cons in Hb as [_ Hb]. apply bytes_ok_app in Hb as [_ Hb]. apply bytes_ok_app in Hb. apply Hb. }
  destruct (down_facts b1 bd q p Hbd (lenfield_bound f _ Hf Hl) Hd E) as (H4 & H1 & H2 & H3).
  repeat (split; [assumption|]). split; [lia|].
  unfold SpecV4.wire, frame. autorewrite with blen.
  assert (V := varint_minimal f _ Hf (lenfield_bound f _ Hf Hl)). assert (W := ProofV5.varint_mono _ _ H4). lia.
Qed.
Lemma up_fits p q : SpecV4.fits p -> SpecV4.has_payload p -> SpecV4.canonical p -> up p = Some q -> blen (SpecV4.wire p) <= max_len ->
  SpecV5.fits q /\ SpecV5.readable q /\ SpecV5.canon q = received q /\
  blen (SpecV5.written q) <= blen (SpecV4.body p) + 2 /\ blen (SpecV5.written_wire q) <= blen (SpecV4.wire p) + 3.
Proof.
  intros Hf Hp Hc E Hl. destruct (up_facts p q Hf Hp Hc E) as (H1 & (H2 & H3 & H4 & H5) & H6 & H7).
  unfold SpecV4.wire, frame in *. autorewrite with blen in *.
  assert (V := varint_len_bound (blen (SpecV4.body p))). assert (W := varint_grows _ _ H1).
  split; [split; [exact H2|]; split; [exact H3|]; split; [exact H4|]; split; [exact H5|lia]|].
  split; [exact H6|]. split; [exact H7|]. split; [exact H1|]. unfold SpecV5.written_wire, frame. autorewrite with blen. lia.
Qed.
Lemma v4_sent p : SpecV4.fits p -> exists n, V4Mod.write p [] = (Ok n, SpecV4.wire p).
Proof. exact (PropV4.C12_v4_encoding p). Qed.
Lemma v4_arrives p r max : SpecV4.fits p -> SpecV4.has_payload p -> SpecV4.canonical p -> bytes_ok r -> blen (SpecV4.body p) <= max ->
  V4Mod.read (SpecV4.wire p ++ r) max = (Ok p, r).
Proof. intros Hf Hp Hc Hr Hm. rewrite ProofV4.read_wire by assumption. rewrite ProofV4.canonical_canon by exact Hc. reflexivity. Qed.

(** ** up *)
(** the message said again in MQTT 5: it is written, in at most three bytes more, and the MQTT 5 reader gets what was written *)
Theorem C80_up : forall s max p rest q, bytes_ok s -> V4Mod.read s max = (Ok p, rest) -> up p = Some q -> blen s <= blen rest + max_len ->
  exists n out, V5Mod.write q [] = (Ok n, out) /\ blen out + blen rest <= blen s + 3 /\
    forall r max', bytes_ok r -> max + 2 <= max' -> V5Mod.read (out ++ r) max' = (Ok (received q), r).
Proof.
  intros s max p rest q Hb H E Hl. destruct (v4_got s max p rest Hb H) as (H1 & H2 & H3 & H4 & H5).
  destruct (up_fits p q H1 H2 H3 E ltac:(lia)) as (F1 & F2 & F3 & F4 & F5).
  destruct (ProofV5.write_fits q F1) as [n Hn]. exists n, (SpecV5.written_wire q).
  split; [exact Hn|]. split; [lia|]. intros r max' Hr Hm. rewrite <- F3. apply ProofV5.read_wire; try assumption. lia.
Qed.
(** ** down *)
(** the message said again in 3.1.1: it is written, never longer, and the 3.1.1 reader, at the same limit, gets what was
    written *)
Theorem C80_down : forall s max q rest p, bytes_ok s -> V5Mod.read s max = (Ok q, rest) -> down q = Some p ->
  exists n out, V4Mod.write p [] = (Ok n, out) /\ blen out + blen rest <= blen s /\
    forall r max', bytes_ok r -> max <= max' -> V4Mod.read (out ++ r) max' = (Ok p, r).
Proof.
  intros s max q rest p Hb H E. destruct (v5_got s max q rest p Hb H E) as (H1 & H2 & H3 & H4 & H5).
  destruct (v4_sent p H1) as [n Hn]. exists n, (SpecV4.wire p).
  split; [exact Hn|]. split; [exact H5|]. intros r max' Hr Hm. apply v4_arrives; try assumption. lia.
Qed.
(** ** up and down again *)
Lemma there_and_back p q : SpecV4.has_payload p -> up p = Some q -> down (received q) = Some (at_311 p).
Proof.
  intros Hp H. destruct p as [c|c|p|p|p|p|p|s|s|u|u| | |]; cbn [up] in H; try discriminate H; try (injection H as <-; reflexivity).
  - injection H as <-. cbn. destruct c as [pr ka id cs w l]. cbn. destruct w as [[? ? ? ?]|]; destruct l as [[? ?]|]; reflexivity.
  - injection H as <-. destruct c as [sp cd]. destruct cd; reflexivity.
  - destruct p as [dp qs r t id pl]. cbn [V4Publish.topic] in H. destruct t; [discriminate|]. injection H as <-. reflexivity.
  - destruct p as [id]. injection H as <-. reflexivity.
  - destruct p as [id]. injection H as <-. reflexivity.
  - destruct p as [id]. injection H as <-. reflexivity.
  - destruct p as [id]. injection H as <-. reflexivity.
  - injection H as <-. destruct s as [id fs]. cbn in Hp. cbn [received down V5Subscribe.filters V5Subscribe.pkid V4Subscribe.filters V4Subscribe.pkid at_311].
    assert (E : map down_filter (map up_filter fs) = fs).
    { rewrite map_map. clear. induction fs as [|[pa q] fs IH]; [reflexivity|]. cbn [map]. rewrite IH. reflexivity. }
    destruct fs as [|f fs]; [contradiction|]. cbn [map] in *. rewrite E. reflexivity.
  - injection H as <-. destruct s as [id cs]. cbn. do 3 f_equal. rewrite map_map. clear.
    induction cs as [|c cs IH]; [reflexivity|]. cbn [map]. rewrite IH. f_equal. destruct c as [[| |]|]; reflexivity.
  - destruct u as [id fs]. injection H as <-. reflexivity.
Qed.
Lemma at_311_wire p : SpecV4.fits p -> SpecV4.has_payload p -> SpecV4.canonical p ->
  SpecV4.fits (at_311 p) /\ SpecV4.has_payload (at_311 p) /\ SpecV4.canonical (at_311 p) /\
  blen (SpecV4.body (at_311 p)) = blen (SpecV4.body p) /\ blen (SpecV4.wire (at_311 p)) = blen (SpecV4.wire p).
Proof.
  intros (Hf & Hs & Hi & Hl) Hp Hc. assert (E : blen (SpecV4.body (at_311 p)) = blen (SpecV4.body p)) by (destruct p; reflexivity).
  split; [split; [destruct p; exact Hf|split; [destruct p; exact Hs|split; [destruct p; exact Hi|rewrite E; exact Hl]]]|].
  split; [destruct p; exact Hp|]. split; [destruct p; exact Hc|]. split; [exact E|].
  unfold SpecV4.wire, frame. autorewrite with blen. rewrite E. reflexivity.
Qed.
(** a 3.1.1 message sent over an MQTT 5 connection and turned into a 3.1.1 message again: the same message, in bytes the
    3.1.1 reader takes at the limit it took the first at, and not longer than they were *)
Theorem C80_there_and_back : forall s max p rest q, bytes_ok s -> V4Mod.read s max = (Ok p, rest) -> up p = Some q ->
  blen s <= blen rest + max_len ->
  exists n out, V5Mod.write q [] = (Ok n, out) /\
    forall r max', bytes_ok r -> max + 2 <= max' -> exists q', V5Mod.read (out ++ r) max' = (Ok q', r) /\ down q' = Some (at_311 p) /\
      exists n' out', V4Mod.write (at_311 p) [] = (Ok n', out') /\ blen out' + blen rest <= blen s /\
        forall r', bytes_ok r' -> V4Mod.read (out' ++ r') max = (Ok (at_311 p), r').
Proof.
  intros s max p rest q Hb H E Hl. destruct (C80_up s max p rest q Hb H E Hl) as (n & out & W & _ & R).
  destruct (v4_got s max p rest Hb H) as (H1 & H2 & H3 & H4 & H5).
  destruct (at_311_wire p H1 H2 H3) as (A1 & A2 & A3 & A4 & A5). destruct (v4_sent _ A1) as [n' W'].
  exists n, out. split; [exact W|]. intros r max' Hr Hm. exists (received q). split; [exact (R r max' Hr Hm)|].
  split; [apply there_and_back; assumption|]. exists n', (SpecV4.wire (at_311 p)). split; [exact W'|]. split; [lia|].
  intros r' Hr'. apply v4_arrives; try assumption. lia.
Qed.
(** and a message of MQTT 5 without anything 3.1.1 cannot say: down and up again *)
Theorem C80_down_and_up : forall q p, down q = Some p ->
  match q with
  | V5Mod.Publish x => V5Publish.properties x = None -> up p = Some q
  | V5Mod.PubAck x => V5PubAck.reason x = V5PubAck.Success -> V5PubAck.properties x = None -> up p = Some q
  | V5Mod.PubRec x => V5PubRec.reason x = V5PubRec.Success -> V5PubRec.properties x = None -> up p = Some q
  | V5Mod.PubRel x => V5PubRel.reason x = V5PubRel.Success -> V5PubRel.properties x = None -> up p = Some q
  | V5Mod.PubComp x => V5PubComp.reason x = V5PubComp.Success -> V5PubComp.properties x = None -> up p = Some q
  | V5Mod.Unsubscribe x => V5Unsubscribe.properties x = None -> up p = Some q
  | V5Mod.ConnAck x => V5ConnAck.properties x = None -> option_map received (up p) = Some q
  | V5Mod.PingReq | V5Mod.PingResp => up p = Some q
  | _ => True
  end.
Proof.
  intros q p H. destruct q as [c|c|x|x|x|x|x|s|s|u|u| | |d]; cbn [down] in H; try exact I; try (injection H as <-).
  - destruct c as [sp cd props]. cbn [V5ConnAck.code V5ConnAck.session_present V5ConnAck.properties] in *. intros ->.
    destruct cd; cbn [down_connack] in H; try discriminate H; injection H as <-; reflexivity.
  - destruct x as [dp qs r t id props pl]. cbn [V5Publish.topic V5Publish.properties] in *. intros ->. destruct t; [discriminate|]. injection H as <-. reflexivity.
  - destruct x. cbn. intros -> ->. reflexivity.
  - destruct x. cbn. intros -> ->. reflexivity.
  - destruct x. cbn. intros -> ->. reflexivity.
  - destruct x. cbn. intros -> ->. reflexivity.
  - destruct u. cbn. intros ->. reflexivity.
  - reflexivity.
  - reflexivity.
Qed.
(** ** why DISCONNECT and UNSUBACK are not bridged upwards: what can be written for them is refused by the reader *)
Theorem C80_disconnect_refuted : forall r max, bytes_ok r -> 1 <= max ->
  (exists n out, V5Mod.write (V5Mod.Disconnect (V5Disconnect.mkDisconnect V5Disconnect.NormalDisconnection None)) [] = (Ok n, out) /\
     forall q, fst (V5Mod.read (out ++ r) max) <> Ok q) /\
  (forall id, u16 id -> 3 <= max -> exists n out, V5Mod.write (V5Mod.UnsubAck (V5UnsubAck.mkUnsubAck id [] None)) [] = (Ok n, out) /\
     forall q, fst (V5Mod.read (out ++ r) max) <> Ok q).
Proof.
  intros r max Hr Hm. split.
  - destruct (PropV5Props.C39_v5_disconnect_exact (V5Disconnect.mkDisconnect V5Disconnect.NormalDisconnection None) r max eq_refl Hr Hm) as (n & out & W & H).
    exists n, out. split; [exact W|]. intros q. rewrite H. discriminate.
  - intros id Hid Hm3. assert (F : SpecV5.fits (V5Mod.UnsubAck (V5UnsubAck.mkUnsubAck id [] None))) by (repeat split; try constructor; try exact Hid; try (cbv; discriminate)).
    destruct (PropV5.C19_v5_empty_codes_rejected (V5Mod.UnsubAck (V5UnsubAck.mkUnsubAck id [] None)) r max eq_refl F Hr Hm3) as (n & out & W & H).
    exists n, out. split; [exact W|]. intros q. rewrite H. discriminate.
Qed.
(** ** what the two encodings of a PUBLISH have in common: everything but one byte *)
Theorem C80_publish_bytes : forall p q, SpecV4.fits (V4Mod.Publish p) -> up (V4Mod.Publish p) = Some q ->
  blen (SpecV4.body (V4Mod.Publish p)) < max_len -> (positive_qos (V4Publish.qos p) = false -> V4Publish.pkid p = 0) ->
  exists b1 head n n',
    V4Mod.write (V4Mod.Publish p) [] = (Ok n, frame b1 (head ++ V4Publish.payload p)) /\
    V5Mod.write q [] = (Ok n', frame b1 (head ++ [0] ++ V4Publish.payload p)).
Proof.
  intros p q Hf H Hl Hc. destruct (v4_sent _ Hf) as [n W].
  destruct (up_facts (V4Mod.Publish p) q Hf I Hc H) as (_ & (T1 & T2 & T3 & T4) & _).
  destruct p as [dp qs r t id pl]. cbn [up V4Publish.topic V4Publish.dup V4Publish.qos V4Publish.retain V4Publish.pkid V4Publish.payload] in *.
  destruct t as [|t0 t']; [discriminate|]. injection H as <-.
  set (head := field (t0 :: t') ++ (if positive_qos qs then be16 id else [])).
  assert (B4 : SpecV4.body (V4Mod.Publish (V4Publish.mkPublish dp qs r (t0 :: t') id pl)) = head ++ pl) by (unfold head; rewrite <- app_assoc; reflexivity).
  match goal with |- context [V5Mod.write ?x []] => set (q := x) in * end.
  assert (B5 : SpecV5.written q = head ++ [0] ++ pl) by (unfold head; rewrite <- app_assoc; reflexivity).
  destruct (ProofV5.write_fits q) as [n' W'].
  { split; [exact T1|]. split; [exact T2|]. split; [exact T3|]. split; [exact T4|]. rewrite B5. rewrite B4 in Hl.
    rewrite !blen_app in *. change (blen [0]) with 1. lia. }
  exists (SpecV4.first_byte (V4Mod.Publish (V4Publish.mkPublish dp qs r (t0 :: t') id pl))), head, n, n'.
  unfold SpecV4.wire in W. rewrite B4 in W. unfold SpecV5.written_wire in W'. rewrite B5 in W'. split; [exact W|exact W'].
Qed.
(** non-trivial: a CONNECT with a will and a login crosses both ways; it says it is one of 3.1.1 when it is back *)
Definition ex_bridge : bytes := [0x10; 32; 0; 4; 77; 81; 84; 84; 4; 0xCE; 0; 60; 0; 2; 105; 100; 0; 1; 119; 0; 3; 1; 2; 3; 0; 2; 109; 101; 0; 4; 112; 97; 115; 115].
Example C80_case : exists p q out out',
  V4Mod.read (ex_bridge ++ [7]) 32 = (Ok p, [7]) /\ up p = Some q /\
  snd (V5Mod.write q []) = out /\ blen out = 36 /\ V5Mod.read (out ++ [9]) 34 = (Ok q, [9]) /\ down q = Some p /\
  snd (V4Mod.write p []) = out' /\ out' = ex_bridge.
Proof. do 4 eexists. repeat split; vm_compute; reflexivity. Qed.
(** three bytes more are needed when the length field grows too: a CONNECT with a will and a body of 126 bytes *)
Example C80_case_three : exists p q,
  let s := [0x10; 126; 0; 4; 77; 81; 84; 84; 4; 6; 0; 60; 0; 2; 105; 100; 0; 1; 119; 0; 107] ++ repeat 5 107 in
  V4Mod.read s 126 = (Ok p, []) /\ up p = Some q /\ blen (snd (V5Mod.write q [])) = blen s + 3.
Proof. do 2 eexists. cbv zeta. repeat split; vm_compute; reflexivity. Qed.

(** ** whole conversations *)
(** everything a 3.1.1 peer sends (packets as they fit, in any pieces) crosses the bridge: the 3.1.1 receiver gets the packets,
    and what is written for them in MQTT 5, again in any pieces, gives the MQTT 5 receiver those.  A CONNACK arrives as `received` (C80_up). *)
Theorem C80_conversation_up : forall ps qs chunks chunks' max careful,
  Forall (fun p => SpecV4.fits p /\ SpecV4.has_payload p /\ SpecV4.canonical p /\ blen (SpecV4.body p) <= max) ps ->
  max + 2 <= max_len -> Forall2 (fun p q => up p = Some q /\ received q = q) ps qs ->
  concat chunks = flat_map (fun p => snd (V4Mod.write p [])) ps -> concat chunks' = flat_map (fun q => snd (V5Mod.write q [])) qs ->
  receive V4Mod.read max false (Waiting, []) chunks = (map Ok ps, (Waiting, [])) /\
  receive V5Mod.read (max + 2) careful (Waiting, []) chunks' = (map Ok qs, (Waiting, [])).
Proof.
  intros ps qs chunks chunks' max careful HF Hm H2 E E'. split; [exact (PropV4.C22_v4_reassembly ps chunks max HF E)|].
  apply PropV5.C23_v5_reassembly; [|exact E']. clear - HF Hm H2. revert HF. induction H2 as [|p q ps qs [U R] _ IH]; intros HF; [constructor|].
  inversion HF as [|? ? (F & P & C & L) HF']; subst. constructor; [|exact (IH HF')].
  destruct (up_facts p q F P C U) as (H1 & (G1 & G2 & G3 & G4) & H5 & H6).
  split; [split; [exact G1|]; split; [exact G2|]; split; [exact G3|]; split; [exact G4|lia]|].
  split; [exact H5|]. split; [|lia]. unfold SpecV5.canonical. rewrite H6. exact R.
Qed.
(** what an MQTT 5 peer sends, read one by one off the stream, and turned into 3.1.1: the 3.1.1 receiver gets it all, in any pieces *)
Theorem C80_conversation_down : forall s max qs ps chunks', bytes_ok s -> read_off V5Mod.read max s qs ->
  Forall2 (fun q p => down q = Some p) qs ps -> concat chunks' = flat_map (fun p => snd (V4Mod.write p [])) ps ->
  receive V4Mod.read max false (Waiting, []) chunks' = (map Ok ps, (Waiting, [])) /\ blen (concat chunks') <= blen s.
Proof.
  intros s max qs ps chunks' Hb HR H2 E.
  assert (G : Forall (fun p => SpecV4.fits p /\ SpecV4.has_payload p /\ SpecV4.canonical p /\ blen (SpecV4.body p) <= max) ps /\
              blen (flat_map (fun p => snd (V4Mod.write p [])) ps) <= blen s).
  { clear E. revert ps H2. induction HR as [|s q t qs Hr _ IH]; intros ps H2.
    - inversion H2; subst. split; [constructor|]. cbn. lia.
    - inversion H2 as [|? p ? ps' D H2']; subst.
      destruct (v5_got s max q t p Hb Hr D) as (K1 & K2 & K3 & K4 & K5).
      assert (Hbt : bytes_ok t).
      { apply ProofV5Read.read_iff in Hr as (b1 & bd & (f & -> & _) & _); [|exact Hb].
        apply bytes_ok_cons in Hb as [_ Hb]. apply bytes_ok_app in Hb as [_ Hb]. apply bytes_ok_app in Hb. apply Hb. }
      destruct (IH Hbt ps' H2') as [I1 I2]. split; [constructor; auto|].
      cbn [flat_map]. destruct (v4_sent p K1) as [n W]. rewrite W. cbn [snd]. rewrite blen_app. lia. }
  destruct G as [G1 G2]. split; [exact (PropV4.C22_v4_reassembly ps chunks' max G1 E)|]. rewrite E. exact G2.
Qed.
(** upwards from any bytes in the same way *)
Theorem C80_conversation_up_any : forall s max ps qs chunks' careful, bytes_ok s -> read_off V4Mod.read max s ps -> max + 2 <= max_len ->
  Forall2 (fun p q => up p = Some q /\ received q = q) ps qs -> concat chunks' = flat_map (fun q => snd (V5Mod.write q [])) qs ->
  receive V5Mod.read (max + 2) careful (Waiting, []) chunks' = (map Ok qs, (Waiting, [])).
Proof.
  intros s max ps qs chunks' careful Hb HR Hm H2 E.
  eapply (C80_conversation_up ps qs [flat_map (fun p => snd (V4Mod.write p [])) ps] chunks' max careful); [|exact Hm|exact H2|cbn; apply app_nil_r|exact E].
  clear - Hb HR. induction HR as [|s p t ps Hr _ IH]; [constructor|].
  destruct (v4_got s max p t Hb Hr) as (K1 & K2 & K3 & K4 & _). constructor; [auto|]. apply IH.
  apply ProofV4Read.read_iff in Hr as (b1 & bd & (f & -> & _) & _); [|exact Hb].
  apply bytes_ok_cons in Hb as [_ Hb]. apply bytes_ok_app in Hb as [_ Hb]. apply bytes_ok_app in Hb. apply Hb.
Qed.
(** non-trivial: CONNECT, SUBSCRIBE, PUBLISH, PINGREQ go up in bytes of one at a time; a PUBLISH with properties, a SUBACK with a
    reason and a DISCONNECT come down *)
Example C80_case_up : exists ps qs out,
  read_off V4Mod.read 60 (ex_bridge ++ [0x82; 6; 0; 1; 0; 1; 97; 1] ++ [0x32; 6; 0; 1; 97; 0; 2; 5] ++ [0xC0; 0]) ps /\
  Forall2 (fun p q => up p = Some q /\ received q = q) ps qs /\ List.length ps = 4%nat /\
  out = flat_map (fun q => snd (V5Mod.write q [])) qs /\
  receive V5Mod.read 62 true (Waiting, []) (map (fun b => [b]) out) = (map Ok qs, (Waiting, [])).
Proof.
  do 3 eexists. split.
  { eapply read_off_cons; [vm_compute; reflexivity|]. eapply read_off_cons; [vm_compute; reflexivity|].
    eapply read_off_cons; [vm_compute; reflexivity|]. eapply read_off_cons; [vm_compute; reflexivity|]. apply read_off_nil. }
  split; [repeat (constructor; [split; [vm_compute; reflexivity|vm_compute; reflexivity]|]); constructor|].
  split; [reflexivity|]. split; [vm_compute; reflexivity|]. vm_compute. reflexivity.
Qed.
Example C80_case_down : exists qs ps,
  read_off V5Mod.read 60 ([0x32; 11; 0; 1; 97; 0; 2; 4; 0x23; 0; 1; 0x01; 0x01] ++ [0x90; 5; 0; 1; 0; 1; 0x97] ++ [0xE0; 2; 0x04; 0]) qs /\
  Forall2 (fun q p => down q = Some p) qs ps /\ List.length ps = 3%nat /\ flat_map (fun p => snd (V4Mod.write p [])) ps =
    [0x32; 5; 0; 1; 97; 0; 2] ++ [0x90; 4; 0; 1; 1; 128] ++ [0xE0; 0].
Proof.
  do 2 eexists. split.
  { eapply read_off_cons; [vm_compute; reflexivity|]. eapply read_off_cons; [vm_compute; reflexivity|].
    eapply read_off_cons; [vm_compute; reflexivity|]. apply read_off_nil. }
  split; [repeat (constructor; [vm_compute; reflexivity|]); constructor|].
  split; [reflexivity|]. vm_compute. reflexivity.
Qed.

(** ** the same about the Rust text *)
Lemma v4_src_sent p : SpecV4.fits p -> v4_write 5 p [] = V4Mod.write p [].
Proof. intros H. apply PropSource.v4_write_src; [lia|apply ProofSrcFits.fits4, H]. Qed.
Lemma v5_src_sent q : SpecV5.fits q -> v5_write 5 q [] = V5Mod.write q [].
Proof. intros H. apply PropSource.v5_write_src; [lia|apply ProofSrcFits.fits5, H]. Qed.
Theorem C80_source_up : forall s max p rest q, bytes_ok s -> blen s < 2 ^ 63 -> v4_reads s max = (Ok p, rest) -> up p = Some q ->
  blen s <= blen rest + max_len ->
  exists n out, v5_write 5 q [] = (Ok n, out) /\ blen out + blen rest <= blen s + 3 /\
    forall r max', bytes_ok r -> blen r < 2 ^ 62 -> max + 2 <= max' -> v5_reads (out ++ r) max' = (Ok (received q), r).
Proof.
  intros s max p rest q Hb Hs H E Hl. rewrite PropSourceStream.v4_reads_eq in H by exact Hs.
  destruct (v4_got s max p rest Hb H) as (H1 & H2 & H3 & H4 & H5).
  destruct (up_fits p q H1 H2 H3 E ltac:(lia)) as (F1 & F2 & F3 & F4 & F5).
  destruct (C80_up s max p rest q Hb H E Hl) as (n & out & W & L & R). exists n, out.
  rewrite v5_src_sent by exact F1. split; [exact W|]. split; [exact L|]. intros r max' Hr Hr2 Hm.
  rewrite PropSourceStream.v5_reads_eq; [exact (R r max' Hr Hm)|]. rewrite blen_app. unfold max_len in Hl. lia.
Qed.
Theorem C80_source_down : forall s max q rest p, bytes_ok s -> blen s < 2 ^ 63 -> v5_reads s max = (Ok q, rest) -> down q = Some p ->
  exists n out, v4_write 5 p [] = (Ok n, out) /\ blen out + blen rest <= blen s /\
    forall r max', bytes_ok r -> blen r < 2 ^ 62 -> max <= max' -> v4_reads (out ++ r) max' = (Ok p, r).
Proof.
  intros s max q rest p Hb Hs H E. rewrite PropSourceStream.v5_reads_eq in H by exact Hs.
  destruct (v5_got s max q rest p Hb H E) as (H1 & H2 & H3 & H4 & H5). destruct (v4_sent p H1) as [n W]. exists n, (SpecV4.wire p).
  rewrite v4_src_sent by exact H1. split; [exact W|]. split; [exact H5|]. intros r max' Hr Hr2 Hm.
  rewrite PropSourceStream.v4_reads_eq; [apply v4_arrives; try assumption; lia|].
  rewrite blen_app. unfold SpecV4.wire, frame. autorewrite with blen. assert (V := varint_len_bound (blen (SpecV4.body p))).
  destruct H1 as (_ & _ & _ & H1). unfold max_len in H1. lia.
Qed.

Print Assumptions C80_up.
Print Assumptions C80_down.
Print Assumptions C80_there_and_back.
Print Assumptions C80_down_and_up.
Print Assumptions C80_disconnect_refuted.
Print Assumptions C80_publish_bytes.
Print Assumptions C80_source_up.
Print Assumptions C80_source_down.
Print Assumptions C80_conversation_up.
Print Assumptions C80_conversation_down.
Print Assumptions C80_conversation_up_any.

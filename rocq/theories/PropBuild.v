(** PropBuild.v -- property theorems about the constructors and setters of both modules:
    what the packets they build look like on the wire. *)
From Verif Require Import ProofBase Lib ProofLib ProofRead SpecProps SpecPropSets.
From Verif Require V4Connect V4Publish V4Subscribe V4Mod SpecV4 ProofV4 ProofV4Write.
From Verif Require V5Connect V5ConnAck V5Publish V5Subscribe V5UnsubAck V5Disconnect V5Mod SpecV5 ProofV5 ProofV5Back ProofV5Write.

Lemma pair_eq {A B} (p : A * B) a b : fst p = a -> snd p = b -> p = (a, b).
Proof. destruct p; cbn; congruence. Qed.

(** ** C45 *)
(** `Connect::new(id)`: level 4 (v4) or 5 (v5), clean session, keep alive 10, no will,
    no login *)
Theorem C45_v4_connect_new : forall id, blen id <= 65535 ->
  V4Mod.write (V4Mod.Connect (V4Connect.new id)) [] =
    (Ok (12 + blen id),
     [0x10] ++ varint (12 + blen id) ++ [0; 4; 77; 81; 84; 84; 4; 2; 0; 10] ++ be16 (blen id) ++ id).
Proof.
  intros id Hl. set (p := V4Mod.Connect (V4Connect.new id)).
  assert (Hb : SpecV4.body p = [0; 4; 77; 81; 84; 84; 4; 2; 0; 10] ++ be16 (blen id) ++ id).
  { unfold p. cbn [SpecV4.body V4Connect.new V4Connect.protocol V4Connect.last_will V4Connect.login V4Connect.client_id V4Connect.keep_alive opt].
    rewrite !app_nil_r. reflexivity. }
  assert (Hn : blen (SpecV4.body p) = 12 + blen id) by (rewrite Hb; autorewrite with blen; lia).
  assert (Hw := ProofV4Write.connect_write_empty (V4Connect.new id)). fold p in Hw. rewrite Hw by (rewrite Hn; unfold max_len; lia).
  unfold SpecV4.wire, frame. rewrite Hn, Hb. reflexivity.
Qed.
Theorem C45_v5_connect_new : forall id, blen id <= 65535 ->
  V5Mod.write (V5Mod.Connect (V5Connect.new id)) [] =
    (Ok (13 + blen id),
     [0x10] ++ varint (13 + blen id) ++ [0; 4; 77; 81; 84; 84; 5; 2; 0; 10; 0] ++ be16 (blen id) ++ id).
Proof.
  intros id Hl. set (p := V5Mod.Connect (V5Connect.new id)).
  assert (Hb : SpecV5.written p = [0; 4; 77; 81; 84; 84; 5; 2; 0; 10; 0] ++ be16 (blen id) ++ id).
  { unfold p. cbn [SpecV5.written V5Connect.new V5Connect.protocol V5Connect.last_will V5Connect.login V5Connect.client_id V5Connect.keep_alive V5Connect.properties opt SpecV5.opt_items].
    rewrite !app_nil_r. reflexivity. }
  assert (Hn : blen (SpecV5.written p) = 13 + blen id) by (rewrite Hb; autorewrite with blen; lia).
  assert (Hw := ProofV5Write.connect_write_empty (V5Connect.new id)). fold p in Hw. rewrite Hw by (rewrite Hn; unfold max_len; lia).
  unfold SpecV5.written_wire, frame. rewrite Hn, Hb. reflexivity.
Qed.
(** `set_login` sets the login, keeps everything else, and the last call wins *)
Theorem C45_set_login :
  (forall c u p, V4Connect.set_login c u p =
     V4Connect.mkConnect (V4Connect.protocol c) (V4Connect.keep_alive c) (V4Connect.client_id c)
       (V4Connect.clean_session c) (V4Connect.last_will c) (Some (V4Connect.login_new u p))) /\
  (forall c u p u' p', V4Connect.set_login (V4Connect.set_login c u p) u' p' = V4Connect.set_login c u' p') /\
  (forall c u p, V5Connect.set_login c u p =
     V5Connect.mkConnect (V5Connect.protocol c) (V5Connect.keep_alive c) (V5Connect.client_id c)
       (V5Connect.clean_session c) (V5Connect.last_will c) (Some (V5Connect.login_new u p)) (V5Connect.properties c)) /\
  (forall c u p u' p', V5Connect.set_login (V5Connect.set_login c u p) u' p' = V5Connect.set_login c u' p').
Proof. repeat split. Qed.
(** ... which shows on the wire *)
Theorem C45_v4_login_wire : forall id u p, 0 < blen u <= 65535 -> 0 < blen p <= 65535 -> blen id <= 65535 ->
  V4Mod.write (V4Mod.Connect (V4Connect.set_login (V4Connect.new id) u p)) [] =
    (let n := 16 + blen id + blen u + blen p in
     (Ok n, [0x10] ++ varint n ++ [0; 4; 77; 81; 84; 84; 4; 0xC2; 0; 10] ++ be16 (blen id) ++ id
            ++ be16 (blen u) ++ u ++ be16 (blen p) ++ p)).
Proof.
  intros id u p Hu Hp Hid. cbv zeta.
  set (c := V4Connect.set_login (V4Connect.new id) u p). set (q := V4Mod.Connect c).
  assert (Hb : SpecV4.body q = [0; 4; 77; 81; 84; 84; 4; 0xC2; 0; 10] ++ be16 (blen id) ++ id
            ++ be16 (blen u) ++ u ++ be16 (blen p) ++ p).
  { unfold q, c. cbn [SpecV4.body V4Connect.set_login V4Connect.new V4Connect.protocol V4Connect.last_will V4Connect.login V4Connect.client_id V4Connect.keep_alive opt].
    unfold SpecV4.login_bytes, SpecV4.connect_flags.
    cbn [V4Connect.clean_session V4Connect.last_will V4Connect.login V4Connect.username V4Connect.password].
    destruct u as [|u1 u]; [change (@blen N []) with 0 in Hu; lia|]. destruct p as [|p1 p]; [change (@blen N []) with 0 in Hp; lia|].
    cbn [nonempty app]. unfold field. rewrite <- !app_assoc. reflexivity. }
  assert (Hn : blen (SpecV4.body q) = 16 + blen id + blen u + blen p) by (rewrite Hb; autorewrite with blen; lia).
  assert (Hw := ProofV4Write.connect_write_empty c). fold q in Hw. rewrite Hw by (rewrite Hn; unfold max_len; lia).
  unfold SpecV4.wire, frame. rewrite Hn, Hb. reflexivity.
Qed.
(** `Login::validate` compares both *)
Theorem C45_v4_login_validate : forall l u p,
  V4Connect.login_validate l u p = true <-> V4Connect.username l = u /\ V4Connect.password l = p.
Proof.
  intros [lu lp] u p. unfold V4Connect.login_validate. cbn.
  assert (Heq : forall a b, bytes_eqb a b = true <-> a = b).
  { induction a as [|x a IH]; intros [|y b]; cbn; split; try discriminate; try reflexivity.
    - intros H. apply andb_prop in H as [H1 H2]. apply N.eqb_eq in H1. apply IH in H2. congruence.
    - intros H. injection H as -> ->. rewrite N.eqb_refl. apply IH. reflexivity. }
  rewrite Bool.andb_true_iff, !Heq. reflexivity.
Qed.

(** `Publish::new` and `from_bytes` agree; the packet identifier is 0, so that for QoS 1
    and 2 the packet cannot be written before one is set *)
Theorem C45_publish_new : forall t q payload buf,
  V4Publish.new t q payload = V4Publish.from_bytes t q payload /\
  V5Publish.new t q payload = V5Publish.from_bytes t q payload /\
  (2 + blen t + blen payload <= max_len -> q <> AtMostOnce ->
   fst (V4Mod.write (V4Mod.Publish (V4Publish.new t q payload)) buf) = Err PacketIdZero) /\
  (3 + blen t + blen payload <= max_len -> q <> AtMostOnce ->
   fst (V5Mod.write (V5Mod.Publish (V5Publish.new t q payload)) buf) = Err PacketIdZero).
Proof.
  intros t q payload buf. split; [reflexivity|]. split; [reflexivity|]. split; intros Hl Hq.
  - apply ProofV4.write_outcome. split.
    + cbn [SpecV4.declared_len V4Publish.new V4Publish.qos V4Publish.pkid V4Publish.topic V4Publish.payload].
      destruct q; [contradiction| |]; cbn [positive_qos andb]; change (0 =? 0) with true; cbv iota; autorewrite with blen; lia.
    + cbn. destruct q; [contradiction| |]; intros H; apply H; reflexivity.
  - apply ProofV5.write_outcome. split.
    + cbn [SpecV5.declared_len V5Publish.new V5Publish.qos V5Publish.pkid V5Publish.topic V5Publish.payload V5Publish.properties SpecV5.opt_items].
      change (section_bytes []) with [0].
      destruct q; [contradiction| |]; cbn [positive_qos andb]; change (0 =? 0) with true; cbv iota; autorewrite with blen; lia.
    + cbn. destruct q; [contradiction| |]; intros H; apply H; reflexivity.
Qed.
Theorem C45_v4_publish_new_wire : forall t payload, blen t <= 65535 -> 2 + blen t + blen payload <= max_len ->
  exists n, V4Mod.write (V4Mod.Publish (V4Publish.new t AtMostOnce payload)) [] =
    (Ok n, [0x30] ++ varint (2 + blen t + blen payload) ++ be16 (blen t) ++ t ++ payload).
Proof.
  intros t payload Ht Hl. set (p := V4Mod.Publish (V4Publish.new t AtMostOnce payload)).
  assert (Hb : SpecV4.body p = be16 (blen t) ++ t ++ payload) by (unfold p; cbn; reflexivity).
  assert (Hn : blen (SpecV4.body p) = 2 + blen t + blen payload) by (rewrite Hb; autorewrite with blen; lia).
  destruct (ProofV4.write_empty p) as [H1 [n H2]]; [rewrite Hn; exact Hl|unfold p; cbn; discriminate|].
  exists n. apply pair_eq; [exact H2|]. rewrite H1. unfold SpecV4.wire, frame. rewrite Hn, Hb. reflexivity.
Qed.
Theorem C45_v5_publish_new_wire : forall t payload, blen t <= 65535 -> 3 + blen t + blen payload <= max_len ->
  exists n, V5Mod.write (V5Mod.Publish (V5Publish.new t AtMostOnce payload)) [] =
    (Ok n, [0x30] ++ varint (3 + blen t + blen payload) ++ be16 (blen t) ++ t ++ [0] ++ payload).
Proof.
  intros t payload Ht Hl. set (p := V5Mod.Publish (V5Publish.new t AtMostOnce payload)).
  assert (Hb : SpecV5.written p = be16 (blen t) ++ t ++ [0] ++ payload) by (unfold p; cbn; reflexivity).
  assert (Hn : blen (SpecV5.written p) = 3 + blen t + blen payload) by (rewrite Hb; autorewrite with blen; lia).
  destruct (ProofV5.write_empty p) as [H1 [n H2]]; [rewrite Hn; exact Hl|unfold p; cbn; discriminate|constructor|].
  exists n. apply pair_eq; [exact H2|]. rewrite H1. unfold SpecV5.written_wire, frame. rewrite Hn, Hb. reflexivity.
Qed.

(** `Subscribe::new`, then any number of `add`: exactly these filters, in order, with
    default options, packet identifier 0 *)
Theorem C45_subscribe_add : forall t q l,
  fold_left (fun s (a : bytes * QoS) => V4Subscribe.add s (fst a) (snd a)) l (V4Subscribe.new t q) =
    V4Subscribe.mkSubscribe 0 (map (fun a => V4Subscribe.mkSubscribeFilter (fst a) (snd a)) ((t, q) :: l)) /\
  fold_left (fun s (a : bytes * QoS) => V5Subscribe.add s (fst a) (snd a)) l (V5Subscribe.new t q) =
    V5Subscribe.mkSubscribe 0
      (map (fun a => V5Subscribe.mkSubscribeFilter (fst a) (snd a) false false V5Subscribe.OnEverySubscribe) ((t, q) :: l)) None /\
  fold_left (fun s (a : bytes * QoS) => V5Subscribe.add s (fst a) (snd a)) l V5Subscribe.empty_subscribe =
    V5Subscribe.mkSubscribe 0
      (map (fun a => V5Subscribe.mkSubscribeFilter (fst a) (snd a) false false V5Subscribe.OnEverySubscribe) l) None.
Proof.
  intros t q l.
  assert (G4 : forall l k fs, fold_left (fun s (a : bytes * QoS) => V4Subscribe.add s (fst a) (snd a)) l (V4Subscribe.mkSubscribe k fs) =
     V4Subscribe.mkSubscribe k (fs ++ map (fun a => V4Subscribe.mkSubscribeFilter (fst a) (snd a)) l)).
  { clear. induction l as [|a l IH]; intros k fs; cbn [fold_left map]; [rewrite app_nil_r; reflexivity|].
    unfold V4Subscribe.add at 2. cbn [V4Subscribe.pkid V4Subscribe.filters]. rewrite IH, <- app_assoc. reflexivity. }
  assert (G5 : forall l k fs o, fold_left (fun s (a : bytes * QoS) => V5Subscribe.add s (fst a) (snd a)) l (V5Subscribe.mkSubscribe k fs o) =
     V5Subscribe.mkSubscribe k (fs ++ map (fun a => V5Subscribe.mkSubscribeFilter (fst a) (snd a) false false V5Subscribe.OnEverySubscribe) l) o).
  { clear. induction l as [|a l IH]; intros k fs o; cbn [fold_left map]; [rewrite app_nil_r; reflexivity|].
    unfold V5Subscribe.add at 2. cbn [V5Subscribe.pkid V5Subscribe.filters V5Subscribe.properties]. rewrite IH, <- app_assoc. reflexivity. }
  split; [apply (G4 l 0 [_])|]. split; [apply (G5 l 0 [_])|apply (G5 l 0 [])].
Qed.
(** v4 `new_many` rejects exactly the empty list, v5 `new_many` nothing *)
Theorem C45_new_many : forall l,
  ((forall s, V4Subscribe.new_many l <> Ok s) <-> l = []) /\
  (l = [] -> V4Subscribe.new_many l = Err EmptySubscription) /\
  (forall s, V4Subscribe.new_many l = Ok s -> s = V4Subscribe.mkSubscribe 0 l) /\
  (forall l5, V5Subscribe.new_many l5 = V5Subscribe.mkSubscribe 0 l5 None).
Proof.
  intros l. unfold V4Subscribe.new_many. destruct l as [|f l].
  - repeat split; try discriminate.
  - rewrite blen_cons. destruct (1 + blen l) eqn:E; [lia|]. repeat split; try discriminate.
    + intros H. exfalso. exact (H _ eq_refl).
    + intros s H. injection H as <-. reflexivity.
Qed.
(** the setters of a v5 filter: each sets its option and nothing else, so the order of
    the calls does not matter; the options byte on the wire *)
Theorem C45_v5_filter_setters : forall t q a b r,
  V5Subscribe.filter_new t q = V5Subscribe.mkSubscribeFilter t q false false V5Subscribe.OnEverySubscribe /\
  (forall f, V5Subscribe.set_nolocal (V5Subscribe.set_preserve_retain f b) a =
             V5Subscribe.set_preserve_retain (V5Subscribe.set_nolocal f a) b) /\
  (forall f, V5Subscribe.set_nolocal (V5Subscribe.set_retain_forward_rule f r) a =
             V5Subscribe.set_retain_forward_rule (V5Subscribe.set_nolocal f a) r) /\
  (forall f, V5Subscribe.set_preserve_retain (V5Subscribe.set_retain_forward_rule f r) a =
             V5Subscribe.set_retain_forward_rule (V5Subscribe.set_preserve_retain f a) r) /\
  V5Subscribe.set_retain_forward_rule (V5Subscribe.set_preserve_retain (V5Subscribe.set_nolocal (V5Subscribe.filter_new t q) a) b) r =
    V5Subscribe.mkSubscribeFilter t q a b r /\
  exists n, V5Mod.write (V5Mod.Subscribe (V5Subscribe.new_many
      [V5Subscribe.set_retain_forward_rule (V5Subscribe.set_preserve_retain (V5Subscribe.set_nolocal (V5Subscribe.filter_new [97] q) a) b) r])) [] =
    (Ok n, [0x82; 7; 0; 0; 0; 0; 1; 97;
            qos_num q + (if a then 4 else 0) + (if b then 8 else 0)
            + 16 * match r with V5Subscribe.OnEverySubscribe => 0 | V5Subscribe.OnNewSubscribe => 1 | V5Subscribe.Never => 2 end]).
Proof.
  intros t q a b r. repeat (split; [reflexivity|]). exists 9. destruct q, a, b, r; vm_compute; reflexivity.
Qed.

(** the v5 constructors `ConnAck::new`, `Disconnect::new` and `UnsubAck::new` build packets
    that `write` accepts and `read` does not *)
Theorem C45_v5_new_unreadable : forall p rest max,
  (exists c s, p = V5Mod.ConnAck (V5ConnAck.new c s)) \/ p = V5Mod.Disconnect V5Disconnect.new \/
  (exists id, u16 id /\ p = V5Mod.UnsubAck (V5UnsubAck.new id)) ->
  bytes_ok rest -> 3 <= max ->
  exists n out e, V5Mod.write p [] = (Ok n, out) /\ V5Mod.read (out ++ rest) max = (Err e, rest).
Proof.
  intros p rest max Hp Hr Hm.
  assert (H : SpecV5.fits p /\ exists e, V5Mod.read (SpecV5.written_wire p ++ rest) max = (Err e, rest)).
  { destruct Hp as [(c & s & ->)|[->|(id & Hid & ->)]].
    - split; [repeat split; try constructor; destruct c, s; vm_compute; discriminate|].
      eexists. apply ProofV5Back.connack_none; [reflexivity|exact Hr|lia].
    - split; [repeat split; try constructor; vm_compute; discriminate|].
      eexists. apply ProofV5Back.disconnect_blank; [reflexivity|exact Hr|lia].
    - assert (Hf : SpecV5.fits (V5Mod.UnsubAck (V5UnsubAck.new id))).
      { repeat split; try constructor; [exact Hid|]. unfold max_len. cbn. discriminate. }
      split; [exact Hf|]. eexists. apply ProofV5Back.unsuback_empty; [exact Hf|reflexivity|exact Hr|].
      change (blen (SpecV5.written (V5Mod.UnsubAck (V5UnsubAck.new id)))) with 3. exact Hm. }
  destruct H as [Hf [e He]]. destruct (ProofV5.write_fits p Hf) as [n Hn]. exists n, (SpecV5.written_wire p), e. auto.
Qed.
(** `LastWill::new` sets the four fields; a will on the wire *)
Theorem C45_will_wire : forall id t m q r, blen id <= 65535 -> blen t <= 65535 -> blen m <= 65535 ->
  V4Mod.write (V4Mod.Connect (V4Connect.mkConnect V4 10 id true (Some (V4Connect.lw_new t m q r)) None)) [] =
    (let n := 16 + blen id + blen t + blen m in
     (Ok n, [0x10] ++ varint n ++ [0; 4; 77; 81; 84; 84; 4; 6 + 8 * qos_num q + (if r then 32 else 0); 0; 10]
            ++ be16 (blen id) ++ id ++ be16 (blen t) ++ t ++ be16 (blen m) ++ m)) /\
  V5Mod.write (V5Mod.Connect (V5Connect.mkConnect V5 10 id true (Some (V5Connect.lw_new t m q r)) None None)) [] =
    (let n := 18 + blen id + blen t + blen m in
     (Ok n, [0x10] ++ varint n ++ [0; 4; 77; 81; 84; 84; 5; 6 + 8 * qos_num q + (if r then 32 else 0); 0; 10; 0]
            ++ be16 (blen id) ++ id ++ [0] ++ be16 (blen t) ++ t ++ be16 (blen m) ++ m)).
Proof.
  intros id t m q r Hid Ht Hm. cbv zeta. split.
  - set (c := V4Connect.mkConnect V4 10 id true (Some (V4Connect.lw_new t m q r)) None). set (p := V4Mod.Connect c).
    assert (Hb : SpecV4.body p = [0; 4; 77; 81; 84; 84; 4; 6 + 8 * qos_num q + (if r then 32 else 0); 0; 10]
              ++ be16 (blen id) ++ id ++ be16 (blen t) ++ t ++ be16 (blen m) ++ m).
    { unfold p, c. cbn [SpecV4.body V4Connect.protocol V4Connect.last_will V4Connect.login V4Connect.client_id V4Connect.keep_alive opt].
      unfold SpecV4.connect_flags, SpecV4.will_bytes, V4Connect.lw_new.
      cbn [V4Connect.clean_session V4Connect.last_will V4Connect.login V4Connect.lw_topic V4Connect.lw_message V4Connect.lw_qos V4Connect.lw_retain].
      unfold field. rewrite <- ?app_assoc, ?app_nil_r. destruct q, r; reflexivity. }
    assert (Hn : blen (SpecV4.body p) = 16 + blen id + blen t + blen m) by (rewrite Hb; autorewrite with blen; lia).
    assert (Hw := ProofV4Write.connect_write_empty c). fold p in Hw. rewrite Hw by (rewrite Hn; unfold max_len; lia).
    unfold SpecV4.wire, frame. rewrite Hn, Hb. reflexivity.
  - set (c := V5Connect.mkConnect V5 10 id true (Some (V5Connect.lw_new t m q r)) None None). set (p := V5Mod.Connect c).
    assert (Hb : SpecV5.written p = [0; 4; 77; 81; 84; 84; 5; 6 + 8 * qos_num q + (if r then 32 else 0); 0; 10; 0]
              ++ be16 (blen id) ++ id ++ [0] ++ be16 (blen t) ++ t ++ be16 (blen m) ++ m).
    { unfold p, c. cbn [SpecV5.written V5Connect.protocol V5Connect.last_will V5Connect.login V5Connect.client_id V5Connect.keep_alive V5Connect.properties opt SpecV5.opt_items].
      unfold SpecV5.connect_flags, SpecV5.will_bytes, V5Connect.lw_new.
      cbn [V5Connect.clean_session V5Connect.last_will V5Connect.login V5Connect.lw_topic V5Connect.lw_message V5Connect.lw_qos V5Connect.lw_retain V5Connect.lw_properties SpecV5.opt_items].
      unfold field. rewrite <- ?app_assoc, ?app_nil_r. destruct q, r; reflexivity. }
    assert (Hn : blen (SpecV5.written p) = 18 + blen id + blen t + blen m) by (rewrite Hb; autorewrite with blen; lia).
    assert (Hw := ProofV5Write.connect_write_empty c). fold p in Hw. rewrite Hw by (rewrite Hn; unfold max_len; lia).
    unfold SpecV5.written_wire, frame. rewrite Hn, Hb. reflexivity.
Qed.
Theorem C45_v5_login_wire : forall id u p, 0 < blen u <= 65535 -> 0 < blen p <= 65535 -> blen id <= 65535 ->
  V5Mod.write (V5Mod.Connect (V5Connect.set_login (V5Connect.new id) u p)) [] =
    (let n := 17 + blen id + blen u + blen p in
     (Ok n, [0x10] ++ varint n ++ [0; 4; 77; 81; 84; 84; 5; 0xC2; 0; 10; 0] ++ be16 (blen id) ++ id
            ++ be16 (blen u) ++ u ++ be16 (blen p) ++ p)).
Proof.
  intros id u p Hu Hp Hid. cbv zeta.
  set (c := V5Connect.set_login (V5Connect.new id) u p). set (q := V5Mod.Connect c).
  assert (Hb : SpecV5.written q = [0; 4; 77; 81; 84; 84; 5; 0xC2; 0; 10; 0] ++ be16 (blen id) ++ id
            ++ be16 (blen u) ++ u ++ be16 (blen p) ++ p).
  { unfold q, c. cbn [SpecV5.written V5Connect.set_login V5Connect.new V5Connect.protocol V5Connect.last_will V5Connect.login V5Connect.client_id V5Connect.keep_alive V5Connect.properties opt SpecV5.opt_items].
    unfold SpecV5.login_bytes, SpecV5.connect_flags.
    cbn [V5Connect.clean_session V5Connect.last_will V5Connect.login V5Connect.username V5Connect.password].
    destruct u as [|u1 u]; [change (@blen N []) with 0 in Hu; lia|]. destruct p as [|p1 p]; [change (@blen N []) with 0 in Hp; lia|].
    cbn [nonempty app]. unfold field. rewrite <- !app_assoc. reflexivity. }
  assert (Hn : blen (SpecV5.written q) = 17 + blen id + blen u + blen p) by (rewrite Hb; autorewrite with blen; lia).
  assert (Hw := ProofV5Write.connect_write_empty c). fold q in Hw. rewrite Hw by (rewrite Hn; unfold max_len; lia).
  unfold SpecV5.written_wire, frame. rewrite Hn, Hb. reflexivity.
Qed.
(** the four PUBLISH acknowledgements, same bytes in both versions *)
Theorem C45_acks_wire : forall id buf, u16 id ->
  let out t := buf ++ [t; 2; id / 256; id mod 256] in
  V4Mod.write (V4Mod.PubAck (V4PubAck.new id)) buf = (Ok 4, out 0x40) /\
  V4Mod.write (V4Mod.PubRec (V4PubRec.new id)) buf = (Ok 4, out 0x50) /\
  V4Mod.write (V4Mod.PubRel (V4PubRel.new id)) buf = (Ok 4, out 0x62) /\
  V4Mod.write (V4Mod.PubComp (V4PubComp.new id)) buf = (Ok 4, out 0x70) /\
  V4Mod.write (V4Mod.UnsubAck (V4UnsubAck.new id)) buf = (Ok 4, out 0xB0) /\
  V5Mod.write (V5Mod.PubAck (V5PubAck.new id)) buf = (Ok 4, out 0x40) /\
  V5Mod.write (V5Mod.PubRec (V5PubRec.new id)) buf = (Ok 4, out 0x50) /\
  V5Mod.write (V5Mod.PubRel (V5PubRel.new id)) buf = (Ok 4, out 0x62) /\
  V5Mod.write (V5Mod.PubComp (V5PubComp.new id)) buf = (Ok 4, out 0x70).
Proof.
  intros id buf Hid out.
  assert (Hd : id / 256 mod 256 = id / 256) by (apply N.mod_small; unfold u16 in Hid; apply N.div_lt_upper_bound; lia).
  assert (W4 : forall p, ProofV4Write.not_connect p -> SpecV4.has_id p -> blen (SpecV4.body p) <= max_len ->
     V4Mod.write p buf = (Ok (blen (SpecV4.wire p)), buf ++ SpecV4.wire p))
    by (intros p H1 H2 H3; exact (ProofV4Write.write_ok p H1 H2 H3 buf)).
  assert (W5 : forall p, ProofV5Write.not_connect p -> SpecV5.has_id p -> SpecV5.small_ids p -> blen (SpecV5.written p) <= max_len ->
     V5Mod.write p buf = (Ok (blen (SpecV5.written_wire p)), buf ++ SpecV5.written_wire p))
    by (intros p H1 H2 H3 H4; exact (ProofV5Write.write_ok p H1 H2 H3 H4 buf)).
  repeat split; first [rewrite W4|rewrite W5]; try exact I; try (constructor); try (cbv; discriminate);
    unfold out; rewrite <- Hd; reflexivity.
Qed.
(** the v5 packets of [C45_v5_new_unreadable]: no property section at all in CONNACK, the two-byte
    DISCONNECT (normal disconnection), UNSUBACK with an empty property section and no reason codes *)
Theorem C45_v5_new_wire : forall c s id buf, u16 id ->
  V5Mod.write (V5Mod.ConnAck (V5ConnAck.new c s)) buf
    = (Ok 4, buf ++ [0x20; 2; if s then 1 else 0; SpecV5.connack_code c]) /\
  V5Disconnect.new = V5Disconnect.mkDisconnect V5Disconnect.NormalDisconnection None /\
  V5Mod.write (V5Mod.Disconnect V5Disconnect.new) buf = (Ok 2, buf ++ [0xE0; 0]) /\
  V5Mod.write (V5Mod.UnsubAck (V5UnsubAck.new id)) buf
    = (Ok 5, buf ++ [0xB0; 3; id / 256; id mod 256; 0]).
Proof.
  intros c s id buf Hid.
  assert (Hd : id / 256 mod 256 = id / 256) by (apply N.mod_small; unfold u16 in Hid; apply N.div_lt_upper_bound; lia).
  assert (W5 : forall p, ProofV5Write.not_connect p -> SpecV5.has_id p -> SpecV5.small_ids p -> blen (SpecV5.written p) <= max_len ->
     V5Mod.write p buf = (Ok (blen (SpecV5.written_wire p)), buf ++ SpecV5.written_wire p))
    by (intros p H1 H2 H3 H4; exact (ProofV5Write.write_ok p H1 H2 H3 H4 buf)).
  split; [|split; [reflexivity|split]].
  - rewrite W5; [destruct c, s; reflexivity|exact I|exact I|constructor|destruct c, s; cbv; discriminate].
  - rewrite W5; [reflexivity|exact I|exact I|constructor|cbv; discriminate].
  - rewrite W5; [rewrite <- Hd; reflexivity|exact I|exact I|constructor|cbv; discriminate].
Qed.
(** CONNACK (v4), SUBACK, UNSUBSCRIBE *)
Theorem C45_v4_connack_wire : forall c s buf,
  V4Mod.write (V4Mod.ConnAck (V4ConnAck.new c s)) buf =
    (Ok 4, buf ++ [0x20; 2; if s then 1 else 0;
       match c with
       | V4ConnAck.Success => 0 | V4ConnAck.RefusedProtocolVersion => 1 | V4ConnAck.BadClientId => 2
       | V4ConnAck.ServiceUnavailable => 3 | V4ConnAck.BadUserNamePassword => 4 | V4ConnAck.NotAuthorized => 5
       end]).
Proof.
  intros c s buf. assert (W := ProofV4Write.write_ok (V4Mod.ConnAck (V4ConnAck.new c s)) I I).
  rewrite W by (destruct c, s; cbv; discriminate). destruct c, s; reflexivity.
Qed.
(** SUBACK with the given codes; UNSUBSCRIBE and SUBSCRIBE with one filter and the
    identifier 0 *)
Theorem C45_suback_wire : forall id codes4 codes5 buf, u16 id -> 3 + blen codes4 <= max_len -> 3 + blen codes5 <= max_len ->
  (exists n, V4Mod.write (V4Mod.SubAck (V4SubAck.new id codes4)) buf =
     (Ok n, buf ++ [0x90] ++ varint (2 + blen codes4) ++ [id / 256; id mod 256] ++
        map (fun c => match c with V4SubAck.Success q => qos_num q | V4SubAck.Failure => 0x80 end) codes4)) /\
  (exists n, V5Mod.write (V5Mod.SubAck (V5SubAck.new id codes5)) buf =
     (Ok n, buf ++ [0x90] ++ varint (3 + blen codes5) ++ [id / 256; id mod 256; 0] ++ map SpecV5.suback_code codes5)).
Proof.
  intros id codes4 codes5 buf Hid H4 H5.
  assert (Hd : id / 256 mod 256 = id / 256) by (apply N.mod_small; unfold u16 in Hid; apply N.div_lt_upper_bound; lia).
  split; eexists.
  - set (p := V4Mod.SubAck (V4SubAck.new id codes4)).
    assert (Hb : SpecV4.body p = [id / 256; id mod 256] ++
        map (fun c => match c with V4SubAck.Success q => qos_num q | V4SubAck.Failure => 0x80 end) codes4).
    { rewrite <- Hd. reflexivity. }
    assert (Hn : blen (SpecV4.body p) = 2 + blen codes4) by (rewrite Hb; autorewrite with blen; lia).
    assert (W := ProofV4Write.write_ok p I I ltac:(rewrite Hn; lia) buf). rewrite W.
    unfold SpecV4.wire, frame. rewrite Hn, Hb. reflexivity.
  - set (p := V5Mod.SubAck (V5SubAck.new id codes5)).
    assert (Hb : SpecV5.written p = [id / 256; id mod 256; 0] ++ map SpecV5.suback_code codes5).
    { rewrite <- Hd. reflexivity. }
    assert (Hn : blen (SpecV5.written p) = 3 + blen codes5) by (rewrite Hb; autorewrite with blen; lia).
    assert (W := ProofV5Write.write_ok p I I ltac:(constructor) ltac:(rewrite Hn; lia) buf). rewrite W.
    unfold SpecV5.written_wire, frame. rewrite Hn, Hb. reflexivity.
Qed.
Theorem C45_subscribe_unsubscribe_wire : forall t q buf, blen t <= 65535 ->
  (exists n, V4Mod.write (V4Mod.Subscribe (V4Subscribe.new t q)) buf =
     (Ok n, buf ++ [0x82] ++ varint (5 + blen t) ++ [0; 0] ++ be16 (blen t) ++ t ++ [qos_num q])) /\
  (exists n, V5Mod.write (V5Mod.Subscribe (V5Subscribe.new t q)) buf =
     (Ok n, buf ++ [0x82] ++ varint (6 + blen t) ++ [0; 0; 0] ++ be16 (blen t) ++ t ++ [qos_num q])) /\
  (exists n, V4Mod.write (V4Mod.Unsubscribe (V4Unsubscribe.new t)) buf =
     (Ok n, buf ++ [0xA2] ++ varint (4 + blen t) ++ [0; 0] ++ be16 (blen t) ++ t)) /\
  (exists n, V5Mod.write (V5Mod.Unsubscribe (V5Unsubscribe.new t)) buf =
     (Ok n, buf ++ [0xA2] ++ varint (5 + blen t) ++ [0; 0; 0] ++ be16 (blen t) ++ t)).
Proof.
  intros t q buf Ht.
  assert (W4 : forall p n, ProofV4Write.not_connect p -> SpecV4.has_id p -> blen (SpecV4.body p) = n -> n <= max_len ->
     V4Mod.write p buf = (Ok (blen (SpecV4.wire p)), buf ++ [SpecV4.first_byte p] ++ varint n ++ SpecV4.body p)).
  { intros p n H1 H2 H3 H4. assert (W := ProofV4Write.write_ok p H1 H2 ltac:(rewrite H3; exact H4) buf). rewrite W.
    unfold SpecV4.wire at 2. unfold frame. rewrite H3. reflexivity. }
  assert (W5 : forall p n, ProofV5Write.not_connect p -> SpecV5.has_id p -> SpecV5.small_ids p -> blen (SpecV5.written p) = n -> n <= max_len ->
     V5Mod.write p buf = (Ok (blen (SpecV5.written_wire p)), buf ++ [SpecV5.first_byte p] ++ varint n ++ SpecV5.written p)).
  { intros p n H1 H2 H3 H4 H5. assert (W := ProofV5Write.write_ok p H1 H2 H3 ltac:(rewrite H4; exact H5) buf). rewrite W.
    unfold SpecV5.written_wire at 2. unfold frame. rewrite H4. reflexivity. }
  split; [|split; [|split]]; eexists.
  - rewrite (W4 (V4Mod.Subscribe (V4Subscribe.new t q)) (5 + blen t) I I); [|change (SpecV4.body _) with ([0; 0] ++ (field t ++ [qos_num q]) ++ []); unfold field; autorewrite with blen; lia|unfold max_len; lia].
    change (SpecV4.body _) with ([0; 0] ++ (field t ++ [qos_num q]) ++ []). unfold field. rewrite app_nil_r, <- app_assoc. reflexivity.
  - assert (Hb : SpecV5.written (V5Mod.Subscribe (V5Subscribe.new t q)) = [0; 0] ++ [0] ++ (field t ++ [qos_num q]) ++ []) by (destruct q; reflexivity).
    rewrite (W5 (V5Mod.Subscribe (V5Subscribe.new t q)) (6 + blen t) I I ltac:(constructor)); [|rewrite Hb; unfold field; autorewrite with blen; lia|unfold max_len; lia].
    rewrite Hb. unfold field. rewrite app_nil_r, <- app_assoc. reflexivity.
  - rewrite (W4 (V4Mod.Unsubscribe (V4Unsubscribe.new t)) (4 + blen t) I I); [|change (SpecV4.body _) with ([0; 0] ++ field t ++ []); unfold field; autorewrite with blen; lia|unfold max_len; lia].
    change (SpecV4.body _) with ([0; 0] ++ field t ++ []). unfold field. rewrite app_nil_r. reflexivity.
  - rewrite (W5 (V5Mod.Unsubscribe (V5Unsubscribe.new t)) (5 + blen t) I I ltac:(constructor)); [|change (SpecV5.written _) with ([0; 0] ++ [0] ++ field t ++ []); unfold field; autorewrite with blen; lia|unfold max_len; lia].
    change (SpecV5.written _) with ([0; 0] ++ [0] ++ field t ++ []). unfold field. rewrite app_nil_r. reflexivity.
Qed.
Example C45_case :
  V4Mod.write (V4Mod.Connect (V4Connect.set_login (V4Connect.new [99]) [117] [112])) [] =
   (Ok 19, [0x10; 19; 0; 4; 77; 81; 84; 84; 4; 0xC2; 0; 10; 0; 1; 99; 0; 1; 117; 0; 1; 112]) /\
  V5Mod.write (V5Mod.Connect (V5Connect.new [99])) [] =
   (Ok 14, [0x10; 14; 0; 4; 77; 81; 84; 84; 5; 2; 0; 10; 0; 0; 1; 99]).
Proof. split; vm_compute; reflexivity. Qed.

Print Assumptions C45_v5_new_wire.
Print Assumptions C45_v4_connect_new.
Print Assumptions C45_v5_connect_new.
Print Assumptions C45_set_login.
Print Assumptions C45_v4_login_wire.
Print Assumptions C45_v4_login_validate.
Print Assumptions C45_publish_new.
Print Assumptions C45_v4_publish_new_wire.
Print Assumptions C45_v5_publish_new_wire.
Print Assumptions C45_subscribe_add.
Print Assumptions C45_new_many.
Print Assumptions C45_v5_filter_setters.
Print Assumptions C45_v5_new_unreadable.
Print Assumptions C45_will_wire.
Print Assumptions C45_v5_login_wire.
Print Assumptions C45_acks_wire.
Print Assumptions C45_v4_connack_wire.
Print Assumptions C45_suback_wire.
Print Assumptions C45_subscribe_unsubscribe_wire.

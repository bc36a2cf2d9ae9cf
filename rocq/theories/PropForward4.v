(** PropForward4.v -- C74: receiving and sending on (MQTT 3.1.1).  A relay that reads a message of the standard and
    writes the packet it got sends the same message, with one exception. *)
From Verif Require Import Base SpecWire SpecTopic SpecV4 SpecStd311 SpecForward4 ProofBase ProofLib ProofRead ProofV4Read ProofV4 ProofStd ProofStd311.
From Verif Require V4Connect V4ConnAck V4Publish V4SubAck PropStandard.

Local Lemma read_as m s rest max p : bytes_ok s -> conforms m ->
  starts_with_frame s (header_byte m) (content m) rest -> read s max = (Ok p, rest) -> as_packet m = p.
Proof.
  intros Hb Hm Hs H.
  assert (Hl : blen (content m) <= max).
  { apply read_iff in H as (c1 & cd & Hc & Hl & _); [|exact Hb].
    destruct Hs as (f & E & Hf & _), Hc as (g & E' & Hg & _). rewrite E in E'. injection E' as _ E'.
    destruct (lenfield_det _ _ _ _ _ _ Hf Hg E') as (_ & En & Er). rewrite En. exact Hl. }
  destruct (utf8_password_dec m) as [Hu|Hu].
  - assert (R : read s max = (Ok (as_packet m), rest)).
    { apply read_iff; [exact Hb|]. exists (header_byte m), (content m). split; [exact Hs|]. split; [exact Hl|]. apply std_decodes; assumption. }
    rewrite R in H. injection H as H. exact H.
  - exfalso. destruct m; try (apply Hu; exact I). destruct password as [pw|]; [|apply Hu; exact I].
    rewrite (PropStandard.C60_v4_binary_password_refused _ _ _ _ _ pw s rest max Hb Hm Hs Hl Hu) in H. discriminate H.
Qed.
Local Lemma relayed_wire m : first_byte (as_packet m) = header_byte (relayed m) /\ body (as_packet m) = content (relayed m).
Proof.
  destruct m; cbn [as_packet relayed first_byte body header_byte content]; try (split; reflexivity).
  - split; [reflexivity|]. cbn [V4Connect.protocol V4Connect.keep_alive V4Connect.client_id V4Connect.last_will V4Connect.login level].
    change (field MQTT) with [0; 4; 77; 81; 84; 84]. cbn [app].
    match goal with |- context [connect_flags ?c] =>
      assert (F : connect_flags c = flags_byte clean will (unless_empty user) (unless_empty password)) end.
    { unfold connect_flags, flags_byte, login_of. cbn [V4Connect.clean_session V4Connect.last_will V4Connect.login].
      destruct will as [w|]; cbn [V4Connect.lw_qos V4Connect.lw_retain];
        destruct user as [[|? ?]|], password as [[|? ?]|]; cbn [or_empty unless_empty V4Connect.username V4Connect.password present nonempty bit]; lia. }
    rewrite F. do 8 f_equal. do 2 f_equal. f_equal.
    + destruct will; reflexivity.
    + unfold login_of. destruct user as [[|? ?]|], password as [[|? ?]|]; reflexivity.
  - split; [destruct twice, dup, retain; reflexivity|]. destruct twice; reflexivity.
  - split; [reflexivity|]. cbn [V4Subscribe.pkid V4Subscribe.filters]. f_equal. induction filters as [|[f q] l IH]; [reflexivity|].
    cbn [map flat_map fst snd V4Subscribe.path V4Subscribe.qos]. rewrite IH. reflexivity.
Qed.
Local Lemma relayed_shorter m : blen (content (relayed m)) <= blen (content m).
Proof.
  destruct m; cbn [relayed content]; try lia. rewrite !blen_app.
  assert (G : forall o, blen (opt field (unless_empty o)) <= blen (opt field o)).
  { intros [[|? ?]|]; cbn [unless_empty opt]; try lia. unfold blen; cbn [List.length]. lia. }
  generalize (G user), (G password). intros. unfold blen in *; cbn [List.length] in *. lia.
Qed.
Local Lemma relayed_conforms m : conforms m -> ~ nameless m -> conforms (relayed m).
Proof.
  destruct m; try (intros H _; exact H). cbn [relayed conforms]. intros (H1 & H2 & H3 & H4 & H5 & H6 & H7) Hn.
  do 4 (split; [assumption|]). split; [destruct user as [[|? ?]|]; cbn; auto|]. split; [destruct password as [[|? ?]|]; cbn; auto|].
  destruct password as [[|b pw]|]; try reflexivity. intros Hu. exfalso. apply Hn. do 6 eexists. split; [reflexivity|]. split; [|discriminate].
  destruct user as [[|? ?]|]; [reflexivity|discriminate Hu|reflexivity].
Qed.

(** every message of the standard that is read can be written again, and unless it is a CONNECT with a password
    and an empty user name what is written is that message (without an empty user name or password), whose bytes
    and whose packet are these, and it is not longer *)
Theorem C74_v4_forwarded : forall m s rest max p, bytes_ok s -> conforms m ->
  starts_with_frame s (header_byte m) (content m) rest -> read s max = (Ok p, rest) -> ~ nameless m ->
  exists n, write p [] = (Ok n, frame (header_byte (relayed m)) (content (relayed m))) /\
    conforms (relayed m) /\ as_packet (relayed m) = p /\ blen (content (relayed m)) <= blen (content m).
Proof.
  intros m s rest max p Hb Hm Hs H Hn. destruct (read_well_formed s max p rest Hb H) as (Hf & _).
  assert (E := read_as m s rest max p Hb Hm Hs H). subst p. destruct (relayed_wire m) as [E1 E2].
  destruct (write_empty _ (proj2 (proj2 (proj2 Hf))) (proj1 (proj2 (proj2 Hf)))) as [W [n Wn]].
  exists n. split; [|split; [apply relayed_conforms; assumption|split; [|apply relayed_shorter]]].
  - destruct (write (as_packet m) []) as [r out]. cbn [fst snd] in W, Wn. subst r out. unfold wire. rewrite E1, E2. reflexivity.
  - destruct m; try reflexivity. cbn [relayed as_packet]. unfold login_of. destruct user as [[|? ?]|], password as [[|? ?]|]; reflexivity.
Qed.
(** the exception: what is written then is no message of the standard *)
Theorem C74_v4_nameless_not_forwarded : forall m s rest max p, bytes_ok s -> conforms m ->
  starts_with_frame s (header_byte m) (content m) rest -> read s max = (Ok p, rest) -> nameless m ->
  exists n out, write p [] = (Ok n, out) /\
    ~ exists m', conforms m' /\ blen (content m') <= max_len /\ out = frame (header_byte m') (content m').
Proof.
  intros m s rest max p Hb Hm Hs H Hn. destruct (read_well_formed s max p rest Hb H) as (Hf & _).
  assert (E := read_as m s rest max p Hb Hm Hs H).
  destruct (write_empty _ (proj2 (proj2 (proj2 Hf))) (proj1 (proj2 (proj2 Hf)))) as [_ [n Wn]].
  exists n. destruct (write p []) as [r out] eqn:W. cbn [fst] in Wn. subst r. exists out. split; [reflexivity|].
  intros (m' & Hm' & Hl' & Ho). assert (V : standard_value p).
  { apply (PropStandard.C61_v4_writes_standard p n out Hf W). exists (header_byte m'), (content m').
    split; [exists m'; auto|]. split; [exact Hl'|exact Ho]. }
  destruct Hn as (cl & ka & id & w & u & pw & -> & Hu & Hp). subst p.
  cbn [standard_value as_packet] in V. destruct V as (_ & _ & _ & _ & _ & V).
  unfold user_of, password_of, login_of in V. cbn [V4Connect.login or_empty] in V. rewrite Hu in V.
  destruct pw as [|b pw]; [apply Hp; reflexivity|]. cbn [V4Connect.username V4Connect.password] in V. apply V; [discriminate|reflexivity].
Qed.
(** with PUBLISH, SUBSCRIBE and all others the bytes are the same, up to the length field *)
Theorem C74_v4_same_bytes : forall m s rest max p, bytes_ok s -> conforms m ->
  starts_with_frame s (header_byte m) (content m) rest -> read s max = (Ok p, rest) ->
  (forall cl ka id w u pw, m = M_CONNECT cl ka id w u pw -> u <> Some [] /\ pw <> Some []) ->
  exists n, write p [] = (Ok n, frame (header_byte m) (content m)).
Proof.
  intros m s rest max p Hb Hm Hs H Hc.
  assert (E : relayed m = m).
  { destruct m; try reflexivity. destruct (Hc _ _ _ _ _ _ eq_refl) as [Hu Hp]. cbn [relayed].
    destruct user as [[|? ?]|]; [exfalso; apply Hu; reflexivity| |]; (destruct password as [[|? ?]|]; [exfalso; apply Hp; reflexivity| |]); reflexivity. }
  destruct (C74_v4_forwarded m s rest max p Hb Hm Hs H) as (n & W & _).
  - intros (cl & ka & id & w & u & pw & -> & Hu & Hp). cbn [conforms] in Hm. destruct Hm as (_ & _ & _ & _ & _ & _ & Hm).
    destruct (Hc _ _ _ _ _ _ eq_refl) as [Hu' _]. destruct u as [[|? ?]|]; [exfalso; apply Hu'; reflexivity|discriminate Hu|]. discriminate (Hm eq_refl).
  - exists n. rewrite W, E. reflexivity.
Qed.
(** a CONNECT with an empty password goes through and loses it; one with an empty user name and a password does not;
    a PUBLISH with an overlong length field comes out with the short one *)
Example C74_v4_case :
  let m u pw := M_CONNECT true 60 [99] None (Some u) (Some pw) in
  let c1 := 0x10 :: 18 :: content (m [117] []) in
  let c2 := 0x10 :: 18 :: content (m [] [112]) in
  (conforms (m [117] []) /\ ~ nameless (m [117] []) /\ conforms (m [] [112]) /\ nameless (m [] [112])) /\
  starts_with_frame c1 0x10 (content (m [117] [])) [] /\ starts_with_frame c2 0x10 (content (m [] [112])) [] /\
  (exists p, read c1 99 = (Ok p, []) /\ write p [] = (Ok 16, [0x10; 16; 0; 4; 77; 81; 84; 84; 4; 0x82; 0; 60; 0; 1; 99; 0; 1; 117])) /\
  (exists p, read c2 99 = (Ok p, []) /\ write p [] = (Ok 16, [0x10; 16; 0; 4; 77; 81; 84; 84; 4; 0x42; 0; 60; 0; 1; 99; 0; 1; 112])) /\
  conforms (M_PUBLISH0 true [116] [9]) /\ starts_with_frame [0x31; 0x84; 0; 0; 1; 116; 9] 0x31 (content (M_PUBLISH0 true [116] [9])) [] /\
  exists p, read [0x31; 0x84; 0; 0; 1; 116; 9] 99 = (Ok p, []) /\ write p [] = (Ok 6, [0x31; 4; 0; 1; 116; 9]).
Proof.
  assert (U : forall c, c < 128 -> is_string [c]).
  { intros c Hc. exists [c]. split; [repeat constructor; lia|]. cbn [flat_map]. unfold utf8_encode.
    rewrite (proj2 (N.ltb_lt c 0x80) Hc). reflexivity. }
  assert (T : forall c, 0 < c < 128 -> text [c]).
  { intros c Hc. split; [apply U; lia|]. split; [cbv; discriminate|]. intros [H|[]]; lia. }
  assert (T0 : text []) by (split; [apply string_nil|]; split; [cbv; discriminate|intros []]).
  cbv zeta.
  assert (C : forall u pw, text u -> binary pw -> conforms (M_CONNECT true 60 [99] None (Some u) (Some pw))).
  { intros u pw Hu Hp. cbn [conforms on_some]. split; [cbv; reflexivity|]. split; [apply T; lia|]. split; [discriminate|].
    split; [exact I|]. split; [exact Hu|]. split; [exact Hp|discriminate]. }
  split. { split; [apply C; [apply T; lia|split; [constructor|cbv; discriminate]]|]. split; [|split].
    - intros (? & ? & ? & ? & ? & ? & H & Hu & _). injection H as _ _ _ _ <- _. discriminate Hu.
    - apply C; [exact T0|split; [repeat constructor|cbv; discriminate]].
    - do 6 eexists. split; [reflexivity|]. split; [reflexivity|discriminate]. }
  split. { exists [18]. split; [reflexivity|]. split; [apply (lf_last 18); lia|cbv; discriminate]. }
  split. { exists [18]. split; [reflexivity|]. split; [apply (lf_last 18); lia|cbv; discriminate]. }
  split; [eexists; split; [vm_compute; reflexivity|vm_compute; reflexivity]|]. split; [eexists; split; [vm_compute; reflexivity|vm_compute; reflexivity]|].
  split. { cbn [conforms]. split; [|repeat constructor]. split; [apply T; lia|]. split; [discriminate|].
    split; intros [H|[]]; discriminate H. }
  split; [|eexists; split; [vm_compute; reflexivity|vm_compute; reflexivity]].
  exists [0x84; 0]. split; [reflexivity|]. split; [|cbv; discriminate].
  change (blen (content (M_PUBLISH0 true [116] [9]))) with (4 + 128 * 0). change [0x84; 0] with (128 + 4 :: [0]). apply lf_more; [lia|]. apply lf_last. lia.
Qed.
Print Assumptions C74_v4_forwarded.
Print Assumptions C74_v4_nameless_not_forwarded.
Print Assumptions C74_v4_same_bytes.

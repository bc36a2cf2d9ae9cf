(** PropV5Props.v -- property theorems about the property sections of the v5 module and
    about packets that do not survive the round trip.  `read` and `write` are the model
    of src/v5 (V5Mod); the rest of the vocabulary is SpecProps, SpecPlaces, SpecV5,
    SpecCross. *)
From Coq Require Import Permutation.
From Verif Require Import ProofBase Lib ProofLib SpecFrame ProofCheck ProofRead SpecStream ProofStream
  SpecProps SpecPropSets SpecV5 SpecPlaces ProofProps ProofSections ProofV5Write ProofV5Read ProofV5 ProofV5Back ProofPlaces SampleV5
  SpecCross ProofCross.
From Verif Require V4Connect V4Mod SpecV4 SampleV4.

(** ** C36: unknown or misplaced property identifiers *)
(** [pre]: the body up to the property section; [its]: any number of properties the
    section [pl] may hold, read before the bad identifier *)
Theorem C36_v5_misplaced_rejected : forall s pl b1 pre f plen its bs c id suf rest max,
  bytes_ok s -> leads_to pl b1 pre -> lenfield f plen -> blen f <= 4 ->
  reads (allowed_at pl) plen 0 its bs c -> c < plen -> ~ In id (allowed_at pl) ->
  starts_with_frame s b1 (pre ++ f ++ bs ++ id :: suf) rest ->
  blen (pre ++ f ++ bs ++ id :: suf) <= max ->
  read s max = (Err (InvalidPropertyType id), rest).
Proof. exact place_bad. Qed.
(** a PUBACK with a reason string followed by a subscription identifier *)
Example C36_v5_case :
  leads_to InPubAck 0x40 [0; 7; 0x10] /\
  reads (allowed_at InPubAck) 6 0 [(31, VStr [97])] [31; 0; 1; 97] 4 /\ ~ In 11 (allowed_at InPubAck) /\
  read [0x40; 10; 0; 7; 0x10; 6; 31; 0; 1; 97; 11; 5; 9] 100 = (Err (InvalidPropertyType 11), [9]).
Proof.
  split.
  { split; [reflexivity|]. exists 7, V5PubAck.NoMatchingSubscribers. split; reflexivity. }
  split.
  { apply (reads_cons _ _ 0 31 (VStr [97]) [0; 1; 97] [] [] 4).
    - lia.
    - cbn; auto.
    - repeat split; try reflexivity; try (apply ProofUtf8.utf8_ok_spec; reflexivity). vm_compute; discriminate.
    - reflexivity.
    - apply reads_nil. }
  split; [|vm_compute; reflexivity]. cbn. intros [H|[H|[]]]; discriminate H.
Qed.

(** ** C37: order and repetition *)
(** two sections with the same last value of every single-valued property, the same user
    properties and the same subscription identifiers give the same result *)
Theorem C37_v5_same_set : forall s s' pl b1 pre f plen its bs f' plen' its' bs' suf rest max,
  bytes_ok s -> bytes_ok s' -> leads_to pl b1 pre ->
  lenfield f plen -> blen f <= 4 -> 0 < plen -> section (allowed_at pl) plen its bs ->
  lenfield f' plen' -> blen f' <= 4 -> 0 < plen' -> section (allowed_at pl) plen' its' bs' ->
  same_props its its' ->
  starts_with_frame s b1 (pre ++ f ++ bs ++ suf) rest -> blen (pre ++ f ++ bs ++ suf) <= max ->
  starts_with_frame s' b1 (pre ++ f' ++ bs' ++ suf) rest -> blen (pre ++ f' ++ bs' ++ suf) <= max ->
  read s max = read s' max.
Proof. exact place_same. Qed.

Lemma perm_same (a b : list item) : Permutation a b -> NoDup (map fst a) -> same_by_id a b.
Proof.
  intros HP Hn id. assert (Hnb : NoDup (map fst b)) by (eapply Permutation_NoDup; [apply Permutation_map; exact HP|exact Hn]).
  assert (Hone : forall l : list item, NoDup (map fst l) -> (List.length (filter (fun it => (fst it =? id)%N) l) <= 1)%nat).
  { induction l as [|x l IH]; cbn; intros H; [lia|]. inversion_clear H as [|? ? H1 H2].
    destruct (N.eqb_spec (fst x) id) as [E|E]; [|apply IH, H2]. cbn.
    replace (filter (fun it => fst it =? id) l) with (@nil item); [cbn; lia|]. symmetry. subst id.
    clear IH H2. induction l as [|y l IH]; [reflexivity|]. cbn. destruct (N.eqb_spec (fst y) (fst x)) as [E|E].
    - exfalso. apply H1. cbn. auto.
    - apply IH. intros K. apply H1. cbn. auto. }
  assert (HPf : Permutation (filter (fun it => fst it =? id) a) (filter (fun it => fst it =? id) b)).
  { clear - HP. induction HP as [|x a b HP IH|x y a|a b c H1 IH1 H2 IH2]; cbn.
    - constructor.
    - destruct (fst x =? id); [constructor; exact IH|exact IH].
    - destruct (fst x =? id), (fst y =? id); try reflexivity. apply perm_swap.
    - etransitivity; eassumption. }
  assert (Ha := Hone a Hn). assert (Hb := Hone b Hnb).
  destruct (filter (fun it => fst it =? id) a) as [|x [|x' l]]; cbn in Ha; [apply Permutation_nil in HPf; auto| |lia].
  apply Permutation_length_1_inv in HPf. auto.
Qed.
Lemma plain_reads allowed its c plen : Forall item_ok its -> Forall (fun it => In (fst it) allowed /\ fst it <> 11) its ->
  c + blen (items_bytes its) <= plen ->
  reads allowed plen c its (items_bytes its) (c + blen (items_bytes its)).
Proof.
  intros Ho. revert c. induction Ho as [|[id v] its Hi Ho IH]; intros c Ha Hc.
  - change (items_bytes []) with (@nil N). change (blen (@nil N)) with 0. rewrite N.add_0_r. constructor.
  - inversion_clear Ha as [|? ? [H1 H2] H3]. cbn [fst] in *. rewrite items_bytes_cons in *.
    unfold item_bytes in *. cbn [fst snd] in *. cbn [app] in *. autorewrite with blen in Hc.
    assert (Hcnt : counted id (1 + blen (value_bytes v)) = 1 + blen (value_bytes v)).
    { unfold counted. destruct (N.eqb_spec id 11); [contradiction|lia]. }
    apply reads_cons; [lia|exact H1|exact Hi| |].
    + destruct v; try reflexivity. cbn [value_enc value_bytes]. split; [apply lenfield_varint; apply Hi|apply varint_len_bound].
    + rewrite Hcnt. replace (c + blen (id :: value_bytes v ++ items_bytes its)) with (c + (1 + blen (value_bytes v)) + blen (items_bytes its))
        by (autorewrite with blen; lia). apply IH; [exact H3|]. lia.
Qed.
Lemma items_bytes_perm (a b : list item) : Permutation a b -> blen (items_bytes a) = blen (items_bytes b).
Proof.
  induction 1 as [|x a b _ IH|x y a|a b c _ IH1 _ IH2]; rewrite ?items_bytes_cons, ?blen_app; try lia; auto.
Qed.
(** properties with distinct identifiers, none of them a subscription identifier, may be
    written in any order *)
Theorem C37_v5_any_order : forall s s' pl b1 pre its its' suf rest max,
  bytes_ok s -> bytes_ok s' -> leads_to pl b1 pre ->
  its <> [] -> Forall item_ok its -> Forall (fun it => In (fst it) (allowed_at pl) /\ fst it <> 11) its ->
  NoDup (map fst its) -> Permutation its its' ->
  starts_with_frame s b1 (pre ++ section_bytes its ++ suf) rest -> blen (pre ++ section_bytes its ++ suf) <= max ->
  starts_with_frame s' b1 (pre ++ section_bytes its' ++ suf) rest -> read s max = read s' max.
Proof.
  intros s s' pl b1 pre its its' suf rest max Hb Hb' Hlt Hne Hok Hal Hnd HP Hs Hm Hs'.
  assert (Hlen := items_bytes_perm its its' HP).
  assert (Hpos : 0 < blen (items_bytes its)).
  { destruct its as [|it l]; [contradiction|]. rewrite items_bytes_cons. unfold item_bytes. autorewrite with blen. lia. }
  unfold section_bytes in *. rewrite <- Hlen in Hs'. rewrite <- !app_assoc in *.
  assert (Hml : blen (items_bytes its) <= max_len).
  { destruct Hs as (g & _ & Hg & Hg4). assert (Hx := lenfield_bound _ _ Hg Hg4). autorewrite with blen in Hx. lia. }
  assert (Hsec : forall l, Permutation its l -> section (allowed_at pl) (blen (items_bytes its)) l (items_bytes l)).
  { intros l Hl. exists (0 + blen (items_bytes l)). rewrite (items_bytes_perm its l Hl). split; [|lia].
    apply plain_reads; [eapply Permutation_Forall; eassumption|eapply Permutation_Forall; eassumption|lia]. }
  eapply (place_same s s' pl b1 pre (varint (blen (items_bytes its))) (blen (items_bytes its)) its (items_bytes its)
    (varint (blen (items_bytes its))) (blen (items_bytes its)) its' (items_bytes its')); eauto.
  - apply lenfield_varint, Hml.
  - apply varint_len_bound.
  - apply lenfield_varint, Hml.
  - apply varint_len_bound.
  - apply same_by_id_props, perm_same; assumption.
  - rewrite <- Hm. autorewrite with blen. lia.
Qed.
(** with subscription identifiers the order matters (they are miscounted, C38) *)
Theorem C37_v5_ids_order_refuted : exists its its', Permutation its its' /\
  fst (read (frame 0x30 (field [97] ++ section_bytes its)) 100) <>
  fst (read (frame 0x30 (field [97] ++ section_bytes its')) 100).
Proof.
  exists [(11, VVar 1); (11, VVar 2); (11, VVar 3); (1, VByte 0)], [(1, VByte 0); (11, VVar 1); (11, VVar 2); (11, VVar 3)].
  split; [|vm_compute; discriminate].
  apply (Permutation_app_comm [(11, VVar 1); (11, VVar 2); (11, VVar 3)] [(1, VByte 0)]).
Qed.
Example C37_v5_case :
  leads_to InDisconnect 0xE0 [0] /\
  fst (read (frame 0xE0 ([0] ++ section_bytes [(31, VStr [97]); (17, VFour 5); (31, VStr [98])])) 100)
  = fst (read (frame 0xE0 ([0] ++ section_bytes [(17, VFour 5); (31, VStr [98])])) 100) /\
  fst (read (frame 0xE0 ([0] ++ section_bytes [(17, VFour 5); (31, VStr [98])])) 100)
  = Ok (Disconnect (V5Disconnect.mkDisconnect V5Disconnect.NormalDisconnection
      (Some (V5Disconnect.mkDisconnectProperties (Some 5) (Some [98]) [] None)))).
Proof.
  split; [split; [reflexivity|]; exists V5Disconnect.NormalDisconnection; reflexivity|].
  split; vm_compute; reflexivity.
Qed.

(** ** C38: PUBLISH with subscription identifiers *)
Theorem C38_v5_exact : forall p rest max,
  fits (Publish p) -> bytes_ok rest -> blen (written (Publish p)) <= max ->
  exists n out, write (Publish p) [] = (Ok n, out) /\
    (read (out ++ rest) max = (Ok (canon (Publish p)), rest) <-> ids_fit p).
Proof.
  intros p rest max Hf Hr Hm. destruct (write_fits _ Hf) as [n Hn]. exists n, (written_wire (Publish p)).
  split; [exact Hn|]. rewrite (read_back_exact _ rest max Hf Hr Hm). cbn [readable blank_311]. tauto.
Qed.
(** at most two subscription identifiers always work *)
Theorem C38_v5_two_ids : forall p r rest max,
  fits (Publish p) -> V5Publish.properties p = Some r -> blen (V5Publish.subscription_identifiers r) <= 2 ->
  bytes_ok rest -> blen (written (Publish p)) <= max ->
  exists n out, write (Publish p) [] = (Ok n, out) /\
    read (out ++ rest) max = (Ok (canon (Publish p)), rest).
Proof.
  intros p r rest max Hf Hp Hn Hr Hm. destruct (C38_v5_exact p rest max Hf Hr Hm) as (n & out & Hw & Hx).
  exists n, out. split; [exact Hw|]. apply Hx. unfold ids_fit. rewrite Hp. destruct (V5Publish.content_type r); [lia|].
  destruct (rev _) as [|l t]; [exact I|]. assert (Hv := varint_len_bound l). lia.
Qed.
(** in general the properties the reader does not get to end up in the payload *)
Theorem C38_v5_read_back : forall p r a b rest max,
  fits (Publish p) -> V5Publish.properties p = Some r -> publish_items r <> [] ->
  split_props (blen (items_bytes (publish_items r))) 0 (publish_items r) = (a, b) ->
  bytes_ok rest -> blen (written (Publish p)) <= max ->
  exists n out, write (Publish p) [] = (Ok n, out) /\
    read (out ++ rest) max =
    (Ok (Publish (V5Publish.mkPublish (V5Publish.dup p) (V5Publish.qos p) (V5Publish.retain p) (V5Publish.topic p)
           (if positive_qos (V5Publish.qos p) then V5Publish.pkid p else 0)
           (Some (publish_record a)) (items_bytes b ++ V5Publish.payload p))), rest).
Proof.
  intros p r a b rest max Hf Hp Hne Hs Hr Hm. destruct (write_fits _ Hf) as [n Hn]. exists n, (written_wire (Publish p)).
  split; [exact Hn|]. eapply publish_back; eassumption.
Qed.
Definition ex_three_ids : V5Publish.Publish :=
  V5Publish.mkPublish false AtMostOnce false [97] 0
    (Some (V5Publish.mkPublishProperties None None None None None [] [1; 2; 3] None)) [112].
Theorem C38_v5_refuted : exists p q n out, fits (Publish p) /\ canonical (Publish p) /\
  write (Publish p) [] = (Ok n, out) /\ read out 100 = (Ok (Publish q), []) /\
  V5Publish.payload q <> V5Publish.payload p /\
  V5Publish.properties q <> V5Publish.properties p.
Proof.
  exists ex_three_ids. eexists. eexists. eexists. split; [sample5|]. split; [reflexivity|].
  split; [vm_compute; reflexivity|]. split; [vm_compute; reflexivity|]. split; discriminate.
Qed.
Example C38_v5_case : fits ex_publish5 /\ readable ex_publish5 /\ fits (Publish ex_three_ids) /\ ~ ids_fit ex_three_ids /\
  let its := publish_items (V5Publish.mkPublishProperties None None None None None [] [1; 2; 3] None) in
  split_props (blen (items_bytes its)) 0 its = ([(11, VVar 1); (11, VVar 2)], [(11, VVar 3)]).
Proof.
  split; [apply ex_publish5_fits|]. split; [vm_compute; reflexivity|]. split; [sample5|].
  split; [vm_compute; intros H; apply H; reflexivity|reflexivity].
Qed.

(** ** C39: CONNACK and DISCONNECT without properties *)
Theorem C39_v5_connack_exact : forall c rest max,
  V5ConnAck.properties c = None -> bytes_ok rest -> 2 <= max ->
  exists n out, write (ConnAck c) [] = (Ok n, out) /\
    read (out ++ rest) max = (Err (InsufficientBytes 1), rest).
Proof.
  intros c rest max Hp Hr Hm.
  destruct (write_empty (ConnAck c)) as [H1 [n H2]].
  - unfold written. rewrite Hp. unfold max_len. autorewrite with blen. cbv. discriminate.
  - exact I.
  - unfold small_ids, packet_items. rewrite Hp. constructor.
  - exists n, (written_wire (ConnAck c)). split; [destruct (write (ConnAck c) []); cbn [fst snd] in *; congruence|].
    apply connack_none; assumption.
Qed.
Theorem C39_v5_disconnect_exact : forall d rest max,
  opt_items disconnect_items (V5Disconnect.properties d) = [] -> bytes_ok rest -> 1 <= max ->
  exists n out, write (Disconnect d) [] = (Ok n, out) /\
    read (out ++ rest) max =
    (Err match V5Disconnect.properties d with
         | Some _ => PayloadRequired
         | None => if disconnect_code (V5Disconnect.reason_code d) =? 0 then PayloadRequired
                   else InsufficientBytes 1
         end, rest).
Proof.
  intros d rest max Hp Hr Hm.
  destruct (write_empty (Disconnect d)) as [H1 [n H2]].
  - unfold written. destruct (V5Disconnect.properties d) as [r|] eqn:E.
    + cbn [opt_items] in Hp. rewrite Hp. cbv. discriminate.
    + cbn [body]. rewrite E. cbn [opt_items]. destruct (_ =? 0); cbv; discriminate.
  - exact I.
  - unfold small_ids, packet_items. rewrite Hp. constructor.
  - exists n, (written_wire (Disconnect d)). split; [destruct (write (Disconnect d) []); cbn [fst snd] in *; congruence|].
    apply disconnect_blank; assumption.
Qed.
(** so neither is ever read back *)
Theorem C39_v5_refuted : forall p rest max q rest',
  match p with
  | ConnAck c => V5ConnAck.properties c = None
  | Disconnect d => opt_items disconnect_items (V5Disconnect.properties d) = []
  | _ => False
  end -> bytes_ok rest -> 2 <= max -> read (snd (write p []) ++ rest) max <> (Ok q, rest').
Proof.
  intros p rest max q rest' Hp Hr Hm. destruct p as [c|c|p|p|p|p|p|s|s|u|u| | |c]; try contradiction.
  - destruct (C39_v5_connack_exact c rest max Hp Hr Hm) as (n & out & -> & H). cbn [snd]. rewrite H. discriminate.
  - destruct (C39_v5_disconnect_exact c rest max Hp Hr ltac:(lia)) as (n & out & -> & H). cbn [snd]. rewrite H. discriminate.
Qed.
Example C39_v5_case : V5ConnAck.properties (V5ConnAck.new V5ConnAck.Success false) = None /\
  opt_items disconnect_items (V5Disconnect.properties V5Disconnect.new) = [].
Proof. split; reflexivity. Qed.

(** ** C40: protocol level 4 in the v5 module *)
(** CONNECT at level 4 written by the v5 module *)
Theorem C40_v5_level4_exact : forall c rest max,
  fits (Connect c) -> V5Connect.protocol c = V4 -> bytes_ok rest -> blen (written (Connect c)) <= max ->
  exists n out, write (Connect c) [] = (Ok n, out) /\
    (read (out ++ rest) max = (Ok (canon (Connect c)), rest) <-> blank_311 (Connect c)).
Proof.
  intros c rest max Hf Hp Hr Hm. destruct (write_fits _ Hf) as [n Hn]. exists n, (written_wire (Connect c)).
  split; [exact Hn|]. rewrite (read_back_exact _ rest max Hf Hr Hm). cbn [readable]. rewrite Hp.
  split; [intros [H|H]; [discriminate H|exact H]|auto].
Qed.
Theorem C40_v5_level4_refuted : exists c q, fits (Connect c) /\ V5Connect.protocol c = V4 /\
  read (snd (write (Connect c) [])) 100 = (Ok (Connect q), []) /\
  V5Connect.client_id c <> [] /\ V5Connect.client_id q = [].
Proof.
  destruct ex_connect54 as [c| | | | | | | | | | | | |] eqn:E; try discriminate E.
  exists c. eexists. rewrite <- E. split; [apply ex_connect54_fits|].
  injection E as <-. split; [reflexivity|]. split; [vm_compute; reflexivity|]. split; [discriminate|reflexivity].
Qed.
(** CONNECT at level 4 written by the v4 module: read with the same field values ... *)
Theorem C40_v4_to_v5_without_will : forall c rest max,
  SpecV4.fits (V4Mod.Connect c) -> V4Connect.protocol c = V4 -> V4Connect.last_will c = None ->
  bytes_ok rest -> blen (SpecV4.body (V4Mod.Connect c)) <= max ->
  exists n out, V4Mod.write (V4Mod.Connect c) [] = (Ok n, out) /\
    read (out ++ rest) max = (Ok (canon (Connect (lift_connect c))), rest).
Proof.
  intros c rest max Hf Hp Hw Hr Hm.
  assert (Hx := ProofV4.write_empty (V4Mod.Connect c)). destruct Hf as (F1 & F2 & F3 & F4). destruct Hx as [H1 [n H2]]; [assumption..|].
  exists n, (SpecV4.wire (V4Mod.Connect c)). split; [destruct (V4Mod.write (V4Mod.Connect c) []); cbn [fst snd] in *; congruence|].
  apply lift_no_will; auto. repeat split; try assumption; try apply F1; try apply F2.
Qed.
(** ... unless it carries a will: then it never is *)
Theorem C40_v4_to_v5_with_will : forall c w q rest max,
  SpecV4.fits (V4Mod.Connect c) -> V4Connect.protocol c = V4 -> V4Connect.last_will c = Some w ->
  bytes_ok rest -> blen (SpecV4.body (V4Mod.Connect c)) <= max ->
  read (snd (V4Mod.write (V4Mod.Connect c) []) ++ rest) max = (Ok (Connect q), rest) ->
  ~ (exists wq, V5Connect.client_id q = V4Connect.client_id c /\ V5Connect.last_will q = Some wq /\
       V5Connect.lw_topic wq = V4Connect.lw_topic w /\ V5Connect.lw_message wq = V4Connect.lw_message w /\
       V5Connect.login q = canon_login (option_map lift_login (V4Connect.login c))).
Proof.
  intros c w q rest max Hf Hp Hw Hr Hm H. eapply lift_will_lost; eauto.
  destruct Hf as (F1 & F2 & F3 & F4). destruct (ProofV4.write_empty (V4Mod.Connect c) F4 F3) as [H1 _]. rewrite H1 in H. exact H.
Qed.
Example C40_case : fits ex_connect54 /\ SpecV4.fits SampleV4.ex_connect /\
  match SampleV4.ex_connect with V4Mod.Connect c => V4Connect.protocol c = V4 /\ V4Connect.last_will c <> None | _ => False end.
Proof. split; [apply ex_connect54_fits|]. split; [apply SampleV4.ex_connect_fits|]. split; [reflexivity|discriminate]. Qed.

(** ** C41: over-long strings *)
Lemma canon_items {R} (items : R -> list item) o : opt_items items (canon_props items o) = opt_items items o.
Proof. destruct o as [r|]; [|reflexivity]. cbn. destruct (items r) eqn:E; cbn; auto. Qed.
Lemma canon_packet_items p : packet_items (canon p) = packet_items p.
Proof.
  destruct p as [c|c|p|p|p|p|p|s|s|u|u| | |c]; cbn; rewrite ?canon_items; try reflexivity. unfold will_props.
  cbn. destruct (V5Connect.last_will c) as [w|]; cbn; rewrite ?canon_items; reflexivity.
Qed.
Lemma canon_short p : short_fields (canon p) -> short_fields p.
Proof.
  intros [H1 H2]. rewrite canon_packet_items in H2. split; [|exact H2]. destruct p as [c|c|p|p|p|p|p|s|s|u|u| | |c]; cbn in *; auto.
  destruct H1 as (H1 & H3 & H4). split; [exact H1|]. split.
  - destruct (V5Connect.last_will c); [exact H3|exact I].
  - destruct (V5Connect.login c) as [[[|u1 u] [|p1 p]]|]; cbn in *; auto. split; vm_compute; reflexivity || discriminate.
Qed.
(** v5: whatever is written for a packet with a field of more than 65535 bytes is never
    read back as that packet, although `write` succeeds *)
Theorem C41_v5_exact : forall p, typed p -> has_id p -> small_ids p -> blen (written p) <= max_len ->
  ~ short_fields p ->
  exists n out, write p [] = (Ok n, out) /\
    forall s max q rest, bytes_ok s -> read s max = (Ok q, rest) -> q <> p /\ q <> canon p.
Proof.
  intros p Ht Hi Hs Hl Hn. destruct (write_empty p Hl Hi Hs) as [H1 [n H2]].
  exists n, (written_wire p). split; [destruct (write p []); cbn [fst snd] in *; congruence|].
  intros s max q rest Hb H. destruct (read_well_formed s max q rest Hb H) as (_ & Hsq & _ & _ & Hc & _).
  split; intros ->; apply Hn; [exact Hsq|]. apply canon_short; assumption.
Qed.
(** v4, the same *)
Theorem C41_v4_exact : forall p, SpecV4.typed p -> SpecV4.has_id p -> blen (SpecV4.body p) <= max_len ->
  ~ SpecV4.short_fields p ->
  exists n out, V4Mod.write p [] = (Ok n, out) /\
    forall s max q rest, bytes_ok s -> V4Mod.read s max = (Ok q, rest) -> q <> p /\ q <> SpecV4.canon p.
Proof.
  intros p Ht Hi Hl Hn. destruct (ProofV4.write_empty p Hl Hi) as [H1 [n H2]].
  exists n, (SpecV4.wire p). split; [destruct (V4Mod.write p []); cbn [fst snd] in *; congruence|].
  intros s max q rest Hb H. destruct (ProofV4.read_well_formed s max q rest Hb H) as ((_ & Hsq & _) & _).
  split; intros ->; apply Hn; [exact Hsq|]. clear - Hsq. destruct p as [c|c|p|p|p|p|p|s|s|u|u| | |]; cbn in *; auto.
  destruct Hsq as (H1 & H3 & H4). split; [exact H1|]. split; [exact H3|].
  destruct (V4Connect.login c) as [[[|u1 u] [|p1 p]]|]; cbn in *; auto. split; vm_compute; reflexivity || discriminate.
Qed.
(** ... and it may well be read back as another packet without any error: a topic of
    65536 bytes becomes an empty topic and moves into the payload *)
Theorem C41_v4_corrupted : forall t payload max, is_string t -> bytes_ok payload -> blen t = 65536 ->
  blen payload <= 1000000 -> 2 + blen t + blen payload <= max ->
  exists n out,
    V4Mod.write (V4Mod.Publish (V4Publish.mkPublish false AtMostOnce false t 0 payload)) [] = (Ok n, out) /\
    V4Mod.read out max = (Ok (V4Mod.Publish (V4Publish.mkPublish false AtMostOnce false [] 0 (t ++ payload))), []).
Proof.
  intros t payload max Ht Hp Hl Hx Hm.
  set (p := V4Mod.Publish (V4Publish.mkPublish false AtMostOnce false t 0 payload)).
  set (q := V4Mod.Publish (V4Publish.mkPublish false AtMostOnce false [] 0 (t ++ payload))).
  assert (Eb : SpecV4.body p = SpecV4.body q).
  { unfold p, q. cbn [SpecV4.body V4Publish.topic V4Publish.qos V4Publish.payload positive_qos V4Publish.pkid app].
    unfold field. rewrite Hl. change (be16 65536) with (be16 (@blen N [])). rewrite <- !app_assoc. reflexivity. }
  assert (Hlen : blen (SpecV4.body q) = 2 + blen t + blen payload).
  { unfold q. cbn [SpecV4.body V4Publish.topic V4Publish.qos V4Publish.payload positive_qos app].
    autorewrite with blen. change (@blen N []) with 0. lia. }
  assert (Hid : SpecV4.has_id p) by (unfold p; cbn; discriminate).
  assert (Hml : blen (SpecV4.body p) <= max_len) by (rewrite Eb, Hlen; unfold max_len; lia).
  destruct (ProofV4.write_empty p Hml Hid) as [H1 [n H2]].
  exists n, (SpecV4.wire p). split; [destruct (V4Mod.write p []); cbn [fst snd] in *; congruence|].
  assert (Ew : SpecV4.wire p = SpecV4.wire q) by (unfold SpecV4.wire; rewrite Eb; reflexivity).
  rewrite Ew, <- (app_nil_r (SpecV4.wire q)). apply (ProofV4.read_wire q [] max).
  - split; [|split; [|split]].
    + split; [apply ProofUtf8.utf8_ok_spec; reflexivity|]. split; [reflexivity|]. apply bytes_ok_app. split; [|exact Hp].
      apply is_utf8_bytes, Ht.
    + vm_compute. discriminate.
    + unfold q; cbn; discriminate.
    + rewrite <- Eb. exact Hml.
  - exact I.
  - constructor.
  - rewrite Hlen. exact Hm.
Qed.
(** v5, for a topic that begins with a zero byte (which is UTF-8) *)
Theorem C41_v5_corrupted : forall t payload max, is_string (0 :: t) -> bytes_ok payload -> blen (0 :: t) = 65536 ->
  blen payload <= 1000000 -> 4 + blen t + blen payload <= max ->
  exists n out,
    write (Publish (V5Publish.mkPublish false AtMostOnce false (0 :: t) 0 None payload)) [] = (Ok n, out) /\
    read out max = (Ok (Publish (V5Publish.mkPublish false AtMostOnce false [] 0 None (t ++ 0 :: payload))), []).
Proof.
  intros t payload max Ht Hp Hl Hx Hm.
  set (p := Publish (V5Publish.mkPublish false AtMostOnce false (0 :: t) 0 None payload)).
  set (q := Publish (V5Publish.mkPublish false AtMostOnce false [] 0 None (t ++ 0 :: payload))).
  assert (Eb : written p = written q).
  { unfold p, q. cbn [written body V5Publish.topic V5Publish.qos V5Publish.payload V5Publish.properties positive_qos V5Publish.pkid app opt_items].
    unfold field. rewrite Hl. change (be16 65536) with (be16 (@blen N [])). change (section_bytes []) with [0].
    rewrite <- !app_assoc. reflexivity. }
  assert (Hlen : blen (written q) = 4 + blen t + blen payload).
  { unfold q. cbn [written body V5Publish.topic V5Publish.qos V5Publish.payload V5Publish.properties positive_qos V5Publish.pkid app opt_items].
    change (section_bytes []) with [0].
    autorewrite with blen. change (@blen N []) with 0. lia. }
  assert (Hid : has_id p) by (unfold p; cbn; discriminate).
  assert (Hml : blen (written p) <= max_len) by (rewrite Eb, Hlen; rewrite blen_cons in Hl; unfold max_len; lia).
  destruct (write_empty p Hml Hid) as [H1 [n H2]]; [constructor|].
  exists n, (written_wire p). split; [destruct (write p []); cbn [fst snd] in *; congruence|].
  assert (Ew : written_wire p = written_wire q) by (unfold written_wire; rewrite Eb; reflexivity).
  rewrite Ew, <- (app_nil_r (written_wire q)). apply (read_wire q [] max).
  - split; [|split; [|split; [|split]]].
    + split; [|constructor]. split; [apply ProofUtf8.utf8_ok_spec; reflexivity|]. split; [reflexivity|].
      apply is_utf8_bytes in Ht. apply bytes_ok_cons in Ht as [_ Ht]. apply bytes_ok_app. split; [exact Ht|].
      apply bytes_ok_cons. split; [reflexivity|exact Hp].
    + split; [vm_compute; discriminate|constructor].
    + constructor.
    + unfold q; cbn; discriminate.
    + rewrite <- Eb. exact Hml.
  - exact I.
  - constructor.
  - rewrite Hlen. exact Hm.
Qed.
Lemma repeat_string b n : b < 128 -> is_string (repeat b n).
Proof.
  intros Hb. exists (repeat b n). split.
  - apply Forall_forall. intros x Hx. apply repeat_spec in Hx. subst x. unfold scalar. lia.
  - induction n as [|n IH]; [reflexivity|]. cbn [repeat flat_map]. rewrite <- IH. unfold utf8_encode.
    destruct (N.ltb_spec b 128); [reflexivity|lia].
Qed.
Example C41_case : exists t, is_string t /\ blen t = 65536 /\
  ~ SpecV4.short_fields (V4Mod.Publish (V4Publish.mkPublish false AtMostOnce false t 0 [1])) /\
  exists t', t = 0 :: t'.
Proof.
  exists (repeat 0 (N.to_nat 65536)).
  assert (Hl : blen (repeat 0 (N.to_nat 65536)) = 65536) by (unfold blen; rewrite repeat_length; lia).
  split; [apply repeat_string; lia|]. split; [exact Hl|]. split.
  - cbn. unfold short. rewrite Hl. lia.
  - replace (N.to_nat 65536) with (S (N.to_nat 65535)) by lia. eexists. reflexivity.
Qed.

(** ** C42: the declared property length *)
(** the last property of a section begins before the declared end and ends at or behind
    it, where every subscription identifier counts one byte extra; any declared length
    with that property has the same effect *)
Theorem C42_v5_length_tolerance : forall s s' pl b1 pre f plen its bs f' plen' suf rest max,
  bytes_ok s -> bytes_ok s' -> leads_to pl b1 pre ->
  lenfield f plen -> blen f <= 4 -> 0 < plen -> section (allowed_at pl) plen its bs ->
  starts_with_frame s b1 (pre ++ f ++ bs ++ suf) rest -> blen (pre ++ f ++ bs ++ suf) <= max ->
  exists its0 it bs0 vb,
    its = its0 ++ [it] /\ bs = bs0 ++ fst it :: vb /\ value_enc (snd it) vb /\
    blen bs0 + blen (all_ids its0) < plen /\ plen <= blen bs + blen (all_ids its) /\
    (lenfield f' plen' -> blen f' <= 4 ->
     blen bs0 + blen (all_ids its0) < plen' -> plen' <= blen bs + blen (all_ids its) ->
     starts_with_frame s' b1 (pre ++ f' ++ bs ++ suf) rest -> blen (pre ++ f' ++ bs ++ suf) <= max ->
     read s' max = read s max).
Proof.
  intros s s' pl b1 pre f plen its bs f' plen' suf rest max Hb Hb' Hlt Hf Hf4 Hpos Hsec Hs Hm.
  destruct (section_extent _ _ _ _ Hpos Hsec) as (its0 & it & bs0 & vb & E1 & E2 & Hv & L1 & L2 & Hall).
  exists its0, it, bs0, vb. repeat (split; [assumption|]). intros Hf' Hf4' K1 K2 Hs' Hm'.
  symmetry. eapply (place_same s s' pl b1 pre f plen its bs f' plen' its bs); eauto; [lia|].
  split; [reflexivity|split; reflexivity].
Qed.
(** so a value may lie far beyond the declared end: a PUBACK with property length 1 *)
Theorem C42_v5_refuted : exists s p, read s 100 = (Ok p, []) /\
  s = [0x40; 12; 0; 7; 0] ++ [1] ++ [31; 0; 4; 97; 98; 99; 100; 9] /\
  p = PubAck (V5PubAck.mkPubAck 7 V5PubAck.Success (Some (V5PubAck.mkPubAckProperties (Some [97; 98; 99; 100]) []))).
Proof. eexists. eexists. split; [|split; reflexivity]. vm_compute. reflexivity. Qed.
Example C42_v5_case : leads_to InPubAck 0x40 [0; 7; 0] /\
  section (allowed_at InPubAck) 1 [(31, VStr [97])] [31; 0; 1; 97] /\
  read ([0x40; 8; 0; 7; 0] ++ [1] ++ [31; 0; 1; 97]) 100 = read ([0x40; 8; 0; 7; 0] ++ [4] ++ [31; 0; 1; 97]) 100.
Proof.
  split; [split; [reflexivity|]; exists 7, V5PubAck.Success; split; reflexivity|].
  split; [|vm_compute; reflexivity]. exists 4. split; [|vm_compute; discriminate].
  apply (reads_cons _ _ 0 31 (VStr [97]) [0; 1; 97] [] [] 4).
  - lia.
  - cbn; auto.
  - repeat split; try reflexivity; try (apply ProofUtf8.utf8_ok_spec; reflexivity). vm_compute; discriminate.
  - reflexivity.
  - apply reads_nil.
Qed.

Print Assumptions C36_v5_misplaced_rejected.
Print Assumptions C37_v5_same_set.
Print Assumptions C37_v5_any_order.
Print Assumptions C37_v5_ids_order_refuted.
Print Assumptions C38_v5_exact.
Print Assumptions C38_v5_two_ids.
Print Assumptions C38_v5_read_back.
Print Assumptions C38_v5_refuted.
Print Assumptions C39_v5_connack_exact.
Print Assumptions C39_v5_disconnect_exact.
Print Assumptions C39_v5_refuted.
Print Assumptions C40_v5_level4_exact.
Print Assumptions C40_v5_level4_refuted.
Print Assumptions C40_v4_to_v5_without_will.
Print Assumptions C40_v4_to_v5_with_will.
Print Assumptions C41_v5_exact.
Print Assumptions C41_v4_exact.
Print Assumptions C41_v4_corrupted.
Print Assumptions C41_v5_corrupted.
Print Assumptions C42_v5_length_tolerance.
Print Assumptions C42_v5_refuted.

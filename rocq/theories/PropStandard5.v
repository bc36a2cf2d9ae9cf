(** PropStandard5.v -- property theorems: the v5 module against the grammar of the MQTT 5
    standard (SpecStd5). *)
From Verif Require Import Base SpecWire SpecTopic SpecProps SpecPropSets SpecV5 SpecPlaces SpecStd5 SpecStd5Dev ProofBase ProofLib ProofV5Read ProofV5 ProofErrorsV5 ProofStd ProofStd5 ProofStd5Dev ProofStd5Not.
From Verif Require V5Connect V5ConnAck V5Publish V5PubAck V5Subscribe V5Disconnect.

(** ** C62: `v5::read` and the messages of MQTT 5 *)
(** a message of the standard is read as the packet it stands for, unless it is one of those
    listed in [unsupported] and [misread] *)
Theorem C62_v5_standard_accepted : forall m s rest max, bytes_ok s ->
  conforms m -> starts_with_frame s (header_byte m) (content m) rest -> blen (content m) <= max ->
  (forall e, ~ unsupported m e) -> ~ misread m ->
  exists p, as_packet m = Some p /\ read s max = (Ok p, rest).
Proof.
  intros m s rest max Hb Hm Hs Hl Hu Hr.
  assert (Hml : blen (content m) <= max_len) by (destruct Hs as (f & _ & Hf & Hfl); exact (lenfield_bound _ _ Hf Hfl)).
  destruct (std_decodes m Hm Hml Hu Hr) as (p & E & Hd). exists p. split; [exact E|].
  apply read_iff; [exact Hb|]. exists (header_byte m), (content m). auto.
Qed.
(** messages of the standard that are refused *)
Theorem C62_v5_unsupported : forall m e s rest max, bytes_ok s ->
  conforms m -> starts_with_frame s (header_byte m) (content m) rest -> blen (content m) <= max ->
  unsupported m e -> read s max = (Err e, rest).
Proof.
  intros m e s rest max Hb Hm Hs Hl Hu.
  assert (Hml : blen (content m) <= max_len) by (destruct Hs as (f & _ & Hf & Hfl); exact (lenfield_bound _ _ Hf Hfl)).
  apply (read_fails_iff s max e rest Hb). exists (header_byte m), (content m).
  split; [exact Hs|]. split; [exact Hl|]. exact (std_unsupported m e Hm Hml Hu).
Qed.
(** a PUBLISH with many subscription identifiers is accepted, but the last properties end up
    in the payload: read are just as many properties as are needed for their bytes plus the
    number of subscription identifiers among them to reach the length of the section *)
Theorem C62_v5_misread : forall m s rest max, bytes_ok s ->
  conforms m -> starts_with_frame s (header_byte m) (content m) rest -> blen (content m) <= max ->
  misread m ->
  exists a b p, message_props m = a ++ b /\ b <> [] /\
    blen (items_bytes (message_props m)) <= blen (items_bytes a) + identifiers a /\
    (forall a1 x a2, a = a1 ++ x :: a2 -> blen (items_bytes a1) + identifiers a1 < blen (items_bytes (message_props m))) /\
    as_packet (cut m a b) = Some p /\ as_packet m <> Some p /\ read s max = (Ok p, rest).
Proof.
  intros m s rest max Hb Hm Hs Hl Hr.
  assert (Hml : blen (content m) <= max_len) by (destruct Hs as (f & _ & Hf & Hfl); exact (lenfield_bound _ _ Hf Hfl)).
  destruct (std_misread m Hm Hml Hr) as (a & b & p & H1 & H2 & H3 & H4 & H5 & H6).
  exists a, b, p. split; [exact H1|]. split; [exact H2|]. split; [exact H3|]. split; [exact H4|]. split; [exact H5|]. split.
  - assert (Hne : items_bytes b <> []) by (destruct b; [congruence|discriminate]).
    destruct m; cbn [message_props] in H1; try (destruct a, b; discriminate H1 || congruence); cbn [cut as_packet] in *;
      rewrite <- H5; intros E; injection E as _ E; apply (f_equal (@blen N)) in E; rewrite blen_app in E;
      destruct (items_bytes b); try congruence; rewrite blen_cons in E; lia.
  - apply read_iff; [exact Hb|]. exists (header_byte m), (content m). auto.
Qed.

(** whatever is accepted is a message of the standard and read as the packet that message
    stands for, or it shows one of the listed deviations ([SpecStd5Dev.deviates]), and not
    both; if it deviates it can only be a message of the standard that is misread *)
Theorem C62_v5_leniency_exact : forall s max p rest b1 bd, bytes_ok s ->
  read s max = (Ok p, rest) -> starts_with_frame s b1 bd rest ->
  (exists m, conforms m /\ b1 = header_byte m /\ bd = content m /\ as_packet m = Some p /\ ~ misread m /\
     ~ deviates b1 bd p) \/
  (deviates b1 bd p /\ forall m, conforms m -> b1 = header_byte m -> bd = content m -> misread m).
Proof.
  intros s max p rest b1 bd Hb H Hs.
  assert (Hb' : b1 < 256 /\ bytes_ok bd /\ blen bd <= max_len).
  { destruct Hs as (f & -> & Hf & Hfl). apply bytes_ok_cons in Hb as [H1 Hb]. apply bytes_ok_app in Hb as [_ Hb]. apply bytes_ok_app in Hb as [Hb _].
    split; [exact H1|]. split; [exact Hb|exact (lenfield_bound _ _ Hf Hfl)]. }
  destruct Hb' as (Hb1 & Hbd & Hlen).
  assert (Hd : decodes_body b1 bd p).
  { apply read_iff in H as (c1 & cd & Hc & _ & Hd); [|exact Hb].
    destruct Hs as (f & E & Hf & _), Hc as (g & E' & Hg & _). rewrite E in E'. injection E' as <- E'.
    destruct (lenfield_det _ _ _ _ _ _ Hf Hg E') as (_ & En & Er). apply app_inv_tail in Er. subst cd. exact Hd. }
  destruct (standard_or_deviates b1 bd p Hb1 Hbd Hd) as [(m & Hm & E1 & E2 & E3 & E4)|D].
  - left. exists m. repeat (split; [assumption|]). subst b1 bd. exact (standard_not_deviates m p Hm E4 E3 Hlen).
  - right. split; [exact D|]. intros m Hm E1 E2. subst b1 bd.
    destruct (supported_dec m) as [[e Hu]|Hu].
    + exfalso. exact (fails_decodes _ _ _ _ Hb1 Hbd Hlen (std_unsupported m e Hm Hlen Hu) Hd).
    + destruct (misread_dec m) as [Hr|Hr]; [exact Hr|exfalso].
      destruct (std_decodes m Hm Hlen Hu Hr) as (q & Eq & Hd').
      assert (p = q) by exact (decodes_det _ _ _ _ Hb1 Hbd Hlen Hd Hd'). subst q.
      exact (standard_not_deviates m p Hm Hr Eq Hlen D).
Qed.
Lemma nodup_twice (l : list N) id a b c : NoDup l -> l = a ++ id :: b ++ id :: c -> False.
Proof. intros H ->. apply NoDup_remove_2 in H. apply H, in_or_app. right. apply in_or_app. right. left. reflexivity. Qed.
Lemma ascii_string l : Forall (fun c => c < 128) l -> is_string l.
Proof.
  intros H. exists l. split; [eapply Forall_impl; [|exact H]; cbv beta; intros c Hc; left; lia|].
  induction H as [|c l Hc H IH]; [reflexivity|]. cbn [flat_map].
  rewrite <- IH. unfold utf8_encode. rewrite (proj2 (N.ltb_lt c 0x80) Hc). reflexivity.
Qed.
Lemma letter_text c : 0 < c < 128 -> text [c].
Proof. intros Hc. split; [apply ascii_string; repeat constructor; lia|]. split; [cbv; discriminate|]. intros [H|[]]; lia. Qed.
Ltac leaf := first [reflexivity | exact I | apply letter_text; lia | apply ascii_string; repeat constructor; lia
  | cbv; reflexivity | cbv; discriminate | discriminate | cbv; intuition discriminate | lia].
Ltac item_rule := split; [cbn [fst snd In allowed_at]; tauto|]; split; [split; [split|split]|];
  cbn [fst snd value_typed value_short value_small value_rule]; repeat match goal with |- _ /\ _ => split end; leaf.
(** a CONNECT with properties and a will; a refused DISCONNECT; a PUBLISH with three
    subscription identifiers that is misread; an accepted PUBACK that is not standard *)
Example C62_v5_case :
  let its := [(17, VFour 10); (38, VPair [97] [98])] in
  let m := M_CONNECT true 60 its [99] (Some (mkWill [(24, VFour 5)] [116] [255] AtLeastOnce true)) (Some [117]) (Some [112]) in
  let bad := M_PUBLISH0 false [116] [(11, VVar 1); (11, VVar 2); (11, VVar 3)] [65] in
  (conforms m /\ (forall e, ~ unsupported m e) /\ ~ misread m /\
   starts_with_frame (0x10 :: 44 :: content m ++ [1]) (header_byte m) (content m) [1]) /\
  (conforms (M_DISCONNECT Nothing) /\ unsupported (M_DISCONNECT Nothing) PayloadRequired /\
   read [0xE0; 0] 10 = (Err PayloadRequired, [])) /\
  (conforms bad /\ misread bad /\
   read (0x30 :: 11 :: content bad) 100 =
     (Ok (Publish (V5Publish.mkPublish false AtMostOnce false [116] 0
        (Some (publish_record [(11, VVar 1); (11, VVar 2)])) [11; 3; 65])), [])) /\
  (let p := PubAck (V5PubAck.mkPubAck 7 V5PubAck.Success None) in
   read [0x4F; 2; 0; 7] 10 = (Ok p, []) /\ deviates 0x4F [0; 7] p).
Proof.
  cbv zeta. assert (U : forall n, n < 65536 -> u16 n) by auto.
  split; [|split; [|split]].
  - split; [|split; [|split]].
    + cbn [conforms on_some w_props w_topic w_message].
      split; [cbv; reflexivity|]. split.
      { split; [|split].
        - repeat (apply Forall_cons; [item_rule|]); apply Forall_nil.
        - intros id a b c E. exfalso. refine (nodup_twice _ _ _ _ _ _ E). cbv. repeat constructor; cbn [In]; intuition discriminate.
        - cbv. intuition discriminate. }
      split; [apply letter_text; lia|]. split.
      { split; [|split].
        - split; [|split].
          + repeat (apply Forall_cons; [item_rule|]); apply Forall_nil.
          + intros id a b c E. exfalso. refine (nodup_twice _ _ _ _ _ _ E). cbv. repeat constructor; cbn [In]; intuition discriminate.
          + cbv. intuition discriminate.
        - split; [apply letter_text; lia|]. split; [discriminate|]. split; intros [H|[]]; discriminate H.
        - split; [repeat constructor; cbv; reflexivity|cbv; discriminate]. }
      split; [apply letter_text; lia|]. split; [repeat constructor; cbv; reflexivity|cbv; discriminate].
    + intros e H. inversion H as [? ? ? ? ? ? ? Hn| | |]; subst. apply Hn, ascii_string. repeat constructor; lia.
    + apply nothing_misread. reflexivity.
    + exists [44]. split; [reflexivity|]. split; [|cbv; discriminate]. apply (lf_last 44). lia.
  - split; [exact I|]. split; [constructor|vm_compute; reflexivity].
  - split; [|split; [|vm_compute; reflexivity]].
    + cbn [conforms]. split; [|split].
      * split; [apply letter_text; lia|]. split; [intros [H|[]]; discriminate H|]. split; [intros [H|[]]; discriminate H|discriminate].
      * split; [|split].
        -- repeat (apply Forall_cons; [item_rule|]); apply Forall_nil.
        -- intros id a b c E. assert (Hi : In id (map fst [(11, VVar 1); (11, VVar 2); (11, VVar 3)])) by (rewrite E; apply in_or_app; right; left; reflexivity).
           cbn [map fst In] in Hi. right. left. intuition.
        -- cbv. intuition discriminate.
      * repeat constructor; cbv; reflexivity.
    + exists [(11, VVar 1); (11, VVar 2)], (11, VVar 3). split; [reflexivity|cbv; discriminate].
  - split; [vm_compute; reflexivity|]. apply dv_header; [discriminate|]. cbv. discriminate.
Qed.
Print Assumptions C62_v5_standard_accepted.
Print Assumptions C62_v5_unsupported.
Print Assumptions C62_v5_misread.
Print Assumptions C62_v5_leniency_exact.

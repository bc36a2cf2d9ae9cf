(** PropExtract.v -- C54: the public `extract` functions of the v5 property sets. *)
From Verif Require Import ProofBase Lib ProofLib ProofRead SpecFrame SpecProps SpecPropSets SpecErrors ProofProps ProofPropSets.
From Verif Require SpecV5 V5Mod ProofErrorsV5 ProofV5Write ProofPlaces.

(** [extract] accepts exactly the property sections of the place [pl], leaves what follows,
    and reports every other buffer as the error of its first defect *)
Definition extracts {R} (pl : place) (record_of : list item -> R) (extract : reader (option R)) : Prop :=
  forall s, bytes_ok s -> blen s < 2 ^ 62 ->
  (forall o rest, extract s = Ok (o, rest) <->
     exists bs, s = bs ++ rest /\ decodes_props (allowed_at pl) record_of o bs) /\
  (forall e, extract s = Err e <-> section_fails (allowed_at pl) s e) /\
  extract s <> Panic /\ extract s <> Diverge.

Lemma extracts_intro {R} pl (rec : list item -> R) (ex : reader (option R)) :
  (forall (E : Error -> Prop) s (Q : _ -> _ -> Prop), bytes_ok s -> blen s <= huge ->
    (forall e, section_fails (allowed_at pl) s e -> E e) ->
    (forall o bs s', s = bs ++ s' -> decodes_props (allowed_at pl) rec o bs -> bytes_ok s' -> Q o s') ->
    wp E (ex s) Q) ->
  (forall s e, bytes_ok s -> blen s <= huge -> section_fails (allowed_at pl) s e -> ex s = Err e) ->
  (forall o bs s, blen bs <= huge -> decodes_props (allowed_at pl) rec o bs -> ex (bs ++ s) = Ok (o, s)) ->
  extracts pl rec ex.
Proof.
  intros Hwp Hf Hok s Hb Hl'. assert (Hl : blen s <= huge) by (unfold huge; lia). clear Hl'.
  assert (H : wp (section_fails (allowed_at pl) s) (ex s)
    (fun o rest => exists bs, s = bs ++ rest /\ decodes_props (allowed_at pl) rec o bs)).
  { apply Hwp; eauto. }
  split; [|split; [|split]].
  - intros o rest. split.
    + intros E. rewrite E in H. exact H.
    + intros (bs & -> & Hd). apply Hok; [autorewrite with blen in Hl; lia|exact Hd].
  - intros e. split.
    + intros E. rewrite E in H. exact H.
    + apply Hf; assumption.
  - destruct (ex s); try discriminate. contradiction.
  - destruct (ex s); try discriminate. contradiction.
Qed.

(** ** C54 *)
Theorem C54_extract_exact :
  extracts InConnAck connack_record V5ConnAck.extract /\
  extracts InPubAck puback_record V5PubAck.extract /\
  extracts InPubRec pubrec_record V5PubRec.extract /\
  extracts InPubRel pubrel_record V5PubRel.extract /\
  extracts InPubComp pubcomp_record V5PubComp.extract /\
  extracts InSubscribe subscribe_record V5Subscribe.extract /\
  extracts InSubAck suback_record V5SubAck.extract /\
  extracts InUnsubAck unsuback_record V5UnsubAck.extract /\
  extracts InDisconnect disconnect_record V5Disconnect.extract.
Proof.
  split; [exact (extracts_intro _ _ _ (ProofErrorsV5.connack_sec_err) (ProofErrorsV5.connack_sec_fails) (connack_extract_ok))|].
  split; [exact (extracts_intro _ _ _ (ProofErrorsV5.puback_sec_err) (ProofErrorsV5.puback_sec_fails) (puback_extract_ok))|].
  split; [exact (extracts_intro _ _ _ (ProofErrorsV5.pubrec_sec_err) (ProofErrorsV5.pubrec_sec_fails) (pubrec_extract_ok))|].
  split; [exact (extracts_intro _ _ _ (ProofErrorsV5.pubrel_sec_err) (ProofErrorsV5.pubrel_sec_fails) (pubrel_extract_ok))|].
  split; [exact (extracts_intro _ _ _ (ProofErrorsV5.pubcomp_sec_err) (ProofErrorsV5.pubcomp_sec_fails) (pubcomp_extract_ok))|].
  split; [exact (extracts_intro _ _ _ (ProofErrorsV5.subscribe_sec_err) (ProofErrorsV5.subscribe_sec_fails) (subscribe_extract_ok))|].
  split; [exact (extracts_intro _ _ _ (ProofErrorsV5.suback_sec_err) (ProofErrorsV5.suback_sec_fails) (suback_extract_ok))|].
  split; [exact (extracts_intro _ _ _ (ProofErrorsV5.unsuback_sec_err) (ProofErrorsV5.unsuback_sec_fails) (unsuback_extract_ok))|].
  exact (extracts_intro _ _ _ (ProofErrorsV5.disconnect_sec_err) (ProofErrorsV5.disconnect_sec_fails) (disconnect_extract_ok)).
Qed.
(** what follows a section has no influence on it *)
Definition local {R} (extract : reader (option R)) : Prop :=
  forall bs rest rest' o, bytes_ok (bs ++ rest) -> blen (bs ++ rest) < 2 ^ 62 ->
    bytes_ok rest' -> blen (bs ++ rest') < 2 ^ 62 ->
    extract (bs ++ rest) = Ok (o, rest) -> extract (bs ++ rest') = Ok (o, rest').
Lemma extracts_local {R} pl (rec : list item -> R) ex : extracts pl rec ex -> local ex.
Proof.
  intros H bs rest rest' o Hb Hl Hb' Hl' E.
  destruct (H _ Hb Hl) as (H1 & _). apply H1 in E as (bs' & E & Hd). apply app_inv_tail in E as <-.
  assert (Hb2 : bytes_ok (bs ++ rest')) by (apply bytes_ok_app in Hb as [Hb _]; apply bytes_ok_app; auto).
  destruct (H _ Hb2 Hl') as (H2 & _). apply H2. eauto.
Qed.
Theorem C54_local :
  local V5ConnAck.extract /\ local V5PubAck.extract /\ local V5PubRec.extract /\ local V5PubRel.extract /\ local V5PubComp.extract /\ local V5Subscribe.extract /\ local V5SubAck.extract /\ local V5UnsubAck.extract /\ local V5Disconnect.extract.
Proof.
  destruct C54_extract_exact as (A & B & C & D & E & F & G & H & I).
  repeat split; eapply extracts_local; eassumption.
Qed.

(** ** The cases *)
Example C54_case :
  V5PubAck.extract [5; 31; 0; 2; 104; 105; 7; 8] = Ok (Some (V5PubAck.mkPubAckProperties (Some [104; 105]) []), [7; 8]) /\
  V5Subscribe.extract [2; 11; 200; 1; 9] = Ok (Some (V5Subscribe.mkSubscribeProperties (Some 200) []), [9]) /\
  V5Disconnect.extract [0; 1] = Ok (None, [1]) /\
  V5SubAck.extract [3; 17; 0; 0] = Err (InvalidPropertyType 17) /\
  section_fails (allowed_at InSubAck) [3; 17; 0; 0] (InvalidPropertyType 17).
Proof.
  split; [reflexivity|]. split; [reflexivity|]. split; [reflexivity|]. split; [reflexivity|].
  destruct C54_extract_exact as (_ & _ & _ & _ & _ & _ & G & _).
  apply (G [3; 17; 0; 0]); [repeat constructor|reflexivity|reflexivity].
Qed.
Print Assumptions C54_extract_exact.
Print Assumptions C54_local.

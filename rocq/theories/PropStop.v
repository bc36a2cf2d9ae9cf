(** PropStop.v -- C54 and C67 about the Rust text (the mechanical translation Src*.v): the public
    `extract` functions, with the buffer they leave behind on success and on failure. *)
From Verif Require Import Base SpecWire SpecProps SpecPropSets SpecErrors SpecStop ProofBase ProofLib ProofRelBase ProofSrcBase ProofSrcStop.
From Verif Require SrcV5ConnAck SrcV5PubAck SrcV5PubRec SrcV5PubRel SrcV5PubComp SrcV5Subscribe SrcV5SubAck SrcV5UnsubAck SrcV5Disconnect.
From Verif Require PropRelease PropExtract ProofSrcV5Ext ProofSrcV5ExtC.

(** [ex], with any amount [fuel] of loop iterations larger than the buffer, accepts exactly the
    property sections of the place [pl], leaving what follows; every other buffer is refused with the
    error of its first defect, leaving what [section_stops] says; there is no third outcome *)
Definition extracts_from {R} (pl : place) (record_of : list item -> R) (ex : nat -> bytes -> outcome (option R) * bytes) : Prop :=
  forall fuel s, bytes_ok s -> blen s < 2 ^ 62 -> (List.length s < fuel)%nat ->
  (forall o rest, ex fuel s = (Ok o, rest) <-> exists bs, s = bs ++ rest /\ decodes_props (allowed_at pl) record_of o bs) /\
  (forall e rest, ex fuel s = (Err e, rest) <-> section_stops (allowed_at pl) s e rest) /\
  fst (ex fuel s) <> Panic /\ fst (ex fuel s) <> Diverge.

Lemma value_lacks_stops t s e : value_lacks t s e -> exists s', value_stops t s e s'.
Proof.
  destruct 1 as [s e H|s e H|s e H|s e H|s e H|s e H|s e H|k s e H1 H2 H];
    destruct (lacks_stops _ _ _ H) as [s' H']; exists s'.
  - apply vs_byte; assumption.
  - apply vs_two; assumption.
  - apply vs_four; assumption.
  - apply vs_var; assumption.
  - apply vs_str; assumption.
  - apply vs_bin; assumption.
  - apply vs_key; assumption.
  - apply vs_value; assumption.
Qed.
Lemma fails_stops allowed s e : section_fails allowed s e -> exists s', section_stops allowed s e s'.
Proof.
  destruct 1 as [s e H|f plen its bs c Hf Hl Hr Hc|f plen its bs c id s Hf Hl Hr Hc Hn|f plen its bs c id t s e Hf Hl Hr Hc Hi Ht Hv].
  - destruct (lacks_stops _ _ _ H) as [s' H']. exists s'. apply st_len, H'.
  - eexists. eapply st_end; eassumption.
  - eexists. eapply st_id; eassumption.
  - destruct (value_lacks_stops _ _ _ Hv) as [s' H']. exists s'. eapply st_value; eassumption.
Qed.
Lemma extracts_from_intro {R} pl (rec : list item -> R) (ex : nat -> writer (option R)) model Q :
  PropExtract.extracts pl rec model -> stopping (allowed_at pl) ex ->
  (forall fuel s, (List.length s < fuel)%nat -> blen s <= half -> sim (ex fuel s) (model s) (fun a b s' => a = b /\ Q s s')) ->
  extracts_from pl rec ex.
Proof.
  intros HM HS HI fuel s Hb Hs Hf.
  assert (Hh : blen s <= half) by (apply PropRelease.small_half; lia).
  specialize (HI fuel s Hf Hh). destruct (HM s Hb Hs) as (M1 & M2 & M3 & M4). unfold sim in HI.
  split; [|split; [|split]].
  - intros o rest. rewrite <- M1. destruct (ex fuel s) as [[o'|e| |] r]; cbn [fst snd] in HI; destruct (model s) as [[b r']|e'| |]; try contradiction.
    1: destruct HI as (<- & <- & _); split; intros H; injection H as <- <-; reflexivity.
    all: split; discriminate.
  - intros e rest. split.
    + intros E. rewrite E in HI. cbn [fst snd] in HI. destruct (model s) as [[b r']|e'| |]; try contradiction. subst e'.
      destruct (fails_stops _ _ _ (proj1 (M2 e) eq_refl)) as [s' H]. assert (E' := HS fuel s e s' Hb Hs Hf H). rewrite E in E'. injection E' as <-. exact H.
    + intros H. exact (HS fuel s e rest Hb Hs Hf H).
  - intros E. rewrite E in HI. destruct (model s) as [[? ?]| | |]; contradiction.
  - intros E. rewrite E in HI. destruct (model s) as [[? ?]| | |]; contradiction.
Qed.

(** ** C67 *)
Theorem C67_extract_exact :
  extracts_from InConnAck connack_record SrcV5ConnAck.ConnAckProperties_extract /\
  extracts_from InPubAck puback_record SrcV5PubAck.PubAckProperties_extract /\
  extracts_from InPubRec pubrec_record SrcV5PubRec.PubRecProperties_extract /\
  extracts_from InPubRel pubrel_record SrcV5PubRel.PubRelProperties_extract /\
  extracts_from InPubComp pubcomp_record SrcV5PubComp.PubCompProperties_extract /\
  extracts_from InSubscribe subscribe_record SrcV5Subscribe.SubscribeProperties_extract /\
  extracts_from InSubAck suback_record SrcV5SubAck.SubAckProperties_extract /\
  extracts_from InUnsubAck unsuback_record SrcV5UnsubAck.UnsubAckProperties_extract /\
  extracts_from InDisconnect disconnect_record SrcV5Disconnect.DisconnectProperties_extract.
Proof.
  destruct PropExtract.C54_extract_exact as (A & B & C & D & E & F & G & H & I).
  split; [exact (extracts_from_intro _ _ _ _ _ A connack_stops ProofSrcV5ExtC.v5_connack_extract)|].
  split; [exact (extracts_from_intro _ _ _ _ _ B puback_stops ProofSrcV5Ext.v5_puback_extract)|].
  split; [exact (extracts_from_intro _ _ _ _ _ C pubrec_stops ProofSrcV5Ext.v5_pubrec_extract)|].
  split; [exact (extracts_from_intro _ _ _ _ _ D pubrel_stops ProofSrcV5Ext.v5_pubrel_extract)|].
  split; [exact (extracts_from_intro _ _ _ _ _ E pubcomp_stops ProofSrcV5Ext.v5_pubcomp_extract)|].
  split; [exact (extracts_from_intro _ _ _ _ _ F subscribe_stops ProofSrcV5Ext.v5_subscribe_extract)|].
  split; [exact (extracts_from_intro _ _ _ _ _ G suback_stops ProofSrcV5Ext.v5_suback_extract)|].
  split; [exact (extracts_from_intro _ _ _ _ _ H unsuback_stops ProofSrcV5Ext.v5_unsuback_extract)|].
  exact (extracts_from_intro _ _ _ _ _ I disconnect_stops ProofSrcV5Ext.v5_disconnect_extract).
Qed.

(** whatever happens, bytes are only removed from the front *)
Lemma stops_suffix w s e s' : stops w s e s' -> exists p, s = p ++ s'.
Proof. destruct 1; solve [exists []; reflexivity | eexists; reflexivity]. Qed.
Lemma value_stops_suffix t s e s' : value_stops t s e s' -> exists p, s = p ++ s'.
Proof.
  destruct 1 as [s e s' H|s e s' H|s e s' H|s e s' H|s e s' H|s e s' H|s e s' H|k s e s' _ _ H];
    destruct (stops_suffix _ _ _ _ H) as [p ->]; [exists p; reflexivity..|]. exists (field k ++ p). rewrite <- app_assoc. reflexivity.
Qed.
Lemma section_stops_suffix allowed s e s' : section_stops allowed s e s' -> exists p, s = p ++ s'.
Proof.
  destruct 1 as [s e s' H|f plen its bs c Hf Hl Hr Hc|f plen its bs c id s Hf Hl Hr Hc Hn|f plen its bs c id t s e s' Hf Hl Hr Hc Hi Ht Hv].
  - exact (stops_suffix _ _ _ _ H).
  - exists (f ++ bs). rewrite app_nil_r. reflexivity.
  - exists (f ++ bs ++ [id]). rewrite <- !app_assoc. reflexivity.
  - destruct (value_stops_suffix _ _ _ _ Hv) as [p ->]. exists (f ++ bs ++ id :: p). rewrite <- !app_assoc. reflexivity.
Qed.
Definition takes_prefix {R} (ex : nat -> bytes -> outcome (option R) * bytes) : Prop :=
  forall fuel s, bytes_ok s -> blen s < 2 ^ 62 -> (List.length s < fuel)%nat -> exists p, s = p ++ snd (ex fuel s).
Lemma from_prefix {R} pl (rec : list item -> R) ex : extracts_from pl rec ex -> takes_prefix ex.
Proof.
  intros H fuel s Hb Hs Hf. destruct (H fuel s Hb Hs Hf) as (H1 & H2 & H3 & H4).
  destruct (ex fuel s) as [[o|e| |] r]; cbn [fst snd] in *; try contradiction.
  - destruct (proj1 (H1 o r) eq_refl) as (bs & -> & _). eauto.
  - exact (section_stops_suffix _ _ _ _ (proj1 (H2 e r) eq_refl)).
Qed.
Theorem C67_prefix :
  takes_prefix SrcV5ConnAck.ConnAckProperties_extract /\ takes_prefix SrcV5PubAck.PubAckProperties_extract /\
  takes_prefix SrcV5PubRec.PubRecProperties_extract /\ takes_prefix SrcV5PubRel.PubRelProperties_extract /\
  takes_prefix SrcV5PubComp.PubCompProperties_extract /\ takes_prefix SrcV5Subscribe.SubscribeProperties_extract /\
  takes_prefix SrcV5SubAck.SubAckProperties_extract /\ takes_prefix SrcV5UnsubAck.UnsubAckProperties_extract /\
  takes_prefix SrcV5Disconnect.DisconnectProperties_extract.
Proof.
  destruct C67_extract_exact as (A & B & C & D & E & F & G & H & I).
  repeat split; eapply from_prefix; eassumption.
Qed.

(** cases: nothing, the identifier, the length, the string are removed *)
Example C67_case :
  SrcV5PubAck.PubAckProperties_extract 20 [5; 31; 0; 2; 104; 105; 7; 8] =
    (Ok (Some (V5PubAck.mkPubAckProperties (Some [104; 105]) [])), [7; 8]) /\
  SrcV5PubAck.PubAckProperties_extract 20 [128; 128] = (Err (InsufficientBytes 1), [128; 128]) /\
  SrcV5PubAck.PubAckProperties_extract 20 [3; 17; 9; 9] = (Err (InvalidPropertyType 17), [9; 9]) /\
  SrcV5PubAck.PubAckProperties_extract 20 [3; 31; 0; 9; 1] = (Err (BoundaryCrossed 9), [1]) /\
  SrcV5PubAck.PubAckProperties_extract 20 [4; 31; 0; 1; 255; 6] = (Err TopicNotUtf8, [6]) /\
  section_stops (allowed_at InPubAck) [4; 31; 0; 1; 255; 6] TopicNotUtf8 [6].
Proof.
  repeat (split; [vm_compute; reflexivity|]).
  destruct C67_extract_exact as (_ & B & _). apply (B 20%nat); [repeat constructor|reflexivity|cbn; lia|vm_compute; reflexivity].
Qed.
Print Assumptions C67_extract_exact.
Print Assumptions C67_prefix.

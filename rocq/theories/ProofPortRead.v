(** ProofPortRead.v -- the decoders on an arbitrary target. *)
From Verif Require Import ProofBase Lib ProofLib ProofRelBase SrcBase ProofWrapBase ProofPortBase ProofPortLib ProofPortPlain ProofPortExtract.
From Verif Require V5Property V4Mod V5Mod SrcV4Mod SrcV5Mod PortBase PortV4Mod PortV5Mod.

Ltac pcalls := idtac;
  lazymatch goal with
  | |- psim (wbind _ _) _ _ _ =>
      first [ eapply psim_bind; [ first [apply p_ConnAckProperties_extract | apply p_ConnectProperties_read | apply p_WillProperties_read
                | apply p_PubAckProperties_extract | apply p_PubRecProperties_extract | apply p_PubRelProperties_extract
                | apply p_PubCompProperties_extract | apply p_PublishProperties_extract | apply p_SubscribeProperties_extract
                | apply p_SubAckProperties_extract | apply p_UnsubscribeProperties_extract | apply p_UnsubAckProperties_extract
                | apply p_DisconnectProperties_extract ]; plia | intros ? ? ? ]
            | eapply psim_bind; [apply psim_wsim; solve [plain] | intros ? ? ?] ]
  end.
Notation decodes src port := (forall fuel h bs, 2 * blen bs < 2 ^ bits -> osim (src fuel h bs) (port fuel h bs)).
Ltac pread := eapply psim_run with (Q := fun _ _ => True); pgo pcalls; exact I.

Lemma p_LastWill_read {T : Target} {WT : Wide} fuel fl s : 2 * blen s < 2 ^ bits ->
  psim (SrcV5Connect.LastWill_read fuel fl) (PortV5Connect.LastWill_read fuel fl) (fun _ _ => True) s.
Proof. intros Hs. unfold SrcV5Connect.LastWill_read, PortV5Connect.LastWill_read. names. pgo pcalls; exact I. Qed.
Ltac pcalls2 := idtac;
  lazymatch goal with
  | |- psim (wbind (SrcV5Connect.LastWill_read _ _) _) _ _ _ => eapply psim_bind; [apply p_LastWill_read; plia|intros ? ? ?]
  | |- _ => pcalls end.
Lemma p_Connect_read {T : Target} {WT : Wide} : decodes SrcV5Connect.Connect_read PortV5Connect.Connect_read.
Proof. intros fuel h bs Hs. unfold SrcV5Connect.Connect_read, PortV5Connect.Connect_read. names.
 eapply psim_run with (Q := fun _ _ => True); pgo pcalls2; exact I. Qed.
Lemma p_ConnAck_read {T : Target} {WT : Wide} : decodes SrcV5ConnAck.ConnAck_read PortV5ConnAck.ConnAck_read.
Proof. intros fuel h bs Hs. unfold SrcV5ConnAck.ConnAck_read, PortV5ConnAck.ConnAck_read. names. pread. Qed.
Lemma p_Publish_read {T : Target} {WT : Wide} : decodes SrcV5Publish.Publish_read PortV5Publish.Publish_read.
Proof. intros fuel h bs Hs. unfold SrcV5Publish.Publish_read, PortV5Publish.Publish_read. names. pread. Qed.
Lemma p_PubAck_read {T : Target} {WT : Wide} : decodes SrcV5PubAck.PubAck_read PortV5PubAck.PubAck_read.
Proof. intros fuel h bs Hs. unfold SrcV5PubAck.PubAck_read, PortV5PubAck.PubAck_read. names. pread. Qed.
Lemma p_PubRec_read {T : Target} {WT : Wide} : decodes SrcV5PubRec.PubRec_read PortV5PubRec.PubRec_read.
Proof. intros fuel h bs Hs. unfold SrcV5PubRec.PubRec_read, PortV5PubRec.PubRec_read. names. pread. Qed.
Lemma p_PubRel_read {T : Target} {WT : Wide} : decodes SrcV5PubRel.PubRel_read PortV5PubRel.PubRel_read.
Proof. intros fuel h bs Hs. unfold SrcV5PubRel.PubRel_read, PortV5PubRel.PubRel_read. names. pread. Qed.
Lemma p_PubComp_read {T : Target} {WT : Wide} : decodes SrcV5PubComp.PubComp_read PortV5PubComp.PubComp_read.
Proof. intros fuel h bs Hs. unfold SrcV5PubComp.PubComp_read, PortV5PubComp.PubComp_read. names. pread. Qed.
Lemma p_Subscribe_read {T : Target} {WT : Wide} : decodes SrcV5Subscribe.Subscribe_read PortV5Subscribe.Subscribe_read.
Proof. intros fuel h bs Hs. unfold SrcV5Subscribe.Subscribe_read, PortV5Subscribe.Subscribe_read. names. pread. Qed.
Lemma p_SubAck_read {T : Target} {WT : Wide} : decodes SrcV5SubAck.SubAck_read PortV5SubAck.SubAck_read.
Proof. intros fuel h bs Hs. unfold SrcV5SubAck.SubAck_read, PortV5SubAck.SubAck_read. names. pread. Qed.
Lemma p_Unsubscribe_read {T : Target} {WT : Wide} : decodes SrcV5Unsubscribe.Unsubscribe_read PortV5Unsubscribe.Unsubscribe_read.
Proof. intros fuel h bs Hs. unfold SrcV5Unsubscribe.Unsubscribe_read, PortV5Unsubscribe.Unsubscribe_read. names. pread. Qed.
Lemma p_UnsubAck_read {T : Target} {WT : Wide} : decodes SrcV5UnsubAck.UnsubAck_read PortV5UnsubAck.UnsubAck_read.
Proof. intros fuel h bs Hs. unfold SrcV5UnsubAck.UnsubAck_read, PortV5UnsubAck.UnsubAck_read. names. pread. Qed.
Lemma p_Disconnect_read {T : Target} {WT : Wide} : decodes SrcV5Disconnect.Disconnect_read PortV5Disconnect.Disconnect_read.
Proof. intros fuel h bs Hs. unfold SrcV5Disconnect.Disconnect_read, PortV5Disconnect.Disconnect_read. names. pread. Qed.
Lemma p_v4_Unsubscribe_read {T : Target} {WT : Wide} : decodes SrcV4Unsubscribe.Unsubscribe_read PortV4Unsubscribe.Unsubscribe_read.
Proof.
  intros fuel h bs Hs. unfold SrcV4Unsubscribe.Unsubscribe_read, PortV4Unsubscribe.Unsubscribe_read. names.
  eapply psim_run with (Q := fun _ _ => True). pgo fail.
  eapply psim_bind; [eapply psim_while with (I := fun st s' => blen s' <= blen bs)|].
  - intros [? ?] ? ?. apply psim_ret. reflexivity.
  - intros [? ?] ? ?. pgo fail. plia.
  - plia.
  - intros [? ?] ? ?. pgo fail. exact I.
Qed.

(** ** `read`: a frame of at most 1675624453 bytes, so every sum stays below 2^32 *)
Lemma ps_split n s : psim (keep (split_to n)) (keep (split_to n)) (fun a _ => blen a = n) s.
Proof.
  intros _. split; [reflexivity|]. unfold keep. destruct (split_to n s) as [[a r]| | |] eqn:E; cbn; auto.
  unfold split_to in E. destruct (n <=? blen s) eqn:C; [|discriminate]. injection E as <- <-. unfold blen in *.
  rewrite firstn_length_le; lia.
Qed.
Lemma frame_value h n : SrcLib.FixedHeader_frame_length h = Ok n -> n = fixed_header_len h + remaining_len h.
Proof. unfold SrcLib.FixedHeader_frame_length, run, wbind, lift. destruct (usize_add _ _) eqn:E; cbn; try discriminate. intros [= <-]. apply add_value, E. Qed.
Ltac prd := first [ apply p_LastWill_read | apply p_Connect_read | apply p_ConnAck_read | apply p_Publish_read | apply p_PubAck_read | apply p_PubRec_read
  | apply p_PubRel_read | apply p_PubComp_read | apply p_Subscribe_read | apply p_SubAck_read | apply p_Unsubscribe_read
  | apply p_UnsubAck_read | apply p_Disconnect_read | apply p_v4_Unsubscribe_read ]; plia.
Ltac prest :=
  repeat (psimpl; first
  [ apply psim_ret; exact I | apply psim_err | apply psim_assoc | apply psim_wret | apply psim_werr | apply psim_ok | apply psim_retbind
  | apply psim_lift; [first [solve [auto with port]|prd]|intros ? ?]
  | lazymatch goal with
    | |- psim (wbind (match ?c with _ => _ end) _) _ _ _ => destruct c eqn:?
    | |- psim (match ?c with _ => _ end) _ _ _ => destruct c eqn:?
    end ]).
Lemma p_v5_read {T : Target} {WT : Wide} fuel max : wsim (SrcV5Mod.read fuel max) (PortV5Mod.read fuel max).
Proof.
  apply wsim_psim with (Q := fun _ _ _ => True). intros s. unfold SrcV5Mod.read, PortV5Mod.read. names.
  apply psim_get. apply psim_lift; [apply pLib_check|]. intros h Eh. apply check_value in Eh. destruct Eh as [L1 L2].
  apply psim_lift; [apply pLib_frame_length; plia|]. intros n En. apply frame_value in En.
  eapply psim_bind; [apply ps_split|]. intros pk s' Lk. prest.
Qed.
Lemma p_v4_read {T : Target} {WT : Wide} fuel max : wsim (SrcV4Mod.read fuel max) (PortV4Mod.read fuel max).
Proof.
  apply wsim_psim with (Q := fun _ _ _ => True). intros s. unfold SrcV4Mod.read, PortV4Mod.read. names.
  apply psim_get. apply psim_lift; [apply pLib_check|]. intros h Eh. apply check_value in Eh. destruct Eh as [L1 L2].
  apply psim_lift; [apply pLib_frame_length; plia|]. intros n En. apply frame_value in En.
  eapply psim_bind; [apply ps_split|]. intros pk s' Lk. prest.
Qed.

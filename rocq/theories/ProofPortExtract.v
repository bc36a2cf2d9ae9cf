(** ProofPortExtract.v -- the property sections on an arbitrary target: no sum reaches the width of `usize` while the
    buffer is at most half the address space. *)
From Verif Require Import ProofBase Lib ProofLib ProofRelBase SrcBase ProofWrapBase ProofPortBase ProofPortLib ProofPortPlain.
From Verif Require V5Property V4Mod V5Mod SrcV4Mod SrcV5Mod PortBase PortV4Mod PortV5Mod.

Ltac plia := pose proof word_big; unfold bytes in *; lia.
Ltac psimpl := cbv beta iota zeta; cbn [fst snd].
(** one step of [psim (wbind m k) (wbind m' k') Q s]; [calls] treats the calls of functions with conditions *)
Ltac p1 calls :=
  lazymatch goal with
  | |- psim (wbind (wbind _ _) _) _ _ _ => apply psim_assoc
  | |- psim (wbind (wret _) _) _ _ _ => apply psim_wret
  | |- psim (wbind (werr _) _) _ _ _ => apply psim_werr
  | |- psim (wbind (dbg _) _) _ _ _ => unfold dbg; apply psim_wret
  | |- psim (wbind get _) _ _ _ => apply psim_get
  | |- psim (wbind (lift (SrcLib.length _)) _) _ _ _ => apply ps_length; intros ? ? ? ?
  | |- psim (wbind (lift (usize_add _ _)) _) _ _ _ => apply psim_add; [plia|]
  | |- psim (wbind (lift (usize_sub _ _)) _) _ _ _ => apply psim_sub; intros ?
  | |- psim (wbind (lift (Ok _)) _) _ _ _ => apply psim_ok
  | |- psim (wbind (lift _) _) _ _ _ => apply psim_lift; [solve [auto with port] | intros ? ?]
  | |- psim (wbind SrcLib.read_u8 _) _ _ _ => eapply psim_bind; [apply ps_u8|]; intros ? ? ?
  | |- psim (wbind SrcLib.read_u16 _) _ _ _ => eapply psim_bind; [apply ps_u16|]; intros ? ? ?
  | |- psim (wbind SrcLib.read_u32 _) _ _ _ => eapply psim_bind; [apply ps_u32|]; intros ? ? ?
  | |- psim (wbind SrcLib.read_mqtt_bytes _) _ _ _ => eapply psim_bind; [apply ps_bytes|]; intros ? ? ?
  | |- psim (wbind SrcLib.read_mqtt_string _) _ _ _ => eapply psim_bind; [apply ps_string|]; intros ? ? ?
  | |- psim (wbind (keep (advance _)) _) _ _ _ => eapply psim_bind; [apply ps_advance|]; let L := fresh "L" in intros ? ? L; cbv beta in L
  | |- psim (wret _) _ _ _ => apply psim_ret
  | |- psim (werr _) _ _ _ => apply psim_err
  | |- psim (wbind (match ?c with _ => _ end) _) _ _ _ => destruct c eqn:?
  | |- psim (match ?c with _ => _ end) _ _ _ => destruct c eqn:?
  | |- psim (wbind _ wret) _ _ _ => apply psim_retbind
  | |- _ => calls
  end.
Ltac pgo calls := repeat (psimpl; p1 calls).
Ltac destr_state := repeat match goal with st : (_ * _)%type |- _ => destruct st end.

(** `extract`: the cursor, the first of the loop's variables, never exceeds twice what has been read *)
Ltac first_of ty :=
  lazymatch ty with
  | (?A * ?B)%type => let f := first_of A in constr:(fun st : A * B => f (fst st))
  | _ => constr:(fun n : N => n)
  end.
Ltac pextract :=
  pgo fail; [try plia|..];
  eapply psim_bind;
  [ lazymatch goal with |- psim (while_ _ _ _ ?st0) _ _ ?s0 =>
      let ty := type of st0 in let f := first_of ty in
      eapply psim_while with (I := fun st s' => f st + 2 * blen s' <= 2 * blen s0 /\ blen s' <= blen s0) end;
    [ intros; destr_state; apply psim_ret; reflexivity
    | let st := fresh in let H := fresh in intros st ? H; destr_state; cbn [fst snd] in *; destruct H; pgo fail; cbn [fst snd]; try plia
    | cbn [fst snd]; plia ]
  | intros; destr_state; cbn [fst snd] in *; pgo fail; plia ].
Notation extracts src port := (forall fuel s, 2 * blen s < 2 ^ bits -> psim (src fuel) (port fuel) (fun _ s' => blen s' <= blen s) s).

Lemma p_ConnAckProperties_extract {T : Target} {WT : Wide} : extracts SrcV5ConnAck.ConnAckProperties_extract PortV5ConnAck.ConnAckProperties_extract.
Proof.
  intros fuel s Hs. unfold SrcV5ConnAck.ConnAckProperties_extract, PortV5ConnAck.ConnAckProperties_extract. names.
  pextract.
Qed.
Lemma p_ConnectProperties_read {T : Target} {WT : Wide} : extracts SrcV5Connect.ConnectProperties_read PortV5Connect.ConnectProperties_read.
Proof.
  intros fuel s Hs. unfold SrcV5Connect.ConnectProperties_read, PortV5Connect.ConnectProperties_read. names.
  pextract.
Qed.
Lemma p_WillProperties_read {T : Target} {WT : Wide} : extracts SrcV5Connect.WillProperties_read PortV5Connect.WillProperties_read.
Proof.
  intros fuel s Hs. unfold SrcV5Connect.WillProperties_read, PortV5Connect.WillProperties_read. names.
  pextract.
Qed.
Lemma p_PubAckProperties_extract {T : Target} {WT : Wide} : extracts SrcV5PubAck.PubAckProperties_extract PortV5PubAck.PubAckProperties_extract.
Proof.
  intros fuel s Hs. unfold SrcV5PubAck.PubAckProperties_extract, PortV5PubAck.PubAckProperties_extract. names.
  pextract.
Qed.
Lemma p_PubRecProperties_extract {T : Target} {WT : Wide} : extracts SrcV5PubRec.PubRecProperties_extract PortV5PubRec.PubRecProperties_extract.
Proof.
  intros fuel s Hs. unfold SrcV5PubRec.PubRecProperties_extract, PortV5PubRec.PubRecProperties_extract. names.
  pextract.
Qed.
Lemma p_PubRelProperties_extract {T : Target} {WT : Wide} : extracts SrcV5PubRel.PubRelProperties_extract PortV5PubRel.PubRelProperties_extract.
Proof.
  intros fuel s Hs. unfold SrcV5PubRel.PubRelProperties_extract, PortV5PubRel.PubRelProperties_extract. names.
  pextract.
Qed.
Lemma p_PubCompProperties_extract {T : Target} {WT : Wide} : extracts SrcV5PubComp.PubCompProperties_extract PortV5PubComp.PubCompProperties_extract.
Proof.
  intros fuel s Hs. unfold SrcV5PubComp.PubCompProperties_extract, PortV5PubComp.PubCompProperties_extract. names.
  pextract.
Qed.
Lemma p_PublishProperties_extract {T : Target} {WT : Wide} : extracts SrcV5Publish.PublishProperties_extract PortV5Publish.PublishProperties_extract.
Proof.
  intros fuel s Hs. unfold SrcV5Publish.PublishProperties_extract, PortV5Publish.PublishProperties_extract. names.
  pextract.
Qed.
Lemma p_SubscribeProperties_extract {T : Target} {WT : Wide} : extracts SrcV5Subscribe.SubscribeProperties_extract PortV5Subscribe.SubscribeProperties_extract.
Proof.
  intros fuel s Hs. unfold SrcV5Subscribe.SubscribeProperties_extract, PortV5Subscribe.SubscribeProperties_extract. names.
  pextract.
Qed.
Lemma p_SubAckProperties_extract {T : Target} {WT : Wide} : extracts SrcV5SubAck.SubAckProperties_extract PortV5SubAck.SubAckProperties_extract.
Proof.
  intros fuel s Hs. unfold SrcV5SubAck.SubAckProperties_extract, PortV5SubAck.SubAckProperties_extract. names.
  pextract.
Qed.
Lemma p_UnsubscribeProperties_extract {T : Target} {WT : Wide} : extracts SrcV5Unsubscribe.UnsubscribeProperties_extract PortV5Unsubscribe.UnsubscribeProperties_extract.
Proof.
  intros fuel s Hs. unfold SrcV5Unsubscribe.UnsubscribeProperties_extract, PortV5Unsubscribe.UnsubscribeProperties_extract. names.
  pextract.
Qed.
Lemma p_UnsubAckProperties_extract {T : Target} {WT : Wide} : extracts SrcV5UnsubAck.UnsubAckProperties_extract PortV5UnsubAck.UnsubAckProperties_extract.
Proof.
  intros fuel s Hs. unfold SrcV5UnsubAck.UnsubAckProperties_extract, PortV5UnsubAck.UnsubAckProperties_extract. names.
  pextract.
Qed.
Lemma p_DisconnectProperties_extract {T : Target} {WT : Wide} : extracts SrcV5Disconnect.DisconnectProperties_extract PortV5Disconnect.DisconnectProperties_extract.
Proof.
  intros fuel s Hs. unfold SrcV5Disconnect.DisconnectProperties_extract, PortV5Disconnect.DisconnectProperties_extract. names.
  pextract.
Qed.

(** ProofV4Read.v -- the v4 decoders accept exactly the grammar of SpecV4. *)
From Verif Require Import ProofBase Utf8 ProofUtf8 Lib ProofLib ProofCheck ProofRead ProofBits SpecV4.

Definition E4 (e : Error) : Prop := forall n, e <> InsufficientBytes n.
Ltac e4 := first [ intros ? ?; discriminate | intros ? ? ?; discriminate ].

Lemma rbind_ok {A B} (m : reader A) (k : A -> reader B) s a s' :
  m s = Ok (a, s') -> rbind m k s = k a s'.
Proof. intros H. unfold rbind. rewrite H. reflexivity. Qed.

Lemma wp_advance {A} E hdr bd b1 n (k : unit -> reader A) Q :
  wp E (k tt bd) Q -> wp E (rbind (advance (fixed_header_len (mkFixedHeader b1 (blen hdr) n))) k (hdr ++ bd)) Q.
Proof. intros H. cbn [fixed_header_len]. rewrite (rbind_ok _ _ _ tt bd); [exact H|apply advance_app; reflexivity]. Qed.

Lemma wp_qos {A} (E : Error -> Prop) n (k : QoS -> reader A) s Q :
  n < 4 -> E (InvalidQoS n) -> (forall q, n = qos_num q -> wp E (k q s) Q) ->
  wp E (rbind (rlift (qos n)) k s) Q.
Proof.
  intros Hn HE HQ. destruct (qos_cases n Hn) as [(q & Hq & Hn')|[Hq Hn']];
    unfold rbind, rlift; rewrite Hq; [apply HQ, Hn'|exact HE].
Qed.
Ltac rd := apply wp_bind; first
  [ apply wp_read_u8; [assumption|e4|]
  | apply wp_read_u16; [assumption|e4|]
  | apply wp_read_u32; [assumption|e4|]
  | apply wp_read_bytes; [assumption|e4|e4|]
  | apply wp_read_string; [assumption|e4|e4|e4|] ].

Definition hd (b1 : N) (hdr bd : bytes) : FixedHeader := mkFixedHeader b1 (blen hdr) (blen bd).

(** *** CONNECT *)
Lemma wp_will flags s (Q : _ -> _ -> Prop) : bytes_ok s -> flags < 256 ->
  (forall w wbs s', s = wbs ++ s' -> decodes_will flags w wbs -> bytes_ok s' ->
     on_some typed_will w -> Q w s') ->
  wp E4 (V4Connect.lw_read flags s) Q.
Proof.
  intros Hs Hf HQ. unfold V4Connect.lw_read. rewrite mask4 by assumption.
  destruct (bit_at 2 flags) eqn:E2; cbn [negb].
  - rd. intros t s1 -> Ht Htu Hs1. rd. intros m s2 -> Hm Hmb Hs2.
    rewrite will_qos_bits by assumption. apply wp_qos; [lia|e4|].
    intros q Hq. apply wp_ret. rewrite mask32, negb_involutive by assumption.
    eapply HQ; [rewrite app_assoc; reflexivity| | |].
    + cbn. repeat split; auto.
    + assumption.
    + split; assumption.
  - rewrite mask56 by assumption. destruct (flags / 8 mod 8 =? 0) eqn:E8; cbn [negb]; [|e4].
    apply wp_ret. eapply HQ with (wbs := []); [reflexivity| |assumption|exact I].
    cbn. repeat split; [assumption|lia].
Qed.
Lemma wp_opt_string (present : bool) s (Q : _ -> _ -> Prop) : bytes_ok s ->
  (forall u ubs s', s = ubs ++ s' -> decodes_opt_string present u ubs -> bytes_ok s' -> Q u s') ->
  wp E4 ((if negb present then rret [] else read_mqtt_string) s) Q.
Proof.
  intros Hs HQ. destruct present; cbn [negb].
  - apply wp_read_string; [assumption|e4|e4|e4|]. intros v s' -> Hv Hu Hs'.
    eapply HQ; [reflexivity| |assumption]. cbn. auto.
  - apply wp_ret. eapply HQ with (ubs := []); [reflexivity| |assumption]. cbn. auto.
Qed.
Lemma canon_login_spec u p :
  canon_login (Some (V4Connect.mkLogin u p))
  = if is_empty u && is_empty p then None else Some (V4Connect.mkLogin u p).
Proof. destruct u, p; reflexivity. Qed.

Lemma connect_sound b1 hdr bd : bytes_ok bd -> b1 / 16 = 1 ->
  wp E4 (V4Connect.read (hd b1 hdr bd) (hdr ++ bd)) (fun x _ => decodes_body b1 bd (Connect x)).
Proof.
  intros Hb H1. unfold V4Connect.read. apply wp_advance.
  rd. intros name s1 -> Hns Hnu Hs1.
  rd. intros lvl s2 -> Hlvl Hs2.
  destruct (bytes_eqb name V4Connect.mqtt_name) eqn:En; cbn [negb]; [|e4].
  apply bytes_eqb_eq in En. subst name.
  apply wp_bind.
  assert (Hl : (exists pr, lvl = level pr /\
     (match lvl with 4 => rret V4 | 5 => rret V5 | num => rerr (InvalidProtocolLevel num) end) s2 = Ok (pr, s2))
     \/ (match lvl with 4 => rret V4 | 5 => rret V5 | num => rerr (InvalidProtocolLevel num) end) s2 = Err (InvalidProtocolLevel lvl)).
  { destruct lvl as [|[[p|[p|p|]|]|[p|[p|p|]|]|]];
      first [right; reflexivity | left; exists V5; split; reflexivity | left; exists V4; split; reflexivity]. }
  destruct Hl as [(pr & -> & ->)| ->]; [cbn [wp]|cbn [wp]; e4].
  rd. intros flags s3 -> Hf Hs3.
  rd. intros ka s4 -> Hka Hs4.
  rd. intros cid s5 -> Hcs Hcu Hs5.
  apply wp_bind. apply wp_will; [assumption|assumption|]. intros w wbs s6 -> Hw Hs6 _.
  unfold V4Connect.login_read. rewrite mask128, mask64 by assumption.
  apply wp_bind. apply wp_bind. apply wp_opt_string; [assumption|]. intros u ubs s7 -> Hu Hs7.
  apply wp_bind. apply wp_opt_string; [assumption|]. intros p pbs s8 -> Hp Hs8.
  apply wp_mono with (Q := fun l s => l = canon_login (Some (V4Connect.mkLogin u p))).
  { rewrite canon_login_spec. destruct (is_empty u && is_empty p); reflexivity. }
  intros l s9 ->. apply wp_ret. rewrite mask2, negb_involutive by assumption.
  cbn. split; [assumption|].
  exists flags, wbs, ubs, pbs, u, p, s8. repeat split; auto.
Qed.

(** *** the other decoders: soundness *)
Lemma connack_code_spec n : n < 256 ->
  match V4ConnAck.connect_return n with
  | Ok c => n = connack_code c | Err e => e = InvalidConnectReturnCode n /\ 6 <= n | _ => False end.
Proof.
  intros H. destruct n as [|[[[p|p|]|[p|p|]|]|[[p|p|]|[p|p|]|]|]]; cbn; try reflexivity;
    split; try reflexivity; lia.
Qed.
Lemma connack_code_of c : V4ConnAck.connect_return (connack_code c) = Ok c.
Proof. destruct c; reflexivity. Qed.
Lemma suback_code_of c : V4SubAck.try_from (suback_code c) = Ok c.
Proof. destruct c as [[]|]; reflexivity. Qed.
Definition suback_from_ok (n : N) : bool :=
  match V4SubAck.try_from n with
  | Ok c => n =? suback_code c
  | Err (InvalidSubscribeReasonCode m) => (n =? m) && negb (n <=? 2) && negb (n =? 128)
  | _ => false
  end.
Lemma suback_code_spec n : n < 256 ->
  match V4SubAck.try_from n with
  | Ok c => n = suback_code c
  | Err e => e = InvalidSubscribeReasonCode n /\ 2 < n /\ n <> 128 | _ => False end.
Proof.
  intros H. assert (H1 := byte_sweep suback_from_ok eq_refl n H). unfold suback_from_ok in H1.
  destruct (V4SubAck.try_from n) as [c|e| |]; try discriminate; [lia|].
  destruct e; try discriminate. assert (n = n0) by lia. subst. split; [reflexivity|lia].
Qed.

Lemma connack_sound b1 hdr bd : bytes_ok bd -> b1 / 16 = 2 ->
  wp E4 (V4ConnAck.read (hd b1 hdr bd) (hdr ++ bd)) (fun x _ => decodes_body b1 bd (ConnAck x)).
Proof.
  intros Hb H1. unfold V4ConnAck.read. apply wp_advance.
  rd. intros fl s1 -> Hfl Hs1. rd. intros rc s2 -> Hrc Hs2.
  apply wp_bind. assert (Hc := connack_code_spec rc Hrc). unfold rlift.
  destruct (V4ConnAck.connect_return rc) as [c|e| |]; cbn [wp]; try contradiction.
  - rewrite mask1' by assumption. cbn. split; [assumption|]. subst rc. eauto.
  - destruct Hc as [-> _]. e4.
Qed.

Ltac ack_sound := intros Hb H1; unfold V4PubAck.read, V4PubRec.read, V4PubRel.read, V4PubComp.read;
  apply wp_advance; rd; intros id s1 -> Hid Hs1; cbn [hd remaining_len];
  repeat match goal with |- context [if ?b then _ else _] => destruct b end;
  apply wp_ret; cbn; eauto.
Lemma puback_sound b1 hdr bd : bytes_ok bd -> b1 / 16 = 4 ->
  wp E4 (V4PubAck.read (hd b1 hdr bd) (hdr ++ bd)) (fun x _ => decodes_body b1 bd (PubAck x)).
Proof. ack_sound. Qed.
Lemma pubrec_sound b1 hdr bd : bytes_ok bd -> b1 / 16 = 5 ->
  wp E4 (V4PubRec.read (hd b1 hdr bd) (hdr ++ bd)) (fun x _ => decodes_body b1 bd (PubRec x)).
Proof. ack_sound. Qed.
Lemma pubrel_sound b1 hdr bd : bytes_ok bd -> b1 / 16 = 6 ->
  wp E4 (V4PubRel.read (hd b1 hdr bd) (hdr ++ bd)) (fun x _ => decodes_body b1 bd (PubRel x)).
Proof. ack_sound. Qed.
Lemma pubcomp_sound b1 hdr bd : bytes_ok bd -> b1 / 16 = 7 ->
  wp E4 (V4PubComp.read (hd b1 hdr bd) (hdr ++ bd)) (fun x _ => decodes_body b1 bd (PubComp x)).
Proof. ack_sound. Qed.
Lemma unsuback_sound b1 hdr bd : bytes_ok bd -> b1 / 16 = 11 ->
  wp E4 (V4UnsubAck.read (hd b1 hdr bd) (hdr ++ bd)) (fun x _ => decodes_body b1 bd (UnsubAck x)).
Proof.
  intros Hb H1. unfold V4UnsubAck.read. cbn [hd remaining_len].
  destruct (blen bd =? 2) eqn:E; cbn [negb]; [|e4].
  apply wp_advance. rd. intros id s1 -> Hid Hs1. apply wp_ret. cbn [decodes_body V4UnsubAck.pkid].
  autorewrite with blen in E. assert (s1 = []) as -> by (apply blen_0; lia).
  rewrite app_nil_r. auto.
Qed.

Lemma publish_sound b1 hdr bd : bytes_ok bd -> b1 < 256 -> b1 / 16 = 3 ->
  wp E4 (V4Publish.read (hd b1 hdr bd) (hdr ++ bd)) (fun x _ => decodes_body b1 bd (Publish x)).
Proof.
  intros Hb Hb1 H1. unfold V4Publish.read. cbn [hd byte1]. rewrite pub_qos_bits by assumption.
  apply wp_qos; [lia|e4|]. intros q Hq. rewrite mask8, mask1, !negb_involutive by assumption.
  apply wp_advance. rd. intros t s1 -> Hts Htu Hs1.
  apply wp_bind. destruct q; cbn [qos_eqb negb andb].
  - apply wp_ret. cbn. repeat split; auto.
  - apply wp_read_u16; [assumption|e4|]. intros id s2 -> Hid Hs2.
    destruct (id =? 0) eqn:E0; [e4|]. cbn. repeat split; auto; lia.
  - apply wp_read_u16; [assumption|e4|]. intros id s2 -> Hid Hs2.
    destruct (id =? 0) eqn:E0; [e4|]. cbn. repeat split; auto; lia.
Qed.

Lemma filters_loop_sound fuel : forall acc s, bytes_ok s -> (List.length s < fuel)%nat ->
  wp E4 (V4Subscribe.filters_loop fuel acc s)
    (fun fs s' => exists new options,
       fs = acc ++ new /\
       Forall2 (fun f o => o mod 4 = qos_num (V4Subscribe.qos f) /\
                   is_string (V4Subscribe.path f) /\ short (V4Subscribe.path f)) new options /\
       s = flat_map (fun fo => field (V4Subscribe.path (fst fo)) ++ [snd fo]) (combine new options)).
Proof.
  induction fuel as [|fuel IH]; intros acc s Hs Hl; [lia|].
  cbn [V4Subscribe.filters_loop]. destruct s as [|x s]; cbn [has_remaining].
  - cbn. exists [], []. rewrite app_nil_r. repeat split; constructor.
  - remember (x :: s) as s0 eqn:Es0.
    rd. intros p s1 -> Hps Hpu Hs1. rd. intros o s2 -> Ho Hs2. rewrite mask3 by assumption.
    apply wp_qos; [lia|e4|]. intros q Hq.
    eapply wp_mono; [apply IH; [assumption|]|].
    { clear - Hl. rewrite app_length in Hl. cbn [List.length] in Hl. lia. }
    intros fs s' (new & options & -> & HF & ->).
    exists (V4Subscribe.mkSubscribeFilter p q :: new), (o :: options).
    rewrite <- app_assoc. cbn [app]. split; [reflexivity|]. split.
    + constructor; [cbn; repeat split; assumption|exact HF].
    + cbn [combine flat_map fst snd V4Subscribe.path]. rewrite <- app_assoc. reflexivity.
Qed.
Lemma subscribe_sound b1 hdr bd : bytes_ok bd -> b1 / 16 = 8 ->
  wp E4 (V4Subscribe.read (hd b1 hdr bd) (hdr ++ bd)) (fun x _ => decodes_body b1 bd (Subscribe x)).
Proof.
  intros Hb H1. unfold V4Subscribe.read. apply wp_advance.
  rd. intros id s1 -> Hid Hs1. apply wp_bind.
  eapply wp_mono; [apply filters_loop_sound; [assumption|lia]|].
  intros fs s' (new & options & -> & HF & ->). cbn [app].
  destruct new as [|f new]; [cbn; e4|].
  destruct (blen (f :: new)) as [|n] eqn:En; [autorewrite with blen in En; lia|].
  apply wp_ret. cbn [decodes_body V4Subscribe.pkid V4Subscribe.filters].
  repeat split; auto; [discriminate|]. exists options. split; [assumption|reflexivity].
Qed.

Lemma codes_loop_sound fuel : forall acc s, bytes_ok s -> (List.length s < fuel)%nat ->
  wp E4 (V4SubAck.codes_loop fuel acc s)
    (fun cs s' => exists new, cs = acc ++ new /\ s = map suback_code new).
Proof.
  induction fuel as [|fuel IH]; intros acc s Hs Hl; [lia|].
  cbn [V4SubAck.codes_loop]. destruct s as [|x s]; cbn [has_remaining].
  - cbn. exists []. rewrite app_nil_r. auto.
  - remember (x :: s) as s0 eqn:Es0.
    rd. intros c s1 -> Hc Hs1. apply wp_bind. assert (Hcs := suback_code_spec c Hc). unfold rlift.
    destruct (V4SubAck.try_from c) as [rc|e| |]; cbn [wp]; try contradiction.
    + eapply wp_mono; [apply IH; [assumption|cbn [List.length] in Hl; lia]|].
      intros cs s' (new & -> & ->). exists (rc :: new). rewrite <- app_assoc. split; [reflexivity|].
      cbn. congruence.
    + destruct Hcs as [-> _]. e4.
Qed.
Lemma suback_sound b1 hdr bd : bytes_ok bd -> b1 / 16 = 9 ->
  wp E4 (V4SubAck.read (hd b1 hdr bd) (hdr ++ bd)) (fun x _ => decodes_body b1 bd (SubAck x)).
Proof.
  intros Hb H1. unfold V4SubAck.read. apply wp_advance.
  rd. intros id s1 -> Hid Hs1. destruct s1 as [|x s1]; [cbn; e4|].
  remember (x :: s1) as s0 eqn:Es0. replace (has_remaining s0) with true by (subst; reflexivity).
  cbn [negb]. apply wp_bind. eapply wp_mono; [apply codes_loop_sound; [assumption|lia]|].
  intros cs s' (new & -> & Es). cbn [app]. apply wp_ret. cbn [decodes_body V4SubAck.pkid V4SubAck.return_codes].
  repeat split; auto; [|congruence]. intros ->. subst s0. discriminate.
Qed.

Lemma topics_loop_sound fuel : forall acc s, bytes_ok s -> (List.length s < fuel)%nat ->
  wp E4 (V4Unsubscribe.topics_loop fuel (blen s) acc s)
    (fun ts s' => exists new, ts = acc ++ new /\
       Forall (fun t => is_string t /\ short t) new /\ s = flat_map field new).
Proof.
  induction fuel as [|fuel IH]; intros acc s Hs Hl; [lia|].
  cbn [V4Unsubscribe.topics_loop]. destruct (0 <? blen s) eqn:E0.
  - rd. intros t s1 -> Hts Htu Hs1. apply wp_bind. unfold rlift, usize_sub.
    replace (blen t + 2 <=? blen (field t ++ s1)) with true by (autorewrite with blen; lia).
    cbn [wp]. replace (blen (field t ++ s1) - (blen t + 2)) with (blen s1) by (autorewrite with blen; lia).
    eapply wp_mono; [apply IH; [assumption|rewrite app_length in Hl; cbn in Hl; lia]|].
    intros ts s' (new & -> & HF & ->). exists (t :: new). rewrite <- app_assoc. repeat split; auto.
  - cbn. exists []. rewrite app_nil_r. split; [reflexivity|]. split; [constructor|]. apply blen_0; lia.
Qed.
Lemma unsubscribe_sound b1 hdr bd : bytes_ok bd -> b1 / 16 = 10 ->
  wp E4 (V4Unsubscribe.read (hd b1 hdr bd) (hdr ++ bd)) (fun x _ => decodes_body b1 bd (Unsubscribe x)).
Proof.
  intros Hb H1. unfold V4Unsubscribe.read. apply wp_advance.
  rd. intros id s1 -> Hid Hs1. apply wp_bind. cbn [hd remaining_len]. unfold rlift, usize_sub.
  replace (2 <=? blen (be16 id ++ s1)) with true by (autorewrite with blen; lia).
  cbn [wp]. replace (blen (be16 id ++ s1) - 2) with (blen s1) by (autorewrite with blen; lia).
  apply wp_bind. eapply wp_mono; [apply topics_loop_sound; [assumption|lia]|].
  intros ts s' (new & -> & HF & ->). apply wp_ret. cbn. auto.
Qed.

(** *** completeness *)
Lemma decodes_will_read flags w wbs s : flags < 256 -> decodes_will flags w wbs ->
  V4Connect.lw_read flags (wbs ++ s) = Ok (w, s).
Proof.
  intros Hf Hw. unfold V4Connect.lw_read. rewrite mask4 by assumption. destruct w as [w|]; cbn [decodes_will] in Hw.
  - destruct Hw as (H2 & Hq & H5 & -> & Hu & Ht & Hm). rewrite H2. cbn [negb].
    rewrite <- app_assoc. rewrite (rbind_ok _ _ _ _ _ (read_string_field _ _ Ht Hu)).
    rewrite (rbind_ok _ _ _ _ _ (read_bytes_field _ _ Hm)).
    rewrite will_qos_bits by assumption. rewrite Hq. unfold rbind, rlift. rewrite qos_of_num.
    rewrite mask32, negb_involutive, H5 by assumption. destruct w; reflexivity.
  - destruct Hw as (-> & H2 & H8). rewrite H2. cbn [negb]. rewrite mask56 by assumption.
    rewrite H8. reflexivity.
Qed.
Lemma decodes_opt_string_read present u ubs s : decodes_opt_string present u ubs ->
  (if negb present then rret [] else read_mqtt_string) (ubs ++ s) = Ok (u, s).
Proof.
  destruct present; cbn [decodes_opt_string negb].
  - intros (-> & Hu & Hs). apply read_string_field; assumption.
  - intros (-> & ->). reflexivity.
Qed.

Lemma filters_loop_complete fuel : forall acc new options,
  bytes_ok (flat_map (fun fo => field (V4Subscribe.path (fst fo)) ++ [snd fo]) (combine new options)) ->
  Forall2 (fun f o => o mod 4 = qos_num (V4Subscribe.qos f) /\
              is_string (V4Subscribe.path f) /\ short (V4Subscribe.path f)) new options ->
  (List.length (flat_map (fun fo => field (V4Subscribe.path (fst fo)) ++ [snd fo]) (combine new options)) < fuel)%nat ->
  V4Subscribe.filters_loop fuel acc
    (flat_map (fun fo => field (V4Subscribe.path (fst fo)) ++ [snd fo]) (combine new options))
  = Ok (acc ++ new, []).
Proof.
  induction fuel as [|fuel IH]; intros acc new options Hb HF Hl; [lia|].
  cbn [V4Subscribe.filters_loop]. destruct HF as [|f o new options (Hq & Hu & Hs) HF].
  - cbn. rewrite app_nil_r. reflexivity.
  - cbn [combine flat_map fst snd] in *. rewrite <- app_assoc in *.
    set (rest := flat_map _ _) in *.
    replace (has_remaining _) with true by (unfold field, be16; reflexivity).
    rewrite (rbind_ok _ _ _ _ _ (read_string_field _ _ Hs Hu)). cbn [app].
    rewrite (rbind_ok _ _ _ _ _ (read_u8_cons _ _)).
    apply bytes_ok_app in Hb as [_ Hb]. apply bytes_ok_cons in Hb as [Ho Hb].
    rewrite mask3, Hq by assumption. unfold rbind at 1, rlift. rewrite qos_of_num.
    destruct f as [p q]. cbn [V4Subscribe.path V4Subscribe.qos] in *.
    unfold rest. rewrite IH; [rewrite <- app_assoc; reflexivity|exact Hb|exact HF|].
    fold rest. rewrite app_length in Hl. cbn [app List.length] in Hl. lia.
Qed.
Lemma codes_loop_complete fuel : forall acc cs, (List.length (map suback_code cs) < fuel)%nat ->
  V4SubAck.codes_loop fuel acc (map suback_code cs) = Ok (acc ++ cs, []).
Proof.
  induction fuel as [|fuel IH]; intros acc cs Hl; [lia|].
  destruct cs as [|c cs]; cbn [V4SubAck.codes_loop map has_remaining].
  - rewrite app_nil_r; reflexivity.
  - rewrite (rbind_ok _ _ _ _ _ (read_u8_cons _ _)). unfold rbind, rlift. rewrite suback_code_of.
    rewrite IH; [rewrite <- app_assoc; reflexivity|]. cbn [map List.length] in Hl. lia.
Qed.
Lemma topics_loop_complete fuel : forall acc ts, (List.length (flat_map field ts) < fuel)%nat ->
  Forall (fun t => is_string t /\ short t) ts ->
  V4Unsubscribe.topics_loop fuel (blen (flat_map field ts)) acc (flat_map field ts) = Ok (acc ++ ts, []).
Proof.
  induction fuel as [|fuel IH]; intros acc ts Hl HF; [lia|].
  destruct HF as [|t ts [Hu Hs] HF]; cbn [V4Unsubscribe.topics_loop flat_map].
  - cbn. rewrite app_nil_r; reflexivity.
  - cbn [flat_map] in Hl. rewrite app_length in Hl.
    replace (0 <? blen (field t ++ flat_map field ts)) with true by (autorewrite with blen; lia).
    rewrite (rbind_ok _ _ _ _ _ (read_string_field _ _ Hs Hu)).
    unfold rbind, rlift, usize_sub.
    replace (blen t + 2 <=? blen (field t ++ flat_map field ts)) with true by (autorewrite with blen; lia).
    replace (blen (field t ++ flat_map field ts) - (blen t + 2)) with (blen (flat_map field ts)) by (autorewrite with blen; lia).
    rewrite IH; [rewrite <- app_assoc; reflexivity| |exact HF].
    cbn [field be16 app List.length] in Hl. lia.
Qed.

Lemma complete_body b1 hdr bd p : b1 < 256 -> bytes_ok bd -> 1 <= blen bd -> decodes_body b1 bd p ->
  read_frame (hd b1 hdr bd) (hdr ++ bd) = Ok p.
Proof.
  intros Hb1 Hb Hne Hd. unfold read_frame, packet_type. cbn [hd byte1 remaining_len].
  rewrite shiftr4 by assumption.
  replace (blen bd =? 0) with false by lia.
  assert (Hadv : advance (fixed_header_len (hd b1 hdr bd)) (hdr ++ bd) = Ok (tt, bd))
    by (apply advance_app; reflexivity).
  destruct p; cbn [decodes_body] in Hd.
  - destruct Hd as (-> & flags & wbs & ubs & pbs & u & pw & junk & Hf & Ebd & Hka & Hcu & Hcs & Hcl & Hw & Hu & Hp & Hl).
    cbn [obind]. unfold V4Connect.read. rewrite (rbind_ok _ _ _ _ _ Hadv), Ebd. cbn [app].
    rewrite (rbind_ok _ _ _ _ _ (read_string_field MQTT _ ltac:(cbv; discriminate) ltac:(apply utf8_ok_spec; reflexivity))).
    rewrite (rbind_ok _ _ _ _ _ (read_u8_cons _ _)).
    change (bytes_eqb MQTT V4Connect.mqtt_name) with true. cbn [negb].
    match goal with |- context [rbind (match ?l with 0 => _ | _ => _ end) _ ?s] =>
      rewrite (rbind_ok _ _ _ (V4Connect.protocol c) s) by (destruct (V4Connect.protocol c); reflexivity) end.
    rewrite (rbind_ok _ _ _ _ _ (read_u8_cons _ _)).
    rewrite (rbind_ok _ _ _ _ _ (read_u16_be16 _ _ Hka)).
    rewrite (rbind_ok _ _ _ _ _ (read_string_field _ _ Hcs Hcu)).
    rewrite (rbind_ok _ _ _ _ _ (decodes_will_read _ _ _ _ Hf Hw)).
    unfold V4Connect.login_read. rewrite mask128, mask64 by assumption.
    rewrite (rbind_ok _ _ _ (V4Connect.login c) junk).
    2: { rewrite (rbind_ok _ _ _ _ _ (decodes_opt_string_read _ _ _ _ Hu)).
         rewrite (rbind_ok _ _ _ _ _ (decodes_opt_string_read _ _ _ _ Hp)).
         rewrite Hl, canon_login_spec. destruct (is_empty u && is_empty pw); reflexivity. }
    rewrite mask2, negb_involutive, <- Hcl by assumption. cbn [rret wrap]. destruct c; reflexivity.
  - destruct Hd as (-> & flags & junk & -> & Hs). cbn [obind]. unfold V4ConnAck.read.
    rewrite (rbind_ok _ _ _ _ _ Hadv).
    rewrite (rbind_ok _ _ _ _ _ (read_u8_cons _ _)). rewrite (rbind_ok _ _ _ _ _ (read_u8_cons _ _)).
    unfold rbind, rlift. rewrite connack_code_of. apply bytes_ok_cons in Hb as [Hf _].
    rewrite mask1', <- Hs by assumption. destruct c; reflexivity.
  - destruct Hd as (-> & Hdup & Hq & Hr & Ebd & Hu & Hs & Hid). cbn [obind]. unfold V4Publish.read.
    cbn [hd byte1] in *. rewrite pub_qos_bits, Hq by assumption. unfold rbind at 1, rlift. rewrite qos_of_num.
    rewrite (rbind_ok _ _ _ _ _ Hadv), Ebd.
    rewrite (rbind_ok _ _ _ _ _ (read_string_field _ _ Hs Hu)).
    rewrite mask8, mask1, !negb_involutive, <- Hdup, <- Hr by assumption.
    destruct p as [dup q ret t id pl]; cbn [V4Publish.dup V4Publish.qos V4Publish.retain V4Publish.topic V4Publish.pkid V4Publish.payload] in *.
    destruct q; cbn [positive_qos] in *.
    + subst id. reflexivity.
    + destruct Hid as [Hz Hid]. rewrite (rbind_ok _ _ _ _ _ (read_u16_be16 _ _ Hid)).
      replace (id =? 0) with false by lia. reflexivity.
    + destruct Hid as [Hz Hid]. rewrite (rbind_ok _ _ _ _ _ (read_u16_be16 _ _ Hid)).
      replace (id =? 0) with false by lia. reflexivity.
  - destruct Hd as (-> & Hid & junk & Ebd). cbn [obind]. unfold V4PubAck.read.
    rewrite (rbind_ok _ _ _ _ _ Hadv), Ebd, (rbind_ok _ _ _ _ _ (read_u16_be16 _ _ Hid)).
    destruct p; cbn [V4PubAck.pkid]. repeat match goal with |- context [if ?b then _ else _] => destruct b end; reflexivity.
  - destruct Hd as (-> & Hid & junk & Ebd). cbn [obind]. unfold V4PubRec.read.
    rewrite (rbind_ok _ _ _ _ _ Hadv), Ebd, (rbind_ok _ _ _ _ _ (read_u16_be16 _ _ Hid)).
    destruct p; cbn [V4PubRec.pkid]. repeat match goal with |- context [if ?b then _ else _] => destruct b end; reflexivity.
  - destruct Hd as (-> & Hid & junk & Ebd). cbn [obind]. unfold V4PubRel.read.
    rewrite (rbind_ok _ _ _ _ _ Hadv), Ebd, (rbind_ok _ _ _ _ _ (read_u16_be16 _ _ Hid)).
    destruct p; cbn [V4PubRel.pkid]. repeat match goal with |- context [if ?b then _ else _] => destruct b end; reflexivity.
  - destruct Hd as (-> & Hid & junk & Ebd). cbn [obind]. unfold V4PubComp.read.
    rewrite (rbind_ok _ _ _ _ _ Hadv), Ebd, (rbind_ok _ _ _ _ _ (read_u16_be16 _ _ Hid)).
    destruct p; cbn [V4PubComp.pkid]. repeat match goal with |- context [if ?b then _ else _] => destruct b end; reflexivity.
  - destruct Hd as (-> & Hid & Hfs & options & HF & Ebd). cbn [obind]. unfold V4Subscribe.read.
    rewrite (rbind_ok _ _ _ _ _ Hadv), Ebd, (rbind_ok _ _ _ _ _ (read_u16_be16 _ _ Hid)).
    rewrite (rbind_ok _ _ _ (V4Subscribe.filters s) []).
    + destruct s as [id [|f fs]]; cbn [V4Subscribe.filters V4Subscribe.pkid] in *; [contradiction|].
      destruct (blen (f :: fs)) eqn:En; [autorewrite with blen in En; lia|reflexivity].
    + apply (filters_loop_complete _ []); [|exact HF|].
      * rewrite Ebd in Hb. apply bytes_ok_app in Hb. apply Hb.
      * lia.
  - destruct Hd as (-> & Hid & Hfs & Ebd). cbn [obind]. unfold V4SubAck.read.
    rewrite (rbind_ok _ _ _ _ _ Hadv), Ebd, (rbind_ok _ _ _ _ _ (read_u16_be16 _ _ Hid)).
    replace (has_remaining (map suback_code (V4SubAck.return_codes s))) with true
      by (destruct (V4SubAck.return_codes s); [contradiction|reflexivity]).
    cbn [negb]. rewrite (rbind_ok _ _ _ (V4SubAck.return_codes s) []) by (apply (codes_loop_complete _ []); lia).
    destruct s; reflexivity.
  - destruct Hd as (-> & Hid & HF & Ebd). cbn [obind]. unfold V4Unsubscribe.read.
    rewrite (rbind_ok _ _ _ _ _ Hadv), Ebd, (rbind_ok _ _ _ _ _ (read_u16_be16 _ _ Hid)).
    cbn [hd remaining_len]. unfold rlift, usize_sub. unfold rbind at 1. autorewrite with blen.
    match goal with |- context [if ?b then _ else _] => replace b with true by lia end.
    match goal with |- context [V4Unsubscribe.topics_loop _ ?n] => replace n with (blen (flat_map field (V4Unsubscribe.topics u))) by lia end.
    rewrite (rbind_ok _ _ _ (V4Unsubscribe.topics u) []) by (apply (topics_loop_complete _ []); [lia|exact HF]).
    destruct u; reflexivity.
  - destruct Hd as (-> & Hid & Ebd). cbn [obind]. unfold V4UnsubAck.read. cbn [hd remaining_len].
    assert (H2 : blen bd =? 2 = true) by (rewrite Ebd; reflexivity). rewrite H2. cbn [negb].
    rewrite (rbind_ok _ _ _ _ _ Hadv), Ebd. rewrite <- (app_nil_r (be16 _)).
    rewrite (rbind_ok _ _ _ _ _ (read_u16_be16 _ _ Hid)). destruct u; reflexivity.
  - rewrite Hd. reflexivity.
  - rewrite Hd. reflexivity.
  - rewrite Hd. reflexivity.
Qed.

(** *** read_frame *)
Lemma frame_sound b1 hdr bd : b1 < 256 -> bytes_ok bd ->
  match read_frame (hd b1 hdr bd) (hdr ++ bd) with
  | Ok p => decodes_body b1 bd p
  | Err e => E4 e
  | Panic | Diverge => False
  end.
Proof.
  intros Hb1 Hb. unfold read_frame, packet_type. cbn [hd byte1 remaining_len].
  rewrite shiftr4 by assumption.
  assert (Hw : forall A (f : A -> Packet) (r : outcome (A * bytes)),
    wp E4 r (fun x _ => decodes_body b1 bd (f x)) ->
    match wrap f r with Ok p => decodes_body b1 bd p | Err e => E4 e | Panic | Diverge => False end).
  { intros A f r. destruct r as [[a ?]|e| |]; cbn; auto. }
  assert (Hn : b1 / 16 < 16) by lia.
  destruct (b1 / 16) as [|n] eqn:En; [cbn; e4|].
  do 4 (try destruct n as [n|n|]); try (exfalso; lia); cbn [obind]; try (cbn; e4);
    (destruct (blen bd =? 0) eqn:E0; [first [exact En | e4]|]);
    try exact En; apply Hw; fold (hd b1 hdr bd).
  all: first [ apply connect_sound | apply connack_sound | apply publish_sound | apply puback_sound
    | apply pubrec_sound | apply pubrel_sound | apply pubcomp_sound | apply subscribe_sound
    | apply suback_sound | apply unsubscribe_sound | apply unsuback_sound ]; assumption.
Qed.

Lemma decodes_nonempty b1 p : decodes_body b1 [] p ->
  p = PingReq \/ p = PingResp \/ p = Disconnect.
Proof.
  destruct p; cbn [decodes_body]; auto; intros H; exfalso;
    decompose [ex and] H;
    match goal with E : [] = _ |- _ => discriminate E end.
Qed.
Lemma frame_complete b1 hdr bd p : b1 < 256 -> bytes_ok bd -> decodes_body b1 bd p ->
  read_frame (hd b1 hdr bd) (hdr ++ bd) = Ok p.
Proof.
  intros Hb1 Hb Hd. destruct bd as [|x bd].
  - assert (Hp := decodes_nonempty _ _ Hd). unfold read_frame, packet_type. cbn [hd byte1 remaining_len].
    rewrite shiftr4 by assumption.
    destruct Hp as [->|[->| ->]]; cbn [decodes_body] in Hd; rewrite Hd; reflexivity.
  - apply complete_body; auto. autorewrite with blen; lia.
Qed.

(** *** read on a stream *)
Lemma read_complete_frame b1 f bd rest max :
  bytes_ok (b1 :: f ++ bd ++ rest) -> lenfield f (blen bd) -> blen f <= 4 -> blen bd <= max ->
  read (b1 :: f ++ bd ++ rest) max = (read_frame (hd b1 (b1 :: f) bd) ((b1 :: f) ++ bd), rest).
Proof.
  intros Hb Hf Hl Hm. unfold read.
  rewrite check_frame with (n := blen bd) by (auto; autorewrite with blen; lia).
  assert (E : b1 :: f ++ bd ++ rest = ((b1 :: f) ++ bd) ++ rest)
    by (cbn [app]; rewrite <- app_assoc; reflexivity).
  rewrite E. unfold hd. rewrite blen_cons.
  rewrite frame_length_field by assumption. cbn [obind].
  rewrite split_to_app; [reflexivity|]. autorewrite with blen. lia.
Qed.
Lemma read_no_frame s max e : check s max = Err e -> read s max = (Err e, s).
Proof. intros H. unfold read. rewrite H. reflexivity. Qed.

(** every call of [read] is one of these two cases *)
Lemma read_cases s max : bytes_ok s ->
  (exists e, check s max = Err e /\ read s max = (Err e, s)) \/
  (exists b1 f bd rest, s = b1 :: f ++ bd ++ rest /\ lenfield f (blen bd) /\ blen f <= 4 /\ blen bd <= max /\
     b1 < 256 /\ bytes_ok bd /\ bytes_ok rest /\
     read s max = (read_frame (hd b1 (b1 :: f) bd) ((b1 :: f) ++ bd), rest)).
Proof.
  intros Hb. destruct (check s max) as [h|e| |] eqn:Ec.
  - right. destruct (check_ok_inv s max h Hb Ec) as (b1 & f & bd & rest & -> & Hf & Hl & Hm & ->).
    exists b1, f, bd, rest. repeat split; auto.
    + apply bytes_ok_cons in Hb. apply Hb.
    + apply bytes_ok_cons in Hb as [_ Hb]. apply bytes_ok_app in Hb as [_ Hb]. apply bytes_ok_app in Hb. apply Hb.
    + apply bytes_ok_cons in Hb as [_ Hb]. apply bytes_ok_app in Hb as [_ Hb]. apply bytes_ok_app in Hb. apply Hb.
    + apply read_complete_frame; auto.
  - left. exists e. split; [reflexivity|apply read_no_frame, Ec].
  - exfalso. exact (proj1 (check_no_panic s max Hb) Ec).
  - exfalso. exact (proj2 (check_no_panic s max Hb) Ec).
Qed.

Lemma read_iff s max p rest : bytes_ok s ->
  (read s max = (Ok p, rest) <->
   exists b1 bd, starts_with_frame s b1 bd rest /\ blen bd <= max /\ decodes_body b1 bd p).
Proof.
  intros Hb. split.
  - intros H. destruct (read_cases s max Hb) as [(e & _ & E)|(b1 & f & bd & rest' & Es & Hf & Hl & Hm & Hb1 & Hbd & Hr & E)].
    + rewrite E in H. discriminate.
    + rewrite E in H. injection H as Hp <-. exists b1, bd. split; [exists f; auto|]. split; [exact Hm|].
      assert (Hs := frame_sound b1 (b1 :: f) bd Hb1 Hbd). cbn [app] in Hs. rewrite Hp in Hs. exact Hs.
  - intros (b1 & bd & (f & -> & Hf & Hl) & Hm & Hd).
    rewrite read_complete_frame by assumption. f_equal.
    apply bytes_ok_cons in Hb as [Hb1 Hb]. apply bytes_ok_app in Hb as [_ Hb]. apply bytes_ok_app in Hb as [Hbd _].
    apply frame_complete; assumption.
Qed.

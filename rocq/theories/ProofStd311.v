(** ProofStd311.v -- lemmas for PropStandard: MQTT 3.1.1 *)
From Verif Require Import Base SpecWire SpecTopic SpecV4 SpecErrors SpecErrorsV4 SpecStd311 ProofStd ProofBase ProofLib ProofV4Read ProofV4Write ProofV4 ProofErrorsV4.
From Verif Require V4Connect V4ConnAck V4Publish V4PubAck V4PubRec V4PubRel V4PubComp
  V4Subscribe V4SubAck V4Unsubscribe V4UnsubAck.

(** the standard's texts are strings for the crate, its password is one if it is UTF-8 *)
Definition utf8_password (m : Message) : Prop :=
  match m with M_CONNECT _ _ _ _ _ (Some pw) => is_string pw | _ => True end.

Lemma flags_bits clean will user pw : let fl := flags_byte clean will user pw in
  fl < 256 /\ bit_at 0 fl = false /\ bit_at 1 fl = clean /\ bit_at 2 fl = present will /\
  bit_at 6 fl = present pw /\ bit_at 7 fl = present user /\
  match will with
  | Some w => fl / 8 mod 4 = qos_num (w_qos w) /\ bit_at 5 fl = w_retain w
  | None => fl / 8 mod 8 = 0
  end.
Proof.
  destruct clean, user, pw; (destruct will as [[t m q r]|]; [destruct q, r|]); vm_compute; repeat split; reflexivity.
Qed.
Lemma canon_login_of user pw :
  canon_login (Some (V4Connect.mkLogin (or_empty user) (or_empty pw))) = login_of user pw.
Proof. unfold login_of, canon_login. cbn [V4Connect.username V4Connect.password]. destruct (or_empty user), (or_empty pw); reflexivity. Qed.

Lemma std_decodes m : conforms m -> utf8_password m -> decodes_body (header_byte m) (content m) (as_packet m).
Proof.
  intros H Hp. destruct m; cbn [conforms header_byte content as_packet decodes_body] in *.
  - (* CONNECT *)
    destruct H as (Hka & (Hc & Hcs & _) & _ & Hw & Hu & Hpw & _).
    destruct (flags_bits clean will user password) as (F & F0 & F1 & F2 & F6 & F7 & FW).
    split; [reflexivity|]. cbn [V4Connect.protocol V4Connect.keep_alive V4Connect.client_id V4Connect.clean_session V4Connect.last_will V4Connect.login].
    exists (flags_byte clean will user password), (opt (fun w => field (w_topic w) ++ field (w_message w)) will),
      (opt field user), (opt field password), (or_empty user), (or_empty password), [].
    split; [exact F|]. split; [rewrite app_nil_r; reflexivity|]. split; [exact Hka|]. split; [exact Hc|]. split; [exact Hcs|].
    split; [congruence|]. split.
    { unfold decodes_will. destruct will as [w|]; cbn [opt present on_some] in *.
      - destruct Hw as (((T1 & T2 & _) & _) & _ & M). cbn [V4Connect.lw_topic V4Connect.lw_message V4Connect.lw_qos V4Connect.lw_retain].
        destruct FW. repeat split; assumption.
      - repeat split; assumption. }
    rewrite F6, F7. split; [|split].
    + apply std_opt_string. destruct user; [|exact I]. destruct Hu as (? & ? & _). split; assumption.
    + apply std_opt_string. destruct password; [|exact I]. split; [exact Hp|apply Hpw].
    + symmetry. apply canon_login_of.
  - split; [reflexivity|]. exists (bit session_present), []. split; [reflexivity|]. destruct session_present; reflexivity.
  - cbn [V4Publish.dup V4Publish.qos V4Publish.retain V4Publish.topic V4Publish.pkid V4Publish.payload].
    destruct H as (((Ht & Hs & _) & _) & _). destruct retain; repeat split; assumption.
  - cbn [V4Publish.dup V4Publish.qos V4Publish.retain V4Publish.topic V4Publish.pkid V4Publish.payload].
    destruct H as (((Ht & Hs & _) & _) & [Hi Hi'] & _). destruct twice, dup, retain; repeat split; assumption.
  - split; [reflexivity|]. split; [apply H|]. exists []. rewrite app_nil_r. reflexivity.
  - split; [reflexivity|]. split; [apply H|]. exists []. rewrite app_nil_r. reflexivity.
  - split; [reflexivity|]. split; [apply H|]. exists []. rewrite app_nil_r. reflexivity.
  - split; [reflexivity|]. split; [apply H|]. exists []. rewrite app_nil_r. reflexivity.
  - (* SUBSCRIBE *)
    destruct H as ([_ Hi] & Hn & Hf). split; [reflexivity|]. split; [exact Hi|].
    cbn [V4Subscribe.pkid V4Subscribe.filters]. split; [destruct filters; [congruence|discriminate]|].
    exists (map (fun f => qos_num (snd f)) filters). split.
    + clear - Hf. induction filters as [|f l IH]; [constructor|]. apply Forall_cons_iff in Hf as [Hf Hl].
      cbn [map]. constructor; [|auto]. destruct Hf as ((? & ? & _) & _). cbn [V4Subscribe.qos V4Subscribe.path].
      destruct (snd f); repeat split; assumption.
    + f_equal. clear. induction filters as [|f l IH]; [reflexivity|]. cbn [map combine flat_map fst snd V4Subscribe.path]. rewrite <- IH. reflexivity.
  - split; [reflexivity|]. destruct H as ([_ Hi] & Hn). repeat split; assumption.
  - destruct H as ([_ Hi] & Hn & Hf). split; [reflexivity|]. split; [exact Hi|]. split; [|reflexivity].
    cbn [V4Unsubscribe.topics]. eapply Forall_impl; [|exact Hf]. intros t ((? & ? & _) & _). split; assumption.
  - split; [reflexivity|]. split; [apply H|reflexivity].
  - reflexivity.
  - reflexivity.
  - reflexivity.
Qed.

(** a password that is not UTF-8 is refused *)
Lemma std_refused m : conforms m -> ~ utf8_password m -> fails (header_byte m) (content m) TopicNotUtf8.
Proof.
  intros H Hp. destruct m; try (exfalso; apply Hp; exact I). destruct password as [pw|]; [|exfalso; apply Hp; exact I].
  cbn [utf8_password conforms] in *. destruct H as (Hka & (Hc & Hcs & _) & _ & Hw & Hu & [Hpb Hps] & _).
  destruct (flags_bits clean will user (Some pw)) as (F & F0 & F1 & F2 & F6 & F7 & FW).
  eapply (f_missing _ _ _ (connect_head V4 (flags_byte clean will user (Some pw)) keep_alive client ++
     opt (fun w => field (w_topic w) ++ field (w_message w)) will ++ opt field user) (field pw) WString).
  - discriminate.
  - cbn [content]. unfold connect_head. rewrite <- !app_assoc. cbn [opt]. reflexivity.
  - eapply (ex_password _ V4 _ _ _
      match will with
      | Some w => Some (V4Connect.mkLastWill (w_topic w) (w_message w) (w_qos w) (w_retain w))
      | None => None
      end _ (or_empty user)); [reflexivity|exact Hka|split; assumption| | |exact F6].
    + unfold decodes_will. destruct will as [w|]; cbn [opt present on_some] in *.
      * destruct Hw as (((T1 & T2 & _) & _) & _ & M). cbn [V4Connect.lw_topic V4Connect.lw_message V4Connect.lw_qos V4Connect.lw_retain].
        destruct FW. repeat split; assumption.
      * repeat split; assumption.
    + rewrite F7. apply std_opt_string. destruct user; [|exact I]. destruct Hu as (? & ? & _). split; assumption.
  - assert (L := lacks_utf8 pw [] Hps Hp). rewrite app_nil_r in L. exact L.
Qed.

(** *** every accepted frame is standard or deviates *)
Lemma text_or b1 bd p s : In s (strings_in p) -> is_string s -> short s -> text s \/ deviates b1 bd p.
Proof.
  intros Hi Hu Hs. destruct (in_dec_n 0 s) as [H|H]; [right; eapply dv_null; eassumption|]. left. repeat split; assumption.
Qed.
Lemma topic_or b1 bd p s : In s (topics_in p) -> is_string s -> short s -> topic_name s \/ deviates b1 bd p.
Proof.
  intros Hi Hu Hs.
  destruct (text_or b1 bd p s) as [Ht|Ht]; [apply in_or_app; left; exact Hi|exact Hu|exact Hs| |right; exact Ht].
  destruct (list_eq_dec N.eq_dec s []) as [->|Hn]; [right; apply (dv_topic _ _ _ []); auto|].
  destruct (in_dec_n PLUS s); [right; apply (dv_topic _ _ _ s); auto|].
  destruct (in_dec_n HASH s); [right; apply (dv_topic _ _ _ s); auto|].
  left. split; [exact Ht|]. auto.
Qed.
Lemma filter_or b1 bd p s : In s (filters_in p) -> is_string s -> short s -> topic_filter s \/ deviates b1 bd p.
Proof.
  intros Hi Hu Hs.
  destruct (text_or b1 bd p s) as [Ht|Ht]; [apply in_or_app; right; apply in_or_app; left; exact Hi|exact Hu|exact Hs| |right; exact Ht].
  destruct (list_eq_dec N.eq_dec s []) as [->|Hn]; [right; apply (dv_filter _ _ _ []); auto|].
  destruct (hash_dec s); [|right; apply (dv_filter _ _ _ s); auto].
  destruct (plus_dec s); [|right; apply (dv_filter _ _ _ s); auto].
  left. split; [exact Ht|]. auto.
Qed.
Lemma filters_or b1 bd p l : incl l (filters_in p) -> Forall (fun s => is_string s /\ short s) l ->
  Forall topic_filter l \/ deviates b1 bd p.
Proof.
  induction l as [|s l IH]; intros Hi Hf; [left; constructor|].
  apply Forall_cons_iff in Hf as [[Hu Hs] Hf].
  destruct (filter_or b1 bd p s) as [H|H]; [apply Hi; left; reflexivity|exact Hu|exact Hs| |right; exact H].
  destruct IH as [H'|H']; [intros x Hx; apply Hi; right; exact Hx|exact Hf| |right; exact H'].
  left. constructor; assumption.
Qed.
Lemma id_or b1 bd p n : packet_id p = Some n -> u16 n -> identifier n \/ deviates b1 bd p.
Proof.
  intros Hi Hn. destruct (N.eq_dec n 0) as [->|n0]; [right; apply dv_id; exact Hi|]. left. split; [lia|exact Hn].
Qed.
Lemma header_or b1 bd p hi lo : (forall q, p <> Publish q) -> b1 / 16 = hi ->
  (if (kind p =? 6) || (kind p =? 8) || (kind p =? 10) then 2 else 0) = lo ->
  b1 = 16 * hi + lo \/ deviates b1 bd p.
Proof.
  intros Hp Hh Hl. destruct (N.eq_dec (b1 mod 16) lo) as [H|H].
  - left. rewrite (N.div_mod b1 16) by lia. rewrite Hh, H. reflexivity.
  - right. apply dv_header; [exact Hp|]. rewrite Hl. exact H.
Qed.

Lemma junk_or b1 bd p (junk : bytes) : blen bd = meaningful bd p + blen junk -> junk = [] \/ deviates b1 bd p.
Proof.
  intros H. destruct junk as [|x l]; [left; reflexivity|right]. apply dv_trailing. rewrite blen_cons in H. lia.
Qed.

Definition represents (b1 : N) (bd : bytes) (p : Packet) : Prop :=
  exists m, conforms m /\ b1 = header_byte m /\ bd = content m /\ p = as_packet m.

Lemma connect_standard_or b1 bd c : b1 < 256 -> bytes_ok bd -> decodes_body b1 bd (Connect c) ->
  represents b1 bd (Connect c) \/ deviates b1 bd (Connect c).
Proof.
  intros Hb Hbd (Hk & fl & wbs & ubs & pbs & u & pw & junk & Hfl & E & Hka & Hcu & Hcs & Hcl & Hw & Hu & Hp & Hl).
  destruct (header_or b1 bd (Connect c) 1 0) as [H1|H1]; [discriminate|exact Hk|reflexivity| |right; exact H1].
  assert (F7 : byte_at 7 bd = fl) by (rewrite E; reflexivity).
  destruct (V4Connect.protocol c) eqn:Epr; [|right; apply dv_level; exact Epr].
  destruct (bit_at 0 fl) eqn:E0; [right; apply dv_reserved; rewrite F7; exact E0|].
  assert (Lg : user_of c = u /\ password_of c = pw).
  { unfold user_of, password_of. rewrite Hl. unfold canon_login. cbn [V4Connect.username V4Connect.password].
    destruct u, pw; split; reflexivity. }
  destruct Lg as [Lu Lp].
  destruct (bit_at 6 fl && negb (bit_at 7 fl)) eqn:E67.
  { apply andb_true_iff in E67 as [E6 E7]. apply negb_true_iff in E7. right. apply dv_password; rewrite F7; assumption. }
  destruct (junk_or b1 bd (Connect c) junk) as [->|H]; [| |right; exact H].
  { cbn [meaningful]. rewrite F7, Lu, Lp. rewrite E at 1.
    change (field MQTT) with [0; 4; 77; 81; 84; 84].
    assert (W : blen wbs = match V4Connect.last_will c with
        | Some w => 4 + blen (V4Connect.lw_topic w) + blen (V4Connect.lw_message w)
        | None => 0
        end).
    { unfold decodes_will in Hw. destruct (V4Connect.last_will c) as [w|].
      - destruct Hw as (_ & _ & _ & -> & _). autorewrite with blen. unfold field, be16. autorewrite with blen. lia.
      - destruct Hw as (-> & _). reflexivity. }
    assert (U : blen ubs = if bit_at 7 fl then 2 + blen u else 0).
    { unfold decodes_opt_string in Hu. destruct (bit_at 7 fl); [destruct Hu as (-> & _)|destruct Hu as (-> & _)]; unfold field, be16; autorewrite with blen; lia. }
    assert (P : blen pbs = if bit_at 6 fl then 2 + blen pw else 0).
    { unfold decodes_opt_string in Hp. destruct (bit_at 6 fl); [destruct Hp as (-> & _)|destruct Hp as (-> & _)]; unfold field, be16; autorewrite with blen; lia. }
    unfold field, be16. autorewrite with blen. rewrite W, U, P. lia. }
  destruct (text_or b1 bd (Connect c) (V4Connect.client_id c)) as [Hct|H]; [|exact Hcu|exact Hcs| |right; exact H].
  { unfold strings_in. apply in_or_app. right. apply in_or_app. right. left. reflexivity. }
  assert (Hus : is_string u /\ short u).
  { unfold decodes_opt_string in Hu. destruct (bit_at 7 fl); [tauto|]. destruct Hu as [_ ->]. split; [exists []; split; [constructor|reflexivity]|cbv; discriminate]. }
  destruct (text_or b1 bd (Connect c) u) as [Hut|H]; [|apply Hus|apply Hus| |right; exact H].
  { unfold strings_in. apply in_or_app. right. apply in_or_app. right. right. left. exact Lu. }
  destruct (V4Connect.client_id c) as [|x cid] eqn:Ecid; [destruct (bit_at 1 fl) eqn:E1|].
  2: { right. apply dv_client; [exact Ecid|exact Hcl]. }
  all: assert (Hwn : (on_some (fun w => topic_name (V4Connect.lw_topic w)) (V4Connect.last_will c)) \/ deviates b1 bd (Connect c));
    [unfold decodes_will in Hw; destruct (V4Connect.last_will c) as [w|] eqn:Ew; [|left; exact I];
     destruct Hw as (_ & _ & _ & _ & Ht & Hts & _); apply topic_or; [cbn [topics_in]; rewrite Ew; left; reflexivity|exact Ht|exact Hts]|].
  all: destruct Hwn as [Hwn|H]; [|right; exact H].
  all: left; exists (M_CONNECT (V4Connect.clean_session c) (V4Connect.keep_alive c) (V4Connect.client_id c)
    match V4Connect.last_will c with
    | Some w => Some (mkWill (V4Connect.lw_topic w) (V4Connect.lw_message w) (V4Connect.lw_qos w) (V4Connect.lw_retain w))
    | None => None end (if bit_at 7 fl then Some u else None) (if bit_at 6 fl then Some pw else None)).
  all: rewrite app_nil_r in E; assert (Hbb := Hbd); rewrite E in Hbb; rewrite !bytes_ok_app in Hbb; destruct Hbb as (_ & _ & _ & _ & Bw & Bu & Bp).
  all: split; [cbn [conforms]; split; [exact Hka|]; split; [rewrite Ecid; exact Hct|];
    split; [intros H; rewrite Ecid in H; (discriminate H || rewrite Hcl; reflexivity)|];
    split; [unfold decodes_will in Hw; destruct (V4Connect.last_will c) as [w|]; [|exact I]; cbn [on_some w_topic w_message];
      destruct Hw as (_ & _ & _ & -> & _ & _ & Hms); split; [exact Hwn|]; split; [|exact Hms];
      rewrite !bytes_ok_app in Bw; unfold field in Bw; rewrite !bytes_ok_app in Bw; apply Bw|];
    split; [destruct (bit_at 7 fl); [exact Hut|exact I]|];
    split; [unfold decodes_opt_string in Hp; destruct (bit_at 6 fl); [|exact I]; destruct Hp as (-> & _ & Hps); split; [|exact Hps];
      unfold field in Bp; rewrite bytes_ok_app in Bp; apply Bp|];
    revert E67; destruct (bit_at 7 fl), (bit_at 6 fl); cbn; congruence|].
  all: split; [rewrite H1; reflexivity|].
  all: split; [|shelve].
  all: (rewrite E; cbn [content]; rewrite ?Epr, ?Ecid; cbn [level]; 
    assert (G : fl = flags_byte (V4Connect.clean_session c)
    match V4Connect.last_will c with
    | Some w => Some (mkWill (V4Connect.lw_topic w) (V4Connect.lw_message w) (V4Connect.lw_qos w) (V4Connect.lw_retain w))
    | None => None end (if bit_at 7 fl then Some u else None) (if bit_at 6 fl then Some pw else None)); [
      rewrite (flags_sum fl Hfl) at 1; rewrite E0; try rewrite E1; rewrite Hcl; unfold flags_byte;
      unfold decodes_will in Hw; destruct (V4Connect.last_will c) as [w|]; [
        destruct Hw as (W2 & W4 & W5 & _); rewrite W2, W4, W5; cbn [w_retain w_qos];
        destruct (bit_at 7 fl), (bit_at 6 fl); cbn [present bit]; lia
       |destruct Hw as (_ & W2 & W8); destruct (no_will_bits fl Hfl W8) as [W4 W5]; rewrite W2, W4, W5;
        destruct (bit_at 7 fl), (bit_at 6 fl); cbn [present bit]; lia] |];
    rewrite <- G; change (field MQTT) with [0; 4; 77; 81; 84; 84]; cbn [app];
    do 8 f_equal; do 2 f_equal;
    unfold decodes_will in Hw; unfold decodes_opt_string in Hu, Hp;
    destruct (V4Connect.last_will c) as [w|]; [destruct Hw as (_ & _ & _ & -> & _)|destruct Hw as (-> & _)];
    destruct (bit_at 7 fl), (bit_at 6 fl); destruct Hu as (-> & _); destruct Hp as (-> & _); reflexivity).
  Unshelve.
  all: cbn [as_packet]; f_equal; rewrite <- canon_login_of.
  all: replace (or_empty (if bit_at 7 fl then Some u else None)) with u by
      (unfold decodes_opt_string in Hu; destruct (bit_at 7 fl); [reflexivity|]; destruct Hu as (_ & ->); reflexivity).
  all: replace (or_empty (if bit_at 6 fl then Some pw else None)) with pw by
      (unfold decodes_opt_string in Hp; destruct (bit_at 6 fl); [reflexivity|]; destruct Hp as (_ & ->); reflexivity).
  all: rewrite <- Hl; rewrite <- ?Epr; destruct c as [? ? ? ? [[]|] ?]; reflexivity.
Qed.

Lemma filters_no_junk l : Forall (fun f => is_string (V4Subscribe.path f) /\ short (V4Subscribe.path f)) l ->
  Forall (fun s => is_string s /\ short s) (map V4Subscribe.path l).
Proof. intros H. induction H; constructor; assumption. Qed.

Lemma standard_or_deviates b1 bd p : b1 < 256 -> bytes_ok bd -> decodes_body b1 bd p ->
  represents b1 bd p \/ deviates b1 bd p.
Proof.
  intros Hb Hbd H. destruct p; [apply connect_standard_or; assumption|..]; cbn [decodes_body] in H.
  - (* CONNACK *)
    destruct H as (Hk & fl & junk & E & Hsp).
    destruct (header_or b1 bd (ConnAck c) 2 0) as [H1|H1]; [discriminate|exact Hk|reflexivity| |right; exact H1].
    destruct (junk_or b1 bd (ConnAck c) junk) as [->|H]; [rewrite E; cbn [meaningful]; autorewrite with blen; lia| |right; exact H].
    destruct (N.le_gt_cases 2 fl) as [H2|H2]; [right; apply dv_ack_flags; rewrite E; exact H2|].
    destruct (V4ConnAck.session_present c) eqn:Es.
    + assert (Hc : {V4ConnAck.code c = V4ConnAck.Success} + {V4ConnAck.code c <> V4ConnAck.Success}) by (destruct (V4ConnAck.code c); (left; reflexivity) || (right; discriminate)).
      destruct Hc as [Hc|Hc]; [|right; apply dv_session; assumption].
      left. exists (M_CONNACK true (V4ConnAck.code c)). split; [intros Hn; congruence|]. split; [rewrite H1; reflexivity|].
      split; [|destruct c; cbn in *; congruence]. rewrite E. cbn [content].
      assert (fl = 0 \/ fl = 1) as [->| ->] by lia; [discriminate Hsp|reflexivity].
    + left. exists (M_CONNACK false (V4ConnAck.code c)). split; [intros _; reflexivity|]. split; [rewrite H1; reflexivity|].
      split; [|destruct c; cbn in *; congruence]. rewrite E. cbn [content].
      assert (fl = 0 \/ fl = 1) as [->| ->] by lia; [reflexivity|discriminate Hsp].
  - (* PUBLISH *)
    destruct p as [d q r t id pl]. cbn [V4Publish.dup V4Publish.qos V4Publish.retain V4Publish.topic V4Publish.pkid V4Publish.payload] in H.
    destruct H as (Hk & Hd & Hq & Hr & E & Hu & Hs & Hid).
    assert (S := publish_sum b1 Hb Hk). rewrite <- Hd, Hq, <- Hr in S.
    destruct (topic_or b1 bd (Publish (V4Publish.mkPublish d q r t id pl)) t) as [Ht|Ht]; [left; reflexivity|exact Hu|exact Hs| |right; exact Ht].
    assert (Bp : bytes_ok pl) by (rewrite E, !bytes_ok_app in Hbd; apply Hbd).
    destruct q; cbn [positive_qos qos_num] in *.
    + destruct d; [right; apply dv_dup; reflexivity|]. left. exists (M_PUBLISH0 r t pl).
      split; [split; assumption|]. split; [rewrite S; cbn [header_byte bit]; lia|]. split; [exact E|]. subst id. reflexivity.
    + left. exists (M_PUBLISH false d r t id pl). split; [split; [exact Ht|]; split; [exact Hid|exact Bp]|].
      split; [rewrite S; cbn [header_byte]; lia|]. split; [exact E|reflexivity].
    + left. exists (M_PUBLISH true d r t id pl). split; [split; [exact Ht|]; split; [exact Hid|exact Bp]|].
      split; [rewrite S; cbn [header_byte]; lia|]. split; [exact E|reflexivity].
  - destruct H as (Hk & Hi & junk & E).
    destruct (header_or b1 bd (PubAck p) 4 0) as [H1|H1]; [discriminate|exact Hk|reflexivity| |right; exact H1].
    destruct (junk_or b1 bd (PubAck p) junk) as [->|H]; [rewrite E; cbn [meaningful]; unfold be16; autorewrite with blen; lia| |right; exact H].
    destruct (id_or b1 bd (PubAck p) (V4PubAck.pkid p)) as [Hn|Hn]; [reflexivity|exact Hi| |right; exact Hn].
    left. exists (M_PUBACK (V4PubAck.pkid p)). rewrite app_nil_r in E. split; [exact Hn|]. split; [rewrite H1; reflexivity|]. split; [exact E|]. destruct p; reflexivity.
  - destruct H as (Hk & Hi & junk & E).
    destruct (header_or b1 bd (PubRec p) 5 0) as [H1|H1]; [discriminate|exact Hk|reflexivity| |right; exact H1].
    destruct (junk_or b1 bd (PubRec p) junk) as [->|H]; [rewrite E; cbn [meaningful]; unfold be16; autorewrite with blen; lia| |right; exact H].
    destruct (id_or b1 bd (PubRec p) (V4PubRec.pkid p)) as [Hn|Hn]; [reflexivity|exact Hi| |right; exact Hn].
    left. exists (M_PUBREC (V4PubRec.pkid p)). rewrite app_nil_r in E. split; [exact Hn|]. split; [rewrite H1; reflexivity|]. split; [exact E|]. destruct p; reflexivity.
  - destruct H as (Hk & Hi & junk & E).
    destruct (header_or b1 bd (PubRel p) 6 2) as [H1|H1]; [discriminate|exact Hk|reflexivity| |right; exact H1].
    destruct (junk_or b1 bd (PubRel p) junk) as [->|H]; [rewrite E; cbn [meaningful]; unfold be16; autorewrite with blen; lia| |right; exact H].
    destruct (id_or b1 bd (PubRel p) (V4PubRel.pkid p)) as [Hn|Hn]; [reflexivity|exact Hi| |right; exact Hn].
    left. exists (M_PUBREL (V4PubRel.pkid p)). rewrite app_nil_r in E. split; [exact Hn|]. split; [rewrite H1; reflexivity|]. split; [exact E|]. destruct p; reflexivity.
  - destruct H as (Hk & Hi & junk & E).
    destruct (header_or b1 bd (PubComp p) 7 0) as [H1|H1]; [discriminate|exact Hk|reflexivity| |right; exact H1].
    destruct (junk_or b1 bd (PubComp p) junk) as [->|H]; [rewrite E; cbn [meaningful]; unfold be16; autorewrite with blen; lia| |right; exact H].
    destruct (id_or b1 bd (PubComp p) (V4PubComp.pkid p)) as [Hn|Hn]; [reflexivity|exact Hi| |right; exact Hn].
    left. exists (M_PUBCOMP (V4PubComp.pkid p)). rewrite app_nil_r in E. split; [exact Hn|]. split; [rewrite H1; reflexivity|]. split; [exact E|]. destruct p; reflexivity.
  - (* SUBSCRIBE *)
    destruct H as (Hk & Hi & Hne & os & Hf & E).
    destruct (header_or b1 bd (Subscribe s) 8 2) as [H1|H1]; [discriminate|exact Hk|reflexivity| |right; exact H1].
    destruct (id_or b1 bd (Subscribe s) (V4Subscribe.pkid s)) as [Hn|Hn]; [reflexivity|exact Hi| |right; exact Hn].
    destruct (filters_or b1 bd (Subscribe s) (map V4Subscribe.path (V4Subscribe.filters s))) as [Hfs|H]; [apply incl_refl| | |right; exact H].
    { apply filters_no_junk. clear - Hf. induction Hf; constructor; tauto. }
    destruct (list_eq_dec N.eq_dec bd (body (Subscribe s))) as [Eb|Eb]; [|right; apply dv_options; exact Eb].
    left. exists (M_SUBSCRIBE (V4Subscribe.pkid s) (map (fun f => (V4Subscribe.path f, V4Subscribe.qos f)) (V4Subscribe.filters s))).
    split; [|split; [rewrite H1; reflexivity|split]].
    + cbn [conforms]. split; [exact Hn|]. split; [destruct (V4Subscribe.filters s); [congruence|discriminate]|].
      clear - Hfs. rewrite Forall_map in *. exact Hfs.
    + rewrite Eb. cbn [body content]. f_equal. clear. induction (V4Subscribe.filters s) as [|f l IH]; [reflexivity|]. cbn [map flat_map fst snd]. rewrite IH. reflexivity.
    + cbn [as_packet]. rewrite map_map. destruct s as [i fs]. cbn [V4Subscribe.pkid V4Subscribe.filters fst snd]. do 2 f_equal. symmetry.
      rewrite <- map_id. apply map_ext. intros []. reflexivity.
  - destruct H as (Hk & Hi & Hne & E).
    destruct (header_or b1 bd (SubAck s) 9 0) as [H1|H1]; [discriminate|exact Hk|reflexivity| |right; exact H1].
    destruct (id_or b1 bd (SubAck s) (V4SubAck.pkid s)) as [Hn|Hn]; [reflexivity|exact Hi| |right; exact Hn].
    left. exists (M_SUBACK (V4SubAck.pkid s) (V4SubAck.return_codes s)). split; [split; assumption|]. split; [rewrite H1; reflexivity|].
    split; [exact E|destruct s; reflexivity].
  - destruct H as (Hk & Hi & Hf & E).
    destruct (header_or b1 bd (Unsubscribe u) 10 2) as [H1|H1]; [discriminate|exact Hk|reflexivity| |right; exact H1].
    destruct (id_or b1 bd (Unsubscribe u) (V4Unsubscribe.pkid u)) as [Hn|Hn]; [reflexivity|exact Hi| |right; exact Hn].
    destruct (filters_or b1 bd (Unsubscribe u) (V4Unsubscribe.topics u)) as [Hfs|H]; [apply incl_refl|exact Hf| |right; exact H].
    assert (Hd : {V4Unsubscribe.topics u = []} + {V4Unsubscribe.topics u <> []}) by (destruct (V4Unsubscribe.topics u); [left; reflexivity|right; discriminate]).
    destruct Hd as [Hd|Hd]; [right; apply dv_no_filter; exact Hd|].
    left. exists (M_UNSUBSCRIBE (V4Unsubscribe.pkid u) (V4Unsubscribe.topics u)). split; [split; [exact Hn|]; split; assumption|]. split; [rewrite H1; reflexivity|].
    split; [exact E|destruct u; reflexivity].
  - destruct H as (Hk & Hi & E).
    destruct (header_or b1 bd (UnsubAck u) 11 0) as [H1|H1]; [discriminate|exact Hk|reflexivity| |right; exact H1].
    destruct (id_or b1 bd (UnsubAck u) (V4UnsubAck.pkid u)) as [Hn|Hn]; [reflexivity|exact Hi| |right; exact Hn].
    left. exists (M_UNSUBACK (V4UnsubAck.pkid u)). split; [exact Hn|]. split; [rewrite H1; reflexivity|]. split; [exact E|]. destruct u; reflexivity.
  - destruct (header_or b1 bd PingReq 12 0) as [H1|H1]; [discriminate|exact H|reflexivity| |right; exact H1].
    destruct (junk_or b1 bd PingReq bd) as [->|H2]; [cbn [meaningful]; lia| |right; exact H2].
    left. exists M_PINGREQ. split; [exact I|]. split; [rewrite H1; reflexivity|]. split; reflexivity.
  - destruct (header_or b1 bd PingResp 13 0) as [H1|H1]; [discriminate|exact H|reflexivity| |right; exact H1].
    destruct (junk_or b1 bd PingResp bd) as [->|H2]; [cbn [meaningful]; lia| |right; exact H2].
    left. exists M_PINGRESP. split; [exact I|]. split; [rewrite H1; reflexivity|]. split; reflexivity.
  - destruct (header_or b1 bd Disconnect 14 0) as [H1|H1]; [discriminate|exact H|reflexivity| |right; exact H1].
    destruct (junk_or b1 bd Disconnect bd) as [->|H2]; [cbn [meaningful]; lia| |right; exact H2].
    left. exists M_DISCONNECT. split; [exact I|]. split; [rewrite H1; reflexivity|]. split; reflexivity.
Qed.

(** *** a standard message does not deviate *)
Lemma std_strings m s : conforms m -> In s (strings_in (as_packet m)) -> ~ In 0 s.
Proof.
  intros H Hi. destruct m; cbn [conforms as_packet strings_in topics_in filters_in app] in *; try contradiction.
  - destruct H as (_ & (_ & _ & Hc) & _ & Hw & Hu & _ & _).
    apply in_app_or in Hi as [Hi|Hi].
    + cbn [topics_in V4Connect.last_will] in Hi. destruct will as [w|]; [|contradiction]. destruct Hi as [<-|[]]. destruct Hw as (((_ & _ & Hw) & _) & _). exact Hw.
    + destruct Hi as [<-|[<-|[]]]; [exact Hc|]. unfold user_of. cbn [V4Connect.login].
      unfold login_of. destruct user as [u|]; cbn [or_empty].
      * destruct Hu as (_ & _ & Hu). destruct u as [|x u], (or_empty password); cbn [V4Connect.username]; try exact Hu; intros [].
      * destruct (or_empty password); cbn [V4Connect.username]; intros [].
  - destruct Hi as [<-|[]]. destruct H as (((_ & _ & H) & _) & _). exact H.
  - destruct Hi as [<-|[]]. destruct H as (((_ & _ & H) & _) & _). exact H.
  - rewrite app_nil_r in Hi. cbn [V4Subscribe.filters] in Hi. rewrite map_map in Hi. apply in_map_iff in Hi as (f & <- & Hf).
    destruct H as (_ & _ & H). rewrite Forall_forall in H. destruct (H f Hf) as ((_ & _ & Hz) & _). exact Hz.
  - rewrite app_nil_r in Hi. cbn [V4Unsubscribe.topics] in Hi.
    destruct H as (_ & _ & H). rewrite Forall_forall in H. destruct (H s Hi) as ((_ & _ & Hz) & _). exact Hz.
Qed.
Lemma std_topics m s : conforms m -> In s (topics_in (as_packet m)) -> topic_name s.
Proof.
  intros H Hi. destruct m; cbn [conforms as_packet topics_in] in *; try contradiction.
  - cbn [V4Connect.last_will] in Hi. destruct will as [w|]; [|contradiction]. destruct Hi as [<-|[]]. destruct H as (_ & _ & _ & (Hw & _) & _). exact Hw.
  - destruct Hi as [<-|[]]. apply H.
  - destruct Hi as [<-|[]]. apply H.
Qed.
Lemma std_filters m s : conforms m -> In s (filters_in (as_packet m)) -> topic_filter s.
Proof.
  intros H Hi. destruct m; cbn [conforms as_packet filters_in] in *; try contradiction.
  - cbn [V4Subscribe.filters] in Hi. rewrite map_map in Hi. apply in_map_iff in Hi as (f & <- & Hf).
    destruct H as (_ & _ & H). rewrite Forall_forall in H. exact (H f Hf).
  - cbn [V4Unsubscribe.topics] in Hi. destruct H as (_ & _ & H). rewrite Forall_forall in H. exact (H s Hi).
Qed.
Lemma std_meaningful m : meaningful (content m) (as_packet m) = blen (content m).
Proof.
  destruct m; try reflexivity; cbn [as_packet meaningful].
  cbn [V4Connect.client_id V4Connect.last_will].
  destruct (flags_bits clean will user password) as (_ & _ & _ & _ & F6 & F7 & _).
  change (byte_at 7 (content (M_CONNECT clean keep_alive client will user password))) with (flags_byte clean will user password).
  rewrite F6, F7. cbn [content]. unfold user_of, password_of. cbn [V4Connect.login]. unfold login_of.
  destruct will as [w|]; cbn [opt V4Connect.lw_topic V4Connect.lw_message];
    destruct user as [[|? ?]|], password as [[|? ?]|]; cbn [present opt or_empty V4Connect.username V4Connect.password];
    unfold field, be16; autorewrite with blen; lia.
Qed.

Lemma standard_not_deviates m b1 bd p : conforms m -> b1 = header_byte m -> bd = content m -> p = as_packet m -> ~ deviates b1 bd p.
Proof.
  intros Hm E1 Ebd Ep D. destruct D.
  - destruct m; cbn [as_packet header_byte] in *; subst p b1; apply H0; try reflexivity; exfalso; eapply H; reflexivity.
  - destruct m; try discriminate Ep; injection Ep as ->; cbn in *; [discriminate|]. destruct twice; discriminate.
  - subst p. destruct m; try discriminate H; injection H as ->; cbn [conforms] in Hm; unfold identifier in Hm; lia.
  - subst p. exact (std_strings m s Hm H H0).
  - subst p. destruct (std_topics m s Hm H) as (_ & ? & ? & ?). tauto.
  - subst p. destruct (std_filters m s Hm H) as (_ & ? & ? & ?). tauto.
  - destruct m; try discriminate Ep. injection Ep as ->. cbn in *. tauto.
  - destruct m; try discriminate Ep. injection Ep as ->. apply H. rewrite Ebd. cbn [content body V4Subscribe.pkid V4Subscribe.filters].
    f_equal. clear. induction filters as [|f l IH]; [reflexivity|]. cbn [map flat_map V4Subscribe.path V4Subscribe.qos]. rewrite IH. reflexivity.
  - destruct m; try discriminate Ep. injection Ep as ->. discriminate H.
  - destruct m; try discriminate Ep. rewrite Ebd in H. destruct (flags_bits clean will user password) as (_ & F0 & _).
    change (byte_at 7 (content (M_CONNECT clean keep_alive client will user password))) with (flags_byte clean will user password) in H. congruence.
  - destruct m; try discriminate Ep. rewrite Ebd in H, H0. destruct (flags_bits clean will user password) as (_ & _ & _ & _ & F6 & F7 & _).
    change (byte_at 7 (content (M_CONNECT clean keep_alive client will user password))) with (flags_byte clean will user password) in H, H0.
    rewrite F6 in H. rewrite F7 in H0. destruct Hm as (_ & _ & _ & _ & _ & _ & Hm). destruct user; [discriminate|]. rewrite Hm in H by reflexivity. discriminate.
  - destruct m; try discriminate Ep. injection Ep as ->. cbn in *. destruct Hm as (_ & _ & Hm & _). rewrite Hm in H0 by assumption. discriminate.
  - destruct m; try discriminate Ep. rewrite Ebd in H. cbn in H. destruct session_present; cbn in H; lia.
  - destruct m; try discriminate Ep. injection Ep as ->. cbn in *. rewrite Hm in H by assumption. discriminate.
  - subst. rewrite std_meaningful in H. lia.
Qed.

(** *** what the crate writes *)
Lemma decodes_det b1 bd p q : b1 < 256 -> bytes_ok bd -> decodes_body b1 bd p -> decodes_body b1 bd q -> p = q.
Proof.
  intros Hb1 Hb H1 H2. apply (frame_complete b1 [] bd p Hb1 Hb) in H1. apply (frame_complete b1 [] bd q Hb1 Hb) in H2. congruence.
Qed.
Lemma has_payload_dec p : {has_payload p} + {~ has_payload p}.
Proof.
  destruct p; cbn [has_payload]; try (left; exact I).
  - destruct (V4Subscribe.filters s); [right; intros H; apply H; reflexivity|left; discriminate].
  - destruct (V4SubAck.return_codes s); [right; intros H; apply H; reflexivity|left; discriminate].
Qed.
Lemma std_payload m p : conforms m -> first_byte p = header_byte m -> body p = content m -> has_payload p.
Proof.
  intros Hm H1 H2. destruct p; cbn [has_payload]; try exact I.
  - intros Hn. cbn [body] in H2. rewrite Hn in H2. cbn [flat_map] in H2. rewrite app_nil_r in H2.
    destruct m; try discriminate H1; [destruct retain; discriminate H1|destruct twice, dup, retain; discriminate H1|].
    cbn [conforms content] in *. destruct Hm as (_ & Hf & _). destruct filters as [|f l]; [congruence|].
    apply (f_equal (@List.length N)) in H2. rewrite app_length in H2. cbn [flat_map] in H2. rewrite !app_length in H2. cbn in H2. lia.
  - intros Hn. cbn [body] in H2. rewrite Hn in H2. cbn [map] in H2. rewrite app_nil_r in H2.
    destruct m; try discriminate H1; [destruct retain; discriminate H1|destruct twice, dup, retain; discriminate H1|].
    cbn [conforms content] in *. destruct Hm as (_ & Hf). destruct codes as [|f l]; [congruence|].
    apply (f_equal (@List.length N)) in H2. rewrite app_length in H2. cbn in H2. lia.
Qed.
Lemma fails_decodes b1 bd e p : b1 < 256 -> bytes_ok bd -> fails b1 bd e -> decodes_body b1 bd p -> False.
Proof.
  intros Hb1 Hb H1 H2. apply (frame_complete b1 [] bd p Hb1 Hb) in H2. apply (frame_fails b1 [] bd e Hb1 Hb) in H1. congruence.
Qed.
Lemma utf8_password_dec m : {utf8_password m} + {~ utf8_password m}.
Proof.
  destruct m; cbn [utf8_password]; try (left; exact I). destruct password as [pw|]; [|left; exact I].
  destruct (Utf8.utf8_ok pw) eqn:E; [left|right].
  - apply ProofUtf8.utf8_ok_spec, E.
  - intros H. apply ProofUtf8.utf8_ok_spec in H. congruence.
Qed.

(** a value whose encoding does not deviate is a standard value *)
Lemma canon_user c : user_of (match canon (Connect c) with Connect c => c | _ => c end) = user_of c /\
  password_of (match canon (Connect c) with Connect c => c | _ => c end) = password_of c.
Proof.
  cbn [canon]. unfold user_of, password_of. cbn [V4Connect.login]. unfold canon_login.
  destruct (V4Connect.login c) as [[u p]|]; [|split; reflexivity]. cbn [V4Connect.username V4Connect.password].
  destruct u, p; split; reflexivity.
Qed.
Lemma standard_value_of p : fits p -> has_payload p -> ~ deviates (first_byte p) (body p) (canon p) -> standard_value p.
Proof.
  intros (Ht & Hs & Hi & Hl) Hp D.
  assert (T : forall s, In s (strings_in (canon p)) -> is_string s -> short s -> text s).
  { intros s H1 H2 H3. destruct (text_or (first_byte p) (body p) (canon p) s H1 H2 H3); [assumption|contradiction]. }
  assert (TN : forall s, In s (topics_in (canon p)) -> is_string s -> short s -> topic_name s).
  { intros s H1 H2 H3. destruct (topic_or (first_byte p) (body p) (canon p) s H1 H2 H3); [assumption|contradiction]. }
  assert (TF : forall s, In s (filters_in (canon p)) -> is_string s -> short s -> topic_filter s).
  { intros s H1 H2 H3. destruct (filter_or (first_byte p) (body p) (canon p) s H1 H2 H3); [assumption|contradiction]. }
  destruct p; cbn [standard_value].
  - destruct Ht as (_ & Hc & Hw & Hlg). destruct Hs as (Hcs & Hws & Hls).
    destruct (canon_user c) as [Cu Cp]. cbn [canon] in Cu, Cp.
    split. { destruct (V4Connect.protocol c) eqn:E; [reflexivity|]. exfalso. apply D. cbn [canon]. apply dv_level. exact E. }
    split. { apply T; [|exact Hc|exact Hcs]. cbn [canon]. unfold strings_in. apply in_or_app. right. apply in_or_app. right. left. reflexivity. }
    split. { intros H. destruct (V4Connect.clean_session c) eqn:E; [reflexivity|]. exfalso. apply D. cbn [canon]. apply dv_client; assumption. }
    split.
    { destruct (V4Connect.last_will c) as [w|] eqn:Ew; [|exact I]. cbn [on_some] in *. split; [|apply Hws].
      apply TN; [cbn [canon topics_in V4Connect.last_will]; rewrite Ew; left; reflexivity|apply Hw|apply Hws]. }
    split.
    { apply T.
      - cbn [canon]. unfold strings_in. apply in_or_app. right. apply in_or_app. right. right. left. exact Cu.
      - unfold user_of. destruct (V4Connect.login c) as [l|]; [apply Hlg|apply string_nil].
      - unfold user_of. destruct (V4Connect.login c) as [l|]; [apply Hls|cbv; discriminate]. }
    intros H6 H7. apply D. cbn [canon]. destruct (bit_at_connect c) as (_ & _ & _ & _ & _ & B6 & B7).
    change (byte_at 7 (body (Connect c))) with (connect_flags c).
    unfold user_of, password_of in *. destruct (V4Connect.login c) as [l|] eqn:El; [|congruence].
    apply dv_password; change (byte_at 7 (body (Connect c))) with (connect_flags c).
    + rewrite B6. destruct (V4Connect.password l); [congruence|reflexivity].
    + rewrite B7, H7. reflexivity.
  - intros Hc. destruct (V4ConnAck.session_present c) eqn:E; [|reflexivity]. exfalso. apply D. apply dv_session; assumption.
  - split; [apply TN; [left; reflexivity|apply Ht|apply Hs]|]. intros Hq. destruct (V4Publish.dup p) eqn:E; [|reflexivity].
    exfalso. apply D. apply dv_dup; assumption.
  - intros H. apply D. apply dv_id. exact H.
  - intros H. apply D. apply dv_id. exact H.
  - intros H. apply D. apply dv_id. exact H.
  - intros H. apply D. apply dv_id. exact H.
  - split; [intros H; apply D; apply dv_id; exact H|]. split; [exact Hp|]. destruct Ht as [_ Ht]. cbn [short_fields] in Hs.
    rewrite Forall_forall in *. intros f Hf. apply TF; [|apply Ht, Hf|apply Hs, Hf]. cbn [canon filters_in]. apply in_map, Hf.
  - split; [intros H; apply D; apply dv_id; exact H|]. exact Hp.
  - split; [intros H; apply D; apply dv_id; exact H|]. split; [intros H; apply D, dv_no_filter, H|]. destruct Ht as [_ Ht]. cbn [short_fields] in Hs.
    rewrite Forall_forall in *. intros f Hf. apply TF; [exact Hf|apply Ht, Hf|apply Hs, Hf].
  - intros H. apply D. apply dv_id. exact H.
  - exact I.
  - exact I.
  - exact I.
Qed.

Lemma standard_writes_only p : fits p -> standard_frame (first_byte p) (body p) -> standard_value p.
Proof.
  intros Hf (m & Hm & H1 & H2). assert (Hp := std_payload m p Hm H1 H2).
  assert (Hd := decodes_wire p Hf Hp). assert (Hb : bytes_ok (body p)) by (apply body_bytes, Hf). assert (Hb1 := first_byte_ok p).
  destruct (utf8_password_dec m) as [Hu|Hu].
  - apply standard_value_of; [exact Hf|exact Hp|]. apply (standard_not_deviates m); [exact Hm|exact H1|exact H2|].
    assert (Hd' := std_decodes m Hm Hu). rewrite <- H1, <- H2 in Hd'. exact (decodes_det _ _ _ _ Hb1 Hb Hd Hd').
  - exfalso. assert (F := std_refused m Hm Hu). rewrite <- H1, <- H2 in F. exact (fails_decodes _ _ _ _ Hb1 Hb F Hd).
Qed.

Lemma standard_writes p : fits p -> standard_value p -> standard_frame (first_byte p) (body p).
Proof.
  intros (Ht & Hs & Hi & Hl) V. destruct p; cbn [standard_value] in V.
  - destruct V as (Vp & Vc & Ve & Vw & Vu & Vl). destruct Ht as (Hka & _ & Hw & Hlg). destruct Hs as (_ & _ & Hls).
    exists (M_CONNECT (V4Connect.clean_session c) (V4Connect.keep_alive c) (V4Connect.client_id c)
      match V4Connect.last_will c with
      | Some w => Some (mkWill (V4Connect.lw_topic w) (V4Connect.lw_message w) (V4Connect.lw_qos w) (V4Connect.lw_retain w))
      | None => None end (given (user_of c)) (given (password_of c))).
    split.
    { cbn [conforms]. split; [exact Hka|]. split; [exact Vc|]. split; [exact Ve|].
      split. { destruct (V4Connect.last_will c) as [w|]; [|exact I]. cbn [on_some w_topic w_message] in *. destruct Vw. split; [assumption|]. split; [apply Hw|assumption]. }
      split. { destruct (user_of c); [exact I|exact Vu]. }
      split. { unfold password_of in *. destruct (V4Connect.login c) as [l|]; [|exact I].
        destruct Hlg as [_ Hlg], Hls as [_ Hls]. destruct (V4Connect.password l) as [|x pw]; [exact I|].
        split; [apply ProofRead.is_utf8_bytes, Hlg|exact Hls]. }
      destruct (user_of c); [|discriminate]. destruct (password_of c); [reflexivity|]. intros _. exfalso. apply Vl; [discriminate|reflexivity]. }
    split; [reflexivity|]. cbn [body content]. rewrite Vp. cbn [level].
    change (field MQTT) with [0; 4; 77; 81; 84; 84]. cbn [app].
    assert (F : connect_flags c = flags_byte (V4Connect.clean_session c)
      match V4Connect.last_will c with
      | Some w => Some (mkWill (V4Connect.lw_topic w) (V4Connect.lw_message w) (V4Connect.lw_qos w) (V4Connect.lw_retain w))
      | None => None end (given (user_of c)) (given (password_of c))).
    { unfold connect_flags, flags_byte, user_of, password_of. destruct (V4Connect.last_will c) as [w|]; cbn [w_retain w_qos];
      (destruct (V4Connect.login c) as [[[|? ?] [|? ?]]|]); cbn [V4Connect.username V4Connect.password given present nonempty bit]; lia. }
    rewrite F. do 8 f_equal. do 2 f_equal. unfold user_of, password_of. f_equal.
    + destruct (V4Connect.last_will c); reflexivity.
    + destruct (V4Connect.login c) as [[[|? ?] [|? ?]]|]; reflexivity.
  - exists (M_CONNACK (V4ConnAck.session_present c) (V4ConnAck.code c)). split; [exact V|]. split; reflexivity.
  - destruct V as [Vt Vd]. destruct p as [d q r t id pl]. cbn in Vt, Vd. destruct Ht as (_ & Hid & Hpl). cbn in Hid, Hpl, Hi.
    destruct q.
    + rewrite (Vd eq_refl). exists (M_PUBLISH0 r t pl). split; [split; assumption|]. split; [destruct r; reflexivity|reflexivity].
    + exists (M_PUBLISH false d r t id pl). split; [split; [exact Vt|]; split; [split; [specialize (Hi eq_refl); lia|exact Hid]|exact Hpl]|].
      split; [destruct d, r; reflexivity|reflexivity].
    + exists (M_PUBLISH true d r t id pl). split; [split; [exact Vt|]; split; [split; [specialize (Hi eq_refl); lia|exact Hid]|exact Hpl]|].
      split; [destruct d, r; reflexivity|reflexivity].
  - exists (M_PUBACK (V4PubAck.pkid p)). split; [apply some_id; assumption|]. split; reflexivity.
  - exists (M_PUBREC (V4PubRec.pkid p)). split; [apply some_id; assumption|]. split; reflexivity.
  - exists (M_PUBREL (V4PubRel.pkid p)). split; [apply some_id; assumption|]. split; reflexivity.
  - exists (M_PUBCOMP (V4PubComp.pkid p)). split; [apply some_id; assumption|]. split; reflexivity.
  - destruct V as (Vi & Vn & Vf). exists (M_SUBSCRIBE (V4Subscribe.pkid s) (map (fun f => (V4Subscribe.path f, V4Subscribe.qos f)) (V4Subscribe.filters s))).
    split; [|split; [reflexivity|]].
    + cbn [conforms]. split; [apply some_id; [exact Vi|apply Ht]|]. split; [destruct (V4Subscribe.filters s); [congruence|discriminate]|].
      rewrite Forall_map. exact Vf.
    + cbn [body content]. f_equal. clear. induction (V4Subscribe.filters s) as [|f l IH]; [reflexivity|]. cbn [map flat_map fst snd]. rewrite IH. reflexivity.
  - destruct V as (Vi & Vn). exists (M_SUBACK (V4SubAck.pkid s) (V4SubAck.return_codes s)). split; [split; [apply some_id; [exact Vi|apply Ht]|exact Vn]|]. split; reflexivity.
  - destruct V as (Vi & Vn & Vf). exists (M_UNSUBSCRIBE (V4Unsubscribe.pkid u) (V4Unsubscribe.topics u)).
    split; [split; [apply some_id; [exact Vi|apply Ht]|split; assumption]|]. split; reflexivity.
  - exists (M_UNSUBACK (V4UnsubAck.pkid u)). split; [apply some_id; assumption|]. split; reflexivity.
  - exists M_PINGREQ. repeat split.
  - exists M_PINGRESP. repeat split.
  - exists M_DISCONNECT. repeat split.
Qed.

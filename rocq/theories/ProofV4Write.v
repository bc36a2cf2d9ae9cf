(** ProofV4Write.v -- exact effect of every v4 `write`. *)
From Verif Require Import ProofBase Lib ProofLib ProofRead SpecV4.
From Verif Require V4Ping.

(** append-only writers, step by step *)
Ltac wprim :=
  first [ apply writes_ret | apply writes_put_u8 | apply writes_put_u16 | apply writes_put_u32
        | apply writes_string | apply writes_bytes | apply writes_extend
        | apply writes_remaining_length; assumption | eassumption ].
Ltac wstep := eapply writes_bind; [wprim|cbv beta].
Ltac wsteps := repeat wstep; try wprim.

Lemma qos_u8_num q : qos_u8 q = qos_num q.
Proof. destruct q; reflexivity. Qed.
Lemma qos_eqb_most q : negb (qos_eqb q AtMostOnce) = positive_qos q.
Proof. destruct q; reflexivity. Qed.
Lemma is_empty_nonempty {A} (l : list A) : negb (is_empty l) = nonempty l.
Proof. destruct l; reflexivity. Qed.
Lemma nonempty_empty {A} (l : list A) : is_empty l = negb (nonempty l).
Proof. destruct l; reflexivity. Qed.

Lemma fold_len_acc {A} (f : A -> N) l a :
  fold_left (fun s t => s + f t) l a = a + fold_left (fun s t => s + f t) l 0.
Proof.
  revert a; induction l as [|x l IH]; intros a; cbn [fold_left]; [lia|].
  rewrite IH, (IH (0 + f x)). lia.
Qed.
Lemma fold_len_flat_map {A} (f : A -> N) (g : A -> bytes) l :
  (forall x, blen (g x) = f x) -> fold_left (fun s t => s + f t) l 0 = blen (flat_map g l).
Proof.
  intros H. induction l as [|x l IH]; cbn [fold_left flat_map]; [reflexivity|].
  rewrite fold_len_acc, IH, blen_app, H. lia.
Qed.

(** *** the predicted length is the length of the body *)
Lemma connect_len c : V4Connect.len c = blen (body (Connect c)).
Proof.
  unfold V4Connect.len, body. cbv zeta. autorewrite with blen.
  change (blen V4Connect.mqtt_name) with 4. change (blen MQTT) with 4.
  destruct (V4Connect.last_will c) as [w|], (V4Connect.login c) as [l|]; cbn [opt];
    unfold V4Connect.lw_len, V4Connect.login_len, will_bytes, login_bytes; cbv zeta;
    rewrite ?is_empty_nonempty; autorewrite with blen; try lia;
    destruct (nonempty (V4Connect.username l)), (nonempty (V4Connect.password l));
    autorewrite with blen; lia.
Qed.
Lemma publish_len p : has_id (Publish p) -> V4Publish.len p = blen (body (Publish p)).
Proof.
  unfold has_id, V4Publish.len, body. rewrite qos_eqb_most. intros H.
  destruct (positive_qos (V4Publish.qos p)).
  - replace (V4Publish.pkid p =? 0) with false by lia. cbn [negb andb].
    autorewrite with blen. lia.
  - cbn [andb]. autorewrite with blen. lia.
Qed.
Lemma publish_declared p : V4Publish.len p = declared_len (Publish p).
Proof.
  unfold V4Publish.len, declared_len, body. rewrite qos_eqb_most.
  destruct (positive_qos (V4Publish.qos p)), (V4Publish.pkid p =? 0); cbn [negb andb];
    autorewrite with blen; lia.
Qed.
Lemma subscribe_len s : V4Subscribe.len s = blen (body (Subscribe s)).
Proof.
  unfold V4Subscribe.len, body. autorewrite with blen. f_equal.
  apply fold_len_flat_map. intros f. unfold V4Subscribe.filter_len. autorewrite with blen. lia.
Qed.
Lemma suback_len s : V4SubAck.len s = blen (body (SubAck s)).
Proof. unfold V4SubAck.len, body. autorewrite with blen. reflexivity. Qed.
Lemma unsubscribe_len u :
  2 + fold_left (fun s topic => s + blen topic + 2) (V4Unsubscribe.topics u) 0
  = blen (body (Unsubscribe u)).
Proof.
  unfold body. autorewrite with blen. f_equal.
  rewrite <- (fold_len_flat_map (fun t => blen t + 2) field).
  - generalize 0. induction (V4Unsubscribe.topics u) as [|t l IH]; intros a; [reflexivity|].
    cbn [fold_left]. rewrite N.add_assoc. apply IH.
  - intros t. autorewrite with blen. lia.
Qed.

(** *** first bytes and flags *)
Lemma publish_first_byte d q r :
  N.lor (N.lor (N.lor 48 (bool_u8 r)) (N.shiftl (qos_u8 q) 1)) (N.shiftl (bool_u8 d) 3)
  = 0x30 + 8 * bit d + 2 * qos_num q + bit r.
Proof. destruct d, q, r; reflexivity. Qed.

(** common shape: type byte, remaining length, body, size *)
Lemma writes_frame b1 n (k : N -> writer N) bd :
  n = blen bd -> n <= max_len ->
  (forall c, writes (k c) (Ok (1 + c + n)) bd) ->
  writes (put_u8 b1 ;;w c <-w write_remaining_length n ;; k c)
    (Ok (blen (frame b1 bd))) (frame b1 bd).
Proof.
  intros Hn Hm Hk.
  eapply writes_eq.
  - wstep. eapply writes_bind; [apply writes_remaining_length, Hm|]. apply Hk.
  - unfold frame. autorewrite with blen. subst n. f_equal. lia.
  - unfold frame. subst n. reflexivity.
Qed.
Lemma writes_frame_long b1 n (k : N -> writer N) :
  max_len < n ->
  writes (put_u8 b1 ;;w c <-w write_remaining_length n ;; k c) (Err PayloadTooLong) [b1].
Proof.
  intros Hm. eapply writes_eq.
  - wstep. apply writes_bind_err. apply writes_remaining_length_err, Hm.
  - reflexivity.
  - reflexivity.
Qed.

Ltac weq := eapply writes_eq; [wsteps|reflexivity|].
Ltac wnorm := cbn [app]; rewrite ?app_nil_r, <- ?app_assoc; cbn [app]; try reflexivity.

Definition not_connect (p : Packet) : Prop := match p with Connect _ => False | _ => True end.

Lemma write_ok p : not_connect p -> has_id p -> blen (body p) <= max_len ->
  writes (write p) (Ok (blen (wire p))) (wire p).
Proof.
  intros Hc Hi Hl. destruct p; cbn [write]; try contradiction; unfold wire.
  - (* ConnAck *) unfold V4ConnAck.write. cbv zeta. apply writes_frame; [reflexivity|exact Hl|].
    intros n. weq. wnorm.
  - (* Publish *) unfold V4Publish.write. cbv zeta. rewrite publish_first_byte.
    apply writes_frame; [apply publish_len, Hi|rewrite (publish_len _ Hi); exact Hl|].
    intros n. rewrite qos_eqb_most. unfold has_id in Hi.
    destruct (positive_qos (V4Publish.qos p)) eqn:Eq.
    + replace (V4Publish.pkid p =? 0) with false by lia. weq.
      cbn [body]. rewrite Eq. wnorm.
    + weq. cbn [body]. rewrite Eq. wnorm.
  - apply writes_frame; [reflexivity|exact Hl|]. intros n; weq; wnorm.
  - apply writes_frame; [reflexivity|exact Hl|]. intros n; weq; wnorm.
  - apply writes_frame; [reflexivity|exact Hl|]. intros n; weq; wnorm.
  - apply writes_frame; [reflexivity|exact Hl|]. intros n; weq; wnorm.
  - (* Subscribe *) unfold V4Subscribe.write. cbv zeta.
    apply writes_frame; [apply subscribe_len|rewrite subscribe_len; exact Hl|].
    intros n. eapply writes_eq.
    + wstep. eapply writes_bind.
      * apply writes_for_each with (g := fun f => field (V4Subscribe.path f) ++ [qos_num (V4Subscribe.qos f)]).
        intros f _. unfold V4Subscribe.filter_write. cbv zeta.
        rewrite qos_u8_num, N.lor_0_l. wstep. wprim.
      * wprim.
    + reflexivity.
    + wnorm.
  - (* SubAck *) unfold V4SubAck.write. cbv zeta.
    apply writes_frame; [apply suback_len|rewrite suback_len; exact Hl|].
    intros n. weq. wnorm.
  - (* Unsubscribe *) unfold V4Unsubscribe.write. cbv zeta. rewrite unsubscribe_len.
    apply writes_frame; [reflexivity|exact Hl|].
    intros n. eapply writes_eq.
    + wstep. eapply writes_bind.
      * apply writes_for_each with (g := field). intros f _. wprim.
      * wprim.
    + reflexivity.
    + wnorm.
  - (* UnsubAck *) unfold V4UnsubAck.write, put_slice. weq. wnorm.
  - unfold V4Ping.pingreq_write, put_slice. weq. wnorm.
  - unfold V4Ping.pingresp_write, put_slice. weq. wnorm.
  - unfold V4Ping.disconnect_write, put_slice. weq. wnorm.
Qed.

(** *** failing writes *)
Lemma write_too_long p : max_len < declared_len p ->
  writes (write p) (Err PayloadTooLong) [first_byte p].
Proof.
  intros Hl. destruct p; cbn [write declared_len] in *; try (exfalso; cbv in Hl; discriminate).
  - (* Connect *) unfold V4Connect.write. cbv zeta. apply writes_frame_long. rewrite connect_len; exact Hl.
  - (* Publish *) unfold V4Publish.write. cbv zeta. rewrite publish_first_byte.
    apply writes_frame_long. rewrite publish_declared. exact Hl.
  - apply writes_frame_long. rewrite subscribe_len; exact Hl.
  - apply writes_frame_long. rewrite suback_len; exact Hl.
  - unfold V4Unsubscribe.write. cbv zeta. rewrite unsubscribe_len. apply writes_frame_long. exact Hl.
Qed.
Lemma write_id_zero p : declared_len p <= max_len -> ~ has_id p ->
  writes (write p) (Err PacketIdZero) (id_zero_output p).
Proof.
  intros Hl Hi. destruct p; cbn [write has_id] in *; try (exfalso; apply Hi; exact I).
  assert (Hq : positive_qos (V4Publish.qos p) = true)
    by (destruct (positive_qos (V4Publish.qos p)); [reflexivity|exfalso; apply Hi; discriminate]).
  assert (Hz : V4Publish.pkid p = 0).
  { destruct (N.eq_dec (V4Publish.pkid p) 0) as [E|E]; [exact E|].
    exfalso; apply Hi; intros _; exact E. }
  unfold V4Publish.write. cbv zeta. rewrite publish_first_byte, publish_declared.
  rewrite qos_eqb_most, Hq, Hz. eapply writes_eq.
  - wstep. eapply writes_bind; [apply writes_remaining_length; exact Hl|cbv beta].
    wstep. apply writes_bind_err. change (0 =? 0) with true. cbv iota. apply writes_err.
  - reflexivity.
  - unfold id_zero_output. cbn [app]. rewrite app_nil_r. reflexivity.
Qed.

(** *** CONNECT *)
Lemma list_set_spec l i v : (i < List.length l)%nat ->
  list_set l i v = Some (firstn i l ++ v :: skipn (S i) l).
Proof.
  revert i; induction l as [|x l IH]; intros [|i] H; cbn [List.length] in H; try lia;
    cbn [list_set firstn skipn app]; [reflexivity|].
  rewrite IH by lia. reflexivity.
Qed.

Lemma plain_flags_spec (b : bool) : (if b then N.lor 0 2 else 0) = 2 * bit b.
Proof. destruct b; reflexivity. Qed.

Lemma will_writes w : writes (V4Connect.lw_write w)
  (Ok (4 + 8 * qos_num (V4Connect.lw_qos w) + 32 * bit (V4Connect.lw_retain w))) (will_bytes w).
Proof.
  unfold V4Connect.lw_write. cbv zeta. eapply writes_eq; [wsteps| |wnorm].
  destruct (V4Connect.lw_qos w), (V4Connect.lw_retain w); reflexivity.
Qed.
Lemma login_writes l : writes (V4Connect.login_write l)
  (Ok (64 * bit (nonempty (V4Connect.password l)) + 128 * bit (nonempty (V4Connect.username l)))) (login_bytes l).
Proof.
  unfold V4Connect.login_write. cbv zeta. rewrite !is_empty_nonempty. unfold login_bytes.
  destruct (nonempty (V4Connect.username l)), (nonempty (V4Connect.password l));
    (eapply writes_eq; [eapply writes_bind; [wsteps|cbv beta; wsteps]|reflexivity|wnorm]).
Qed.

Lemma plus_lor_flags cl w l :
  let f := 2 * bit cl in
  let f := match w with Some w => N.lor f (4 + 8 * qos_num (V4Connect.lw_qos w) + 32 * bit (V4Connect.lw_retain w)) | None => f end in
  match l with Some l => N.lor f (64 * bit (nonempty (V4Connect.password l)) + 128 * bit (nonempty (V4Connect.username l))) | None => f end
  = 2 * bit cl
  + match w with Some w => 4 + 8 * qos_num (V4Connect.lw_qos w) + 32 * bit (V4Connect.lw_retain w) | None => 0 end
  + match l with Some l => 64 * bit (nonempty (V4Connect.password l)) + 128 * bit (nonempty (V4Connect.username l)) | None => 0 end.
Proof.
  cbv zeta.
  destruct cl, w as [[t m [] []]|], l as [[u p]|]; cbn [V4Connect.lw_qos V4Connect.lw_retain V4Connect.username V4Connect.password];
    try (destruct (nonempty u), (nonempty p)); reflexivity.
Qed.

Definition flags_index (c : V4Connect.Connect) : N := 8 + blen (varint (blen (body (Connect c)))).

Lemma run_bind {A B} (m : writer A) (k : A -> writer B) a o buf :
  writes m (Ok a) o -> wbind m k buf = k a (buf ++ o).
Proof. intros H. unfold wbind. rewrite H. reflexivity. Qed.

Lemma connect_body_with_len c fl : blen (connect_body_with fl c) = blen (body (Connect c)).
Proof. unfold body, connect_body_with. autorewrite with blen. reflexivity. Qed.

Lemma connect_write_general c buf : blen (body (Connect c)) <= max_len ->
  write (Connect c) buf =
    (Ok (blen (body (Connect c))),
     overwrite (flags_index c) (connect_flags c)
       (buf ++ frame 0x10 (connect_body_with (2 * bit (V4Connect.clean_session c)) c))).
Proof.
  intros Hl. cbn [write]. unfold V4Connect.write. cbv zeta. rewrite connect_len.
  set (raw := frame 0x10 (connect_body_with (2 * bit (V4Connect.clean_session c)) c)).
  set (n := blen (body (Connect c))) in *.
  rewrite plain_flags_spec.
  assert (Hlv : writes (match V4Connect.protocol c with V4 => put_u8 4 | V5 => put_u8 5 end)
                 (Ok tt) [level (V4Connect.protocol c)])
    by (destruct (V4Connect.protocol c); apply writes_put_u8).
  do 7 (erewrite run_bind by wprim; cbv beta).
  erewrite run_bind with (o := opt will_bytes (V4Connect.last_will c))
    (a := match V4Connect.last_will c with Some w => N.lor (2 * bit (V4Connect.clean_session c)) (4 + 8 * qos_num (V4Connect.lw_qos w) + 32 * bit (V4Connect.lw_retain w)) | None => 2 * bit (V4Connect.clean_session c) end).
  2: { destruct (V4Connect.last_will c) as [w|]; cbn [opt]; [|apply writes_ret].
       eapply writes_eq; [eapply writes_bind; [apply will_writes|apply writes_ret]|reflexivity|apply app_nil_r]. }
  erewrite run_bind with (o := opt login_bytes (V4Connect.login c)) (a := connect_flags c).
  2: { unfold connect_flags. rewrite <- (plus_lor_flags (V4Connect.clean_session c) (V4Connect.last_will c) (V4Connect.login c)). cbv zeta.
       destruct (V4Connect.login c) as [l|]; cbn [opt]; [|apply writes_ret].
       eapply writes_eq; [eapply writes_bind; [apply login_writes|apply writes_ret]|reflexivity|apply app_nil_r]. }
  rewrite <- !app_assoc.
  match goal with |- context [set_index ?i ?v ;;w _] => replace i with (flags_index c) by (unfold flags_index; fold n; lia) end.
  match goal with |- context [buf ++ ?o] => replace o with raw end.
  2: { unfold raw, frame. rewrite connect_body_with_len. fold n. cbn [app]. reflexivity. }
  unfold set_index, wbind, overwrite.
  assert (Hlen : (N.to_nat (flags_index c) < List.length (buf ++ raw))%nat).
  { rewrite <- (to_nat_blen (buf ++ raw)). unfold flags_index. fold n.
    assert (H : 8 + blen (varint n) < blen (buf ++ raw)); [|lia].
    unfold raw, frame. rewrite connect_body_with_len. fold n. autorewrite with blen.
    unfold connect_body_with. autorewrite with blen. change (blen MQTT) with 4. lia. }
  rewrite list_set_spec by exact Hlen.
  reflexivity.
Qed.

Lemma connect_write_empty c : blen (body (Connect c)) <= max_len ->
  write (Connect c) [] = (Ok (blen (body (Connect c))), wire (Connect c)).
Proof.
  intros Hl. rewrite connect_write_general by exact Hl. f_equal.
  cbn [app]. unfold overwrite, flags_index, wire, frame. cbn [first_byte].
  set (n := blen (body (Connect c))).
  assert (Hn : blen (connect_body_with (2 * bit (V4Connect.clean_session c)) c) = n).
  { unfold n, body, connect_body_with. autorewrite with blen. reflexivity. }
  rewrite Hn.
  set (pre := 16 :: varint n ++ field MQTT ++ [level (V4Connect.protocol c)]).
  set (post := be16 (V4Connect.keep_alive c) ++ field (V4Connect.client_id c)
    ++ opt will_bytes (V4Connect.last_will c) ++ opt login_bytes (V4Connect.login c)).
  assert (E : forall fl, 16 :: varint n ++ connect_body_with fl c = pre ++ fl :: post).
  { intros fl. unfold pre, post, connect_body_with. cbn [app]. rewrite <- !app_assoc. reflexivity. }
  rewrite E. change (body (Connect c)) with (connect_body_with (connect_flags c) c). rewrite E.
  assert (Hp : N.to_nat (8 + blen (varint n)) = List.length pre).
  { rewrite <- to_nat_blen. f_equal. unfold pre. autorewrite with blen. change (blen MQTT) with 4. lia. }
  rewrite Hp. rewrite firstn_app_exact by reflexivity.
  replace (S (List.length pre)) with (List.length (pre ++ [2 * bit (V4Connect.clean_session c)])) by (rewrite app_length; cbn; lia).
  replace (pre ++ 2 * bit (V4Connect.clean_session c) :: post) with ((pre ++ [2 * bit (V4Connect.clean_session c)]) ++ post) by (rewrite <- app_assoc; reflexivity).
  rewrite skipn_app_exact by reflexivity. reflexivity.
Qed.

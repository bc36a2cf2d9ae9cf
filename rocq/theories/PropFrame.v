(** PropFrame.v -- property theorems about framing (src/lib.rs): C01-C04, C29. *)
From Verif Require Import ProofBase SpecFrame Utf8 ProofUtf8 Lib ProofLib ProofCheck ProofRead ProofStream.

(** ** C01: the remaining-length field *)
Theorem C01_written_form : forall n buf, n <= max_len ->
  write_remaining_length n buf = (Ok (blen (varint n)), buf ++ varint n).
Proof. intros n buf H. apply writes_remaining_length, H. Qed.
Theorem C01_read_back : forall n rest, n <= max_len ->
  length (varint n ++ rest) = Ok (blen (varint n), n).
Proof.
  intros n rest H. apply length_ok; [apply lenfield_varint, H|apply varint_len_bound].
Qed.
(** every length field of at most four bytes is understood, minimal or not *)
Theorem C01_read_any : forall f n rest, lenfield f n -> blen f <= 4 ->
  length (f ++ rest) = Ok (blen f, n).
Proof. exact length_ok. Qed.
Theorem C01_is_length_field_and_minimal : forall n, n <= max_len ->
  lenfield (varint n) n /\ 1 <= blen (varint n) <= 4 /\
  forall f, lenfield f n -> blen (varint n) <= blen f.
Proof.
  intros n H. split; [apply lenfield_varint, H|]. split; [apply varint_len_bound|].
  intros f Hf. apply varint_minimal; assumption.
Qed.
Theorem C01_size_prediction : forall n, n <= max_len -> len_len n = blen (varint n).
Proof. intros n _. symmetry. apply varint_len. Qed.
Theorem C01_too_long : forall n buf, max_len < n ->
  write_remaining_length n buf = (Err PayloadTooLong, buf).
Proof. intros n buf H. rewrite (writes_remaining_length_err n H buf), app_nil_r. reflexivity. Qed.
(** the written field determines the length, whatever follows *)
Theorem C01_injective : forall n m r r', n <= max_len -> m <= max_len ->
  varint n ++ r = varint m ++ r' -> n = m /\ r = r'.
Proof.
  intros n m r r' Hn Hm H.
  destruct (lenfield_det _ _ _ _ _ _ (lenfield_varint n Hn) (lenfield_varint m Hm) H) as (_ & H1 & H2). auto.
Qed.
Example C01_case : 321 <= max_len /\ varint 321 = [193; 2] /\ lenfield [193; 130; 0] 321 /\
  max_len < 268435456.
Proof.
  repeat split; try (cbv; congruence).
  change 321 with (65 + 128 * (2 + 128 * 0)). change 193 with (128 + 65). change 130 with (128 + 2).
  repeat constructor; lia.
Qed.

(** ** C02: exact verdict *)
Theorem C02_check_exact : forall s max r, bytes_ok s -> (check s max = r <-> verdict s max r).
Proof. exact check_iff. Qed.
(** there is always exactly one verdict, so `check` neither panics nor loops *)
Theorem C02_check_total : forall s max, bytes_ok s ->
  (exists h, check s max = Ok h) \/ (exists e, check s max = Err e).
Proof.
  intros s max H. destruct (check s max) as [h|e| |] eqn:E; eauto.
  - exfalso. exact (proj1 (check_no_panic s max H) E).
  - exfalso. exact (proj2 (check_no_panic s max H) E).
Qed.
Example C02_case : bytes_ok [0x30; 5; 1; 2] /\ verdict [0x30; 5; 1; 2] 10 (Err (InsufficientBytes 3)).
Proof.
  split; [repeat constructor; cbv; reflexivity|].
  change (InsufficientBytes 3) with (InsufficientBytes (5 - blen [1; 2])).
  apply v_partial with (b1 := 0x30) (f := [5]); try reflexivity; try (cbv; congruence).
  constructor. lia.
Qed.

(** ** C03 *)
Theorem C03_insufficient_is_lower_bound : forall s max n,
  bytes_ok s -> check s max = Err (InsufficientBytes n) ->
  1 <= n /\
  forall t, bytes_ok t -> blen t < n -> exists m, check (s ++ t) max = Err (InsufficientBytes m).
Proof. exact check_need. Qed.
Example C03_case : check [0x30; 5; 1; 2] 10 = Err (InsufficientBytes 3) /\ bytes_ok [9; 9] /\ blen [9; 9] < 3.
Proof. repeat split; repeat constructor; cbv; reflexivity. Qed.

(** ** C04 *)
Theorem C04_verdict_stable : forall s max t r, bytes_ok (s ++ t) -> check s max = r ->
  (forall n, r <> Err (InsufficientBytes n)) -> check (s ++ t) max = r.
Proof. exact check_stable. Qed.
Example C04_case : check [0x30; 1; 7] 10 = Ok (mkFixedHeader 0x30 2 1) /\
  check [0x30; 200; 1] 10 = Err (PayloadSizeLimitExceeded 200).
Proof. split; reflexivity. Qed.

(** ** C29: string fields *)
Definition string_verdict (s : bytes) (r : outcome (bytes * bytes)) : Prop :=
  (blen s < 2 /\ r = Err MalformedPacket) \/
  (exists n t, s = be16 n ++ t /\ n < 65536 /\ blen t < n /\ r = Err (BoundaryCrossed n)) \/
  (exists v t, s = field v ++ t /\ short v /\ ~ is_utf8 v /\ r = Err TopicNotUtf8) \/
  (exists v t, s = field v ++ t /\ short v /\ is_utf8 v /\ r = Ok (v, t)).
Theorem C29_string_field : forall s, bytes_ok s -> string_verdict s (read_mqtt_string s).
Proof.
  intros s Hb. unfold string_verdict, read_mqtt_string, read_mqtt_bytes.
  destruct (N.lt_ge_cases (blen s) 2) as [Hl|Hl].
  { left. split; [exact Hl|]. unfold rbind, read_u16. replace (blen s <? 2) with true by lia. reflexivity. }
  right. destruct s as [|a [|b t]]; autorewrite with blen in Hl; try lia.
  apply bytes_ok_cons in Hb as [Ha Hb]. apply bytes_ok_cons in Hb as [Hb Ht].
  assert (Es : a :: b :: t = be16 (a * 256 + b) ++ t) by (rewrite be16_bytes by assumption; reflexivity).
  rewrite Es. unfold rbind. rewrite read_u16_be16 by lia.
  set (n := a * 256 + b). assert (Hn : n < 65536) by lia.
  destruct (blen t <? n) eqn:En.
  { left. exists n, t. repeat split; auto. lia. }
  right. assert (Et : t = firstn (N.to_nat n) t ++ skipn (N.to_nat n) t) by (symmetry; apply firstn_skipn).
  set (v := firstn (N.to_nat n) t) in *. set (u := skipn (N.to_nat n) t) in *.
  assert (Hv : n = blen v).
  { unfold v, blen. rewrite firstn_length. unfold blen in En. lia. }
  assert (Ef : be16 n ++ t = field v ++ u) by (rewrite Et; unfold field; rewrite <- Hv, <- app_assoc; reflexivity).
  rewrite Et, split_to_app by exact Hv. rewrite <- Et.
  assert (Hs : short v) by (unfold short; lia).
  destruct (utf8_ok v) eqn:Eu.
  - right. exists v, u. apply utf8_ok_spec in Eu. auto.
  - left. exists v, u. repeat split; auto. intros H. apply utf8_ok_spec in H. congruence.
Qed.
(** accepted iff UTF-8 *)
Theorem C29_utf8_exact : forall s, utf8_ok s = true <-> is_utf8 s.
Proof. exact utf8_ok_spec. Qed.
(** the four cases exclude each other, so the verdict determines the result *)
Theorem C29_verdict_unique : forall s r r', string_verdict s r -> string_verdict s r' -> r = r'.
Proof.
  assert (Hpre : forall n t v u, n < 65536 -> blen t < n -> short v -> be16 n ++ t = field v ++ u -> False).
  { intros n t v u Hn Hl Hs E. unfold field in E. rewrite <- app_assoc in E.
    apply be16_inj in E as [-> ->]; [|assumption|unfold short in Hs; lia].
    autorewrite with blen in Hl. lia. }
  intros s r r' [[H1 ->]|[(n & t & -> & Hn & Hl & ->)|[(v & t & -> & Hs & Hu & ->)|(v & t & -> & Hs & Hu & ->)]]]
    [[H1' ->]|[(n' & t' & E & Hn' & Hl' & ->)|[(v' & t' & E & Hs' & Hu' & ->)|(v' & t' & E & Hs' & Hu' & ->)]]];
    try reflexivity;
    try (exfalso; subst s; autorewrite with blen in *; lia);
    try (exfalso; autorewrite with blen in *; lia).
  - apply be16_inj in E as [-> ->]; auto.
  - exfalso; eauto using (Hpre n t v' t').
  - exfalso; eauto using (Hpre n t v' t').
  - exfalso; symmetry in E; eauto using (Hpre n' t' v t).
  - apply field_inj in E as [-> ->]; tauto.
  - exfalso; symmetry in E; eauto using (Hpre n' t' v t).
  - apply field_inj in E as [-> ->]; tauto.
  - apply field_inj in E as [-> ->]; auto.
Qed.
Example C29_case : bytes_ok [0; 2; 0xC3; 0xA9; 1] /\ read_mqtt_string [0; 2; 0xC3; 0xA9; 1] = Ok ([0xC3; 0xA9], [1]) /\
  read_mqtt_string [0; 2; 0xC0; 0xAF] = Err TopicNotUtf8.
Proof. repeat split; repeat constructor; cbv; reflexivity. Qed.

Print Assumptions C01_written_form.
Print Assumptions C01_read_back.
Print Assumptions C01_read_any.
Print Assumptions C01_is_length_field_and_minimal.
Print Assumptions C01_size_prediction.
Print Assumptions C01_too_long.
Print Assumptions C01_injective.
Print Assumptions C02_check_exact.
Print Assumptions C02_check_total.
Print Assumptions C03_insufficient_is_lower_bound.
Print Assumptions C04_verdict_stable.
Print Assumptions C29_string_field.
Print Assumptions C29_utf8_exact.
Print Assumptions C29_verdict_unique.

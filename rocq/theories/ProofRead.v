(** ProofRead.v -- the field readers of lib.rs: exact results on well-formed input
    and weakest preconditions on arbitrary input. *)
From Verif Require Import ProofBase ProofUtf8 ProofLib Utf8.

Lemma blen_be16 n : blen (be16 n) = 2. Proof. reflexivity. Qed.
Lemma blen_be32 n : blen (be32 n) = 4. Proof. reflexivity. Qed.
Lemma blen_field s : blen (field s) = 2 + blen s.
Proof. unfold field. rewrite blen_app, blen_be16. reflexivity. Qed.
Global Hint Rewrite blen_be16 blen_be32 blen_field : blen.
Lemma bytes_ok_be16 n : bytes_ok (be16 n).
Proof. repeat constructor; unfold u8; lia. Qed.
Lemma bytes_ok_be32 n : bytes_ok (be32 n).
Proof. repeat constructor; unfold u8; lia. Qed.
Lemma bytes_ok_field s : bytes_ok s -> bytes_ok (field s).
Proof. intros H. apply bytes_ok_app. split; [apply bytes_ok_be16|exact H]. Qed.
Lemma is_utf8_bytes s : is_utf8 s -> bytes_ok s.
Proof.
  intros (cs & Hcs & ->). induction Hcs as [|c cs Hc _ IH]; [constructor|].
  cbn [flat_map]. apply bytes_ok_app. split; [|exact IH].
  unfold scalar in Hc. unfold utf8_encode.
  destruct (c <? 128) eqn:E1; [|destruct (c <? 2048) eqn:E2; [|destruct (c <? 65536) eqn:E3]];
    repeat constructor; unfold u8; lia.
Qed.

(** *** exact results *)
Lemma read_u8_cons b s : read_u8 (b :: s) = Ok (b, s).
Proof. reflexivity. Qed.
Lemma read_u16_be16 n s : n < 65536 -> read_u16 (be16 n ++ s) = Ok (n, s).
Proof.
  intros H. unfold read_u16. replace (blen (be16 n ++ s) <? 2) with false by (autorewrite with blen; lia).
  cbn [be16 app get_u16]. do 2 f_equal. lia.
Qed.
Lemma read_u32_be32 n s : n < 4294967296 -> read_u32 (be32 n ++ s) = Ok (n, s).
Proof.
  intros H. unfold read_u32. replace (blen (be32 n ++ s) <? 4) with false by (autorewrite with blen; lia).
  cbn [be32 app get_u32]. do 2 f_equal. lia.
Qed.
Lemma advance_app c s n : n = blen c -> advance n (c ++ s) = Ok (tt, s).
Proof.
  intros ->. unfold advance. replace (blen c <=? blen (c ++ s)) with true by (autorewrite with blen; lia).
  rewrite to_nat_blen, skipn_app_exact; reflexivity.
Qed.
Lemma split_to_app c s n : n = blen c -> split_to n (c ++ s) = Ok (c, s).
Proof.
  intros ->. unfold split_to. replace (blen c <=? blen (c ++ s)) with true by (autorewrite with blen; lia).
  rewrite to_nat_blen, skipn_app_exact, firstn_app_exact; reflexivity.
Qed.
Lemma read_bytes_field v s : short v -> read_mqtt_bytes (field v ++ s) = Ok (v, s).
Proof.
  intros H. unfold short in H. unfold read_mqtt_bytes, rbind, field. rewrite <- app_assoc.
  rewrite read_u16_be16 by lia.
  replace (blen (v ++ s) <? blen v) with false by (autorewrite with blen; lia).
  apply split_to_app; reflexivity.
Qed.
Lemma read_string_field v s : short v -> is_utf8 v -> read_mqtt_string (field v ++ s) = Ok (v, s).
Proof.
  intros H Hu. unfold read_mqtt_string, rbind. rewrite read_bytes_field by exact H.
  apply utf8_ok_spec in Hu. rewrite Hu. reflexivity.
Qed.

(** *** arbitrary input *)
Lemma wp_read_u8 (E : Error -> Prop) s (Q : N -> bytes -> Prop) :
  bytes_ok s -> E MalformedPacket ->
  (forall v s', s = v :: s' -> v < 256 -> bytes_ok s' -> Q v s') -> wp E (read_u8 s) Q.
Proof.
  intros Hb HE HQ. destruct s as [|v s']; cbn; [exact HE|].
  apply bytes_ok_cons in Hb as [Hv Hs]. apply HQ; auto.
Qed.
Lemma be16_bytes a b : a < 256 -> b < 256 -> be16 (a * 256 + b) = [a; b].
Proof. intros; unfold be16; f_equal; [lia|f_equal; lia]. Qed.
Lemma wp_read_u16 (E : Error -> Prop) s (Q : N -> bytes -> Prop) :
  bytes_ok s -> E MalformedPacket ->
  (forall v s', s = be16 v ++ s' -> v < 65536 -> bytes_ok s' -> Q v s') -> wp E (read_u16 s) Q.
Proof.
  intros Hb HE HQ. unfold read_u16. destruct (blen s <? 2) eqn:E2; [exact HE|].
  destruct s as [|a [|b s']]; autorewrite with blen in E2; try lia.
  apply bytes_ok_cons in Hb as [Ha Hb]. apply bytes_ok_cons in Hb as [Hb Hs].
  cbn [get_u16 wp]. apply HQ; [rewrite be16_bytes by assumption; reflexivity|lia|exact Hs].
Qed.
Lemma be32_bytes a b c d : a < 256 -> b < 256 -> c < 256 -> d < 256 ->
  be32 (((a * 256 + b) * 256 + c) * 256 + d) = [a; b; c; d].
Proof. intros; unfold be32; repeat (f_equal; [lia|]); f_equal; lia. Qed.
Lemma wp_read_u32 (E : Error -> Prop) s (Q : N -> bytes -> Prop) :
  bytes_ok s -> E MalformedPacket ->
  (forall v s', s = be32 v ++ s' -> v < 4294967296 -> bytes_ok s' -> Q v s') -> wp E (read_u32 s) Q.
Proof.
  intros Hb HE HQ. unfold read_u32. destruct (blen s <? 4) eqn:E2; [exact HE|].
  destruct s as [|a [|b [|c [|d s']]]]; autorewrite with blen in E2; try lia.
  apply bytes_ok_cons in Hb as [Ha Hb]. apply bytes_ok_cons in Hb as [Hb Hs].
  apply bytes_ok_cons in Hs as [Hc Hs]. apply bytes_ok_cons in Hs as [Hd Hs].
  cbn [get_u32 wp]. apply HQ; [rewrite be32_bytes by assumption; reflexivity|lia|exact Hs].
Qed.
Lemma wp_read_bytes (E : Error -> Prop) s (Q : bytes -> bytes -> Prop) :
  bytes_ok s -> E MalformedPacket -> (forall n, E (BoundaryCrossed n)) ->
  (forall v s', s = field v ++ s' -> short v -> bytes_ok v -> bytes_ok s' -> Q v s') ->
  wp E (read_mqtt_bytes s) Q.
Proof.
  intros Hb HE HB HQ. unfold read_mqtt_bytes. apply wp_bind. apply wp_read_u16; [exact Hb|exact HE|].
  intros n s1 -> Hn Hs1. destruct (blen s1 <? n) eqn:El; [apply HB|].
  unfold split_to. replace (n <=? blen s1) with true by lia. cbn [wp].
  assert (Hl : blen (firstn (N.to_nat n) s1) = n).
  { unfold blen in *. rewrite firstn_length. lia. }
  assert (Hsp := firstn_skipn (N.to_nat n) s1).
  revert Hsp Hl. generalize (firstn (N.to_nat n) s1) (skipn (N.to_nat n) s1).
  intros p q <- Hl. apply bytes_ok_app in Hs1 as [H1 H2].
  apply HQ; [|unfold short; lia|exact H1|exact H2].
  unfold field. rewrite Hl, <- app_assoc. reflexivity.
Qed.
Lemma wp_read_string (E : Error -> Prop) s (Q : bytes -> bytes -> Prop) :
  bytes_ok s -> E MalformedPacket -> (forall n, E (BoundaryCrossed n)) -> E TopicNotUtf8 ->
  (forall v s', s = field v ++ s' -> short v -> is_utf8 v -> bytes_ok s' -> Q v s') ->
  wp E (read_mqtt_string s) Q.
Proof.
  intros Hb HE HB HU HQ. unfold read_mqtt_string. apply wp_bind.
  apply wp_read_bytes; [exact Hb|exact HE|exact HB|].
  intros v s1 Hs Hv Hvb Hs1. destruct (utf8_ok v) eqn:Eu; [|exact HU].
  apply wp_ret. apply HQ; auto. apply utf8_ok_spec, Eu.
Qed.

(** *** field writers *)
Lemma writes_bytes v : writes (write_mqtt_bytes v) (Ok tt) (field v).
Proof.
  unfold write_mqtt_bytes, field. eapply writes_bind; [|apply writes_extend].
  eapply writes_eq; [apply writes_put_u16|reflexivity|].
  unfold as_u16, be16. f_equal; [lia|f_equal; lia].
Qed.
Lemma writes_string v : writes (write_mqtt_string v) (Ok tt) (field v).
Proof. apply writes_bytes. Qed.

(** a field determines its content *)
Lemma field_inj v w r r' : short v -> short w -> field v ++ r = field w ++ r' -> v = w /\ r = r'.
Proof.
  intros Hv Hw H.
  assert (H1 := read_bytes_field v r Hv). assert (H2 := read_bytes_field w r' Hw).
  rewrite H in H1. rewrite H1 in H2. injection H2 as -> ->. auto.
Qed.
Lemma be16_inj n m r r' : n < 65536 -> m < 65536 -> be16 n ++ r = be16 m ++ r' -> n = m /\ r = r'.
Proof.
  intros Hv Hw H. assert (H1 := read_u16_be16 n r Hv). rewrite H, (read_u16_be16 m r' Hw) in H1.
  injection H1 as -> ->. auto.
Qed.

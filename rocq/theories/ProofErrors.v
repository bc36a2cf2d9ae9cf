(** ProofErrors.v -- the field readers fail exactly as SpecErrors says. *)
From Verif Require Import ProofBase Utf8 ProofUtf8 Lib ProofLib ProofRead ProofV4Read V5Property SpecErrors.

Lemma rbind_err {A B} (m : reader A) (k : A -> reader B) s e : m s = Err e -> rbind m k s = Err e.
Proof. intros H. unfold rbind. rewrite H. reflexivity. Qed.

(** *** on missing fields the readers fail with the error of the table *)
Lemma lacks_read_u8 s e : lacks WByte s e -> read_u8 s = Err e.
Proof. intros H. inversion H; subst; try reflexivity; destruct H0; discriminate. Qed.
Lemma lacks_read_u16 s e : lacks WTwo s e -> read_u16 s = Err e.
Proof.
  intros H. inversion H; subst; try (destruct H0; discriminate).
  unfold read_u16. replace (blen s <? 2) with true by lia. reflexivity.
Qed.
Lemma lacks_read_u32 s e : lacks WFour s e -> read_u32 s = Err e.
Proof.
  intros H. inversion H; subst; try (destruct H0; discriminate).
  unfold read_u32. replace (blen s <? 4) with true by lia. reflexivity.
Qed.
Lemma lacks_content_read w n s : w = WBytes \/ w = WString -> u16 n -> blen s < n ->
  read_mqtt_bytes (be16 n ++ s) = Err (BoundaryCrossed n).
Proof.
  intros _ Hn Hs. unfold read_mqtt_bytes. rewrite (rbind_ok _ _ _ _ _ (read_u16_be16 _ _ Hn)).
  replace (blen s <? n) with true by lia. reflexivity.
Qed.
Lemma lacks_read_bytes s e : lacks WBytes s e -> read_mqtt_bytes s = Err e.
Proof.
  intros H. inversion H; subst.
  - apply rbind_err, lacks_read_u16. constructor; assumption.
  - eapply lacks_content_read; eassumption.
Qed.
Lemma lacks_read_string s e : lacks WString s e -> read_mqtt_string s = Err e.
Proof.
  intros H. unfold read_mqtt_string. inversion H; subst.
  - apply rbind_err, lacks_read_bytes. apply lacks_size; auto.
  - apply rbind_err. eapply lacks_content_read; eassumption.
  - rewrite (rbind_ok _ _ _ _ _ (read_bytes_field _ _ H0)).
    destruct (utf8_ok v) eqn:E; [|reflexivity]. apply utf8_ok_spec in E. contradiction.
Qed.

(** *** conversely, on arbitrary input: the field or an error of the table *)
Lemma wp_want_u8 (E : Error -> Prop) s (Q : N -> bytes -> Prop) : bytes_ok s ->
  (forall e, lacks WByte s e -> E e) ->
  (forall v s', s = v :: s' -> v < 256 -> bytes_ok s' -> Q v s') -> wp E (read_u8 s) Q.
Proof.
  intros Hb HE HQ. destruct s as [|v s']; cbn; [apply HE; constructor|].
  apply bytes_ok_cons in Hb as [Hv Hs]. apply HQ; auto.
Qed.
Lemma wp_want_u16 (E : Error -> Prop) s (Q : N -> bytes -> Prop) : bytes_ok s ->
  (forall e, lacks WTwo s e -> E e) ->
  (forall v s', s = be16 v ++ s' -> v < 65536 -> bytes_ok s' -> Q v s') -> wp E (read_u16 s) Q.
Proof.
  intros Hb HE HQ. unfold read_u16. destruct (blen s <? 2) eqn:E2; [apply HE; constructor; lia|].
  destruct s as [|a [|b s']]; autorewrite with blen in E2; try lia.
  apply bytes_ok_cons in Hb as [Ha Hb]. apply bytes_ok_cons in Hb as [Hb Hs].
  cbn [get_u16 wp]. apply HQ; [rewrite be16_bytes by assumption; reflexivity|lia|exact Hs].
Qed.
Lemma wp_want_u32 (E : Error -> Prop) s (Q : N -> bytes -> Prop) : bytes_ok s ->
  (forall e, lacks WFour s e -> E e) ->
  (forall v s', s = be32 v ++ s' -> v < 4294967296 -> bytes_ok s' -> Q v s') -> wp E (read_u32 s) Q.
Proof.
  intros Hb HE HQ. unfold read_u32. destruct (blen s <? 4) eqn:E2; [apply HE; constructor; lia|].
  destruct s as [|a [|b [|c [|d s']]]]; autorewrite with blen in E2; try lia.
  apply bytes_ok_cons in Hb as [Ha Hb]. apply bytes_ok_cons in Hb as [Hb Hs].
  apply bytes_ok_cons in Hs as [Hc Hs]. apply bytes_ok_cons in Hs as [Hd Hs].
  cbn [get_u32 wp]. apply HQ; [rewrite be32_bytes by assumption; reflexivity|lia|exact Hs].
Qed.
Lemma wp_bytes_gen (E : Error -> Prop) w s (Q : bytes -> bytes -> Prop) : w = WBytes \/ w = WString -> bytes_ok s ->
  (forall e, lacks w s e -> E e) ->
  (forall v s', s = field v ++ s' -> short v -> bytes_ok v -> bytes_ok s' -> Q v s') ->
  wp E (read_mqtt_bytes s) Q.
Proof.
  intros Hw Hb HE HQ. unfold read_mqtt_bytes. apply wp_bind. apply wp_want_u16; [exact Hb| |].
  - intros e H. apply HE. inversion H; subst; [apply lacks_size; assumption|destruct H0; discriminate..].
  - intros n s1 -> Hn Hs1. destruct (blen s1 <? n) eqn:El; [apply HE, lacks_content; auto; lia|].
    unfold split_to. replace (n <=? blen s1) with true by lia. cbn [wp].
    assert (Hl : blen (firstn (N.to_nat n) s1) = n).
    { unfold blen in *. rewrite firstn_length. lia. }
    assert (Hsp := firstn_skipn (N.to_nat n) s1).
    revert Hsp Hl. generalize (firstn (N.to_nat n) s1) (skipn (N.to_nat n) s1).
    intros p q <- Hl. apply bytes_ok_app in Hs1 as [H1 H2].
    apply HQ; [|unfold short; lia|exact H1|exact H2].
    unfold field. rewrite Hl, <- app_assoc. reflexivity.
Qed.
Lemma wp_want_bytes (E : Error -> Prop) s (Q : bytes -> bytes -> Prop) : bytes_ok s ->
  (forall e, lacks WBytes s e -> E e) ->
  (forall v s', s = field v ++ s' -> short v -> bytes_ok v -> bytes_ok s' -> Q v s') ->
  wp E (read_mqtt_bytes s) Q.
Proof. apply wp_bytes_gen. auto. Qed.
Lemma wp_want_string (E : Error -> Prop) s (Q : bytes -> bytes -> Prop) : bytes_ok s ->
  (forall e, lacks WString s e -> E e) ->
  (forall v s', s = field v ++ s' -> short v -> is_utf8 v -> bytes_ok s' -> Q v s') ->
  wp E (read_mqtt_string s) Q.
Proof.
  intros Hb HE HQ. unfold read_mqtt_string. apply wp_bind.
  apply (wp_bytes_gen E WString); [auto|exact Hb|exact HE|].
  intros v s1 -> Hv Hvb Hs1. destruct (utf8_ok v) eqn:Eu.
  - apply wp_ret. apply HQ; auto. apply utf8_ok_spec, Eu.
  - apply HE. constructor; [exact Hv|]. intros Hu. apply utf8_ok_spec in Hu. congruence.
Qed.
Lemma length_lacks s e : bytes_ok s -> (length s = Err e <-> lacks WLen s e).
Proof.
  intros Hb. split.
  - destruct (length_cases s Hb) as [f n r -> Hf Hl|Hc Hl|a b c d r -> Hc]; intros [= <-].
    + constructor; assumption.
    + constructor; assumption.
  - intros H. inversion H; subst; try (destruct H0; discriminate).
    + destruct (length_cases s Hb) as [f n r -> Hf Hl|Hc Hl|a b c d r -> Hc]; [|reflexivity|].
      * exfalso. clear - Hf H1. revert r H1. induction Hf as [b Hb0|b l n Hb0 Hf IH]; intros r H1.
        -- inversion H1; subst. unfold has_cont in *. lia.
        -- inversion H1; subst. eauto.
      * exfalso. autorewrite with blen in H0. lia.
    + destruct (length_cases _ Hb) as [f n r E Hf Hl|Hc Hl|a' b' c' d' r E Hc]; [|exfalso; autorewrite with blen in Hl; lia|reflexivity].
      exfalso. clear - Hf H0 Hl E.
      assert (G : forall f n, lenfield f n -> exists p x, f = p ++ [x] /\ x < 128).
      { clear. induction 1 as [b Hb|b l n Hb Hf (p & x & -> & Hx)]; [exists [], b; auto|].
        exists (128 + b :: p), x. auto. }
      destruct (G _ _ Hf) as (p & x & -> & Hx).
      assert (In x [a; b; c; d]).
      { autorewrite with blen in Hl. rewrite <- app_assoc in E. cbn [app] in E.
        destruct p as [|p1 [|p2 [|p3 [|p4 p]]]]; cbn [app] in E; injection E; intros; subst; cbn; auto.
        autorewrite with blen in Hl. lia. }
      rewrite Forall_forall in H0. specialize (H0 _ H). unfold has_cont in H0. lia.
Qed.

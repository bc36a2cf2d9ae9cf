(** ProofUtf8.v -- the acceptance test equals "concatenation of UTF-8 encodings of
    Unicode scalar values". *)
From Verif Require Import ProofBase Utf8.

Definition encodable (s : bytes) : Prop := is_utf8 s.

Lemma utf8_nil : is_utf8 [].
Proof. exists []. split; [constructor|reflexivity]. Qed.
Lemma utf8_cons c s : scalar c -> is_utf8 s -> is_utf8 (utf8_encode c ++ s).
Proof. intros Hc (cs & Hcs & ->). exists (c :: cs). split; [constructor; assumption|reflexivity]. Qed.

Lemma utf8_ok_encode c s : scalar c -> utf8_ok (utf8_encode c ++ s) = utf8_ok s.
Proof.
  intros Hc. unfold scalar in Hc. unfold utf8_encode.
  destruct (c <? 0x80) eqn:E1.
  { cbn [app utf8_ok]. rewrite E1. reflexivity. }
  destruct (c <? 0x800) eqn:E2.
  { cbn [app utf8_ok]. unfold in_range, cont, in_range.
    replace (192 + c / 64 <? 128) with false by lia.
    replace ((194 <=? 192 + c / 64) && (192 + c / 64 <=? 223)) with true by lia.
    replace ((128 <=? 128 + c mod 64) && (128 + c mod 64 <=? 191)) with true by lia.
    reflexivity. }
  destruct (c <? 0x10000) eqn:E3.
  { cbn [app utf8_ok]. unfold in_range, cont, in_range.
    replace (224 + c / 4096 <? 128) with false by lia.
    replace ((194 <=? 224 + c / 4096) && (224 + c / 4096 <=? 223)) with false by lia.
    replace ((224 <=? 224 + c / 4096) && (224 + c / 4096 <=? 239)) with true by lia.
    replace ((128 <=? 128 + c mod 64) && (128 + c mod 64 <=? 191)) with true by lia.
    destruct (224 + c / 4096 =? 224) eqn:E4.
    { replace ((160 <=? 128 + c / 64 mod 64) && (128 + c / 64 mod 64 <=? 191)) with true by lia. reflexivity. }
    destruct (224 + c / 4096 =? 237) eqn:E5.
    { replace ((128 <=? 128 + c / 64 mod 64) && (128 + c / 64 mod 64 <=? 159)) with true by lia. reflexivity. }
    replace ((128 <=? 128 + c / 64 mod 64) && (128 + c / 64 mod 64 <=? 191)) with true by lia. reflexivity. }
  cbn [app utf8_ok]. unfold in_range, cont, in_range.
  replace (240 + c / 262144 <? 128) with false by lia.
  replace ((194 <=? 240 + c / 262144) && (240 + c / 262144 <=? 223)) with false by lia.
  replace ((224 <=? 240 + c / 262144) && (240 + c / 262144 <=? 239)) with false by lia.
  replace ((240 <=? 240 + c / 262144) && (240 + c / 262144 <=? 244)) with true by lia.
  replace ((128 <=? 128 + c mod 64) && (128 + c mod 64 <=? 191)) with true by lia.
  replace ((128 <=? 128 + c / 64 mod 64) && (128 + c / 64 mod 64 <=? 191)) with true by lia.
  destruct (240 + c / 262144 =? 240) eqn:E4.
  { replace ((144 <=? 128 + c / 4096 mod 64) && (128 + c / 4096 mod 64 <=? 191)) with true by lia. reflexivity. }
  destruct (240 + c / 262144 =? 244) eqn:E5.
  { replace ((128 <=? 128 + c / 4096 mod 64) && (128 + c / 4096 mod 64 <=? 143)) with true by lia. reflexivity. }
  replace ((128 <=? 128 + c / 4096 mod 64) && (128 + c / 4096 mod 64 <=? 191)) with true by lia. reflexivity.
Qed.

Lemma utf8_ok_complete s : is_utf8 s -> utf8_ok s = true.
Proof.
  intros (cs & Hcs & ->). induction Hcs as [|c cs Hc _ IH]; [reflexivity|].
  cbn [flat_map]. rewrite utf8_ok_encode; assumption.
Qed.

Lemma utf8_ok_sound_aux n s : (List.length s < n)%nat -> utf8_ok s = true -> is_utf8 s.
Proof.
  revert s; induction n as [|n IH]; intros s Hn H; [lia|].
  destruct s as [|b0 l1]; [apply utf8_nil|].
  cbn [utf8_ok] in H. cbn [List.length] in Hn.
  destruct (b0 <? 0x80) eqn:E0.
  { replace (b0 :: l1) with (utf8_encode b0 ++ l1).
    - apply utf8_cons; [unfold scalar; lia|]. apply IH; [lia|exact H].
    - unfold utf8_encode. rewrite E0. reflexivity. }
  unfold in_range, cont, in_range in H.
  destruct ((194 <=? b0) && (b0 <=? 223)) eqn:E1.
  { destruct l1 as [|b1 l2]; [discriminate|]. cbn [List.length] in Hn.
    apply andb_true_iff in H as [H1 H2].
    replace (b0 :: b1 :: l2) with (utf8_encode ((b0 - 192) * 64 + (b1 - 128)) ++ l2).
    - apply utf8_cons; [unfold scalar; lia|]. apply IH; [lia|exact H2].
    - unfold utf8_encode.
      replace ((b0 - 192) * 64 + (b1 - 128) <? 128) with false by lia.
      replace ((b0 - 192) * 64 + (b1 - 128) <? 2048) with true by lia.
      cbn [app]. f_equal; [lia|]. f_equal; lia. }
  destruct ((224 <=? b0) && (b0 <=? 239)) eqn:E2.
  { destruct l1 as [|b1 [|b2 l3]]; [discriminate|discriminate|]. cbn [List.length] in Hn.
    apply andb_true_iff in H as [H H3]. apply andb_true_iff in H as [H1 H2].
    assert (Hb1 : 128 <= b1 <= 191 /\ (b0 = 224 -> 160 <= b1) /\ (b0 = 237 -> b1 <= 159)).
    { destruct (b0 =? 224) eqn:E4; [|destruct (b0 =? 237) eqn:E5]; lia. }
    clear H1.
    set (c := (b0 - 224) * 4096 + (b1 - 128) * 64 + (b2 - 128)).
    assert (Hc1 : c / 4096 = b0 - 224) by (unfold c; lia).
    assert (Hc2 : c / 64 mod 64 = b1 - 128) by (unfold c; lia).
    assert (Hc3 : c mod 64 = b2 - 128) by (unfold c; lia).
    assert (Hr : 2048 <= c < 65536) by (unfold c; lia).
    replace (b0 :: b1 :: b2 :: l3) with (utf8_encode c ++ l3).
    - apply utf8_cons; [unfold scalar; unfold c; lia|]. apply IH; [lia|exact H3].
    - unfold utf8_encode.
      replace (c <? 128) with false by lia.
      replace (c <? 2048) with false by lia.
      replace (c <? 65536) with true by lia.
      rewrite Hc1, Hc2, Hc3. cbn [app]. f_equal; [lia|]. f_equal; [lia|]. f_equal; lia. }
  destruct ((240 <=? b0) && (b0 <=? 244)) eqn:E3; [|discriminate].
  destruct l1 as [|b1 [|b2 [|b3 l4]]]; try discriminate. cbn [List.length] in Hn.
  apply andb_true_iff in H as [H H4]. apply andb_true_iff in H as [H H3].
  apply andb_true_iff in H as [H1 H2].
  assert (Hb1 : 128 <= b1 <= 191 /\ (b0 = 240 -> 144 <= b1) /\ (b0 = 244 -> b1 <= 143)).
  { destruct (b0 =? 240) eqn:E4; [|destruct (b0 =? 244) eqn:E5]; lia. }
  clear H1.
  set (c := (b0 - 240) * 262144 + (b1 - 128) * 4096 + (b2 - 128) * 64 + (b3 - 128)).
  assert (Hc1 : c / 262144 = b0 - 240) by (unfold c; lia).
  assert (Hc2 : c / 4096 mod 64 = b1 - 128) by (unfold c; lia).
  assert (Hc3 : c / 64 mod 64 = b2 - 128) by (unfold c; lia).
  assert (Hc4 : c mod 64 = b3 - 128) by (unfold c; lia).
  assert (Hr : 65536 <= c <= 0x10FFFF) by (unfold c; lia).
  replace (b0 :: b1 :: b2 :: b3 :: l4) with (utf8_encode c ++ l4).
  - apply utf8_cons; [unfold scalar; lia|]. apply IH; [lia|exact H4].
  - unfold utf8_encode.
    replace (c <? 128) with false by lia.
    replace (c <? 2048) with false by lia.
    replace (c <? 65536) with false by lia.
    rewrite Hc1, Hc2, Hc3, Hc4. cbn [app].
    f_equal; [lia|]. f_equal; [lia|]. f_equal; [lia|]. f_equal; lia.
Qed.

Lemma utf8_ok_spec s : utf8_ok s = true <-> is_utf8 s.
Proof.
  split.
  - apply (utf8_ok_sound_aux (S (List.length s))). lia.
  - apply utf8_ok_complete.
Qed.

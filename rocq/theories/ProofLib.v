(** ProofLib.v -- lib.rs: the remaining-length field, framing and the field
    readers/writers. *)
From Verif Require Import ProofBase ProofUtf8 Utf8.
From Verif Require Export Lib.

(** *** bytes of the length field *)
Lemma land7F b : b < 256 -> N.land b 0x7F = b mod 128.
Proof.
  intros H. apply N.eqb_eq.
  exact (byte_sweep (fun b => N.land b 127 =? b mod 128) eq_refl b H).
Qed.
Lemma land80 b : b < 256 -> (N.land b 0x80 =? 0) = (b <? 128).
Proof.
  intros H. apply eqb_prop.
  exact (byte_sweep (fun b => Bool.eqb (N.land b 128 =? 0) (b <? 128)) eq_refl b H).
Qed.
Lemma lor128 b : b < 128 -> N.lor b 128 = 128 + b.
Proof.
  intros H. apply N.eqb_eq.
  assert (H1 := byte_sweep (fun b => if b <? 128 then N.lor b 128 =? 128 + b else true) eq_refl b ltac:(lia)).
  cbv beta in H1. replace (b <? 128) with true in H1 by lia. exact H1.
Qed.

Lemma lenfield_nonempty f n : lenfield f n -> 1 <= blen f.
Proof. intros H; destruct H; autorewrite with blen; lia. Qed.

Lemma lenfield_bound f n : lenfield f n -> blen f <= 4 -> n <= max_len.
Proof.
  intros H. unfold max_len.
  destruct H as [b Hb|b l n Hb [b' Hb'|b' l' n' Hb' [b'' Hb''|b'' l'' n'' Hb'' [b3 H3|b3 l3 n3 H3 Hl]]]];
    autorewrite with blen; try lia.
  intros. apply lenfield_nonempty in Hl. lia.
Qed.
Lemma frame_length_field b1 f n : lenfield f n -> blen f <= 4 ->
  frame_length (mkFixedHeader b1 (1 + blen f) n) = Ok (1 + blen f + n).
Proof.
  intros Hf Hl. assert (Hb := lenfield_bound _ _ Hf Hl). unfold max_len in Hb.
  unfold frame_length, usize_add. cbn [fixed_header_len remaining_len].
  replace (1 + blen f + n <=? usize_max) with true; [reflexivity|].
  symmetry. apply N.leb_le. unfold usize_max. change (2 ^ 64) with 18446744073709551616. lia.
Qed.
Lemma new_header_field b1 (f : bytes) n : blen f <= 4 ->
  new_fixed_header b1 (blen f) n = Ok (mkFixedHeader b1 (1 + blen f) n).
Proof.
  intros Hl. unfold new_fixed_header, usize_add.
  replace (blen f + 1 <=? usize_max) with true; [cbn [obind]; rewrite (N.add_comm (blen f) 1); reflexivity|].
  symmetry. apply N.leb_le. unfold usize_max. change (2 ^ 64) with 18446744073709551616. lia.
Qed.
Lemma lenfield_bytes f n : lenfield f n -> bytes_ok f.
Proof.
  induction 1; repeat apply Forall_cons; unfold u8; try lia; try constructor; assumption.
Qed.
Lemma lenfield_varint n : n <= max_len -> lenfield (varint n) n.
Proof.
  unfold max_len, varint; intros H.
  destruct (n <? 128) eqn:E1. { constructor; lia. }
  destruct (n <? 16384) eqn:E2.
  { replace n with (n mod 128 + 128 * (n / 128)) at 3 by lia.
    constructor; [lia|]. constructor; lia. }
  destruct (n <? 2097152) eqn:E3.
  { replace n with (n mod 128 + 128 * (n / 128 mod 128 + 128 * (n / 16384))) at 4 by lia.
    constructor; [lia|]. constructor; [lia|]. constructor; lia. }
  replace n with (n mod 128 + 128 * (n / 128 mod 128 + 128 * (n / 16384 mod 128 + 128 * (n / 2097152)))) at 5 by lia.
  constructor; [lia|]. constructor; [lia|]. constructor; [lia|]. constructor; lia.
Qed.
Lemma varint_len n : blen (varint n) = len_len n.
Proof.
  unfold varint, len_len.
  destruct (n <? 128) eqn:E1, (n <? 16384) eqn:E2, (n <? 2097152) eqn:E3,
    (2097152 <=? n) eqn:E4, (16384 <=? n) eqn:E5, (128 <=? n) eqn:E6; try lia; reflexivity.
Qed.
Lemma varint_len_bound n : 1 <= blen (varint n) <= 4.
Proof.
  unfold varint.
  destruct (n <? 128), (n <? 16384), (n <? 2097152); autorewrite with blen; lia.
Qed.
Lemma varint_bytes n : n <= max_len -> bytes_ok (varint n).
Proof. intros H. eapply lenfield_bytes, lenfield_varint, H. Qed.

(** a length field determines its value and is self-delimiting *)
Lemma lenfield_det f n g m r r' :
  lenfield f n -> lenfield g m -> f ++ r = g ++ r' -> f = g /\ n = m /\ r = r'.
Proof.
  intros Hf; revert g m; induction Hf as [b Hb|b l n Hb Hl IH]; intros g m Hg Heq.
  - destruct Hg as [b' Hb'|b' l' n' Hb' Hl']; cbn [app] in Heq.
    + injection Heq as -> ->. auto.
    + injection Heq as Hbb _. lia.
  - destruct Hg as [b' Hb'|b' l' n' Hb' Hl']; cbn [app] in Heq.
    + injection Heq as Hbb _. lia.
    + injection Heq as Hbb Hrest. assert (b = b') as -> by lia.
      destruct (IH _ _ Hl' Hrest) as (-> & -> & ->). auto.
Qed.

(** [varint] is the shortest field with its value *)
Lemma varint_minimal f n : lenfield f n -> n <= max_len -> blen (varint n) <= blen f.
Proof.
  intros H Hn. unfold varint, max_len in *.
  destruct H as [b Hb|b l n Hb [b' Hb'|b' l' n' Hb' [b'' Hb''|b'' l'' n'' Hb'' Hl]]];
    match goal with |- context [if ?x <? 128 then _ else _] =>
      destruct (x <? 128) eqn:?, (x <? 16384) eqn:?, (x <? 2097152) eqn:? end;
    autorewrite with blen; try lia;
    apply lenfield_nonempty in Hl; lia.
Qed.

(** *** [length] *)
Lemma shiftl_mul a k : N.shiftl a k = a * 2 ^ k.
Proof. apply N.shiftl_mul_pow2. Qed.

Lemma loop_last b s len k sh : b < 128 ->
  length_loop (b :: s) len k sh = Ok (k + 1, len + b * 2 ^ sh).
Proof.
  intros H. cbn [length_loop]. rewrite land80, land7F, shiftl_mul by lia.
  replace (b <? 128) with true by lia. replace (b mod 128) with b by lia. reflexivity.
Qed.
Lemma loop_more b s len k sh : b < 128 -> sh + 7 <= 21 ->
  length_loop (128 + b :: s) len k sh = length_loop s (len + b * 2 ^ sh) (k + 1) (sh + 7).
Proof.
  intros H Hs. cbn [length_loop]. rewrite land80, land7F, shiftl_mul by lia.
  replace (128 + b <? 128) with false by lia. replace ((128 + b) mod 128) with b by lia.
  replace (21 <? sh + 7) with false by lia. reflexivity.
Qed.

Lemma length_ok f n s : lenfield f n -> blen f <= 4 -> length (f ++ s) = Ok (blen f, n).
Proof.
  intros H Hle. unfold length.
  destruct H as [b Hb|b l n Hb [b' Hb'|b' l' n' Hb' [b'' Hb''|b'' l'' n'' Hb'' [b3 Hb3|b3 l3 n3 Hb3 Hl]]]];
    try (exfalso; autorewrite with blen in Hle; apply lenfield_nonempty in Hl; lia);
    cbn [app]; rewrite ?loop_more, loop_last by lia; autorewrite with blen;
    change (2 ^ 0) with 1; change (2 ^ (0 + 7)) with 128; change (2 ^ (0 + 7 + 7)) with 16384;
    change (2 ^ (0 + 7 + 7 + 7)) with 2097152; f_equal; f_equal; lia.
Qed.

Definition all_cont (s : bytes) : Prop := Forall has_cont s.

Lemma length_short s : bytes_ok s -> all_cont s -> blen s < 4 -> length s = Err (InsufficientBytes 1).
Proof.
  intros Hb Hc Hl. unfold length, all_cont, has_cont, bytes_ok, u8 in *.
  destruct s as [|a [|b [|c [|d s]]]]; autorewrite with blen in Hl; try lia; clear Hl;
    repeat match goal with H : Forall _ (_ :: _) |- _ => inversion H; clear H; subst end;
    cbn [length_loop]; try reflexivity;
    rewrite !land80 by lia; 
    repeat match goal with |- context [?x <? 128] => replace (x <? 128) with false by lia end; reflexivity.
Qed.
Lemma length_malformed a b c d s :
  bytes_ok [a; b; c; d] -> all_cont [a; b; c; d] ->
  length (a :: b :: c :: d :: s) = Err MalformedRemainingLength.
Proof.
  intros Hb Hc. unfold length, all_cont, has_cont, bytes_ok, u8 in *.
  repeat match goal with H : Forall _ (_ :: _) |- _ => inversion H; clear H; subst end.
  cbn [length_loop]. rewrite !land80 by lia.
  replace (a <? 128) with false by lia. replace (b <? 128) with false by lia.
  replace (c <? 128) with false by lia. replace (d <? 128) with false by lia. reflexivity.
Qed.

Inductive length_case (s : bytes) : outcome (N * N) -> Prop :=
| lc_ok f n r : s = f ++ r -> lenfield f n -> blen f <= 4 -> length_case s (Ok (blen f, n))
| lc_short : all_cont s -> blen s < 4 -> length_case s (Err (InsufficientBytes 1))
| lc_bad a b c d r : s = a :: b :: c :: d :: r -> all_cont [a; b; c; d] ->
    length_case s (Err MalformedRemainingLength).

Lemma length_cases s : bytes_ok s -> length_case s (length s).
Proof.
  intros Hb.
  assert (Hgen : forall p s', s = p ++ s' -> all_cont p -> blen p <= 4 ->
     length_case s (length s) \/ (exists b r, s' = b :: r /\ has_cont b) \/ s' = []).
  { intros p s' -> Hp Hlen.
    destruct s' as [|b r]; [right; right; reflexivity|].
    destruct (b <? 128) eqn:E; [|right; left; exists b, r; split; [reflexivity|unfold has_cont; lia]].
    destruct (N.eq_dec (blen p) 4) as [H4|H4].
    { left. destruct p as [|x0 [|x1 [|x2 [|x3 [|x4 p]]]]]; autorewrite with blen in H4; try lia.
      cbn [app] in *. rewrite length_malformed.
      - econstructor; [reflexivity|exact Hp].
      - unfold bytes_ok in *. repeat match goal with H : Forall _ (_ :: _) |- _ => inversion H; clear H; subst end.
        repeat constructor; assumption.
      - exact Hp. }
    left.
    assert (Hf : exists n, lenfield (p ++ [b]) n).
    { assert (Hbp : bytes_ok p) by (apply bytes_ok_app in Hb; apply Hb).
      clear -Hp E Hbp. induction Hp as [|x l Hx Hl IH]; cbn [app].
      - exists b. constructor. lia.
      - apply bytes_ok_cons in Hbp as [Hx2 Hbp].
        destruct (IH Hbp) as [n Hn]. exists ((x - 128) + 128 * n).
        unfold has_cont in Hx. replace x with (128 + (x - 128)) at 1 by lia. constructor; [lia|exact Hn]. }
    destruct Hf as [n Hn].
    replace (p ++ b :: r) with ((p ++ [b]) ++ r) by (rewrite <- app_assoc; reflexivity).
    rewrite (length_ok _ _ _ Hn) by (autorewrite with blen; lia).
    econstructor; [reflexivity|exact Hn|autorewrite with blen; lia]. }
  destruct (Hgen [] s eq_refl ltac:(constructor) ltac:(autorewrite with blen; lia)) as [H|[(a & r & -> & Ha)| ->]];
    [exact H| |rewrite length_short; [constructor| | |]; try constructor; autorewrite with blen; lia].
  destruct (Hgen [a] r eq_refl ltac:(repeat constructor; assumption) ltac:(autorewrite with blen; lia)) as [H|[(b & r' & -> & Hb')| ->]];
    [exact H| |rewrite length_short; [constructor| | |]; try exact Hb; try (repeat constructor; assumption); autorewrite with blen; lia].
  destruct (Hgen [a; b] r' eq_refl ltac:(repeat constructor; assumption) ltac:(autorewrite with blen; lia)) as [H|[(c & r'' & -> & Hc)| ->]];
    [exact H| |rewrite length_short; [constructor| | |]; try exact Hb; try (repeat constructor; assumption); autorewrite with blen; lia].
  destruct (Hgen [a; b; c] r'' eq_refl ltac:(repeat constructor; assumption) ltac:(autorewrite with blen; lia)) as [H|[(d & r3 & -> & Hd)| ->]];
    [exact H| |rewrite length_short; [constructor| | |]; try exact Hb; try (repeat constructor; assumption); autorewrite with blen; lia].
  rewrite length_malformed.
  - econstructor; [reflexivity|repeat constructor; assumption].
  - unfold bytes_ok in *. repeat match goal with H : Forall _ (_ :: _) |- _ => inversion H; clear H; subst end.
    repeat constructor; assumption.
  - repeat constructor; assumption.
Qed.

(** *** [write_remaining_length] *)
Lemma size_nat_pos x : 0 < x -> (1 <= N.size_nat x)%nat.
Proof. destruct x as [|[p|p|]]; cbn; lia. Qed.
Lemma size_nat_big x n : 2 ^ N.of_nat n <= x -> (n <= N.size_nat x)%nat.
Proof.
  intros H. assert (Hs := N.size_gt x).
  assert (N.size x = N.of_nat (N.size_nat x)) as E.
  { destruct x as [|p]; [reflexivity|]. cbn [N.size N.size_nat].
    assert (Hp : Pos.size_nat p = Pos.to_nat (Pos.size p)).
    { clear. induction p as [p IH|p IH|]; cbn [Pos.size_nat Pos.size]; rewrite ?Pos2Nat.inj_succ, ?IH; reflexivity. }
    rewrite Hp. lia. }
  rewrite E in Hs. 
  assert (2 ^ N.of_nat n < 2 ^ N.of_nat (N.size_nat x)) by lia.
  apply N.pow_lt_mono_r_iff in H0; lia.
Qed.

Lemma writes_len_last fuel x c : x < 128 -> writes (write_len_loop (S fuel) x c) (Ok (c + 1)) [x].
Proof.
  intros H buf. cbn [write_len_loop].
  replace (x / 128) with 0 by lia. change (0 <? 0) with false. cbv iota.
  unfold wbind, put_u8, extend_from_slice. change (0 =? 0) with true. cbv iota. unfold wret.
  replace (x mod 128) with x by lia. reflexivity.
Qed.
Lemma writes_len_more fuel x c r o : 128 <= x ->
  writes (write_len_loop fuel (x / 128) (c + 1)) r o ->
  writes (write_len_loop (S fuel) x c) r (128 + x mod 128 :: o).
Proof.
  intros H Hw buf. cbn [write_len_loop].
  replace (0 <? x / 128) with true by lia. cbv iota. rewrite lor128 by lia.
  unfold wbind, put_u8, extend_from_slice. replace (x / 128 =? 0) with false by lia. cbv iota.
  rewrite Hw, <- app_assoc. reflexivity.
Qed.

Lemma writes_remaining_length n : n <= max_len ->
  writes (write_remaining_length n) (Ok (blen (varint n))) (varint n).
Proof.
  unfold max_len; intros H. unfold write_remaining_length.
  replace (268435455 <? n) with false by lia. cbv iota.
  unfold varint.
  destruct (n <? 128) eqn:E1. { eapply writes_eq; [apply writes_len_last; lia| |]; reflexivity. }
  assert (Hs1 := size_nat_big n 7 ltac:(change (2 ^ N.of_nat 7) with 128; lia)).
  destruct (n <? 16384) eqn:E2.
  { destruct (N.size_nat n) as [|k]; [lia|].
    eapply writes_eq; [apply writes_len_more; [lia|apply writes_len_last; lia]| |]; reflexivity. }
  assert (Hs2 := size_nat_big n 14 ltac:(change (2 ^ N.of_nat 14) with 16384; lia)).
  destruct (n <? 2097152) eqn:E3.
  { destruct (N.size_nat n) as [|[|k]]; [lia|lia|].
    eapply writes_eq; [apply writes_len_more; [lia|apply writes_len_more; [lia|apply writes_len_last; lia]]| |].
    - reflexivity.
    - rewrite N.div_div by lia. reflexivity. }
  destruct (N.size_nat n) as [|[|[|k]]]; [lia|lia|lia|].
  eapply writes_eq; [apply writes_len_more; [lia|apply writes_len_more; [lia|apply writes_len_more;[lia|apply writes_len_last; lia]]]| |].
  - reflexivity.
  - rewrite !N.div_div by lia. reflexivity.
Qed.
Lemma writes_remaining_length_err n : max_len < n ->
  writes (write_remaining_length n) (Err PayloadTooLong) [].
Proof.
  unfold max_len; intros H. unfold write_remaining_length.
  replace (268435455 <? n) with true by lia. apply writes_err.
Qed.

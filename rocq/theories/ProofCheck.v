(** ProofCheck.v -- `check` computes exactly the verdict. *)
From Verif Require Import ProofBase ProofLib.
From Verif Require Export SpecFrame.

Lemma check_verdict s max : bytes_ok s -> verdict s max (check s max).
Proof.
  intros Hb. unfold check, parse_fixed_header.
  destruct (blen s <? 2) eqn:E2.
  { unfold usize_sub. replace (blen s <=? 2) with true by lia. cbn [obind]. apply v_tiny. lia. }
  destruct s as [|b1 r]; [autorewrite with blen in E2; lia|].
  apply bytes_ok_cons in Hb as [Hb1 Hr].
  destruct (length_cases r Hr) as [f n t -> Hf Hlen|Hc Hlen|a b c d t -> Hc]; cbn [obind fst snd].
  - rewrite new_header_field by exact Hlen. cbn [obind remaining_len].
    destruct (max <? n) eqn:Em. { eapply v_limit; [reflexivity|exact Hf|exact Hlen|lia]. }
    rewrite (frame_length_field _ _ _ Hf Hlen). cbn [obind].
    autorewrite with blen.
    destruct (1 + (blen f + blen t) <? 1 + blen f + n) eqn:El.
    + unfold usize_sub.
      replace (1 + (blen f + blen t) <=? 1 + blen f + n) with true by lia. cbn [obind].
      replace (1 + blen f + n - (1 + (blen f + blen t))) with (n - blen t) by lia.
      eapply v_partial; [reflexivity|exact Hf|exact Hlen|lia|lia].
    + eapply v_complete; [reflexivity|exact Hf|exact Hlen|lia|lia].
  - eapply v_open; [reflexivity| |exact Hlen|exact Hc]. autorewrite with blen in E2. lia.
  - eapply v_malformed; [reflexivity|exact Hc].
Qed.

Lemma cont_not_lenfield f n r p q :
  lenfield f n -> f ++ r = p ++ q -> Forall has_cont p -> blen p < blen f \/ (blen f <= blen p -> False).
Proof.
  intros Hf; revert p; induction Hf as [b Hb|b l n Hb Hl IH]; intros [|x p] Heq Hc;
    try (left; autorewrite with blen; lia).
  - cbn [app] in Heq. injection Heq as -> _. apply Forall_cons_iff in Hc as [Hc _].
    unfold has_cont in Hc. lia.
  - cbn [app] in Heq. injection Heq as Hx Heq. apply Forall_cons_iff in Hc as [Hc Hc'].
    destruct (IH _ Heq Hc') as [H|H]; [left|right]; autorewrite with blen; lia.
Qed.

Lemma all_cont_no_field f n r p : lenfield f n -> f ++ r = p -> Forall has_cont p -> False.
Proof.
  intros Hf; revert p; induction Hf as [b Hb|b l n Hb Hl IH]; intros p Heq Hc; subst p;
    cbn [app] in Hc; apply Forall_cons_iff in Hc as [Hx Hc].
  - unfold has_cont in Hx; lia.
  - eapply IH; [reflexivity|exact Hc].
Qed.

Lemma four_cont_no_field f n r a b c d q :
  lenfield f n -> blen f <= 4 -> f ++ r = a :: b :: c :: d :: q -> Forall has_cont [a; b; c; d] -> False.
Proof.
  intros Hf Hlen Heq Hc.
  assert (H := cont_not_lenfield f n r [a; b; c; d] q Hf Heq Hc).
  autorewrite with blen in H. lia.
Qed.

Lemma verdict_det s max r1 r2 : verdict s max r1 -> verdict s max r2 -> r1 = r2.
Proof.
  intros H1 H2.
  destruct H1 as [H1|b1 r Hs Hr1 Hr4 Hc|b1 a b c d r Hs Hc|b1 f n r Hs Hf Hl Hm|b1 f n r Hs Hf Hl Hm Hr|b1 f n r Hs Hf Hl Hm Hr];
  destruct H2 as [H2|b1' r' Hs' Hr1' Hr4' Hc'|b1' a' b' c' d' r' Hs' Hc'|b1' f' n' r' Hs' Hf' Hl' Hm'|b1' f' n' r' Hs' Hf' Hl' Hm' Hr'|b1' f' n' r' Hs' Hf' Hl' Hm' Hr'];
  try reflexivity;
  try (exfalso; subst s; autorewrite with blen in *; try (apply lenfield_nonempty in Hf); try (apply lenfield_nonempty in Hf'); lia);
  try (rewrite Hs in Hs'; injection Hs' as Hbb Hrr);
  try (exfalso; subst; autorewrite with blen in *; lia);
  try (exfalso; eapply (all_cont_no_field f n); eauto; fail);
  try (exfalso; apply (all_cont_no_field f' n' r' r Hf' (eq_sym Hrr) Hc); fail);
  try (exfalso; apply (all_cont_no_field f n r r' Hf Hrr Hc'); fail);
  try (exfalso; eapply (four_cont_no_field f n); eauto; fail);
  try (exfalso; apply (four_cont_no_field f' n' _ _ _ _ _ _ Hf' Hl' (eq_sym Hrr) Hc); fail);
  try (destruct (lenfield_det _ _ _ _ _ _ Hf Hf' Hrr) as (-> & -> & ->); subst; try reflexivity; exfalso; lia).
Qed.

Lemma check_iff s max r : bytes_ok s -> (check s max = r <-> verdict s max r).
Proof.
  intros Hb. split.
  - intros <-. apply check_verdict, Hb.
  - intros Hv. eapply verdict_det; [apply check_verdict, Hb|exact Hv].
Qed.

(** forms used later *)
Lemma check_frame b1 f n r max : bytes_ok (b1 :: f ++ r) ->
  lenfield f n -> blen f <= 4 -> n <= max -> n <= blen r ->
  check (b1 :: f ++ r) max = Ok (mkFixedHeader b1 (1 + blen f) n).
Proof. intros Hb Hf Hl Hm Hr. apply check_iff; [exact Hb|]. eapply v_complete; eauto. Qed.

Lemma check_ok_inv s max h : bytes_ok s -> check s max = Ok h ->
  exists b1 f body rest, s = b1 :: f ++ body ++ rest /\ lenfield f (blen body) /\ blen f <= 4 /\
    blen body <= max /\ h = mkFixedHeader b1 (1 + blen f) (blen body).
Proof.
  intros Hb Hc. apply check_iff in Hc; [|exact Hb]. inversion Hc as [| | | | |b1 f n r Hs Hf Hl Hm Hr]; subst.
  exists b1, f, (firstn (N.to_nat n) r), (skipn (N.to_nat n) r).
  rewrite firstn_skipn.
  assert (Hbl : blen (firstn (N.to_nat n) r) = n).
  { unfold blen in *. rewrite firstn_length. lia. }
  rewrite Hbl. repeat split; auto.
Qed.

Lemma check_no_panic s max : bytes_ok s -> check s max <> Panic /\ check s max <> Diverge.
Proof.
  intros Hb. assert (H := check_verdict s max Hb). inversion H; split; discriminate.
Qed.

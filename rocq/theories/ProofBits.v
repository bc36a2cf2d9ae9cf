(** ProofBits.v -- masks and shifts of the code in terms of division and remainder. *)
From Verif Require Import ProofBase Lib.

Ltac sweep_eq f g :=
  let H := fresh in
  match goal with Hb : ?x < 256 |- _ =>
    assert (H := byte_sweep (fun b => N.eqb (f b) (g b)) eq_refl x Hb); apply N.eqb_eq in H; exact H end.
Ltac sweep_beq f g :=
  let H := fresh in
  match goal with Hb : ?x < 256 |- _ =>
    assert (H := byte_sweep (fun b => Bool.eqb (f b) (g b)) eq_refl x Hb); apply eqb_prop in H; exact H end.

Lemma shiftr4 b : b < 256 -> N.shiftr b 4 = b / 16.
Proof. intros H. sweep_eq (fun b => N.shiftr b 4) (fun b => b / 16). Qed.
Lemma mask1 b : b < 256 -> (N.land b 1 =? 0) = negb (bit_at 0 b).
Proof. intros H. sweep_beq (fun b => N.land b 1 =? 0) (fun b => negb (bit_at 0 b)). Qed.
Lemma mask1' b : b < 256 -> (N.land b 1 =? 1) = bit_at 0 b.
Proof. intros H. sweep_beq (fun b => N.land b 1 =? 1) (fun b => bit_at 0 b). Qed.
Lemma mask2 b : b < 256 -> (N.land b 2 =? 0) = negb (bit_at 1 b).
Proof. intros H. sweep_beq (fun b => N.land b 2 =? 0) (fun b => negb (bit_at 1 b)). Qed.
Lemma mask4 b : b < 256 -> (N.land b 4 =? 0) = negb (bit_at 2 b).
Proof. intros H. sweep_beq (fun b => N.land b 4 =? 0) (fun b => negb (bit_at 2 b)). Qed.
Lemma mask8 b : b < 256 -> (N.land b 8 =? 0) = negb (bit_at 3 b).
Proof. intros H. sweep_beq (fun b => N.land b 8 =? 0) (fun b => negb (bit_at 3 b)). Qed.
Lemma mask32 b : b < 256 -> (N.land b 32 =? 0) = negb (bit_at 5 b).
Proof. intros H. sweep_beq (fun b => N.land b 32 =? 0) (fun b => negb (bit_at 5 b)). Qed.
Lemma mask56 b : b < 256 -> (N.land b 56 =? 0) = (b / 8 mod 8 =? 0).
Proof. intros H. sweep_beq (fun b => N.land b 56 =? 0) (fun b => b / 8 mod 8 =? 0). Qed.
Lemma mask64 b : b < 256 -> (N.land b 64 =? 0) = negb (bit_at 6 b).
Proof. intros H. sweep_beq (fun b => N.land b 64 =? 0) (fun b => negb (bit_at 6 b)). Qed.
Lemma mask128 b : b < 256 -> (N.land b 128 =? 0) = negb (bit_at 7 b).
Proof. intros H. sweep_beq (fun b => N.land b 128 =? 0) (fun b => negb (bit_at 7 b)). Qed.
Lemma will_qos_bits b : b < 256 -> N.shiftr (N.land b 24) 3 = b / 8 mod 4.
Proof. intros H. sweep_eq (fun b => N.shiftr (N.land b 24) 3) (fun b => b / 8 mod 4). Qed.
Lemma pub_qos_bits b : b < 256 -> N.shiftr (N.land b 6) 1 = b / 2 mod 4.
Proof. intros H. sweep_eq (fun b => N.shiftr (N.land b 6) 1) (fun b => b / 2 mod 4). Qed.
Lemma mask3 b : b < 256 -> N.land b 3 = b mod 4.
Proof. intros H. sweep_eq (fun b => N.land b 3) (fun b => b mod 4). Qed.

Lemma qos_cases n : n < 4 -> (exists q, qos n = Ok q /\ n = qos_num q) \/ (qos n = Err (InvalidQoS n) /\ n = 3).
Proof.
  intros H. destruct n as [|[[p|p|]|[p|p|]|]]; try lia;
    [left; exists AtMostOnce; split; reflexivity
    |right; split; reflexivity
    |left; exists ExactlyOnce; split; reflexivity
    |left; exists AtLeastOnce; split; reflexivity].
Qed.
Lemma qos_of_num q : qos (qos_num q) = Ok q.
Proof. destruct q; reflexivity. Qed.
Lemma qos_spec n q : n < 256 -> (qos n = Ok q <-> n = qos_num q).
Proof.
  intros _. split; [|intros ->; apply qos_of_num].
  unfold qos. destruct n as [|[[p|p|]|[p|p|]|]]; intros H; try discriminate;
    try (destruct p; discriminate); injection H as <-; reflexivity.
Qed.
Lemma qos_err n : qos n = Err (InvalidQoS n) \/ exists q, qos n = Ok q.
Proof. unfold qos. destruct n as [|[p|[p|p|]|]]; eauto. Qed.

(** ProofStd.v -- lemmas about SpecStd and flag bytes *)
From Verif Require Import Base SpecWire SpecTopic SpecStd ProofBase ProofLib.

Lemma std_opt_string o : on_some (fun s => is_string s /\ short s) o -> decodes_opt_string (present o) (or_empty o) (opt field o).
Proof. destruct o; cbn; [tauto|auto]. Qed.

(** *** decidability of the rules for topic filters *)
Definition at_level_start (pre : bytes) : Prop := pre = [] \/ exists pre', pre = pre' ++ [SLASH].
Definition level_startb (pre : bytes) : bool :=
  match rev pre with [] => true | c :: _ => c =? SLASH end.
Lemma level_startb_spec pre : level_startb pre = true <-> at_level_start pre.
Proof.
  unfold level_startb, at_level_start. destruct (rev pre) as [|c l] eqn:E.
  - apply (f_equal (@rev _)) in E. rewrite rev_involutive in E. subst pre. cbn. tauto.
  - apply (f_equal (@rev _)) in E. rewrite rev_involutive in E. subst pre. cbn [rev].
    rewrite N.eqb_eq. split.
    + intros ->. right. eauto.
    + intros [H|[pre' H]]; [destruct (rev l); discriminate|]. apply app_inj_tail in H. apply H.
Qed.
Definition level_endb (post : bytes) : bool := match post with [] => true | c :: _ => c =? SLASH end.
Lemma level_endb_spec post : level_endb post = true <-> (post = [] \/ exists post', post = SLASH :: post').
Proof.
  destruct post as [|c l]; cbn [level_endb]; [tauto|]. rewrite N.eqb_eq. split.
  - intros ->. right. eauto.
  - intros [H|[? H]]; [discriminate|]. congruence.
Qed.
Fixpoint all_at (c : N) (ok : bytes -> bytes -> bool) (pre rest : bytes) : bool :=
  match rest with
  | [] => true
  | x :: post => (negb (x =? c) || ok pre post) && all_at c ok (pre ++ [x]) post
  end.
Lemma all_at_spec c ok rest : forall pre,
  all_at c ok pre rest = true <-> (forall a post, rest = a ++ c :: post -> ok (pre ++ a) post = true).
Proof.
  induction rest as [|x rest IH]; intros pre; cbn [all_at].
  - split; [intros _ a post H; destruct a; discriminate|reflexivity].
  - rewrite andb_true_iff, IH, orb_true_iff, negb_true_iff, N.eqb_neq. split.
    + intros [H1 H2] [|y a] post H; cbn [app] in H.
      * injection H as -> ->. rewrite app_nil_r. destruct H1 as [H1|H1]; [congruence|exact H1].
      * injection H as -> ->. specialize (H2 a post eq_refl). rewrite <- app_assoc in H2. exact H2.
    + intros H. split.
      * destruct (N.eq_dec x c) as [->|n]; [right|left; exact n]. specialize (H [] rest eq_refl). rewrite app_nil_r in H. exact H.
      * intros a post E. rewrite <- app_assoc. apply (H (x :: a)). rewrite E. reflexivity.
Qed.
Lemma hash_dec f : {hash_only_last f} + {~ hash_only_last f}.
Proof.
  destruct (all_at HASH (fun pre post => is_empty post && level_startb pre) [] f) eqn:E; [left|right].
  - rewrite all_at_spec in E. intros pre post H. specialize (E pre post H). apply andb_true_iff in E as [E1 E2].
    apply level_startb_spec in E2. destruct post; [split; [reflexivity|exact E2]|discriminate].
  - intros H. apply not_true_iff_false in E. apply E, all_at_spec. intros a post Ha. destruct (H a post Ha) as [-> Hs].
    apply level_startb_spec in Hs. cbn [app]. rewrite Hs. reflexivity.
Qed.
Lemma plus_dec f : {plus_whole_level f} + {~ plus_whole_level f}.
Proof.
  destruct (all_at PLUS (fun pre post => level_startb pre && level_endb post) [] f) eqn:E; [left|right].
  - rewrite all_at_spec in E. intros pre post H. specialize (E pre post H). apply andb_true_iff in E as [E1 E2].
    apply level_startb_spec in E1. apply level_endb_spec in E2. split; assumption.
  - intros H. apply not_true_iff_false in E. apply E, all_at_spec. intros a post Ha. destruct (H a post Ha) as [Hs Ht].
    apply level_startb_spec in Hs. apply level_endb_spec in Ht. cbn [app]. rewrite Hs, Ht. reflexivity.
Qed.
Lemma in_dec_n (x : N) l : {In x l} + {~ In x l}.
Proof. apply in_dec, N.eq_dec. Qed.

Lemma all_bytes (P : N -> Prop) (f : N -> bool) : (forall n, f n = true -> P n) ->
  forallb f (map N.of_nat (seq 0 256)) = true -> forall n, n < 256 -> P n.
Proof.
  intros Hf H n Hn. apply Hf. rewrite forallb_forall in H. apply H. apply in_map_iff. exists (N.to_nat n).
  split; [apply N2Nat.id|]. apply in_seq. lia.
Qed.
Lemma flags_sum n : n < 256 ->
  n = 128 * bit (bit_at 7 n) + 64 * bit (bit_at 6 n) + (32 * bit (bit_at 5 n) + 8 * (n / 8 mod 4) + 4 * bit (bit_at 2 n))
      + 2 * bit (bit_at 1 n) + bit (bit_at 0 n).
Proof.
  revert n. apply (all_bytes _ (fun n => n =? 128 * bit (bit_at 7 n) + 64 * bit (bit_at 6 n) + (32 * bit (bit_at 5 n) + 8 * (n / 8 mod 4) + 4 * bit (bit_at 2 n))
      + 2 * bit (bit_at 1 n) + bit (bit_at 0 n))); [intros n; apply N.eqb_eq|]. vm_compute. reflexivity.
Qed.
Lemma no_will_bits n : n < 256 -> n / 8 mod 8 = 0 -> n / 8 mod 4 = 0 /\ bit_at 5 n = false.
Proof.
  intros Hn H. revert n Hn H. apply (all_bytes (fun n => n / 8 mod 8 = 0 -> n / 8 mod 4 = 0 /\ bit_at 5 n = false)
    (fun n => negb (n / 8 mod 8 =? 0) || ((n / 8 mod 4 =? 0) && negb (bit_at 5 n)))); [|vm_compute; reflexivity].
  intros n H E. apply N.eqb_eq in E. rewrite E in H. cbn [negb orb] in H. apply andb_true_iff in H as [H1 H2].
  apply N.eqb_eq in H1. apply negb_true_iff in H2. split; assumption.
Qed.
Lemma publish_sum n : n < 256 -> n / 16 = 3 -> n = 0x30 + 8 * bit (bit_at 3 n) + 2 * (n / 2 mod 4) + bit (bit_at 0 n).
Proof.
  intros Hn H. revert n Hn H. apply (all_bytes (fun n => n / 16 = 3 -> n = 0x30 + 8 * bit (bit_at 3 n) + 2 * (n / 2 mod 4) + bit (bit_at 0 n))
    (fun n => negb (n / 16 =? 3) || (n =? 0x30 + 8 * bit (bit_at 3 n) + 2 * (n / 2 mod 4) + bit (bit_at 0 n)))); [|vm_compute; reflexivity].
  intros n H E. apply N.eqb_eq in E. rewrite E in H. cbn [negb orb] in H. apply N.eqb_eq in H. exact H.
Qed.

Lemma string_nil : is_string [].
Proof. exists []. split; [constructor|reflexivity]. Qed.

Lemma some_id n : Some n <> Some 0 -> u16 n -> identifier n.
Proof. intros H Hn. split; [|exact Hn]. destruct (N.eq_dec n 0) as [->|E]; [congruence|lia]. Qed.
Definition given (s : bytes) : option bytes := match s with [] => None | _ => Some s end.


(** ProofWrapBase.v -- the relation between the translations with and without overflow checks, and its
    composition rules. *)
From Verif Require Import ProofBase SrcBase.
From Verif Require WrapBase.

(** the unchecked computation does the same unless the checked one panics *)
Definition osim {A} (o o' : outcome A) : Prop := o <> Panic -> o' = o.
Definition wsim {A} (m m' : writer A) : Prop := forall b, fst (m b) <> Panic -> m' b = m b.

Lemma wsim_refl {A} (m : writer A) : wsim m m. Proof. intros b _. reflexivity. Qed.
Lemma osim_refl {A} (m : outcome A) : osim m m. Proof. intros _. reflexivity. Qed.
Lemma wsim_bind {A B} (m m' : writer A) (k k' : A -> writer B) :
  wsim m m' -> (forall a, wsim (k a) (k' a)) -> wsim (wbind m k) (wbind m' k').
Proof.
  intros Hm Hk b Hp. unfold wbind in *. specialize (Hm b). destruct (m b) as [[a|e| |] b1]; cbn [fst] in *;
    try (rewrite Hm by discriminate; cbn; reflexivity).
  - rewrite Hm by discriminate. apply Hk, Hp.
  - congruence.
Qed.
Lemma wsim_lift {A} (o o' : outcome A) : osim o o' -> wsim (lift o) (lift o').
Proof. intros H b Hp. unfold lift in *. cbn [fst] in Hp. rewrite (H Hp). reflexivity. Qed.
Lemma osim_run {A} (m m' : writer A) b : wsim m m' -> osim (run m b) (run m' b).
Proof. intros H Hp. unfold run in *. rewrite (H b Hp). reflexivity. Qed.
Lemma wsim_while {S} fuel (c c' : S -> writer bool) (f f' : S -> writer S) :
  (forall s, wsim (c s) (c' s)) -> (forall s, wsim (f s) (f' s)) ->
  forall s, wsim (while_ fuel c f s) (while_ fuel c' f' s).
Proof.
  intros Hc Hf. induction fuel as [|fuel IH]; intros s; cbn [while_]; [apply wsim_refl|].
  apply wsim_bind; [apply Hc|]. intros [|]; [|apply wsim_refl]. apply wsim_bind; [apply Hf|]. exact IH.
Qed.
Lemma wsim_for {X S} (f f' : X -> S -> writer S) l :
  (forall x s, wsim (f x s) (f' x s)) -> forall s, wsim (for_ f l s) (for_ f' l s).
Proof.
  intros Hf. induction l as [|x l IH]; intros s; cbn [for_]; [apply wsim_refl|].
  apply wsim_bind; [apply Hf|]. exact IH.
Qed.
Lemma wsim_for_ctl {X S R} (f f' : X -> S -> writer (ctl S R)) l :
  (forall x s, wsim (f x s) (f' x s)) -> forall s, wsim (for_ctl f l s) (for_ctl f' l s).
Proof.
  intros Hf. induction l as [|x l IH]; intros s; cbn [for_ctl]; [apply wsim_refl|].
  apply wsim_bind; [apply Hf|]. intros [s'|s'|r]; [apply IH|apply wsim_refl..].
Qed.
Lemma wsim_fold {X S} (f f' : S -> X -> writer S) l :
  (forall s x, wsim (f s x) (f' s x)) -> forall s, wsim (fold_ f l s) (fold_ f' l s).
Proof.
  intros Hf. induction l as [|x l IH]; intros s; cbn [fold_]; [apply wsim_refl|].
  apply wsim_bind; [apply Hf|]. exact IH.
Qed.
Lemma wsim_map {X Y} (f f' : X -> writer Y) l :
  (forall x, wsim (f x) (f' x)) -> wsim (map_ f l) (map_ f' l).
Proof.
  intros Hf. induction l as [|x l IH]; cbn [map_]; [apply wsim_refl|].
  apply wsim_bind; [apply Hf|]. intros y. apply wsim_bind; [exact IH|]. intros ys. apply wsim_refl.
Qed.
Lemma osim_add a b : osim (usize_add a b) (WrapBase.usize_add a b).
Proof.
  unfold osim, usize_add, WrapBase.usize_add. destruct (N.leb_spec (a + b) usize_max) as [H|H]; [|congruence].
  intros _. f_equal. apply N.mod_small. change usize_max with (2 ^ 64 - 1) in H. lia.
Qed.
Lemma osim_sub a b : osim (usize_sub a b) (WrapBase.usize_sub a b).
Proof. unfold osim, usize_sub, WrapBase.usize_sub. destruct (b <=? a); congruence. Qed.
Lemma osim_i32 a b : osim (i32_add a b) (WrapBase.i32_add a b).
Proof.
  unfold osim, i32_add, WrapBase.i32_add. destruct (N.ltb_spec (a + b) (2 ^ 31)) as [H|H]; [|congruence].
  intros _. f_equal. apply N.mod_small. lia.
Qed.
Lemma osim_shl8 a n : osim (u8_shl a n) (WrapBase.u8_shl a n).
Proof.
  unfold osim, u8_shl, shl, WrapBase.u8_shl. destruct (N.ltb_spec n 8) as [H|H]; [|congruence].
  intros _. rewrite (N.mod_small n) by exact H. reflexivity.
Qed.
Lemma osim_shr8 a n : osim (u8_shr a n) (WrapBase.u8_shr a n).
Proof.
  unfold osim, u8_shr, shr, WrapBase.u8_shr. destruct (N.ltb_spec n 8) as [H|H]; [|congruence].
  intros _. rewrite (N.mod_small n) by exact H. reflexivity.
Qed.
Lemma osim_shl64 a n : osim (usize_shl a n) (WrapBase.usize_shl a n).
Proof.
  unfold osim, usize_shl, shl, WrapBase.usize_shl. destruct (N.ltb_spec n 64) as [H|H]; [|congruence].
  intros _. rewrite (N.mod_small n) by exact H. reflexivity.
Qed.

Create HintDb sim discriminated.
Global Hint Resolve osim_add osim_sub osim_i32 osim_shl8 osim_shr8 osim_shl64 : sim.

Ltac sim1 :=
  cbv beta;
  lazymatch goal with
  | |- wsim (wbind _ _) _ => apply wsim_bind; [|intro]
  | |- wsim (let x := ?v in _) _ => cbv zeta
  | |- wsim (match ?x with _ => _ end) _ => destruct x
  | |- wsim (match ?x with _ => _ end _) _ => destruct x
  | |- wsim (wret _) _ => apply wsim_refl
  | |- wsim (keep _) _ => apply wsim_refl
  | |- wsim (while_ _ _ _ _) _ => apply wsim_while; [intro|intro]
  | |- wsim (for_ _ _ _) _ => apply wsim_for; intros ? ?
  | |- wsim (for_ctl _ _ _) _ => apply wsim_for_ctl; intros ? ?
  | |- wsim (fold_ _ _ _) _ => apply wsim_fold; intros ? ?
  | |- wsim (map_ _ _) _ => apply wsim_map; intros ?
  | |- wsim (lift _) _ => first [apply wsim_lift; solve [auto with sim] | apply wsim_refl]
  | |- osim (run _ _) _ => apply osim_run
  | |- _ => solve [auto with sim | apply wsim_refl]
  end.
Ltac sim := repeat sim1.

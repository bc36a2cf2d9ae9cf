(** ProofTraceBase.v -- the translation that records what is printed (Trace*.v) against the one that does not
    (Src*.v): the relation and its rules. *)
From Verif Require Import Base Lib SrcBase.
From Verif Require TraceBase.

(** [m'] does what [m] does and prints nothing *)
Definition wq {A} (m : writer A) (m' : TraceBase.writer A) : Prop := forall b, m' b = ((fst (m b), []), snd (m b)).
Definition oq {A} (o : outcome A) (o' : TraceBase.outcome A) : Prop := o' = (o, []).

Lemma wq_silent {A} (m : writer A) : wq m (TraceBase.silent m).
Proof. intros b. reflexivity. Qed.
Lemma wq_bind {A B} (m : writer A) m' (k : A -> writer B) k' :
  wq m m' -> (forall a, wq (k a) (k' a)) -> wq (wbind m k) (TraceBase.wbind m' k').
Proof.
  intros Hm Hk b. unfold wbind, TraceBase.wbind. rewrite (Hm b). destruct (m b) as [[a|e| |] b1]; cbn [fst snd]; try reflexivity.
  rewrite (Hk a b1). destruct (k a b1) as [o b2]; reflexivity.
Qed.
Lemma wq_lift {A} (o : outcome A) o' : oq o o' -> wq (lift o) (TraceBase.lift o').
Proof. intros -> b. reflexivity. Qed.
Lemma oq_run {A} (m : writer A) m' b : wq m m' -> oq (run m b) (TraceBase.run m' b).
Proof. intros H. unfold oq, run, TraceBase.run. rewrite (H b). reflexivity. Qed.
Lemma wq_while {S} fuel (c : S -> writer bool) c' f f' :
  (forall s, wq (c s) (c' s)) -> (forall s, wq (f s) (f' s)) -> forall s, wq (while_ fuel c f s) (TraceBase.while_ fuel c' f' s).
Proof.
  intros Hc Hf. induction fuel as [|fuel IH]; intros s; cbn [while_ TraceBase.while_]; [apply wq_silent|].
  apply wq_bind; [apply Hc|]. intros [|]; [|apply wq_silent]. apply wq_bind; [apply Hf|exact IH].
Qed.
Lemma wq_for {X S} (f : X -> S -> writer S) f' : (forall x s, wq (f x s) (f' x s)) -> forall l s, wq (for_ f l s) (TraceBase.for_ f' l s).
Proof.
  intros H. induction l as [|x l IH]; intros s; cbn [for_ TraceBase.for_]; [apply wq_silent|]. apply wq_bind; [apply H|exact IH].
Qed.
Lemma wq_for_ctl {X S R} (f : X -> S -> writer (ctl S R)) f' :
  (forall x s, wq (f x s) (f' x s)) -> forall l s, wq (for_ctl f l s) (TraceBase.for_ctl f' l s).
Proof.
  intros H. induction l as [|x l IH]; intros s; cbn [for_ctl TraceBase.for_ctl]; [apply wq_silent|].
  apply wq_bind; [apply H|]. intros [s'|s'|r]; [apply IH|apply wq_silent..].
Qed.
Lemma wq_fold {X S} (f : S -> X -> writer S) f' : (forall s x, wq (f s x) (f' s x)) -> forall l s, wq (fold_ f l s) (TraceBase.fold_ f' l s).
Proof.
  intros H. induction l as [|x l IH]; intros s; cbn [fold_ TraceBase.fold_]; [apply wq_silent|]. apply wq_bind; [apply H|exact IH].
Qed.
Lemma wq_map {X Y} (f : X -> writer Y) f' : (forall x, wq (f x) (f' x)) -> forall l, wq (map_ f l) (TraceBase.map_ f' l).
Proof.
  intros H. induction l as [|x l IH]; cbn [map_ TraceBase.map_]; [apply wq_silent|]. apply wq_bind; [apply H|]. intros y.
  apply wq_bind; [exact IH|]. intros ys. apply wq_silent.
Qed.

Create HintDb quiet discriminated.
Ltac quiet1 :=
  cbv beta;
  lazymatch goal with
  | |- wq (wbind _ _) _ => apply wq_bind; [|intro]
  | |- wq (let x := ?v in _) _ => cbv zeta
  | |- wq (match ?x with _ => _ end) _ => destruct x
  | |- wq (match ?x with _ => _ end _) _ => destruct x
  | |- wq (while_ _ _ _ _) _ => apply wq_while; [intro|intro]
  | |- wq (for_ _ _ _) _ => apply wq_for; intros ? ?
  | |- wq (for_ctl _ _ _) _ => apply wq_for_ctl; intros ? ?
  | |- wq (fold_ _ _ _) _ => apply wq_fold; intros ? ?
  | |- wq (map_ _ _) _ => apply wq_map; intros ?
  | |- wq (lift _) _ => apply wq_lift; first [reflexivity | solve [auto with quiet]]
  | |- oq (run _ _) _ => apply oq_run
  | |- _ => first [apply wq_silent | solve [auto with quiet]]
  end.
Ltac quiet := repeat quiet1.

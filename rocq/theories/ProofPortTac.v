(** ProofPortTac.v -- the `len` methods on an arbitrary target: when the model's length is a number of the target, the
    translation computes it, whatever the target does on overflow. *)
From Verif Require Import ProofSrcTacW ProofPortBase.
From Verif Require PortBase PortLib.
Section WithTarget.
Context {T : Target} {WT : Wide}.

Definition fit (o : outcome N) (n : N) : Prop := n < 2 ^ bits -> o = Ok n.
Definition fits (o : outcome N * bytes) (n : N) (b : bytes) : Prop := n < 2 ^ bits -> o = (Ok n, b).
Lemma fit_add a c : fit (PortBase.usize_add a c) (a + c).
Proof. intros H. apply add_small, H. Qed.
Lemma fit_bind (m : writer N) (k : N -> writer N) n F b :
  fits (m b) n b -> (n < 2 ^ bits -> fits (k n b) F b) -> n <= F -> fits (wbind m k b) F b.
Proof.
  intros H1 H2 H3 H. assert (L : n < 2 ^ bits) by lia. unfold wbind. rewrite (H1 L). apply H2; assumption.
Qed.
Lemma fit_ret n F b : n = F -> fits (wret n b) F b.
Proof. intros ->. intros _. reflexivity. Qed.
Lemma fit_run (m : writer N) n : fits (m []) n [] -> fit (run m []) n.
Proof. unfold run. intros H L. rewrite (H L). reflexivity. Qed.
Lemma fit_for {X} (f : N -> X -> N) (body : X -> N -> writer N) :
  (forall a x, a <= f a x) -> (forall x a b, fits (body x a b) (f a x) b) ->
  forall l a b, fits (for_ body l a b) (fold_left f l a) b.
Proof.
  intros H1 H2. induction l as [|x l IH]; intros a b; cbn [for_ fold_left]; [now apply fit_ret|].
  apply (fit_bind _ _ (f a x)); [apply H2 | intros L'; apply IH | apply fold_ge, H1].
Qed.
Lemma fit_fold {X} (f : N -> X -> N) (body : N -> X -> writer N) :
  (forall a x, a <= f a x) -> (forall x a b, fits (body a x b) (f a x) b) ->
  forall l a b, fits (fold_ body l a b) (fold_left f l a) b.
Proof.
  intros H1 H2. induction l as [|x l IH]; intros a b; cbn [fold_ fold_left]; [now apply fit_ret|].
  apply (fit_bind _ _ (f a x)); [apply H2 | intros L'; apply IH | apply fold_ge, H1].
Qed.
Lemma fit_lift o n b : fit o n -> fits (lift o b) n b.
Proof. intros H L. rewrite (H L). reflexivity. Qed.
Lemma fit_len_len n : fit (PortLib.len_len n) (Lib.len_len n).
Proof.
  intros _. unfold PortLib.len_len, Lib.len_len, run, wret.
  repeat (match goal with |- context [if ?c then _ else _] => destruct c; [reflexivity|] end); reflexivity.
Qed.
End WithTarget.

(** one step: [fits (m b) F b]; [eqs] closes the calls of other functions *)
Ltac flen1 eqs :=
  cbv beta;
  lazymatch goal with
  | |- fits ((let x := ?A in @?R x) ?b) ?F ?b' => change (fits (R A b) F b'); cbv beta; flen1 eqs
  | |- fits (wbind _ (fun x => wret x) _) _ _ => rewrite bind_ret; flen1 eqs
  | |- fits ?l (let x := ?A in @?R x) ?b' =>
      lazymatch l with wbind _ _ _ => flenbind eqs | _ => change (fits l (R A) b'); cbv beta; flen1 eqs end
  | |- fits (wbind _ _ _) _ _ => flenbind eqs
  | |- fits (wret _ _) _ _ => apply fit_ret; unfold V5Property.add_props_len; first [lia | match goal with |- ?G => fail 100 "len:" G end]
  | |- fits (lift (PortBase.usize_add ?a ?c) _) ?F _ =>
      apply fit_lift; replace F with (a + c) by (unfold V5Property.add_props_len; first [lia | match goal with |- ?G => fail 100 "len:" G end]); apply fit_add
  | |- fits (lift _ _) _ _ => apply fit_lift; eqs
  | |- fits (for_ ?body _ _ _) (fold_left ?f _ _) _ =>
      apply (fit_for f body); [intros; cbv beta; clear; mono | intros; destr_state; cbn [fst snd]; flen1 eqs]
  | |- fits (fold_ ?body _ _ _) (fold_left ?f _ _) _ =>
      apply (fit_fold f body); [intros; cbv beta; clear; mono | intros; destr_state; cbn [fst snd]; flen1 eqs]
  | |- fits ((if ?c then _ else _) _) _ _ => destruct c eqn:?; cbn [is_some is_none]; flen1 eqs
  | |- fits ((match ?c with Some v => _ | None => _ end) _) _ _ => destruct c eqn:?; cbn [is_some is_none]; flen1 eqs
  | |- ?G => fail 100 "flen1:" G
  end
with flenbind eqs :=
  lazymatch goal with
  | |- fits (wbind (lift (PortBase.usize_add ?a ?c)) _ _) _ _ =>
      tryif (assert (a + c < 2 ^ bits) by (pose proof word_big; lia))
      then (rewrite (add_small a c) by assumption; rewrite lift_bind; flen1 eqs)
      else (apply (fit_bind _ _ (a + c)); [apply fit_lift, fit_add | let H := fresh in intros H; flen1 eqs | mono])
  | |- fits (wbind (lift (PortLib.len_len ?n)) _ _) _ _ =>
      apply (fit_bind _ _ (Lib.len_len n)); [apply fit_lift, fit_len_len | let H := fresh in intros H; flen1 eqs | mono]
  | |- fits (wbind (wret ?x) _ _) _ _ => rewrite wret_bind; flen1 eqs
  | |- fits (wbind (lift _) _ _) _ _ =>
      eapply fit_bind; [apply fit_lift; eqs | let H := fresh in intros H; flen1 eqs | mono]
  | |- fits (wbind (fold_ ?body ?l ?a) _ _) ?F _ =>
      lazymatch F with context [fold_left ?f l a] =>
        apply (fit_bind _ _ (fold_left f l a)); [flen1 eqs | let H := fresh in intros H; flen1 eqs | mono]
      end
  | |- fits (wbind ?m ?k ?b) (let x := ?A in @?R x) ?b' =>
      lazymatch A with
      | match _ with _ => _ end => flenlet A R eqs
      | fold_left _ _ _ => flenlet A R eqs
      | _ => change (fits (wbind m k b) (R A) b'); cbv beta; flen1 eqs
      end
  | |- ?G => fail 100 "flenbind:" G
  end
with flenlet A R eqs :=
  apply (fit_bind _ _ A);
  [ flen1 eqs
  | let H := fresh in intros H;
    lazymatch goal with |- fits ?l _ ?b' => change (fits l (R A) b') end; generalize dependent A;
    let v := fresh "v" in intros v H; cbv beta; flen1 eqs
  | mono ].
Ltac flen_tac eqs := apply fit_run; flen1 eqs.

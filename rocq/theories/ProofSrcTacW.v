(** ProofSrcTacW.v -- tactics that compare translated `len` and `write` methods with the model's. *)
From Verif Require Export ProofSrcTac.

(** ** `len`: the translation adds up with checked additions, the model in N; they agree when the total fits *)
Definition cap (n : N) : outcome N := if n <=? usize_max then Ok n else Panic.
Lemma cap_ok n : n <= usize_max -> cap n = Ok n.
Proof. intros H. unfold cap. apply N.leb_le in H. rewrite H. reflexivity. Qed.
Lemma cap_panic n : usize_max < n -> cap n = Panic.
Proof. intros H. unfold cap. apply N.leb_gt in H. rewrite H. reflexivity. Qed.
Lemma usize_add_cap a c : usize_add a c = cap (a + c).
Proof. reflexivity. Qed.
Lemma cap_bind (m : writer N) (k : N -> writer N) n F b :
  m b = (cap n, b) -> (n <= usize_max -> k n b = (cap F, b)) -> n <= F -> wbind m k b = (cap F, b).
Proof.
  intros H1 H2 H3. unfold wbind. rewrite H1. destruct (N.le_gt_cases n usize_max) as [L|L].
  - rewrite (cap_ok n L). apply H2, L.
  - rewrite (cap_panic n L), cap_panic; [reflexivity|lia].
Qed.
Lemma bind_ret {A} (m : writer A) b : wbind m (fun x => wret x) b = m b.
Proof. unfold wbind, wret. destruct (m b) as [[a|e| |] b']; reflexivity. Qed.
Lemma ret_cap n F b : n = F -> n <= usize_max -> wret n b = (cap F, b).
Proof. intros -> H. rewrite cap_ok by exact H. reflexivity. Qed.
Lemma run_cap (m : writer N) n : m [] = (cap n, []) -> run m [] = cap n.
Proof. unfold run. intros ->. reflexivity. Qed.
Lemma le_let (n A : N) (R : N -> N) : n <= A -> (forall v, n <= v -> n <= R v) -> n <= (let x := A in R x).
Proof. intros H1 H2. apply H2, H1. Qed.
Lemma fold_ge {X} (f : N -> X -> N) : (forall a x, a <= f a x) -> forall l a, a <= fold_left f l a.
Proof. intros H. induction l as [|x l IH]; intros a; cbn; [lia|]. specialize (IH (f a x)). specialize (H a x). lia. Qed.
Lemma for_cap {X} (f : N -> X -> N) (body : X -> N -> writer N) :
  (forall a x, a <= f a x) -> (forall x a b, a <= usize_max -> body x a b = (cap (f a x), b)) ->
  forall l a b, a <= usize_max -> for_ body l a b = (cap (fold_left f l a), b).
Proof.
  intros H1 H2. induction l as [|x l IH]; intros a b L; cbn [for_ fold_left]; [now apply ret_cap|].
  apply (cap_bind _ _ (f a x)); [apply H2, L | intros L'; apply IH, L' | apply fold_ge, H1].
Qed.
Lemma fold_cap {X} (f : N -> X -> N) (body : N -> X -> writer N) :
  (forall a x, a <= f a x) -> (forall x a b, a <= usize_max -> body a x b = (cap (f a x), b)) ->
  forall l a b, a <= usize_max -> fold_ body l a b = (cap (fold_left f l a), b).
Proof.
  intros H1 H2. induction l as [|x l IH]; intros a b L; cbn [fold_ fold_left]; [now apply ret_cap|].
  apply (cap_bind _ _ (f a x)); [apply H2, L | intros L'; apply IH, L' | apply fold_ge, H1].
Qed.
Lemma zero_max : 0 <= usize_max.
Proof. pose proof usize_big. lia. Qed.
Lemma lift_cap o n b : o = cap n -> lift o b = (cap n, b).
Proof. intros ->. reflexivity. Qed.
Lemma lift_ok {A} (o : outcome A) a (b : bytes) : o = Ok a -> lift o b = (Ok a, b).
Proof. intros ->. reflexivity. Qed.
Lemma len_len_cap n : SrcLib.len_len n = cap (Lib.len_len n).
Proof.
  rewrite len_len_eq, cap_ok; [reflexivity|]. pose proof usize_big. unfold Lib.len_len.
  repeat (match goal with |- (if ?c then _ else _) <= _ => destruct c end); lia.
Qed.

Ltac mono :=
  lazymatch goal with
  | |- ?n <= ?n => apply N.le_refl
  | |- ?n <= (let x := ?A in @?R x) =>
      lazymatch A with
      | match _ with _ => _ end => monolet n A R
      | fold_left _ _ _ => monolet n A R
      | _ => change (n <= R A); cbv beta; mono
      end
  | |- ?n <= (match ?o with _ => _ end) => destruct o; mono
  | |- ?n <= fold_left ?f ?l ?a =>
      apply N.le_trans with a; [mono | apply fold_ge; intros; cbv beta; clear; mono]
  | |- ?n <= V5Property.add_props_len _ _ => unfold V5Property.add_props_len; mono
  | |- ?G => first [lia | fail 100 "mono:" G]
  end
with monolet n A R :=
  apply (le_let n A R); [mono | let v := fresh "v" in let Hv := fresh "Hv" in intros v Hv; cbv beta; mono].
(** one step: [m b = (cap F, b)]; [eqs] rewrites calls of other functions with their [cap] equations *)
Ltac len1 eqs :=
  cbv beta;
  lazymatch goal with
  | |- (let x := ?A in @?R x) ?b = ?r => change (R A b = r); cbv beta; len1 eqs
  | |- wbind _ (fun x => wret x) _ = _ => rewrite bind_ret; len1 eqs
  | |- ?l = (cap (let x := ?A in @?R x), ?b') =>
      lazymatch l with wbind _ _ _ => lenbind eqs | _ => change (l = (cap (R A), b')); cbv beta; len1 eqs end
  | |- wbind _ _ _ = _ => lenbind eqs
  | |- wret _ _ = _ => apply ret_cap; [unfold V5Property.add_props_len; first [lia | match goal with |- ?G => fail 100 "len:" G end] | assumption || (pose proof usize_big; lia)]
  | |- lift (usize_add ?a ?c) _ = _ =>
      apply lift_cap; rewrite usize_add_cap; apply f_equal; unfold V5Property.add_props_len; first [lia | match goal with |- ?G => fail 100 "len:" G end]
  | |- lift _ _ = _ => apply lift_cap; eqs
  | |- for_ ?body _ _ _ = (cap (fold_left ?f _ _), _) =>
      apply (for_cap f body); [intros; cbv beta; clear; mono | clear; intros; destr_state; cbn [fst snd]; len1 eqs | assumption || (pose proof usize_big; lia)]
  | |- fold_ ?body _ _ _ = (cap (fold_left ?f _ _), _) =>
      apply (fold_cap f body); [intros; cbv beta; clear; mono | clear; intros; destr_state; cbn [fst snd]; len1 eqs | assumption || (pose proof usize_big; lia)]
  | |- (if ?c then _ else _) _ = _ => destruct c eqn:?; cbn [is_some is_none]; len1 eqs
  | |- (match ?c with Some v => _ | None => _ end) _ = _ => destruct c eqn:?; cbn [is_some is_none]; len1 eqs
  | |- ?G => fail 100 "len1:" G
  end
with lenbind eqs :=
  lazymatch goal with
  | |- wbind (lift (usize_add ?a ?c)) _ _ = _ =>
      tryif (assert (a + c <= usize_max) by (clear; pose proof usize_big; lia))
      then (rewrite (usize_add_ok a c) by assumption; rewrite lift_bind; len1 eqs)
      else (apply (cap_bind _ _ (a + c)); [apply lift_cap, usize_add_cap | let H := fresh in intros H; len1 eqs | mono])
  | |- wbind (lift (SrcLib.len_len ?n)) _ _ = _ =>
      apply (cap_bind _ _ (Lib.len_len n)); [apply lift_cap, len_len_cap | let H := fresh in intros H; len1 eqs | mono]
  | |- wbind (wret ?x) _ _ = _ => rewrite wret_bind; len1 eqs
  | |- wbind (lift _) _ _ = _ =>
      eapply cap_bind; [apply lift_cap; eqs | let H := fresh in intros H; len1 eqs | mono]
  | |- wbind (fold_ ?body ?l ?a) _ _ = (cap ?F, _) =>
      lazymatch F with context [fold_left ?f l a] =>
        apply (cap_bind _ _ (fold_left f l a)); [len1 eqs | let H := fresh in intros H; len1 eqs | mono]
      end
  | |- wbind ?m ?k ?b = (cap (let x := ?A in @?R x), ?b') =>
      lazymatch A with
      | match _ with _ => _ end => lenlet A R eqs
      | fold_left _ _ _ => lenlet A R eqs
      | _ => change (wbind m k b = (cap (R A), b')); cbv beta; len1 eqs
      end
  | |- ?G => fail 100 "lenbind:" G
  end
with lenlet A R eqs :=
  apply (cap_bind _ _ A);
  [ len1 eqs
  | let H := fresh in intros H;
    lazymatch goal with |- ?l = (cap _, ?b') => change (l = (cap (R A), b')) end; generalize dependent A;
    let v := fresh "v" in intros v H; cbv beta; len1 eqs
  | mono ].
Ltac len_tac eqs := apply run_cap; len1 eqs.

(** ** `write` *)
Lemma w_eq {A B} (m m' : writer A) (k k' : A -> writer B) b :
  m b = m' b -> (forall a b', m' b = (Ok a, b') -> k a b' = k' a b') -> wbind m k b = wbind m' k' b.
Proof.
  intros H1 H2. unfold wbind. rewrite H1. destruct (m' b) as [[a|e| |] b'] eqn:E; try reflexivity. apply H2. reflexivity.
Qed.
Lemma bind_tt (m : writer unit) b : wbind m (fun _ => wret tt) b = m b.
Proof. unfold wbind, wret. destruct (m b) as [[[]|e| |] b']; reflexivity. Qed.
Lemma werr_bind {A B} e (k : A -> writer B) b : wbind (werr e) k b = werr e b.
Proof. reflexivity. Qed.
Lemma for_each_eq {X} (body : X -> unit -> writer unit) (f : X -> writer unit) :
  (forall x b, body x tt b = f x b) -> forall l b, for_ body l tt b = for_each l f b.
Proof.
  intros H. induction l as [|x l IH]; intros b; cbn [for_ for_each]; [reflexivity|].
  apply w_eq; [apply H|]. intros [] b' _. apply IH.
Qed.
Lemma map_eq {X Y} (f : X -> Y) (body : X -> writer Y) : (forall x b, body x b = (Ok (f x), b)) ->
  forall l b, map_ body l b = (Ok (map f l), b).
Proof.
  intros H. induction l as [|x l IH]; intros b; cbn [map_ map]; [reflexivity|].
  unfold wbind. rewrite H, IH. reflexivity.
Qed.
Lemma bind_ok {A B} (m : writer A) (k : A -> writer B) a b : m b = (Ok a, b) -> wbind m k b = k a b.
Proof. intros H. unfold wbind. rewrite H. reflexivity. Qed.
Lemma qos_src q : SrcLib.QoS_as_u8 q = qos_u8 q.
Proof. destruct q; reflexivity. Qed.
Lemma shl_qos1 q : u8_shl (qos_u8 q) 1 = Ok (N.shiftl (qos_u8 q) 1).
Proof. destruct q; reflexivity. Qed.
Lemma shl_qos3 q : u8_shl (qos_u8 q) 3 = Ok (N.shiftl (qos_u8 q) 3).
Proof. destruct q; reflexivity. Qed.
Lemma shl_bool3 q : u8_shl (bool_u8 q) 3 = Ok (N.shiftl (bool_u8 q) 3).
Proof. destruct q; reflexivity. Qed.
Lemma prop_src p : SrcV5Property.PropertyType_as_u8 p = V5Property.property_u8 p.
Proof. destruct p; reflexivity. Qed.
Lemma wrl_count len b count b' : write_remaining_length len b = (Ok count, b') -> count <= 4 /\ len <= 268435455.
Proof. apply write_rem_bound. Qed.

Lemma bind_assoc {A B C} (m : writer A) (k : A -> writer B) (h : B -> writer C) b :
  wbind (wbind m k) h b = wbind m (fun a => wbind (k a) h) b.
Proof. unfold wbind. destruct (m b) as [[a|e| |] b']; reflexivity. Qed.
(** [m b = m' b]; [lens] rewrites the calls of `len`, [eqs] closes the calls of other `write`s *)
Ltac w1 lens eqs :=
  cbv beta;
  lazymatch goal with
  | |- wbind (wret _) _ _ = _ => rewrite wret_bind; w1 lens eqs
  | |- wbind (werr _) _ _ = _ => rewrite werr_bind; w1 lens eqs
  | |- wbind (lift (Ok _)) _ _ = _ => rewrite lift_bind; w1 lens eqs
  | |- wbind (lift (usize_add ?a ?c)) _ _ = _ =>
      rewrite (usize_add_ok a c) by (pose proof usize_big; lia); rewrite lift_bind; w1 lens eqs
  | |- wbind (lift (u8_shl (qos_u8 _) 1)) _ _ = _ => rewrite shl_qos1; w1 lens eqs
  | |- wbind (lift (u8_shl (qos_u8 _) 3)) _ _ = _ => rewrite shl_qos3; w1 lens eqs
  | |- wbind (lift (u8_shl (bool_u8 _) 3)) _ _ = _ => rewrite shl_bool3; w1 lens eqs
  | |- wbind (lift (u8_shl ?a ?n)) _ _ = _ =>
      let v := eval vm_compute in (u8_shl a n) in change (u8_shl a n) with v; w1 lens eqs
  | |- wbind (lift _) _ _ = _ => lens; rewrite cap_ok by (assumption || (pose proof usize_big; lia)); w1 lens eqs
  | |- wbind (wbind (lift _) _) _ _ = _ => rewrite bind_assoc; w1 lens eqs
  | |- wbind (map_ _ _) _ _ = _ => lens; w1 lens eqs
  | |- @wbind unit unit ?m (fun _ => wret tt) ?b = _ => rewrite (bind_tt m b); w1 lens eqs
  | |- _ = @wbind unit unit ?m (fun _ => wret tt) ?b => rewrite (bind_tt m b); w1 lens eqs
  | |- wbind _ (fun x => wret x) _ = _ => rewrite bind_ret; w1 lens eqs
  | |- _ = wbind (when_some _ _) _ _ => unfold when_some at 1; w1 lens eqs
  | |- _ = when_some _ _ _ => unfold when_some at 1; w1 lens eqs
  | |- @wbind ?A _ (match _ with _ => _ end) _ _ = @wbind ?A _ (match _ with _ => _ end) _ _ => wcongr lens eqs
  | |- wbind (match ?c with _ => _ end) _ _ = _ => destruct c eqn:?; w1 lens eqs
  | |- wbind _ _ _ = wbind _ _ _ => wcongr lens eqs
  | |- (match ?c with _ => _ end) _ = _ => destruct c eqn:?; w1 lens eqs
  | |- for_ _ _ _ _ = _ => apply for_each_eq; intros; destr_state; cbn [fst snd]; w1 lens eqs
  | |- _ => first [reflexivity | apply write_remaining_length_eq; assumption | eqs | match goal with |- ?G => fail 100 "w1:" G end]
  end
with wcongr lens eqs :=
  apply w_eq;
  [ w1 lens eqs
  | let H := fresh in intros ? ? H; first [apply wrl_count in H | clear H]; w1 lens eqs ].

(** ProofBase.v -- proof infrastructure: arithmetic, lists, exhaustive byte
    sweeps, weakest preconditions for readers, output lemmas for writers. *)
From Coq Require Export ZArith Lia ZifyBool ZifyNat ZifyN.
From Verif Require Export Base SpecWire.

Ltac Zify.zify_post_hook ::= Z.div_mod_to_equations.

Global Arguments N.mul : simpl never.
Global Arguments N.add : simpl never.
Global Arguments N.sub : simpl never.
Global Arguments N.div : simpl never.
Global Arguments N.modulo : simpl never.
Global Arguments N.eqb : simpl never.
Global Arguments N.ltb : simpl never.
Global Arguments N.leb : simpl never.
Global Arguments N.land : simpl never.
Global Arguments N.lor : simpl never.
Global Arguments N.shiftl : simpl never.
Global Arguments N.shiftr : simpl never.
Global Arguments N.pow : simpl never.
Global Arguments N.of_nat : simpl never.
Global Arguments N.to_nat : simpl never.

(** *** lists *)
Lemma blen_app {A} (a b : list A) : blen (a ++ b) = blen a + blen b.
Proof. unfold blen; rewrite app_length; lia. Qed.
Lemma blen_cons {A} (x : A) l : blen (x :: l) = 1 + blen l.
Proof. unfold blen; cbn [List.length]; lia. Qed.
Lemma blen_nil {A} : blen (@nil A) = 0.
Proof. reflexivity. Qed.
Lemma blen_map {A B} (f : A -> B) l : blen (map f l) = blen l.
Proof. unfold blen; rewrite map_length; reflexivity. Qed.
Lemma blen_0 {A} (l : list A) : blen l = 0 -> l = [].
Proof. destruct l; [reflexivity|rewrite blen_cons; lia]. Qed.
Lemma to_nat_blen {A} (l : list A) : N.to_nat (blen l) = List.length l.
Proof. unfold blen; lia. Qed.
Global Hint Rewrite @blen_app @blen_cons @blen_nil @blen_map : blen.

Lemma firstn_app_exact {A} (a b : list A) n :
  n = List.length a -> firstn n (a ++ b) = a.
Proof. intros ->. rewrite firstn_app, Nat.sub_diag, firstn_all. apply app_nil_r. Qed.
Lemma skipn_app_exact {A} (a b : list A) n :
  n = List.length a -> skipn n (a ++ b) = b.
Proof. intros ->. rewrite skipn_app, Nat.sub_diag, skipn_all. reflexivity. Qed.

Lemma bytes_ok_app a b : bytes_ok (a ++ b) <-> bytes_ok a /\ bytes_ok b.
Proof. apply Forall_app. Qed.
Lemma bytes_ok_cons x l : bytes_ok (x :: l) <-> x < 256 /\ bytes_ok l.
Proof. unfold bytes_ok; rewrite Forall_cons_iff; reflexivity. Qed.
Lemma bytes_ok_nil : bytes_ok [].
Proof. constructor. Qed.
Global Hint Resolve bytes_ok_nil : core.

Lemma bytes_eqb_eq a b : bytes_eqb a b = true <-> a = b.
Proof.
  revert b; induction a as [|x a IH]; intros [|y b]; cbn [bytes_eqb]; split; intros H;
    try discriminate; try reflexivity.
  - apply andb_true_iff in H as [H1 H2]. apply N.eqb_eq in H1. apply IH in H2. congruence.
  - injection H as -> ->. rewrite N.eqb_refl. apply IH; reflexivity.
Qed.
Lemma bytes_eqb_refl a : bytes_eqb a a = true.
Proof. apply bytes_eqb_eq; reflexivity. Qed.
Lemma bytes_eqb_neq a b : bytes_eqb a b = false <-> a <> b.
Proof.
  destruct (bytes_eqb a b) eqn:E; split; intros H; try discriminate.
  - apply bytes_eqb_eq in E; congruence.
  - intros ->. rewrite bytes_eqb_refl in E; discriminate.
  - reflexivity.
Qed.

(** *** exhaustive sweep over the 256 bytes, lifted to a lemma *)
Fixpoint below (n : nat) : list N :=
  match n with O => [] | S k => N.of_nat k :: below k end.
Lemma in_below n x : x < N.of_nat n -> In x (below n).
Proof.
  induction n as [|n IH]; intros H; [lia|].
  cbn [below]. destruct (N.eq_dec x (N.of_nat n)) as [->|Hne]; [left; reflexivity|].
  right; apply IH; lia.
Qed.
Lemma byte_sweep (P : N -> bool) :
  forallb P (below 256) = true -> forall b, b < 256 -> P b = true.
Proof.
  intros H b Hb. rewrite forallb_forall in H. apply H, in_below. exact Hb.
Qed.

(** *** weakest precondition for reader results *)
Definition wp {A} (E : Error -> Prop) (o : outcome (A * bytes)) (Q : A -> bytes -> Prop) : Prop :=
  match o with
  | Ok (a, s) => Q a s
  | Err e => E e
  | Panic | Diverge => False
  end.

Lemma wp_bind {A B} E (m : reader A) (k : A -> reader B) s Q :
  wp E (m s) (fun a s' => wp E (k a s') Q) -> wp E (rbind m k s) Q.
Proof. unfold wp, rbind. destruct (m s) as [[a s']|e| |]; auto. Qed.
Lemma wp_ret {A} E (a : A) s (Q : A -> bytes -> Prop) : Q a s -> wp E (rret a s) Q.
Proof. auto. Qed.
Lemma wp_err {A} (E : Error -> Prop) e s (Q : A -> bytes -> Prop) : E e -> wp E (rerr e s) Q.
Proof. auto. Qed.
Lemma wp_mono {A} E (o : outcome (A * bytes)) (Q Q' : A -> bytes -> Prop) :
  wp E o Q -> (forall a s, Q a s -> Q' a s) -> wp E o Q'.
Proof. unfold wp; destruct o as [[a s]|e| |]; auto. Qed.
Lemma wp_lift_ok {A} E (a : A) s (Q : A -> bytes -> Prop) : Q a s -> wp E (rlift (Ok a) s) Q.
Proof. auto. Qed.

(** *** writers that only append: result and output do not depend on the buffer *)
Definition writes {A} (w : writer A) (r : outcome A) (out : bytes) : Prop :=
  forall buf, w buf = (r, buf ++ out).

Lemma writes_ret {A} (a : A) : writes (wret a) (Ok a) [].
Proof. intros buf; unfold wret; rewrite app_nil_r; reflexivity. Qed.
Lemma writes_err {A} e : writes (@werr A e) (Err e) [].
Proof. intros buf; unfold werr; rewrite app_nil_r; reflexivity. Qed.
Lemma writes_bind {A B} (m : writer A) (k : A -> writer B) a o1 r o2 :
  writes m (Ok a) o1 -> writes (k a) r o2 -> writes (wbind m k) r (o1 ++ o2).
Proof.
  intros H1 H2 buf. unfold wbind. rewrite H1, H2, app_assoc. reflexivity.
Qed.
Lemma writes_bind_err {A B} (m : writer A) (k : A -> writer B) e o1 :
  writes m (Err e) o1 -> writes (wbind m k) (Err e) o1.
Proof. intros H1 buf. unfold wbind. rewrite H1. reflexivity. Qed.
Lemma writes_extend l : writes (extend_from_slice l) (Ok tt) l.
Proof. intros buf; reflexivity. Qed.
Lemma writes_put_u8 n : writes (put_u8 n) (Ok tt) [n].
Proof. intros buf; reflexivity. Qed.
Lemma writes_put_u16 n : writes (put_u16 n) (Ok tt) (be16 n).
Proof. intros buf; reflexivity. Qed.
Lemma writes_put_u32 n : writes (put_u32 n) (Ok tt) (be32 n).
Proof. intros buf; reflexivity. Qed.
Lemma writes_when_some {A} (o : option A) f g :
  (forall a, o = Some a -> writes (f a) (Ok tt) (g a)) ->
  writes (when_some o f) (Ok tt) (opt g o).
Proof. destruct o as [a|]; intros H; cbn [when_some opt]; [apply H; reflexivity|apply writes_ret]. Qed.
Lemma writes_for_each {A} (l : list A) f g :
  (forall a, In a l -> writes (f a) (Ok tt) (g a)) ->
  writes (for_each l f) (Ok tt) (flat_map g l).
Proof.
  induction l as [|a l IH]; intros H; cbn [for_each flat_map].
  - apply writes_ret.
  - eapply writes_bind; [apply H; left; reflexivity|]. apply IH. intros b Hb. apply H; right; exact Hb.
Qed.
Lemma writes_eq {A} (w : writer A) r r' o o' :
  writes w r o -> r = r' -> o = o' -> writes w r' o'.
Proof. intros H -> ->; exact H. Qed.

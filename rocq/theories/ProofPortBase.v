(** ProofPortBase.v -- the translation for an arbitrary target (Port*.v) against the one for 64 bits with
    overflow checks (Src*.v): the relation, its rules, and src/lib.rs. *)
From Verif Require Import ProofBase Lib ProofLib ProofRelBase SrcBase ProofWrapBase.
From Verif Require ProofSrcBase SrcLib PortBase PortLib.
Notation Target := PortBase.Target.
Notation Wide := PortBase.Wide.
Notation bits := PortBase.bits.

(** [m'] does what [m] does, started with [s], unless [m] panics; on success [Q] holds *)
Definition psim {A} (m m' : writer A) (Q : A -> bytes -> Prop) (s : bytes) : Prop :=
  fst (m s) <> Panic -> m' s = m s /\ match m s with (Ok a, s') => Q a s' | _ => True end.

Lemma psim_bind {A B} (m m' : writer A) (k k' : A -> writer B) (P : A -> bytes -> Prop) Q s :
  psim m m' P s -> (forall a s', P a s' -> psim (k a) (k' a) Q s') -> psim (wbind m k) (wbind m' k') Q s.
Proof.
  intros Hm Hk. unfold psim, wbind in *. destruct (m s) as [[a|e| |] s1]; cbn [fst] in *; intros Hp.
  - destruct (Hm ltac:(discriminate)) as [-> HP]. apply Hk; assumption.
  - destruct (Hm ltac:(discriminate)) as [-> _]. split; [reflexivity|exact I].
  - congruence.
  - destruct (Hm ltac:(discriminate)) as [-> _]. split; [reflexivity|exact I].
Qed.
Lemma psim_conseq {A} (m m' : writer A) (P Q : A -> bytes -> Prop) s :
  psim m m' P s -> (forall a s', P a s' -> Q a s') -> psim m m' Q s.
Proof. intros H I Hp. destruct (H Hp) as [E HP]. split; [exact E|]. destruct (m s) as [[a|e| |] s1]; auto. Qed.
Lemma psim_wsim {A} (m m' : writer A) s : wsim m m' -> psim m m' (fun a s' => m s = (Ok a, s')) s.
Proof. intros H Hp. split; [apply H, Hp|]. destruct (m s) as [[a|e| |] s1]; auto. Qed.
Lemma wsim_psim {A} (m m' : writer A) (Q : bytes -> A -> bytes -> Prop) : (forall s, psim m m' (Q s) s) -> wsim m m'.
Proof. intros H b Hp. apply (H b Hp). Qed.
Lemma psim_eq {A} (m m' : writer A) Q s : psim m m' Q s -> fst (m s) <> Panic -> m' s = m s.
Proof. intros H Hp. apply (H Hp). Qed.
Lemma psim_assoc {A B C} (m m' : writer A) (k k' : A -> writer B) (l l' : B -> writer C) Q s :
  psim (wbind m (fun a => wbind (k a) l)) (wbind m' (fun a => wbind (k' a) l')) Q s ->
  psim (wbind (wbind m k) l) (wbind (wbind m' k') l') Q s.
Proof.
  unfold psim, wbind. destruct (m s) as [[a|e| |] s1], (m' s) as [[a'|e'| |] s1']; auto.
Qed.
Lemma psim_ret {A} (a : A) (Q : A -> bytes -> Prop) s : Q a s -> psim (wret a) (wret a) Q s.
Proof. intros H _. split; [reflexivity|exact H]. Qed.
Lemma psim_err {A} e (Q : A -> bytes -> Prop) s : psim (werr e) (werr e) Q s.
Proof. intros _. split; [reflexivity|exact I]. Qed.
Lemma psim_wret {A B} (a : A) (k k' : A -> writer B) Q s :
  psim (k a) (k' a) Q s -> psim (wbind (wret a) k) (wbind (wret a) k') Q s.
Proof. auto. Qed.
Lemma psim_werr {A B} e (k k' : A -> writer B) Q s : psim (wbind (werr e) k) (wbind (werr e) k') Q s.
Proof. intros _. split; [reflexivity|exact I]. Qed.
Lemma psim_get {B} (k k' : bytes -> writer B) Q s : psim (k s) (k' s) Q s -> psim (wbind get k) (wbind get k') Q s.
Proof. auto. Qed.
Lemma psim_retbind {A} (m m' : writer A) Q s : psim m m' Q s -> psim (wbind m wret) (wbind m' wret) Q s.
Proof.
  unfold psim, wbind, wret. destruct (m s) as [[a|e| |] s1]; cbn [fst]; intros H Hp.
  - destruct (H Hp) as [-> HQ]. auto.
  - destruct (H Hp) as [-> HQ]. auto.
  - congruence.
  - destruct (H Hp) as [-> HQ]. auto.
Qed.
Lemma psim_lift {A B} (o o' : outcome A) (k k' : A -> writer B) Q s :
  osim o o' -> (forall a, o = Ok a -> psim (k a) (k' a) Q s) -> psim (wbind (lift o) k) (wbind (lift o') k') Q s.
Proof.
  intros S H. unfold psim, wbind, lift. intros Hp. destruct o as [a|e| |]; cbn [fst] in *; try congruence.
  - rewrite S by discriminate. apply H; auto.
  - rewrite S by discriminate. auto.
  - rewrite S by discriminate. auto.
Qed.
Lemma psim_ok {A B} (a : A) (k k' : A -> writer B) Q s :
  psim (k a) (k' a) Q s -> psim (wbind (lift (Ok a)) k) (wbind (lift (Ok a)) k') Q s.
Proof. auto. Qed.
Lemma psim_run {A} (m m' : writer A) Q s : psim m m' Q s -> osim (run m s) (run m' s).
Proof. intros H Hp. unfold run in *. destruct (H Hp) as [-> _]. reflexivity. Qed.
Lemma osim_post {A} (o o' : outcome A) : osim o o' -> forall a, o = Ok a -> o' = Ok a.
Proof. intros H a ->. apply H. discriminate. Qed.

Lemma psim_while {S} fuel (c c' : S -> writer bool) (f f' : S -> writer S) (I : S -> bytes -> Prop) :
  (forall st s, I st s -> psim (c st) (c' st) (fun _ s' => s' = s) s) ->
  (forall st s, I st s -> psim (f st) (f' st) I s) ->
  forall st s, I st s -> psim (while_ fuel c f st) (while_ fuel c' f' st) I s.
Proof.
  intros Hc Hf. induction fuel as [|fuel IH]; intros st s Hi; cbn [while_].
  - intros _. split; [reflexivity|exact Logic.I].
  - eapply psim_bind; [apply Hc, Hi|]. intros b s' ->. destruct b; [|apply psim_ret, Hi].
    eapply psim_bind; [apply Hf, Hi|]. intros st' s' Hi'. apply IH, Hi'.
Qed.
Lemma psim_while_if {S} fuel (c c' : S -> writer bool) (f f' : S -> writer S) (I J : S -> bytes -> Prop) :
  (forall st s, I st s -> psim (c st) (c' st) (fun b s' => s' = s /\ (b = true -> J st s)) s) ->
  (forall st s, J st s -> psim (f st) (f' st) I s) ->
  forall st s, I st s -> psim (while_ fuel c f st) (while_ fuel c' f' st) I s.
Proof.
  intros Hc Hf. induction fuel as [|fuel IH]; intros st s Hi; cbn [while_].
  - intros _. split; [reflexivity|exact Logic.I].
  - eapply psim_bind; [apply Hc, Hi|]. intros b s' [-> HJ]. destruct b; [|apply psim_ret, Hi].
    eapply psim_bind; [apply Hf, HJ; reflexivity|]. intros st' s' Hi'. apply IH, Hi'.
Qed.
Lemma psim_for_ctl {X S R} (f f' : X -> S -> writer (ctl S R)) (I : S -> Prop) l s :
  (forall x st, I st -> psim (f x st) (f' x st) (fun c s' => s' = s /\ match c with Next st' => I st' | _ => True end) s) ->
  forall st, I st -> psim (for_ctl f l st) (for_ctl f' l st) (fun _ s' => s' = s) s.
Proof.
  intros Hf. induction l as [|x l IH]; intros st Hi; cbn [for_ctl]; [apply psim_ret; auto|].
  eapply psim_bind; [apply Hf, Hi|]. intros [st'|st'|r] s' [-> H]; [apply IH, H|apply psim_ret; auto..].
Qed.

Section WithTarget.
Context {T : Target} {WT : Wide}.

(** ** arithmetic *)
Lemma word_big : 4294967296 <= 2 ^ bits.
Proof. change 4294967296 with (2 ^ 32). apply N.pow_le_mono_r; [discriminate|apply (PortBase.wide : 32 <= bits)]. Qed.
Lemma word_half : 2 ^ bits = 2 * 2 ^ (bits - 1).
Proof.
  pose proof (PortBase.wide : 32 <= bits). rewrite <- N.pow_succ_r'. f_equal. lia.
Qed.
Lemma add_small a b : a + b < 2 ^ bits -> PortBase.usize_add a b = Ok (a + b).
Proof. intros H. unfold PortBase.usize_add. apply N.ltb_lt in H. rewrite H. reflexivity. Qed.
Lemma osim_add a b : a + b < 2 ^ bits -> osim (usize_add a b) (PortBase.usize_add a b).
Proof.
  intros H. rewrite add_small by exact H. unfold osim, usize_add. destruct (a + b <=? usize_max); congruence.
Qed.
Lemma add_value a b c : usize_add a b = Ok c -> c = a + b.
Proof. unfold usize_add. destruct (a + b <=? usize_max); congruence. Qed.
Lemma osim_sub a b : osim (usize_sub a b) (PortBase.usize_sub a b).
Proof. unfold osim, usize_sub, PortBase.usize_sub. destruct (b <=? a); congruence. Qed.
Lemma osim_i32 a b : osim (i32_add a b) (PortBase.i32_add a b).
Proof. unfold osim, i32_add, PortBase.i32_add. destruct (a + b <? 2 ^ 31); congruence. Qed.
Lemma osim_shl8 a n : osim (u8_shl a n) (PortBase.u8_shl a n).
Proof. unfold osim, u8_shl, shl, PortBase.u8_shl. destruct (n <? 8); congruence. Qed.
Lemma osim_shr8 a n : osim (u8_shr a n) (PortBase.u8_shr a n).
Proof. unfold osim, u8_shr, shr, PortBase.u8_shr. destruct (n <? 8); congruence. Qed.
Lemma shl_bound a n : a <= 127 -> n <= 21 -> N.shiftl a n <= 266338304.
Proof.
  intros Ha Hn. rewrite N.shiftl_mul_pow2. change 266338304 with (127 * 2 ^ 21).
  apply N.mul_le_mono; [exact Ha|]. apply N.pow_le_mono_r; lia.
Qed.
Lemma osim_shl a n : a <= 127 -> n <= 21 -> osim (usize_shl a n) (PortBase.usize_shl a n).
Proof.
  intros Ha Hn. pose proof (PortBase.wide : 32 <= bits) as B. pose proof word_big as W. pose proof (shl_bound a n Ha Hn).
  unfold osim, usize_shl, shl, PortBase.usize_shl. replace (n <? 64) with true by lia. replace (n <? bits) with true by lia.
  intros _. f_equal. change (2 ^ 64) with 18446744073709551616. rewrite !N.mod_small by lia. reflexivity.
Qed.
End WithTarget.

Create HintDb port discriminated.
Global Hint Extern 0 (PortBase.Wide) => assumption : port.
Global Hint Resolve osim_sub osim_i32 osim_shl8 osim_shr8 : port.

(** unconditional agreement: no addition on `usize` *)
Ltac plain1 :=
  cbv beta;
  lazymatch goal with
  | |- wsim (wbind _ _) _ => apply wsim_bind; [|intro]
  | |- wsim (let x := ?v in _) _ => cbv zeta
  | |- wsim (match ?x with _ => _ end) _ => destruct x
  | |- wsim (match ?x with _ => _ end _) _ => destruct x
  | |- wsim (wret _) _ => apply wsim_refl
  | |- wsim (keep _) _ => apply wsim_refl
  | |- wsim (while_ _ _ _ _) _ => apply wsim_while; [intro|intro]
  | |- wsim (for_ _ _ _) _ => apply wsim_for; intros ? ?
  | |- wsim (for_ctl _ _ _) _ => apply wsim_for_ctl; intros ? ?
  | |- wsim (fold_ _ _ _) _ => apply wsim_fold; intros ? ?
  | |- wsim (map_ _ _) _ => apply wsim_map; intros ?
  | |- wsim (lift _) _ => first [apply wsim_lift; solve [auto with port] | apply wsim_refl]
  | |- osim (run _ _) _ => apply osim_run
  | |- _ => solve [auto with port | apply wsim_refl]
  end.
Ltac plain := repeat plain1.

(** ProofSrcTac.v -- tactics that compare a translated function with the model's. *)
From Verif Require Export ProofBase Lib ProofLib ProofRelBase SrcBase V5Property ProofSrcBase.
From Verif Require SrcLib SrcV5Property.

Lemma sim_rassoc {A B C D} (w : outcome D * bytes) (m : reader A) (k : A -> reader B) (l : B -> reader C) s Q :
  sim w (rbind m (fun a => rbind (k a) l) s) Q -> sim w (rbind (rbind m k) l s) Q.
Proof. unfold rbind. destruct (m s) as [[a s1]| | |]; auto. Qed.
Lemma sim_rret {A B D} (w : outcome D * bytes) (a : A) (k : A -> reader B) s Q :
  sim w (k a s) Q -> sim w (rbind (rret a) k s) Q.
Proof. auto. Qed.
Lemma sim_rok {A B D} (w : outcome D * bytes) (a : A) (k : A -> reader B) s Q :
  sim w (k a s) Q -> sim w (rbind (rlift (Ok a)) k s) Q.
Proof. auto. Qed.
Lemma sim_errs {A B C D} e (k : A -> writer B) (k' : C -> reader D) s Q :
  sim (wbind (werr e) k s) (rbind (rerr e) k' s) Q.
Proof. reflexivity. Qed.
Lemma sim_werr {A B D} e (k : A -> writer B) (Q : B -> D -> bytes -> Prop) s :
  sim (wbind (werr e) k s) (rerr e s) Q.
Proof. reflexivity. Qed.
Lemma sim_rerr {B C D} e (k' : C -> reader D) (Q : B -> D -> bytes -> Prop) s :
  sim (werr e s) (rbind (rerr e) k' s) Q.
Proof. reflexivity. Qed.
Lemma sim_err2 {A B} e s (Q : A -> B -> bytes -> Prop) : sim (werr e s) (Err e) Q.
Proof. reflexivity. Qed.
Lemma sim_err3 {A B C} e (k : A -> writer B) s (Q : B -> C -> bytes -> Prop) : sim (wbind (werr e) k s) (Err e) Q.
Proof. reflexivity. Qed.
Lemma sim_retbind {A B} (m : writer A) (r : outcome (B * bytes)) s Q :
  sim (m s) r Q -> sim (wbind m wret s) r Q.
Proof. unfold sim, wbind, wret. destruct (m s) as [[a| | |] s']; auto. Qed.
Lemma sim_lift_end {A} (o : outcome A) s (Q : A -> A -> bytes -> Prop) :
  (forall a, o = Ok a -> Q a a s) -> sim (wbind (lift o) wret s) (rlift o s) Q.
Proof. intros H. unfold wbind, lift, rlift, sim, wret. destruct o; cbn; auto. Qed.
Lemma sim_peek {A' B} (k : N * N -> writer A') (k' : N * N -> reader B) s Q :
  (forall a n, a <= 4 -> sim (k (a, n) s) (k' (a, n) s) Q) ->
  sim (wbind get (fun t => wbind (lift (SrcLib.length t)) k) s) (rbind peek_length k' s) Q.
Proof.
  intros H. unfold wbind, get, lift, rbind, peek_length, rlift. rewrite length_eq.
  destruct (length s) as [[a n]| | |] eqn:E; cbn; auto. apply H. apply length_bound in E. exact E.
Qed.
Lemma sim_peek2 {A' B} (k : N * N -> writer A') (k' : N * N -> reader B) s Q :
  (forall a n, a <= 4 -> sim (k (a, n) s) (k' (a, n) s) Q) ->
  sim (wbind (lift (length s)) k s) (rbind peek_length k' s) Q.
Proof.
  intros H. unfold wbind, lift, rbind, peek_length, rlift.
  destruct (length s) as [[a n]| | |] eqn:E; cbn; auto. apply H. apply length_bound in E. exact E.
Qed.
Lemma sim_swap {A' B} a b n (k : N -> unit -> writer A') (r : outcome (B * bytes)) s Q :
  sim (wbind (keep (advance n)) (fun u => wbind (lift (usize_add a b)) (fun c => k c u)) s) r Q ->
  sim (wbind (lift (usize_add a b)) (fun c => wbind (keep (advance n)) (k c)) s) r Q.
Proof.
  unfold wbind, lift, keep, advance, usize_add.
  destruct (a + b <=? usize_max), (n <=? blen s); auto.
Qed.
Lemma sim_swap2 {A1 A' B} a b n (k : N -> unit -> writer A1) (k2 : N -> A1 -> writer A') (r : outcome (B * bytes)) s Q :
  sim (wbind (keep (advance n)) (fun u => wbind (lift (usize_add a b)) (fun c => wbind (k c u) (k2 c))) s) r Q ->
  sim (wbind (lift (usize_add a b)) (fun c => wbind (wbind (keep (advance n)) (k c)) (k2 c)) s) r Q.
Proof.
  unfold wbind, lift, keep, advance, usize_add.
  destruct (a + b <=? usize_max), (n <=? blen s); auto.
Qed.
Lemma u8_shr_ok a n : (n <? 8) = true -> u8_shr a n = Ok (N.shiftr a n).
Proof. intros H. unfold u8_shr, shr. rewrite H. reflexivity. Qed.

Ltac alia := pose proof usize_half; pose proof usize_big; rewrite ?blen_app in *; lia.

Ltac sim_simpl := cbv beta iota zeta; cbn [fst snd].

(** one step of [sim (wbind m k s) r Q] *)
Ltac sim1 eqs :=
  lazymatch goal with
  | |- sim (wbind (wbind _ _) _ _) _ _ => apply sim_assoc
  | |- sim (wbind (wret _) _ _) _ _ => apply sim_wret
  | |- sim (wbind (dbg _) _ _) _ _ => unfold dbg
  | |- sim _ (rbind (rbind _ _) _ _) _ => apply sim_rassoc
  | |- sim _ (rbind (rret _) _ _) _ => apply sim_rret
  | |- sim (wbind get (fun t => wbind (lift (SrcLib.length t)) _) _) (rbind peek_length _ _) _ =>
      apply sim_peek; intros ? ? ?
  | |- sim (wbind (lift (SrcLib.length _)) _ _) (rbind peek_length _ _) _ =>
      rewrite length_eq; apply sim_peek2; intros ? ? ?
  | |- sim (wbind get _ _) _ _ => apply sim_get
  | |- sim (wbind (lift ?o) _ _) (rbind (rlift ?o) _ _) _ => apply sim_lift; intros ? ?
  | |- sim (wbind (lift (usize_add _ _)) (fun c => wbind (keep (advance _)) _) _) (rbind (advance _) _ _) _ => apply sim_swap
  | |- sim (wbind (lift (usize_add _ _)) (fun c => wbind (wbind (keep (advance _)) _) _) _) (rbind (advance _) _ _) _ => apply sim_swap2
  | |- sim (wbind (lift (usize_add _ _)) _ _) _ _ => apply sim_add; [alia|]
  | |- sim (wbind (lift (usize_sub _ _)) _ _) _ _ => apply sim_sub; [alia|]
  | |- sim (wbind (lift (Ok _)) _ _) _ _ => apply sim_ok
  | |- sim _ (rbind (rlift (Ok _)) _ _) _ => apply sim_rok
  | |- sim (wbind (lift _) _ _) _ _ => progress eqs
  | |- sim (wbind SrcLib.read_u8 _ _) _ _ => eapply sim_bind; [apply sim_u8|]; intros ? ? ? [<- ?]
  | |- sim (wbind SrcLib.read_u16 _ _) _ _ => eapply sim_bind; [apply sim_u16|]; intros ? ? ? [<- ?]
  | |- sim (wbind SrcLib.read_u32 _ _) _ _ => eapply sim_bind; [apply sim_u32|]; intros ? ? ? [<- ?]
  | |- sim (wbind SrcLib.read_mqtt_bytes _ _) _ _ => eapply sim_bind; [apply sim_bytes|]; intros ? ? ? [<- ?]
  | |- sim (wbind SrcLib.read_mqtt_string _ _) _ _ => eapply sim_bind; [apply sim_string|]; intros ? ? ? [<- ?]
  | |- sim (wbind (keep (advance ?n)) _ _) _ _ => eapply sim_bind; [apply sim_advance|]; let L := fresh "L" in intros ? ? ? L; cbv beta in L
  | |- sim (wbind (werr _) _ _) (rbind (rerr _) _ _) _ => apply sim_errs
  | |- sim (wbind (werr _) _ _) (rerr _ _) _ => apply sim_werr
  | |- sim (werr _ _) (rbind (rerr _) _ _) _ => apply sim_rerr
  | |- sim (werr _ _) (rerr _ _) _ => apply sim_err
  | |- sim (werr _ _) (Err _) _ => apply sim_err2
  | |- sim (wbind (werr _) _ _) (Err _) _ => apply sim_err3
  | |- sim (wret _ _) (rret _ _) _ => apply sim_ret
  | |- sim (wret _ _) (Ok (_, _)) _ => apply sim_ret
  | |- sim (wbind (if ?c then _ else _) _ _) _ _ => destruct c eqn:?
  | |- sim ((if ?c then _ else _) _) _ _ => destruct c eqn:?
  | |- sim (wbind (match ?c with _ => _ end) _ _) _ _ => destruct c eqn:?
  | |- sim ((match ?c with _ => _ end) _) _ _ => destruct c eqn:?
  | |- sim (wbind _ wret _) _ _ => apply sim_retbind
  end.
Ltac simgo eqs := repeat (sim_simpl; sim1 eqs).
Ltac libeqs := rewrite ?qos_eq, ?len_len_eq, ?packet_type_eq, ?frame_length_eq, ?fixed_header_new_eq, ?length_eq,
   ?parse_fixed_header_eq, ?check_eq, ?property_eq, ?u8_shr_ok by reflexivity.

(** a whole `extract`: [ab] turns the translation's variables into the model's record *)
Ltac destr_state := repeat match goal with st : (_ * _)%type |- _ => destruct st end.
Ltac extract_tac ab :=
  simgo libeqs; [split; [reflexivity|alia]|];
  eapply sim_bind;
  [ lazymatch goal with
    | |- sim (while_ _ _ _ ?st0 _) _ _ => eapply (sim_props ab) with (st := st0)
    end;
    [ intros; destr_state; reflexivity
    | let L := fresh "L" in intros st s0 L; destr_state; cbn [fst snd]; unfold props_body;
      simgo libeqs;
      (split; [reflexivity|alia])
    | unfold blen in *; lia
    | lia
    | alia ]
  | intros; destr_state;
    match goal with H : _ /\ _ |- _ => destruct H as [<- ?] end; simgo libeqs; split; [reflexivity|alia] ].

Ltac codes := let p := fresh "p" in
  match goal with |- context [match ?n with N0 => _ | Npos _ => _ end] =>
    destruct n as [|p]; [reflexivity|]; do 8 (destruct p as [p|p|]; try reflexivity) end.
Ltac len_side := unfold blen in *; lia.
Ltac use_extract lem := eapply sim_bind; [apply lem; [len_side|alia]|]; intros ? ? ? [<- ?].
Ltac start := apply sim_run with (Q := fun a b _ => a = b); [|auto].

(** the loop of the translation and the loop [g] of the model, started with the same list *)
Lemma sim_while {T} (cond : list T -> writer bool) (body : list T -> writer (list T)) (g : nat -> list T -> reader (list T)) :
  (forall f1 f2,
    (forall l s', blen s' <= half -> (List.length s' < f1)%nat -> (List.length s' < f2)%nat ->
        sim (while_ f1 cond body l s') (g f2 l s') (fun a b _ => a = b)) ->
    forall l s, blen s <= half -> (List.length s < S f1)%nat -> (List.length s < S f2)%nat ->
        sim (while_ (S f1) cond body l s) (g (S f2) l s) (fun a b _ => a = b)) ->
  forall f1 f2 l s, blen s <= half -> (List.length s < f1)%nat -> (List.length s < f2)%nat ->
    sim (while_ f1 cond body l s) (g f2 l s) (fun a b _ => a = b).
Proof.
  intros H. induction f1 as [|f1 IH]; intros f2 l s Hs H1 H2; [lia|].
  destruct f2 as [|f2]; [lia|]. apply H; auto.
Qed.
Ltac loop_tac lp eqs :=
  eapply sim_bind; [apply (sim_while _ _ lp); [|alia|len_side|len_side]|];
  [ let f1 := fresh "f1" in let f2 := fresh "f2" in let IH := fresh "IH" in
    intros f1 f2 IH ? ? ? ? ?; cbn [while_ lp]; simgo eqs; try reflexivity; try (apply IH; [alia|len_side|len_side])
  | intros ? ? ? <-; simgo libeqs; try reflexivity ].

Lemma qos_eqb_src a b : (SrcLib.QoS_as_u8 a =? SrcLib.QoS_as_u8 b) = qos_eqb a b.
Proof. destruct a, b; reflexivity. Qed.
Lemma value_bind {A B} (m : reader A) (k k' : A -> reader B) s :
  (forall a s', value (k a s') = value (k' a s')) -> value (rbind m k s) = value (rbind m k' s).
Proof. intros H. unfold rbind. destruct (m s) as [[a s']| | |]; auto. Qed.
Ltac flag0 := change (0 =? 0) with true; try match goal with |- context [N.pos ?p =? 0] => change (N.pos p =? 0) with false end; cbv iota.

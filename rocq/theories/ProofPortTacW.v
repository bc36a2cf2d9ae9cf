(** ProofPortTacW.v -- the `write` methods on an arbitrary target: the rules. *)
From Verif Require Import ProofSrcTacW ProofWrapBase ProofPortBase ProofPortLib ProofPortTac.
From Verif Require PortBase PortLib.

Section WithTarget.
Context {T : Target} {WT : Wide}.
Lemma model_loop_defined fuel : forall x c b, fst (write_len_loop fuel x c b) <> Panic.
Proof.
  induction fuel as [|fuel IH]; intros x c b; cbn [write_len_loop]; [discriminate|].
  unfold wbind. cbn. match goal with |- context [if ?c then _ else _] => destruct c end; [discriminate|apply IH].
Qed.
Lemma model_wrl_defined len b : fst (Lib.write_remaining_length len b) <> Panic.
Proof. unfold Lib.write_remaining_length. destruct (_ <? len); [discriminate|apply model_loop_defined]. Qed.
Lemma p_write_remaining_length_eq fuel len b : (5 <= fuel)%nat ->
  PortLib.write_remaining_length fuel len b = write_remaining_length len b.
Proof.
  intros Hf. rewrite <- (write_remaining_length_eq fuel len b Hf). apply pLib_write_remaining_length.
  rewrite write_remaining_length_eq by exact Hf. apply model_wrl_defined.
Qed.
Lemma p_qos_src q : PortLib.QoS_as_u8 q = qos_u8 q.
Proof. destruct q; reflexivity. Qed.
Lemma p_shl_qos1 q : PortBase.u8_shl (qos_u8 q) 1 = Ok (N.shiftl (qos_u8 q) 1).
Proof. destruct q; reflexivity. Qed.
Lemma p_shl_qos3 q : PortBase.u8_shl (qos_u8 q) 3 = Ok (N.shiftl (qos_u8 q) 3).
Proof. destruct q; reflexivity. Qed.
Lemma p_shl_bool3 q : PortBase.u8_shl (bool_u8 q) 3 = Ok (N.shiftl (bool_u8 q) 3).
Proof. destruct q; reflexivity. Qed.
End WithTarget.

Ltac pw1 lens eqs :=
  cbv beta;
  lazymatch goal with
  | |- wbind (wret _) _ _ = _ => rewrite wret_bind; pw1 lens eqs
  | |- wbind (werr _) _ _ = _ => rewrite werr_bind; pw1 lens eqs
  | |- wbind (lift (Ok _)) _ _ = _ => rewrite lift_bind; pw1 lens eqs
  | |- wbind (lift (PortBase.usize_add ?a ?c)) _ _ = _ =>
      rewrite (add_small a c) by (pose proof word_big; lia); rewrite lift_bind; pw1 lens eqs
  | |- wbind (lift (PortBase.u8_shl (qos_u8 _) 1)) _ _ = _ => rewrite p_shl_qos1; pw1 lens eqs
  | |- wbind (lift (PortBase.u8_shl (qos_u8 _) 3)) _ _ = _ => rewrite p_shl_qos3; pw1 lens eqs
  | |- wbind (lift (PortBase.u8_shl (bool_u8 _) 3)) _ _ = _ => rewrite p_shl_bool3; pw1 lens eqs
  | |- wbind (lift (PortBase.u8_shl ?a ?n)) _ _ = _ =>
      let v := eval vm_compute in (u8_shl a n) in change (PortBase.u8_shl a n) with v; pw1 lens eqs
  | |- wbind (lift _) _ _ = _ => lens; pw1 lens eqs
  | |- wbind (wbind (lift _) _) _ _ = _ => rewrite bind_assoc; pw1 lens eqs
  | |- wbind (map_ _ _) _ _ = _ => lens; pw1 lens eqs
  | |- @wbind unit unit ?m (fun _ => wret tt) ?b = _ => rewrite (bind_tt m b); pw1 lens eqs
  | |- _ = @wbind unit unit ?m (fun _ => wret tt) ?b => rewrite (bind_tt m b); pw1 lens eqs
  | |- wbind _ (fun x => wret x) _ = _ => rewrite bind_ret; pw1 lens eqs
  | |- _ = wbind (when_some _ _) _ _ => unfold when_some at 1; pw1 lens eqs
  | |- _ = when_some _ _ _ => unfold when_some at 1; pw1 lens eqs
  | |- @wbind ?A _ (match _ with _ => _ end) _ _ = @wbind ?A _ (match _ with _ => _ end) _ _ => pwcongr lens eqs
  | |- wbind (match ?c with _ => _ end) _ _ = _ => destruct c eqn:?; pw1 lens eqs
  | |- wbind _ _ _ = wbind _ _ _ => pwcongr lens eqs
  | |- (match ?c with _ => _ end) _ = _ => destruct c eqn:?; pw1 lens eqs
  | |- for_ _ _ _ _ = _ => apply for_each_eq; intros; destr_state; cbn [fst snd]; pw1 lens eqs
  | |- _ => first [reflexivity | apply p_write_remaining_length_eq; assumption | eqs | match goal with |- ?G => fail 100 "pw1:" G end]
  end
with pwcongr lens eqs :=
  apply w_eq;
  [ pw1 lens eqs
  | let H := fresh in intros ? ? H; first [apply wrl_count in H | clear H]; pw1 lens eqs ].
Ltac plens len := rewrite len by (assumption || (pose proof word_big; lia)).

(** ProofSrcDebug.v -- the translated formatting code (SrcDebug.v): agreement with Debug.v and
    unambiguity of every derived `Debug`. *)
From Coq Require Import String Decimal DecimalN.
From Verif Require Import ProofBase Lib Debug SrcFmt SrcDebug SpecDebug PropDebug.
From Verif Require V4Publish V4Subscribe V5Publish V5Subscribe V4Mod V5Mod V4SubAck V5SubAck.

(** ** Agreement with the hand-written model *)
Lemma src_type esc t : PacketType_debug esc t = show_type t. Proof. destruct t; reflexivity. Qed.
Lemma src_qos esc t : QoS_debug esc t = show_qos t. Proof. destruct t; reflexivity. Qed.
Lemma src_rule esc t : v5_RetainForwardRule_debug esc t = show_rule t. Proof. destruct t; reflexivity. Qed.
Lemma src_error esc e : Error_display esc e = error_display e.
Proof.
  unfold Error_display, error_display. apply (f_equal (app _)).
  destruct e; cbn [Error_debug show_error]; rewrite ?src_type; reflexivity.
Qed.
Lemma src_publish4 esc p : v4_Publish_debug esc p = v4_publish p.
Proof. unfold v4_Publish_debug, v4_publish. rewrite src_qos. reflexivity. Qed.
Lemma src_publish5 esc p : v5_Publish_debug esc p = v5_publish p.
Proof. unfold v5_Publish_debug, v5_publish. rewrite src_qos. reflexivity. Qed.
Lemma src_filter4 esc p : v4_SubscribeFilter_debug esc p = v4_filter p.
Proof. unfold v4_SubscribeFilter_debug, v4_filter. rewrite src_qos. reflexivity. Qed.
Lemma src_filter5 esc p : v5_SubscribeFilter_debug esc p = v5_filter p.
Proof. unfold v5_SubscribeFilter_debug, v5_filter. rewrite src_qos, src_rule. reflexivity. Qed.
Lemma entries_ext {A} (f g : A -> bytes) l : (forall x, f x = g x) -> entries f l = entries g l.
Proof.
  intros H. induction l as [|x [|y l] IH]; [reflexivity|apply H|].
  change (f x ++ txt ", " ++ entries f (y :: l) = g x ++ txt ", " ++ entries g (y :: l)). rewrite H, IH. reflexivity.
Qed.
Lemma src_subscribe4 esc p : v4_Subscribe_debug esc p = v4_subscribe p.
Proof.
  unfold v4_Subscribe_debug, v4_subscribe, fmt_vec, show_vec.
  rewrite (entries_ext _ v4_filter) by apply src_filter4. reflexivity.
Qed.
Lemma src_subscribe5 esc p : v5_Subscribe_debug esc p = v5_subscribe p.
Proof.
  unfold v5_Subscribe_debug, v5_subscribe, fmt_vec, show_vec.
  rewrite (entries_ext _ v5_filter) by apply src_filter5. reflexivity.
Qed.

(** ** Texts that can be read back from the front *)
Definition wordb (c : N) : bool :=
  ((48 <=? c) && (c <=? 57)) || ((65 <=? c) && (c <=? 90)) || ((97 <=? c) && (c <=? 122)) || (c =? 95).
Definition delim (a : bytes) : Prop := match a with [] => True | c :: _ => wordb c = false end.
Class Coded {A} (show : A -> bytes) : Prop :=
  coded : forall x y a b, delim a -> delim b -> show x ++ a = show y ++ b -> x = y /\ a = b.
(** never starts with a closing bracket *)
Class Opens {A} (show : A -> bytes) : Prop := opens : forall x a b, show x ++ a <> 93 :: b.

Lemma delim_comma r : delim (txt ", " ++ r). Proof. reflexivity. Qed.
Lemma delim_brace r : delim (txt " }" ++ r). Proof. reflexivity. Qed.
Lemma delim_paren r : delim (txt ")" ++ r). Proof. reflexivity. Qed.
Lemma delim_bracket r : delim (txt "]" ++ r). Proof. reflexivity. Qed.
Lemma delim_open r : delim (txt "(" ++ r). Proof. reflexivity. Qed.
Lemma delim_nil : delim []. Proof. exact I. Qed.
Global Hint Resolve delim_comma delim_brace delim_paren delim_bracket delim_open delim_nil : delims.

Lemma word_prefix (u v a b : bytes) : forallb wordb u = true -> forallb wordb v = true -> delim a -> delim b ->
  u ++ a = v ++ b -> u = v /\ a = b.
Proof.
  revert v; induction u as [|c u IH]; intros [|d v] Hu Hv Ha Hb E; cbn [app forallb] in *.
  - auto.
  - subst a. cbn in Ha. rewrite Ha in Hv. discriminate Hv.
  - subst b. cbn in Hb. rewrite Hb in Hu. discriminate Hu.
  - injection E as -> E. apply andb_true_iff in Hu as [_ Hu], Hv as [_ Hv].
    destruct (IH v Hu Hv Ha Hb E) as [-> ->]. auto.
Qed.
Lemma digits_word u : forallb wordb (digits u) = true.
Proof. induction u; cbn [digits forallb]; auto. Qed.
Global Instance coded_dec : Coded dec.
Proof.
  intros x y a b Ha Hb E. apply word_prefix in E as [E ->]; [|apply digits_word|apply digits_word|exact Ha|exact Hb].
  split; [apply dec_inj, E|reflexivity].
Qed.
Global Instance opens_dec : Opens dec.
Proof.
  intros x a b E. destruct (dec_numeral x) as [(Hn & Hd & _) _]. destruct (dec x) as [|c d]; [congruence|].
  injection E as -> _. inversion Hd; subst. lia.
Qed.
Global Instance coded_bool : Coded show_bool.
Proof. intros x y a b _ _ E. apply bool_prefix in E. exact E. Qed.
Global Instance coded_option {A} (show : A -> bytes) {H : Coded show} : Coded (fmt_option show).
Proof.
  intros [x|] [y|] a b Ha Hb E; unfold fmt_option, fmt_tuple in E; rewrite <- ?app_assoc in E.
  - do 2 apply app_inv_head in E. apply H in E as [-> E]; auto with delims. apply app_inv_head in E. auto.
  - discriminate E.
  - discriminate E.
  - apply app_inv_head in E. auto.
Qed.
Global Instance coded_pair {A B} (f : A -> bytes) (g : B -> bytes) {Hf : Coded f} {Hg : Coded g} : Coded (fmt_pair f g).
Proof.
  intros [x1 x2] [y1 y2] a b Ha Hb E; unfold fmt_pair in E; cbn [fst snd] in E; rewrite <- ?app_assoc in E.
  apply app_inv_head in E. apply Hf in E as [-> E]; auto with delims.
  apply app_inv_head in E. apply Hg in E as [-> E]; auto with delims. apply app_inv_head in E. auto.
Qed.
Global Instance opens_pair {A B} (f : A -> bytes) (g : B -> bytes) : Opens (fmt_pair f g).
Proof. intros x a b E. discriminate E. Qed.
Lemma entries_coded {A} (show : A -> bytes) {Hi : Coded show} {Hb : Opens show} l l' x y :
  entries show l ++ txt "]" ++ x = entries show l' ++ txt "]" ++ y -> l = l' /\ x = y.
Proof.
  revert l'; induction l as [|a l IH]; intros [|b l'] E.
  - cbn [entries app] in E. apply app_inv_head in E. auto.
  - exfalso. destruct l'; cbn [entries] in E; rewrite <- ?app_assoc in E; exact (Hb _ _ _ (eq_sym E)).
  - exfalso. destruct l; cbn [entries] in E; rewrite <- ?app_assoc in E; exact (Hb _ _ _ E).
  - assert (Hx : forall c (m : list A) z, entries show (c :: m) ++ z =
      show c ++ (match m with [] => [] | _ => txt ", " ++ entries show m end) ++ z).
    { intros c [|d m] z; cbn [entries]; rewrite <- ?app_assoc; reflexivity. }
    rewrite !Hx in E. apply Hi in E as [-> E];
      [|destruct l; rewrite <- ?app_assoc; reflexivity|destruct l'; rewrite <- ?app_assoc; reflexivity].
    destruct l as [|c l], l' as [|c' l']; rewrite <- ?app_assoc in E.
    + cbn [app] in E. apply app_inv_head in E. auto.
    + discriminate E.
    + discriminate E.
    + apply app_inv_head in E. apply IH in E as [-> ->]; auto.
Qed.
Global Instance coded_vec {A} (show : A -> bytes) {Hi : Coded show} {Hb : Opens show} : Coded (fmt_vec show).
Proof.
  intros l l' a b _ _ E. unfold fmt_vec in E. rewrite <- !app_assoc in E. apply app_inv_head in E.
  apply (entries_coded show) in E. exact E.
Qed.
Lemma coded_str esc : quoting esc -> Coded (fmt_str esc).
Proof.
  intros H x y a b _ _ E. unfold fmt_str in E. cbn [app] in E. injection E as E.
  rewrite <- !app_assoc in E. apply H in E. exact E.
Qed.
Global Instance opens_str esc : Opens (fmt_str esc). Proof. intros x a b E. discriminate E. Qed.

(** byte strings *)
Lemma hexdigit_inj a b : hexdigit a = hexdigit b -> a = b.
Proof. unfold hexdigit. intros E. destruct (N.ltb_spec a 10), (N.ltb_spec b 10); lia. Qed.
Lemma byte_esc_cases b :
  (exists d, byte_esc b = [92; d] /\ d <> 120 /\
     ((b = 10 /\ d = 110) \/ (b = 13 /\ d = 114) \/ (b = 9 /\ d = 116) \/ (b = 0 /\ d = 48) \/ (d = b /\ (b = 92 \/ b = 34)))) \/
  (byte_esc b = [b] /\ b <> 92 /\ b <> 34) \/
  (byte_esc b = [92; 120; hexdigit (b / 16); hexdigit (b mod 16)]).
Proof.
  unfold byte_esc.
  destruct (N.eqb_spec b 10); [left; eexists; split; [reflexivity|]; split; [discriminate|subst; auto]|].
  destruct (N.eqb_spec b 13); [left; eexists; split; [reflexivity|]; split; [discriminate|subst; auto]|].
  destruct (N.eqb_spec b 9); [left; eexists; split; [reflexivity|]; split; [discriminate|subst; auto 6]|].
  destruct (N.eqb_spec b 92); [left; exists b; split; [reflexivity|]; split; [lia|subst; auto 8]|].
  destruct (N.eqb_spec b 34); [left; exists b; split; [reflexivity|]; split; [lia|subst; auto 8]|].
  cbn [orb].
  destruct (N.eqb_spec b 0); [left; eexists; split; [reflexivity|]; split; [discriminate|subst; auto 6]|].
  destruct ((32 <=? b) && (b <? 127)); auto.
Qed.
Lemma byte_esc_prefix b c x y : byte_esc b ++ x = byte_esc c ++ y -> b = c /\ x = y.
Proof.
  destruct (byte_esc_cases b) as [(d & -> & Hd & Cb)|[(-> & H1 & H2)| ->]];
    destruct (byte_esc_cases c) as [(e & -> & He & Cc)|[(-> & H3 & H4)| ->]]; cbn [app]; intros E.
  - injection E as -> ->. split; [lia|reflexivity].
  - injection E as E _. congruence.
  - injection E as E _. congruence.
  - injection E as E _. congruence.
  - injection E as -> ->. auto.
  - injection E as E _. congruence.
  - injection E as E _. congruence.
  - injection E as E _. congruence.
  - injection E as E1 E2 ->. apply hexdigit_inj in E1, E2. split; [|reflexivity].
    rewrite (N.div_mod b 16), (N.div_mod c 16) by discriminate. congruence.
Qed.
Lemma byte_esc_quote b x y : byte_esc b ++ x <> 34 :: y.
Proof.
  destruct (byte_esc_cases b) as [(d & -> & _)|[(-> & _ & H)| ->]]; intros E; injection E as E; congruence.
Qed.
Lemma flat_esc_prefix (f : N -> bytes) s t a b :
  (forall b c x y, f b ++ x = f c ++ y -> b = c /\ x = y) -> (forall b x y, f b ++ x <> 34 :: y) ->
  flat_map f s ++ 34 :: a = flat_map f t ++ 34 :: b -> s = t /\ a = b.
Proof.
  intros Hp Hq. revert t; induction s as [|c s IH]; intros [|d t] E; cbn [flat_map app] in E; rewrite <- ?app_assoc in E.
  - injection E as ->. auto.
  - destruct (Hq _ _ _ (eq_sym E)).
  - destruct (Hq _ _ _ E).
  - apply Hp in E as [-> E]. apply IH in E as [-> ->]. auto.
Qed.
Global Instance coded_bytes : Coded fmt_bytes.
Proof.
  intros x y a b _ _ E. unfold fmt_bytes in E. cbn [app] in E. injection E as E.
  rewrite <- !app_assoc in E. cbn [app] in E.
  apply flat_esc_prefix in E; auto using byte_esc_prefix. intros ? ? ? H. exact (byte_esc_quote _ _ _ H).
Qed.
Lemma simple_quoting : quoting simple_esc /\ verbatim simple_esc.
Proof.
  split.
  - intros s t a b E. unfold simple_esc in E. cbn [app] in E. apply flat_esc_prefix in E; [exact E|..].
    + intros c d x y H. destruct (N.eqb_spec c 34), (N.eqb_spec c 92), (N.eqb_spec d 34), (N.eqb_spec d 92);
        cbn [orb app] in H; injection H; intros; subst; try congruence; auto.
    + intros c x y H. destruct (N.eqb_spec c 34), (N.eqb_spec c 92); cbn [orb app] in H; injection H; intros; subst; congruence.
  - intros s H. induction H as [|c s (H1 & H2 & _ & H3) _ IH]; [reflexivity|].
    unfold simple_esc in *. cbn [flat_map]. rewrite IH.
    destruct (N.eqb_spec c 34), (N.eqb_spec c 92); try congruence. reflexivity.
Qed.

(** ** Enumerations *)
Ltac enum_coded :=
  intros x y a b Ha Hb E;
  apply word_prefix in E as [E ->]; [|destruct x; reflexivity|destruct y; reflexivity|exact Ha|exact Hb];
  split; [|reflexivity]; destruct x, y; try reflexivity; exfalso; vm_compute in E; discriminate E.
Ltac enum_opens := intros x a b E; destruct x; discriminate E.
Global Instance coded_protocol esc : Coded (Protocol_debug esc). Proof. enum_coded. Qed.
Global Instance coded_qos esc : Coded (QoS_debug esc). Proof. enum_coded. Qed.
Global Instance coded_crc4 esc : Coded (v4_ConnectReturnCode_debug esc). Proof. enum_coded. Qed.
Global Instance coded_crc5 esc : Coded (v5_ConnectReturnCode_debug esc). Proof. enum_coded. Qed.
Global Instance coded_drc esc : Coded (v5_DisconnectReasonCode_debug esc). Proof. enum_coded. Qed.
Global Instance coded_par esc : Coded (v5_PubAckReason_debug esc). Proof. enum_coded. Qed.
Global Instance coded_prr esc : Coded (v5_PubRecReason_debug esc). Proof. enum_coded. Qed.
Global Instance coded_plr esc : Coded (v5_PubRelReason_debug esc). Proof. enum_coded. Qed.
Global Instance coded_pcr esc : Coded (v5_PubCompReason_debug esc). Proof. enum_coded. Qed.
Global Instance coded_src5 esc : Coded (v5_SubscribeReasonCode_debug esc). Proof. enum_coded. Qed.
Global Instance coded_uar esc : Coded (v5_UnsubAckReason_debug esc). Proof. enum_coded. Qed.
Global Instance opens_src5 esc : Opens (v5_SubscribeReasonCode_debug esc). Proof. enum_opens. Qed.
Global Instance opens_uar esc : Opens (v5_UnsubAckReason_debug esc). Proof. enum_opens. Qed.
Global Instance coded_src4 esc : Coded (v4_SubscribeReasonCode_debug esc).
Proof.
  intros [q|] [r|] a b Ha Hb E; cbn [v4_SubscribeReasonCode_debug] in E; unfold fmt_tuple in E; rewrite <- ?app_assoc in E.
  - do 2 apply app_inv_head in E. apply coded_qos in E as [-> E]; auto with delims. apply app_inv_head in E. auto.
  - discriminate E.
  - discriminate E.
  - apply app_inv_head in E. auto.
Qed.
Global Instance opens_src4 esc : Opens (v4_SubscribeReasonCode_debug esc). Proof. enum_opens. Qed.

(** ** Structs *)
Lemma code_step {A} (show : A -> bytes) {H : Coded show} x y a b : delim a -> delim b ->
  show x ++ a = show y ++ b -> x = y /\ a = b.
Proof. apply H. Qed.
Ltac struct_step E :=
  first
    [ apply app_inv_head in E
    | let H := fresh "F" in apply code_step in E as [H E]; [|typeclasses eauto|auto with delims; fail|auto with delims; fail] ].
Ltac struct_coded def :=
  intros x y a b Ha Hb E; unfold def in E; cbn [fmt_struct fmt_fields] in E;
  rewrite <- !app_assoc in E; repeat struct_step E;
  split; [destruct x, y; cbn in *; subst; reflexivity|assumption].

Section Structs.
Variable esc : bytes -> bytes.
Hypothesis Hq : quoting esc.
Instance str_coded : Coded (fmt_str esc) := coded_str esc Hq.
Global Instance coded_v4_ConnAck : Coded (v4_ConnAck_debug esc). Proof. struct_coded v4_ConnAck_debug. Qed.
Global Instance coded_v4_LastWill : Coded (v4_LastWill_debug esc). Proof. struct_coded v4_LastWill_debug. Qed.
Global Instance coded_v4_Login : Coded (v4_Login_debug esc). Proof. struct_coded v4_Login_debug. Qed.
Global Instance coded_v4_Connect : Coded (v4_Connect_debug esc). Proof. struct_coded v4_Connect_debug. Qed.
Global Instance coded_v4_PubAck : Coded (v4_PubAck_debug esc). Proof. struct_coded v4_PubAck_debug. Qed.
Global Instance coded_v4_PubRec : Coded (v4_PubRec_debug esc). Proof. struct_coded v4_PubRec_debug. Qed.
Global Instance coded_v4_PubRel : Coded (v4_PubRel_debug esc). Proof. struct_coded v4_PubRel_debug. Qed.
Global Instance coded_v4_PubComp : Coded (v4_PubComp_debug esc). Proof. struct_coded v4_PubComp_debug. Qed.
Global Instance coded_v4_SubAck : Coded (v4_SubAck_debug esc). Proof. struct_coded v4_SubAck_debug. Qed.
Global Instance coded_v4_Unsubscribe : Coded (v4_Unsubscribe_debug esc). Proof. struct_coded v4_Unsubscribe_debug. Qed.
Global Instance coded_v4_UnsubAck : Coded (v4_UnsubAck_debug esc). Proof. struct_coded v4_UnsubAck_debug. Qed.
Global Instance coded_v5_ConnAckProperties : Coded (v5_ConnAckProperties_debug esc). Proof. struct_coded v5_ConnAckProperties_debug. Qed.
Global Instance coded_v5_ConnAck : Coded (v5_ConnAck_debug esc). Proof. struct_coded v5_ConnAck_debug. Qed.
Global Instance coded_v5_WillProperties : Coded (v5_WillProperties_debug esc). Proof. struct_coded v5_WillProperties_debug. Qed.
Global Instance coded_v5_LastWill : Coded (v5_LastWill_debug esc). Proof. struct_coded v5_LastWill_debug. Qed.
Global Instance coded_v5_Login : Coded (v5_Login_debug esc). Proof. struct_coded v5_Login_debug. Qed.
Global Instance coded_v5_ConnectProperties : Coded (v5_ConnectProperties_debug esc). Proof. struct_coded v5_ConnectProperties_debug. Qed.
Global Instance coded_v5_Connect : Coded (v5_Connect_debug esc). Proof. struct_coded v5_Connect_debug. Qed.
Global Instance coded_v5_DisconnectProperties : Coded (v5_DisconnectProperties_debug esc). Proof. struct_coded v5_DisconnectProperties_debug. Qed.
Global Instance coded_v5_Disconnect : Coded (v5_Disconnect_debug esc). Proof. struct_coded v5_Disconnect_debug. Qed.
Global Instance coded_v5_PubAckProperties : Coded (v5_PubAckProperties_debug esc). Proof. struct_coded v5_PubAckProperties_debug. Qed.
Global Instance coded_v5_PubAck : Coded (v5_PubAck_debug esc). Proof. struct_coded v5_PubAck_debug. Qed.
Global Instance coded_v5_PubRecProperties : Coded (v5_PubRecProperties_debug esc). Proof. struct_coded v5_PubRecProperties_debug. Qed.
Global Instance coded_v5_PubRec : Coded (v5_PubRec_debug esc). Proof. struct_coded v5_PubRec_debug. Qed.
Global Instance coded_v5_PubRelProperties : Coded (v5_PubRelProperties_debug esc). Proof. struct_coded v5_PubRelProperties_debug. Qed.
Global Instance coded_v5_PubRel : Coded (v5_PubRel_debug esc). Proof. struct_coded v5_PubRel_debug. Qed.
Global Instance coded_v5_PubCompProperties : Coded (v5_PubCompProperties_debug esc). Proof. struct_coded v5_PubCompProperties_debug. Qed.
Global Instance coded_v5_PubComp : Coded (v5_PubComp_debug esc). Proof. struct_coded v5_PubComp_debug. Qed.
Global Instance coded_v5_SubAckProperties : Coded (v5_SubAckProperties_debug esc). Proof. struct_coded v5_SubAckProperties_debug. Qed.
Global Instance coded_v5_SubAck : Coded (v5_SubAck_debug esc). Proof. struct_coded v5_SubAck_debug. Qed.
Global Instance coded_v5_UnsubscribeProperties : Coded (v5_UnsubscribeProperties_debug esc). Proof. struct_coded v5_UnsubscribeProperties_debug. Qed.
Global Instance coded_v5_Unsubscribe : Coded (v5_Unsubscribe_debug esc). Proof. struct_coded v5_Unsubscribe_debug. Qed.
Global Instance coded_v5_UnsubAckProperties : Coded (v5_UnsubAckProperties_debug esc). Proof. struct_coded v5_UnsubAckProperties_debug. Qed.
Global Instance coded_v5_UnsubAck : Coded (v5_UnsubAck_debug esc). Proof. struct_coded v5_UnsubAck_debug. Qed.
Global Instance coded_v5_PublishProperties : Coded (v5_PublishProperties_debug esc). Proof. struct_coded v5_PublishProperties_debug. Qed.
Global Instance coded_v5_SubscribeProperties : Coded (v5_SubscribeProperties_debug esc). Proof. struct_coded v5_SubscribeProperties_debug. Qed.
End Structs.

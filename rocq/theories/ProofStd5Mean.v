(** ProofStd5Mean.v -- property sets determine property sections up to the order of different properties *)
From Verif Require Import Base SpecWire SpecProps SpecPropSets SpecV5 SpecStd5 SpecStd5Mean ProofBase.

Definition only (id : N) (its : list item) : list item := filter (fun it => fst it =? id) its.
Lemma find_filter {A} (f : A -> bool) l : find f l = find f (filter f l).
Proof. induction l as [|a l IH]; cbn [find filter]; [reflexivity|]. destruct (f a) eqn:E; [cbn [find]; rewrite E; reflexivity|exact IH]. Qed.
Lemma last_of_only id its : last_of id its = last_of id (only id its).
Proof.
  unfold last_of, only.
  assert (E : filter (fun it : item => fst it =? id) (rev its) = rev (filter (fun it : item => fst it =? id) its)).
  { induction its as [|it its IH]; [reflexivity|]. cbn [filter rev]. rewrite filter_app. cbn [filter].
    destruct (fst it =? id); cbn [rev]; rewrite IH; [reflexivity|rewrite app_nil_r; reflexivity]. }
  unfold item in *. rewrite <- E, <- find_filter. reflexivity.
Qed.
Lemma pairs_only its : all_pairs its = all_pairs (only 38 its).
Proof.
  unfold all_pairs, only. induction its as [|[id v] its IH]; [reflexivity|]. cbn [flat_map filter fst snd]. rewrite IH.
  destruct (id =? 38) eqn:E; [cbn [flat_map fst snd]; rewrite E; reflexivity|]. destruct v; reflexivity.
Qed.
Lemma ids_only its : all_ids its = all_ids (only 11 its).
Proof.
  unfold all_ids, only. induction its as [|[id v] its IH]; [reflexivity|]. cbn [flat_map filter fst snd]. rewrite IH.
  destruct (id =? 11) eqn:E; [cbn [flat_map fst snd]; rewrite E; reflexivity|]. destruct v; reflexivity.
Qed.
(** the records depend on the sections only up to [same_properties] *)
Lemma same_num id a b : same_properties a b -> last_num id a = last_num id b.
Proof. intros H. unfold last_num. rewrite (last_of_only id a), (last_of_only id b). unfold only. rewrite (H id). reflexivity. Qed.
Lemma same_bytes id a b : same_properties a b -> last_bytes id a = last_bytes id b.
Proof. intros H. unfold last_bytes. rewrite (last_of_only id a), (last_of_only id b). unfold only. rewrite (H id). reflexivity. Qed.
Lemma same_pairs a b : same_properties a b -> all_pairs a = all_pairs b.
Proof. intros H. rewrite (pairs_only a), (pairs_only b). unfold only. rewrite (H 38). reflexivity. Qed.
Lemma same_ids a b : same_properties a b -> all_ids a = all_ids b.
Proof. intros H. rewrite (ids_only a), (ids_only b). unfold only. rewrite (H 11). reflexivity. Qed.

(** what the rules say about the properties with one identifier *)
Section Rules.
Variables (allowed rep : list N).
Lemma only_once id its : rules allowed rep its -> ~ In id rep ->
  only id its = [] \/ exists v, only id its = [(id, v)].
Proof.
  intros (_ & H & _) Hn. unfold only.
  assert (G : forall l pre, its = pre ++ l -> filter (fun it : item => fst it =? id) l = [] \/ exists v, filter (fun it : item => fst it =? id) l = [(id, v)]).
  { induction l as [|[i v] l IH]; intros pre E; [left; reflexivity|]. cbn [filter fst].
    destruct (i =? id) eqn:Ei.
    - apply N.eqb_eq in Ei. subst i. right. exists v. f_equal.
      destruct (filter (fun it : item => fst it =? id) l) as [|[j w] r] eqn:Ef; [reflexivity|]. exfalso. apply Hn.
      assert (Hi : In (j, w) (filter (fun it : item => fst it =? id) l)) by (rewrite Ef; left; reflexivity).
      apply filter_In in Hi as [Hi Hj]. cbn [fst] in Hj. apply N.eqb_eq in Hj. subst j.
      apply in_split in Hi as (l1 & l2 & ->). apply (H id (map fst pre) (map fst l1) (map fst l2)).
      rewrite E, map_app. cbn [map fst]. rewrite map_app. reflexivity.
    - apply (IH (pre ++ [(i, v)])). rewrite E, <- app_assoc. reflexivity. }
  apply (G its []). reflexivity.
Qed.
Lemma only_typed id its it : rules allowed rep its -> In it (only id its) -> fst it = id /\ ptype_of id = Some (type_of (snd it)).
Proof.
  intros (H & _) Hi. apply filter_In in Hi as [Hi E]. apply N.eqb_eq in E. split; [exact E|].
  rewrite Forall_forall in H. destruct (H it Hi) as (_ & ((T & _) & _) & _). rewrite E in T. exact T.
Qed.
Lemma only_foreign id its : rules allowed rep its -> ~ In id allowed -> only id its = [].
Proof.
  intros (H & _) Hn. unfold only. destruct (filter (fun it : item => fst it =? id) its) as [|it l] eqn:E; [exact E|].
  assert (Hi : In it (filter (fun it : item => fst it =? id) its)) by (rewrite E; left; reflexivity).
  apply filter_In in Hi as [Hi Ei]. apply N.eqb_eq in Ei. rewrite Forall_forall in H. destruct (H it Hi) as (Ha & _). rewrite Ei in Ha. contradiction.
Qed.
Definition numeric (id : N) : Prop := match ptype_of id with Some (TByte | TTwo | TFour | TVar) => True | _ => False end.
Definition textual (id : N) : Prop := match ptype_of id with Some (TStr | TBin) => True | _ => False end.
Lemma num_only id a b : rules allowed rep a -> rules allowed rep b -> ~ In id rep -> numeric id ->
  last_num id a = last_num id b -> only id a = only id b.
Proof.
  intros Ra Rb Hn Ht E. unfold last_num in E. rewrite (last_of_only id a), (last_of_only id b) in E.
  destruct (only_once id a Ra Hn) as [Ea|[v Ea]], (only_once id b Rb Hn) as [Eb|[w Eb]].
  - congruence.
  - destruct (only_typed id b (id, w) Rb) as [_ T]; [rewrite Eb; left; reflexivity|].
    rewrite Ea, Eb in E. unfold last_of in E. cbn [rev app find fst snd] in E. rewrite N.eqb_refl in E.
    unfold numeric in Ht. rewrite T in Ht. cbn [snd] in Ht. destruct w; cbn in Ht, E; try contradiction; discriminate E.
  - destruct (only_typed id a (id, v) Ra) as [_ T]; [rewrite Ea; left; reflexivity|].
    rewrite Ea, Eb in E. unfold last_of in E. cbn [rev app find fst snd] in E. rewrite N.eqb_refl in E.
    unfold numeric in Ht. rewrite T in Ht. cbn [snd] in Ht. destruct v; cbn in Ht, E; try contradiction; discriminate E.
  - destruct (only_typed id a (id, v) Ra) as [_ T]; [rewrite Ea; left; reflexivity|].
    destruct (only_typed id b (id, w) Rb) as [_ T']; [rewrite Eb; left; reflexivity|].
    rewrite Ea, Eb in E. unfold last_of in E. cbn [rev app find fst snd] in E. rewrite N.eqb_refl in E.
    unfold numeric in Ht. rewrite T in Ht, T'. rewrite Ea, Eb. cbn [snd] in *.
    destruct v; cbn in Ht, T'; try contradiction; destruct w; try discriminate T'; cbn in E; injection E as ->; reflexivity.
Qed.
Lemma bytes_only id a b : rules allowed rep a -> rules allowed rep b -> ~ In id rep -> textual id ->
  last_bytes id a = last_bytes id b -> only id a = only id b.
Proof.
  intros Ra Rb Hn Ht E. unfold last_bytes in E. rewrite (last_of_only id a), (last_of_only id b) in E.
  destruct (only_once id a Ra Hn) as [Ea|[v Ea]], (only_once id b Rb Hn) as [Eb|[w Eb]].
  - congruence.
  - destruct (only_typed id b (id, w) Rb) as [_ T]; [rewrite Eb; left; reflexivity|].
    rewrite Ea, Eb in E. unfold last_of in E. cbn [rev app find fst snd] in E. rewrite N.eqb_refl in E.
    unfold textual in Ht. rewrite T in Ht. cbn [snd] in Ht. destruct w; cbn in Ht, E; try contradiction; discriminate E.
  - destruct (only_typed id a (id, v) Ra) as [_ T]; [rewrite Ea; left; reflexivity|].
    rewrite Ea, Eb in E. unfold last_of in E. cbn [rev app find fst snd] in E. rewrite N.eqb_refl in E.
    unfold textual in Ht. rewrite T in Ht. cbn [snd] in Ht. destruct v; cbn in Ht, E; try contradiction; discriminate E.
  - destruct (only_typed id a (id, v) Ra) as [_ T]; [rewrite Ea; left; reflexivity|].
    destruct (only_typed id b (id, w) Rb) as [_ T']; [rewrite Eb; left; reflexivity|].
    rewrite Ea, Eb in E. unfold last_of in E. cbn [rev app find fst snd] in E. rewrite N.eqb_refl in E.
    unfold textual in Ht. rewrite T in Ht, T'. rewrite Ea, Eb. cbn [snd] in *.
    destruct v; cbn in Ht, T'; try contradiction; destruct w; try discriminate T'; cbn in E; injection E as ->; reflexivity.
Qed.
Lemma pairs_list its : rules allowed rep its -> only 38 its = map (fun kv => (38, VPair (fst kv) (snd kv))) (all_pairs its).
Proof.
  intros R. rewrite pairs_only. assert (T := fun it => only_typed 38 its it R).
  induction (only 38 its) as [|[i v] l IH]; [reflexivity|].
  destruct (T (i, v) (or_introl eq_refl)) as [Ei Et]. cbn [fst snd] in Ei, Et. subst i.
  destruct v; try discriminate Et. change (all_pairs ((38, VPair k v) :: l)) with ((k, v) :: all_pairs l). cbn [map fst snd]. f_equal. apply IH. intros it Hi. apply T. right. exact Hi.
Qed.
Lemma ids_list its : rules allowed rep its -> only 11 its = map (fun n => (11, VVar n)) (all_ids its).
Proof.
  intros R. rewrite ids_only. assert (T := fun it => only_typed 11 its it R).
  induction (only 11 its) as [|[i v] l IH]; [reflexivity|].
  destruct (T (i, v) (or_introl eq_refl)) as [Ei Et]. cbn [fst snd] in Ei, Et. subst i.
  destruct v; try discriminate Et. change (all_ids ((11, VVar n) :: l)) with (n :: all_ids l). cbn [map]. f_equal. apply IH. intros it Hi. apply T. right. exact Hi.
Qed.
End Rules.

(** per place *)
Definition determines {R} (pl : place) (rec : list item -> R) : Prop :=
  forall a b, rules_at pl a -> rules_at pl b -> (rec a = rec b <-> same_properties a b).
Ltac not_rep := cbn [In]; intros Hrep; repeat (destruct Hrep as [Hrep|Hrep]; [discriminate Hrep|]); exact Hrep.
Ltac one_id Ra Rb :=
  match goal with
  | E : last_num ?id _ = last_num ?id _ |- filter (fun it => fst it =? ?id) _ = _ =>
      exact (num_only _ _ id _ _ Ra Rb ltac:(not_rep) I E)
  | E : last_bytes ?id _ = last_bytes ?id _ |- filter (fun it => fst it =? ?id) _ = _ =>
      exact (bytes_only _ _ id _ _ Ra Rb ltac:(not_rep) I E)
  | E : all_pairs _ = all_pairs _ |- filter (fun it => fst it =? 38) _ = _ =>
      match type of E with all_pairs ?x = all_pairs ?y => change (only 38 x = only 38 y) end; rewrite (pairs_list _ _ _ Ra), (pairs_list _ _ _ Rb), E; reflexivity
  | E : all_ids _ = all_ids _ |- filter (fun it => fst it =? 11) _ = _ =>
      match type of E with all_ids ?x = all_ids ?y => change (only 11 x = only 11 y) end; rewrite (ids_list _ _ _ Ra), (ids_list _ _ _ Rb), E; reflexivity
  end.
Ltac determine :=
  let a := fresh "a" in let b := fresh "b" in let Ra := fresh "Ra" in let Rb := fresh "Rb" in
  intros a b Ra Rb; unfold rules_at in Ra, Rb; cbn [allowed_at] in Ra, Rb; split;
  [ match goal with |- ?f _ = ?f _ -> _ => unfold f end; intros E; injection E; clear E; intros;
    intros id;
    match type of Ra with rules ?al _ _ =>
      destruct (in_dec N.eq_dec id al) as [Hin|Hout];
      [ cbn [In] in Hin; repeat (destruct Hin as [<-|Hin]; [one_id Ra Rb|]); contradiction
      | transitivity (@nil item); [|symmetry]; eapply only_foreign; eassumption ]
    end
  | intros H; match goal with |- ?f _ = ?f _ => unfold f end;
    repeat match goal with
    | |- context [last_num ?i a] => rewrite (same_num i a b H)
    | |- context [last_bytes ?i a] => rewrite (same_bytes i a b H)
    | |- context [all_pairs a] => rewrite (same_pairs a b H)
    | |- context [all_ids a] => rewrite (same_ids a b H)
    end; reflexivity ].
Lemma determines_connect : determines InConnect connect_record. Proof. determine. Qed.
Lemma determines_will : determines InWill will_record. Proof. determine. Qed.
Lemma determines_connack : determines InConnAck connack_record. Proof. determine. Qed.
Lemma determines_publish : determines InPublish publish_record. Proof. determine. Qed.
Lemma determines_puback : determines InPubAck puback_record. Proof. determine. Qed.
Lemma determines_pubrec : determines InPubRec pubrec_record. Proof. determine. Qed.
Lemma determines_pubrel : determines InPubRel pubrel_record. Proof. determine. Qed.
Lemma determines_pubcomp : determines InPubComp pubcomp_record. Proof. determine. Qed.
Lemma determines_subscribe : determines InSubscribe subscribe_record. Proof. determine. Qed.
Lemma determines_suback : determines InSubAck suback_record. Proof. determine. Qed.
Lemma determines_unsubscribe : determines InUnsubscribe unsubscribe_record. Proof. determine. Qed.
Lemma determines_unsuback : determines InUnsubAck unsuback_record. Proof. determine. Qed.
Lemma determines_disconnect : determines InDisconnect disconnect_record. Proof. determine. Qed.

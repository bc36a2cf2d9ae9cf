(** ProofSections.v -- property sections as a whole: what the reader makes of a section
    the crate wrote, and what a record read from a section looks like. *)
From Verif Require Import ProofBase Lib ProofLib ProofRead SpecProps SpecPropSets ProofProps ProofPropSets
  SpecV5 ProofV5Write.

(** subscription identifiers in a sequence *)
Definition ids_n (its : list item) : N := blen (filter (fun it => fst it =? 11) its).
Lemma ids_n_app a b : ids_n (a ++ b) = ids_n a + ids_n b.
Proof. unfold ids_n. rewrite filter_app. apply blen_app. Qed.
Lemma ids_n_cons it its : ids_n (it :: its) = (if fst it =? 11 then 1 else 0) + ids_n its.
Proof. unfold ids_n. cbn [filter]. destruct (fst it =? 11); [apply blen_cons|reflexivity]. Qed.
Lemma items_bytes_cons it its : items_bytes (it :: its) = item_bytes it ++ items_bytes its.
Proof. reflexivity. Qed.

Definition allowed_ok (allowed : list N) (it : item) : Prop := item_ok it /\ In (fst it) allowed.

Lemma value_enc_written v : value_small v -> value_enc v (value_bytes v).
Proof.
  destruct v; cbn [value_enc value_bytes value_small]; auto. intros H.
  split; [apply lenfield_varint, H|apply varint_len_bound].
Qed.
Lemma split_spec allowed plen : forall its c a b,
  Forall (allowed_ok allowed) its -> split_props plen c its = (a, b) ->
  its = a ++ b /\
  reads allowed plen c a (items_bytes a) (c + blen (items_bytes a) + ids_n a) /\
  (b = [] \/ plen <= c + blen (items_bytes a) + ids_n a).
Proof.
  induction its as [|it its IH]; intros c a b HF E; cbn [split_props] in E.
  - injection E as <- <-. split; [reflexivity|]. cbn. rewrite !N.add_0_r. split; [constructor|auto].
  - destruct (c <? plen) eqn:Ec.
    + apply Forall_cons_iff in HF as [[Hok Hin] HF].
      destruct (split_props plen (c + counted (fst it) (blen (item_bytes it))) its) as [a' b'] eqn:E'.
      injection E as <- <-. destruct (IH _ _ _ HF E') as (H1 & H2 & H3).
      split; [cbn [app]; f_equal; exact H1|].
      assert (Epos : c + counted (fst it) (blen (item_bytes it)) + blen (items_bytes a') + ids_n a'
        = c + blen (items_bytes (it :: a')) + ids_n (it :: a')).
      { rewrite items_bytes_cons, ids_n_cons, blen_app. unfold counted. lia. }
      rewrite Epos in *. split; [|exact H3].
      destruct it as [id v]. cbn [fst] in *. rewrite items_bytes_cons. unfold item_bytes. cbn [fst snd app].
      apply reads_cons; auto; [lia|apply value_enc_written, Hok|].
      unfold item_bytes in H2. cbn [fst snd] in H2. rewrite blen_cons in H2. exact H2.
    + injection E as <- <-. split; [reflexivity|]. cbn. rewrite !N.add_0_r. split; [constructor|right; lia].
Qed.
Lemma split_section allowed its a b :
  Forall (allowed_ok allowed) its -> split_props (blen (items_bytes its)) 0 its = (a, b) ->
  its = a ++ b /\ section allowed (blen (items_bytes its)) a (items_bytes a).
Proof.
  intros HF E. destruct (split_spec allowed _ _ _ _ _ HF E) as (H1 & H2 & H3).
  split; [exact H1|]. eexists. split; [exact H2|].
  destruct H3 as [->|H3]; [|exact H3]. rewrite app_nil_r in H1. subst its. lia.
Qed.
(** all of them are read iff the position in front of the last one is still inside *)
Lemma split_last plen x : forall pre c,
  snd (split_props plen c (pre ++ [x])) = [] <-> c + blen (items_bytes pre) + ids_n pre < plen.
Proof.
  induction pre as [|it pre IH]; intros c; cbn [app split_props].
  - change (ids_n []) with 0. change (blen (items_bytes [])) with 0. rewrite !N.add_0_r.
    destruct (c <? plen) eqn:Ec; cbn [snd]; split; intros H; try discriminate H; try reflexivity; lia.
  - destruct (c <? plen) eqn:Ec.
    + destruct (split_props plen (c + counted (fst it) (blen (item_bytes it))) (pre ++ [x])) as [a b] eqn:E.
      cbn [snd]. specialize (IH (c + counted (fst it) (blen (item_bytes it)))). rewrite E in IH. cbn [snd] in IH.
      rewrite IH, items_bytes_cons, ids_n_cons, blen_app. unfold counted. lia.
    + cbn [snd]. split; [discriminate|]. lia.
Qed.
Lemma item_long it : 2 <= blen (item_bytes it).
Proof. unfold item_bytes. rewrite blen_cons. assert (H := value_nonempty (snd it)). lia. Qed.
Lemma split_all its : (forall pre x, its = pre ++ [x] -> ids_n pre < blen (item_bytes x)) <->
  snd (split_props (blen (items_bytes its)) 0 its) = [].
Proof.
  destruct (list_eq_dec N.eq_dec (map fst its) []) as [E|E].
  - destruct its as [|? ?]; [|discriminate E]. split; [reflexivity|]. intros _ pre x H. destruct pre; discriminate H.
  - destruct (exists_last (l := its)) as (pre & x & ->); [intros ->; apply E; reflexivity|].
    rewrite split_last. rewrite items_bytes_app, blen_app. cbn [items_bytes flat_map]. rewrite app_nil_r.
    split.
    + intros H. specialize (H pre x eq_refl). lia.
    + intros H pre' x' Hx. apply app_inj_tail in Hx as [<- <-]. lia.
Qed.
Lemma ids_n_place pl its : Forall (has_place pl) its -> mem 11 (allowed_at pl) = false -> ids_n its = 0.
Proof.
  intros HF Hm. unfold ids_n. induction HF as [|it its [Hin _] _ IH]; [reflexivity|]. cbn [filter].
  destruct (N.eqb_spec (fst it) 11) as [E|E]; [|exact IH].
  rewrite E in Hin. apply mem_in in Hin. congruence.
Qed.
Lemma split_place pl its : Forall (has_place pl) its -> mem 11 (allowed_at pl) = false ->
  snd (split_props (blen (items_bytes its)) 0 its) = [].
Proof.
  intros HF Hm. apply split_all. intros pre x ->. apply Forall_app in HF as [HF _].
  rewrite (ids_n_place pl pre HF Hm). assert (H := item_long x). lia.
Qed.

Section Canon.
  Context {R : Type} (pl : place) (rec : list item -> R) (items : R -> list item).
  Hypothesis rec_items : forall r, rec (items r) = r.
  Hypothesis items_place : forall r, Forall (has_place pl) (items r).
  Lemma allowed_items o : Forall item_ok (opt_items items o) ->
    Forall (allowed_ok (allowed_at pl)) (opt_items items o).
  Proof.
    intros H. assert (Hp := opt_place pl items items_place o). rewrite Forall_forall in *.
    intros it Hi. split; [apply H, Hi|]. apply (Hp it Hi).
  Qed.
  Lemma section_decodes o : Forall item_ok (opt_items items o) ->
    blen (items_bytes (opt_items items o)) <= max_len ->
    snd (split_props (blen (items_bytes (opt_items items o))) 0 (opt_items items o)) = [] ->
    decodes_props (allowed_at pl) rec (canon_props items o) (section_bytes (opt_items items o)).
  Proof.
    intros Hok Hl Hs. unfold canon_props. destruct o as [r|]; cbn [opt_items] in *.
    - destruct (split_props (blen (items_bytes (items r))) 0 (items r)) as [a b] eqn:E. cbn [snd] in Hs. subst b.
      destruct (split_section (allowed_at pl) (items r) a []) as [H1 H2]; [exact (allowed_items (Some r) Hok)|exact E|].
      rewrite app_nil_r in H1. subst a.
      destruct (nonempty (items r)) eqn:En; cbn [decodes_props].
      + exists (varint (blen (items_bytes (items r)))), (blen (items_bytes (items r))), (items r), (items_bytes (items r)).
        split; [reflexivity|]. split; [apply lenfield_varint, Hl|]. split; [apply varint_len_bound|].
        split; [|split; [exact H2|symmetry; apply rec_items]].
        destruct (items r) as [|it its]; [discriminate|]. rewrite items_bytes_cons, blen_app.
        assert (H := item_long it). lia.
      + destruct (items r) as [|it its]; [|discriminate]. cbn. split; [|discriminate]. apply (lf_last 0). lia.
    - cbn. split; [|discriminate]. apply (lf_last 0). lia.
  Qed.
  (** what is read from the section of any record, also where some properties are left *)
  Lemma section_split r a b suf : Forall item_ok (items r) -> items r <> [] ->
    blen (items_bytes (items r)) <= max_len ->
    split_props (blen (items_bytes (items r))) 0 (items r) = (a, b) ->
    exists sec, section_bytes (items r) ++ suf = sec ++ items_bytes b ++ suf /\
      decodes_props (allowed_at pl) rec (Some (rec a)) sec.
  Proof.
    intros Hok Hne Hl E.
    destruct (split_section (allowed_at pl) (items r) a b) as [H1 H2]; [exact (allowed_items (Some r) Hok)|exact E|].
    exists (varint (blen (items_bytes (items r))) ++ items_bytes a). split.
    - unfold section_bytes. unfold item in *. rewrite H1 at 2. rewrite items_bytes_app, <- !app_assoc. reflexivity.
    - exists (varint (blen (items_bytes (items r)))), (blen (items_bytes (items r))), a, (items_bytes a).
      split; [reflexivity|]. split; [apply lenfield_varint, Hl|]. split; [apply varint_len_bound|].
      split; [|split; [exact H2|reflexivity]].
      destruct (items r) as [|it its]; [contradiction|]. rewrite items_bytes_cons, blen_app.
      assert (H := item_long it). lia.
  Qed.
End Canon.

(** *** records read from a section *)
Lemma reads_items allowed plen c its bs c' : reads allowed plen c its bs c' -> Forall (allowed_ok allowed) its.
Proof. induction 1; constructor; auto. split; assumption. Qed.

Section Sizes.
  Definition size_of (id : N) (its : list item) : N :=
    blen (items_bytes (filter (fun it => fst it =? id) its)).
  Lemma size_cons id it its : size_of id (it :: its) = (if fst it =? id then blen (item_bytes it) else 0) + size_of id its.
  Proof. unfold size_of. cbn [filter]. destruct (fst it =? id); [rewrite items_bytes_cons, blen_app; lia|lia]. Qed.
  Fixpoint sizes (ids : list N) (its : list item) : N :=
    match ids with [] => 0 | id :: ids => size_of id its + sizes ids its end.
  Lemma sizes_cons ids it its : NoDup ids -> sizes ids (it :: its) <= blen (item_bytes it) + sizes ids its /\
    (~ In (fst it) ids -> sizes ids (it :: its) = sizes ids its).
  Proof.
    induction 1 as [|id ids Hn Hd IH]; [cbn; split; [lia|reflexivity]|]. cbn [sizes]. rewrite size_cons.
    destruct IH as [IH1 IH2]. destruct (N.eqb_spec (fst it) id) as [E|E].
    - subst id. rewrite (IH2 Hn). split; [lia|]. intros H. exfalso. apply H. left. reflexivity.
    - split; [lia|]. intros H. rewrite IH2; [lia|]. intros Hi. apply H. right. exact Hi.
  Qed.
  Lemma sizes_le ids its : NoDup ids -> sizes ids its <= blen (items_bytes its).
  Proof.
    intros Hd. induction its as [|it its IH].
    - clear. induction ids as [|id ids IH]; [cbn; lia|]. cbn [sizes]. change (size_of id []) with 0. exact IH.
    - rewrite items_bytes_cons, blen_app. destruct (sizes_cons ids it its Hd) as [H _]. lia.
  Qed.
  Lemma size_in id v its : In (id, v) its -> blen (item_bytes (id, v)) <= size_of id its.
  Proof.
    induction its as [|it its IH]; [intros []|]. intros [->|H]; rewrite size_cons; cbn [fst].
    - rewrite N.eqb_refl. lia.
    - specialize (IH H). lia.
  Qed.
  Lemma size_num id c t its : Forall item_typed its -> ptype_of id = Some t ->
    (forall v, type_of v = t -> match v with VByte n | VTwo n | VFour n | VVar n => v = c n | _ => False end) ->
    blen (items_bytes (one id c (last_num id its))) <= size_of id its.
  Proof.
    intros HF Ht Hc. assert (Hi := incl_num id c t its HF Ht Hc). destruct (last_num id its) as [n|]; cbn [one].
    - cbn [items_bytes flat_map]. rewrite app_nil_r. apply size_in, Hi. left. reflexivity.
    - change (blen (items_bytes [])) with 0; apply N.le_0_l.
  Qed.
  Lemma size_bytes id c t its : Forall item_typed its -> ptype_of id = Some t ->
    (forall v, type_of v = t -> match v with VStr n | VBin n => v = c n | _ => False end) ->
    blen (items_bytes (one id c (last_bytes id its))) <= size_of id its.
  Proof.
    intros HF Ht Hc. assert (Hi := incl_bytes id c t its HF Ht Hc). destruct (last_bytes id its) as [n|]; cbn [one].
    - cbn [items_bytes flat_map]. rewrite app_nil_r. apply size_in, Hi. left. reflexivity.
    - change (blen (items_bytes [])) with 0; apply N.le_0_l.
  Qed.
  Lemma size_pairs its : blen (items_bytes (pair_items (all_pairs its))) <= size_of 38 its.
  Proof.
    induction its as [|[id v] its IH]; [apply N.le_0_l|]. rewrite size_cons. cbn [fst].
    change ((id, v) :: its) with ([(id, v)] ++ its). rewrite all_pairs_app. unfold pair_items in *.
    rewrite map_app, items_bytes_app, blen_app. apply N.add_le_mono; [|exact IH].
    unfold all_pairs. cbn [flat_map fst snd]. destruct v; cbn [app map items_bytes flat_map]; try apply N.le_0_l.
    destruct (N.eqb_spec id 38) as [->|]; cbn [app map items_bytes flat_map fst snd]; [rewrite app_nil_r; apply N.le_refl|apply N.le_0_l].
  Qed.
  Lemma size_ids its : blen (items_bytes (id_items (all_ids its))) <= size_of 11 its.
  Proof.
    induction its as [|[id v] its IH]; [apply N.le_0_l|]. rewrite size_cons. cbn [fst].
    change ((id, v) :: its) with ([(id, v)] ++ its). rewrite all_ids_app. unfold id_items in *.
    rewrite map_app, items_bytes_app, blen_app. apply N.add_le_mono; [|exact IH].
    unfold all_ids. cbn [flat_map fst snd]. destruct v; cbn [app map items_bytes flat_map]; try apply N.le_0_l.
    destruct (N.eqb_spec id 11) as [->|]; cbn [app map items_bytes flat_map fst snd]; [rewrite app_nil_r; apply N.le_refl|apply N.le_0_l].
  Qed.
End Sizes.

Ltac set_size HF :=
  repeat rewrite items_bytes_app; repeat rewrite blen_app;
  repeat match goal with |- context [one ?id ?c (last_num ?id ?its)] =>
    let H := fresh "H" in
    assert (H : blen (items_bytes (one id c (last_num id its))) <= size_of id its)
      by (eapply size_num; [exact HF|reflexivity|intros [] H; try discriminate H; reflexivity]);
    generalize dependent (blen (items_bytes (one id c (last_num id its)))); intros end;
  repeat match goal with |- context [one ?id ?c (last_bytes ?id ?its)] =>
    let H := fresh "H" in
    assert (H : blen (items_bytes (one id c (last_bytes id its))) <= size_of id its)
      by (eapply size_bytes; [exact HF|reflexivity|intros [] H; try discriminate H; reflexivity]);
    generalize dependent (blen (items_bytes (one id c (last_bytes id its)))); intros end;
  try match goal with |- context [pair_items (all_pairs ?its)] =>
    let H := fresh "H" in assert (H := size_pairs its) end;
  try match goal with |- context [id_items (all_ids ?its)] =>
    let H := fresh "H" in assert (H := size_ids its) end.
Ltac set_sized its HF ids :=
  set_size HF;
  let Hd := fresh "Hd" in
  assert (Hd := sizes_le ids its ltac:(repeat constructor; cbn; intuition discriminate));
  cbn [sizes allowed_at] in Hd; lia.

(** a section with a property gives a record with a property *)
Lemma one_some {A} id (c : A -> pval) (o : option A) : one id c o = [] -> o = None.
Proof. destruct o; [discriminate|reflexivity]. Qed.
Lemma pairs_nonempty pre k w : pair_items (all_pairs (pre ++ [(38, VPair k w)])) = [] -> False.
Proof.
  rewrite all_pairs_app. unfold pair_items. rewrite map_app. intros H. apply app_eq_nil in H as [_ H]. discriminate H.
Qed.
Lemma ids_nonempty pre n : id_items (all_ids (pre ++ [(11, VVar n)])) = [] -> False.
Proof.
  rewrite all_ids_app. unfold id_items. rewrite map_app. intros H. apply app_eq_nil in H as [_ H]. discriminate H.
Qed.
Ltac set_nonempty :=
  intros Hn HF Hi H;
  let pre := fresh "pre" in let id := fresh "id" in let v := fresh "v" in let E := fresh "E" in
  match type of Hn with ?its <> [] =>
    destruct (exists_last Hn) as (pre & [id v] & E) end;
  rewrite E in HF, Hi, H; apply Forall_app in HF as [_ HF]; apply Forall_inv in HF;
  apply Forall_app in Hi as [_ Hi]; apply Forall_inv in Hi; destruct HF as [HF _]; cbn [fst snd] in HF, Hi;
  repeat match goal with H : _ ++ _ = [] |- _ => apply app_eq_nil in H as [? ?] end;
  repeat match goal with H : one _ _ _ = [] |- _ => apply one_some in H end;
  cbn [allowed_at In] in Hi;
  repeat (destruct Hi as [Hi|Hi]; [subst id; cbn [ptype_of] in HF; injection HF as HF; destruct v; try discriminate HF;
    repeat match goal with
    | H : last_num _ _ = None |- _ => rewrite last_num_snoc in H; cbn in H; try discriminate H; clear H
    | H : last_bytes _ _ = None |- _ => rewrite last_bytes_snoc in H; cbn in H; try discriminate H; clear H
    | H : pair_items (all_pairs (_ ++ [(38, VPair _ _)])) = [] |- _ => apply pairs_nonempty in H; contradiction
    | H : id_items (all_ids (_ ++ [(11, VVar _)])) = [] |- _ => apply ids_nonempty in H; contradiction
    end|]); contradiction.

(** the record depends only on the order of properties with the same identifier *)
Definition same_by_id (a b : list item) : Prop :=
  forall id, filter (fun it => fst it =? id) a = filter (fun it => fst it =? id) b.
Lemma last_of_filter id its : last_of id its = last_of id (filter (fun it => fst it =? id) its).
Proof.
  induction its as [|it its IH] using rev_ind; [reflexivity|]. destruct it as [i v].
  rewrite last_of_snoc, filter_app. cbn [filter fst]. destruct (N.eqb_spec i id) as [->|E].
  - rewrite last_of_snoc, N.eqb_refl. reflexivity.
  - rewrite app_nil_r. exact IH.
Qed.
Lemma same_num id a b : id <> 38 -> same_props a b -> last_num id a = last_num id b.
Proof. intros Hi (H & _). unfold last_num. rewrite (H id Hi). reflexivity. Qed.
Lemma same_bytes id a b : id <> 38 -> same_props a b -> last_bytes id a = last_bytes id b.
Proof. intros Hi (H & _). unfold last_bytes. rewrite (H id Hi). reflexivity. Qed.
Lemma pairs_filter its : all_pairs its = all_pairs (filter (fun it => fst it =? 38) its).
Proof.
  induction its as [|[i v] its IH]; [reflexivity|]. change ((i, v) :: its) with ([(i, v)] ++ its).
  rewrite filter_app, !all_pairs_app, IH. f_equal. cbn [filter fst].
  destruct (i =? 38) eqn:E; [reflexivity|]. cbn. destruct v; try reflexivity. rewrite E. reflexivity.
Qed.
Lemma ids_filter its : all_ids its = all_ids (filter (fun it => fst it =? 11) its).
Proof.
  induction its as [|[i v] its IH]; [reflexivity|]. change ((i, v) :: its) with ([(i, v)] ++ its).
  rewrite filter_app, !all_ids_app, IH. f_equal. cbn [filter fst].
  destruct (i =? 11) eqn:E; [reflexivity|]. cbn. destruct v; try reflexivity. rewrite E. reflexivity.
Qed.
Lemma same_by_id_props a b : same_by_id a b -> same_props a b.
Proof.
  intros H. split; [|split].
  - intros id _. rewrite (last_of_filter id a), (last_of_filter id b), (H id). reflexivity.
  - rewrite (pairs_filter a), (pairs_filter b), (H 38). reflexivity.
  - rewrite (ids_filter a), (ids_filter b), (H 11). reflexivity.
Qed.
Ltac set_same H :=
  repeat match goal with |- context [last_num ?id ?a] =>
    match type of H with same_props a ?b => rewrite (same_num id a b ltac:(discriminate) H) end end;
  repeat match goal with |- context [last_bytes ?id ?a] =>
    match type of H with same_props a ?b => rewrite (same_bytes id a b ltac:(discriminate) H) end end;
  try match type of H with same_props ?a ?b => rewrite (proj1 (proj2 H)) end;
  try match type of H with same_props ?a ?b => rewrite (proj2 (proj2 H)) end;
  reflexivity.

(** *** per record *)
Lemma connect_size its : Forall item_typed its ->
  blen (items_bytes (connect_items (connect_record its))) <= blen (items_bytes its).
Proof. intros HF. unfold connect_record, connect_items; cbn [V5Connect.cp_session_expiry_interval V5Connect.cp_receive_maximum V5Connect.cp_max_packet_size V5Connect.cp_topic_alias_max V5Connect.cp_request_response_info V5Connect.cp_request_problem_info V5Connect.cp_user_properties V5Connect.cp_authentication_method V5Connect.cp_authentication_data]. set_sized its HF (allowed_at InConnect). Qed.
Lemma connect_nonempty its : its <> [] -> Forall item_typed its -> Forall (fun it => In (fst it) (allowed_at InConnect)) its ->
  connect_items (connect_record its) <> [].
Proof. unfold connect_record, connect_items; cbn [V5Connect.cp_session_expiry_interval V5Connect.cp_receive_maximum V5Connect.cp_max_packet_size V5Connect.cp_topic_alias_max V5Connect.cp_request_response_info V5Connect.cp_request_problem_info V5Connect.cp_user_properties V5Connect.cp_authentication_method V5Connect.cp_authentication_data]. set_nonempty. Qed.
Lemma connect_same a b : same_props a b -> connect_record a = connect_record b.
Proof. intros H. unfold connect_record. set_same H. Qed.
Lemma will_size its : Forall item_typed its ->
  blen (items_bytes (will_items (will_record its))) <= blen (items_bytes its).
Proof. intros HF. unfold will_record, will_items; cbn [V5Connect.wp_delay_interval V5Connect.wp_payload_format_indicator V5Connect.wp_message_expiry_interval V5Connect.wp_content_type V5Connect.wp_response_topic V5Connect.wp_correlation_data V5Connect.wp_user_properties]. set_sized its HF (allowed_at InWill). Qed.
Lemma will_nonempty its : its <> [] -> Forall item_typed its -> Forall (fun it => In (fst it) (allowed_at InWill)) its ->
  will_items (will_record its) <> [].
Proof. unfold will_record, will_items; cbn [V5Connect.wp_delay_interval V5Connect.wp_payload_format_indicator V5Connect.wp_message_expiry_interval V5Connect.wp_content_type V5Connect.wp_response_topic V5Connect.wp_correlation_data V5Connect.wp_user_properties]. set_nonempty. Qed.
Lemma will_same a b : same_props a b -> will_record a = will_record b.
Proof. intros H. unfold will_record. set_same H. Qed.
Lemma connack_size its : Forall item_typed its ->
  blen (items_bytes (connack_items (connack_record its))) <= blen (items_bytes its).
Proof. intros HF. unfold connack_record, connack_items; cbn [V5ConnAck.session_expiry_interval V5ConnAck.receive_max V5ConnAck.max_qos V5ConnAck.retain_available V5ConnAck.max_packet_size V5ConnAck.assigned_client_identifier V5ConnAck.topic_alias_max V5ConnAck.reason_string V5ConnAck.user_properties V5ConnAck.wildcard_subscription_available V5ConnAck.subscription_identifiers_available V5ConnAck.shared_subscription_available V5ConnAck.server_keep_alive V5ConnAck.response_information V5ConnAck.server_reference V5ConnAck.authentication_method V5ConnAck.authentication_data]. set_sized its HF (allowed_at InConnAck). Qed.
Lemma connack_nonempty its : its <> [] -> Forall item_typed its -> Forall (fun it => In (fst it) (allowed_at InConnAck)) its ->
  connack_items (connack_record its) <> [].
Proof. unfold connack_record, connack_items; cbn [V5ConnAck.session_expiry_interval V5ConnAck.receive_max V5ConnAck.max_qos V5ConnAck.retain_available V5ConnAck.max_packet_size V5ConnAck.assigned_client_identifier V5ConnAck.topic_alias_max V5ConnAck.reason_string V5ConnAck.user_properties V5ConnAck.wildcard_subscription_available V5ConnAck.subscription_identifiers_available V5ConnAck.shared_subscription_available V5ConnAck.server_keep_alive V5ConnAck.response_information V5ConnAck.server_reference V5ConnAck.authentication_method V5ConnAck.authentication_data]. set_nonempty. Qed.
Lemma connack_same a b : same_props a b -> connack_record a = connack_record b.
Proof. intros H. unfold connack_record. set_same H. Qed.
Lemma publish_size its : Forall item_typed its ->
  blen (items_bytes (publish_items (publish_record its))) <= blen (items_bytes its).
Proof. intros HF. unfold publish_record, publish_items; cbn [V5Publish.payload_format_indicator V5Publish.message_expiry_interval V5Publish.topic_alias V5Publish.response_topic V5Publish.correlation_data V5Publish.user_properties V5Publish.subscription_identifiers V5Publish.content_type]. set_sized its HF (allowed_at InPublish). Qed.
Lemma publish_nonempty its : its <> [] -> Forall item_typed its -> Forall (fun it => In (fst it) (allowed_at InPublish)) its ->
  publish_items (publish_record its) <> [].
Proof. unfold publish_record, publish_items; cbn [V5Publish.payload_format_indicator V5Publish.message_expiry_interval V5Publish.topic_alias V5Publish.response_topic V5Publish.correlation_data V5Publish.user_properties V5Publish.subscription_identifiers V5Publish.content_type]. set_nonempty. Qed.
Lemma publish_same a b : same_props a b -> publish_record a = publish_record b.
Proof. intros H. unfold publish_record. set_same H. Qed.
Lemma puback_size its : Forall item_typed its ->
  blen (items_bytes (puback_items (puback_record its))) <= blen (items_bytes its).
Proof. intros HF. unfold puback_record, puback_items; cbn [V5PubAck.reason_string V5PubAck.user_properties]. set_sized its HF (allowed_at InPubAck). Qed.
Lemma puback_nonempty its : its <> [] -> Forall item_typed its -> Forall (fun it => In (fst it) (allowed_at InPubAck)) its ->
  puback_items (puback_record its) <> [].
Proof. unfold puback_record, puback_items; cbn [V5PubAck.reason_string V5PubAck.user_properties]. set_nonempty. Qed.
Lemma puback_same a b : same_props a b -> puback_record a = puback_record b.
Proof. intros H. unfold puback_record. set_same H. Qed.
Lemma pubrec_size its : Forall item_typed its ->
  blen (items_bytes (pubrec_items (pubrec_record its))) <= blen (items_bytes its).
Proof. intros HF. unfold pubrec_record, pubrec_items; cbn [V5PubRec.reason_string V5PubRec.user_properties]. set_sized its HF (allowed_at InPubRec). Qed.
Lemma pubrec_nonempty its : its <> [] -> Forall item_typed its -> Forall (fun it => In (fst it) (allowed_at InPubRec)) its ->
  pubrec_items (pubrec_record its) <> [].
Proof. unfold pubrec_record, pubrec_items; cbn [V5PubRec.reason_string V5PubRec.user_properties]. set_nonempty. Qed.
Lemma pubrec_same a b : same_props a b -> pubrec_record a = pubrec_record b.
Proof. intros H. unfold pubrec_record. set_same H. Qed.
Lemma pubrel_size its : Forall item_typed its ->
  blen (items_bytes (pubrel_items (pubrel_record its))) <= blen (items_bytes its).
Proof. intros HF. unfold pubrel_record, pubrel_items; cbn [V5PubRel.reason_string V5PubRel.user_properties]. set_sized its HF (allowed_at InPubRel). Qed.
Lemma pubrel_nonempty its : its <> [] -> Forall item_typed its -> Forall (fun it => In (fst it) (allowed_at InPubRel)) its ->
  pubrel_items (pubrel_record its) <> [].
Proof. unfold pubrel_record, pubrel_items; cbn [V5PubRel.reason_string V5PubRel.user_properties]. set_nonempty. Qed.
Lemma pubrel_same a b : same_props a b -> pubrel_record a = pubrel_record b.
Proof. intros H. unfold pubrel_record. set_same H. Qed.
Lemma pubcomp_size its : Forall item_typed its ->
  blen (items_bytes (pubcomp_items (pubcomp_record its))) <= blen (items_bytes its).
Proof. intros HF. unfold pubcomp_record, pubcomp_items; cbn [V5PubComp.reason_string V5PubComp.user_properties]. set_sized its HF (allowed_at InPubComp). Qed.
Lemma pubcomp_nonempty its : its <> [] -> Forall item_typed its -> Forall (fun it => In (fst it) (allowed_at InPubComp)) its ->
  pubcomp_items (pubcomp_record its) <> [].
Proof. unfold pubcomp_record, pubcomp_items; cbn [V5PubComp.reason_string V5PubComp.user_properties]. set_nonempty. Qed.
Lemma pubcomp_same a b : same_props a b -> pubcomp_record a = pubcomp_record b.
Proof. intros H. unfold pubcomp_record. set_same H. Qed.
Lemma subscribe_size its : Forall item_typed its ->
  blen (items_bytes (subscribe_items (subscribe_record its))) <= blen (items_bytes its).
Proof. intros HF. unfold subscribe_record, subscribe_items; cbn [V5Subscribe.id V5Subscribe.user_properties]. set_sized its HF (allowed_at InSubscribe). Qed.
Lemma subscribe_nonempty its : its <> [] -> Forall item_typed its -> Forall (fun it => In (fst it) (allowed_at InSubscribe)) its ->
  subscribe_items (subscribe_record its) <> [].
Proof. unfold subscribe_record, subscribe_items; cbn [V5Subscribe.id V5Subscribe.user_properties]. set_nonempty. Qed.
Lemma subscribe_same a b : same_props a b -> subscribe_record a = subscribe_record b.
Proof. intros H. unfold subscribe_record. set_same H. Qed.
Lemma suback_size its : Forall item_typed its ->
  blen (items_bytes (suback_items (suback_record its))) <= blen (items_bytes its).
Proof. intros HF. unfold suback_record, suback_items; cbn [V5SubAck.reason_string V5SubAck.user_properties]. set_sized its HF (allowed_at InSubAck). Qed.
Lemma suback_nonempty its : its <> [] -> Forall item_typed its -> Forall (fun it => In (fst it) (allowed_at InSubAck)) its ->
  suback_items (suback_record its) <> [].
Proof. unfold suback_record, suback_items; cbn [V5SubAck.reason_string V5SubAck.user_properties]. set_nonempty. Qed.
Lemma suback_same a b : same_props a b -> suback_record a = suback_record b.
Proof. intros H. unfold suback_record. set_same H. Qed.
Lemma unsubscribe_size its : Forall item_typed its ->
  blen (items_bytes (unsubscribe_items (unsubscribe_record its))) <= blen (items_bytes its).
Proof. intros HF. unfold unsubscribe_record, unsubscribe_items; cbn [V5Unsubscribe.user_properties]. set_sized its HF (allowed_at InUnsubscribe). Qed.
Lemma unsubscribe_nonempty its : its <> [] -> Forall item_typed its -> Forall (fun it => In (fst it) (allowed_at InUnsubscribe)) its ->
  unsubscribe_items (unsubscribe_record its) <> [].
Proof. unfold unsubscribe_record, unsubscribe_items; cbn [V5Unsubscribe.user_properties]. set_nonempty. Qed.
Lemma unsubscribe_same a b : same_props a b -> unsubscribe_record a = unsubscribe_record b.
Proof. intros H. unfold unsubscribe_record. set_same H. Qed.
Lemma unsuback_size its : Forall item_typed its ->
  blen (items_bytes (unsuback_items (unsuback_record its))) <= blen (items_bytes its).
Proof. intros HF. unfold unsuback_record, unsuback_items; cbn [V5UnsubAck.reason_string V5UnsubAck.user_properties]. set_sized its HF (allowed_at InUnsubAck). Qed.
Lemma unsuback_nonempty its : its <> [] -> Forall item_typed its -> Forall (fun it => In (fst it) (allowed_at InUnsubAck)) its ->
  unsuback_items (unsuback_record its) <> [].
Proof. unfold unsuback_record, unsuback_items; cbn [V5UnsubAck.reason_string V5UnsubAck.user_properties]. set_nonempty. Qed.
Lemma unsuback_same a b : same_props a b -> unsuback_record a = unsuback_record b.
Proof. intros H. unfold unsuback_record. set_same H. Qed.
Lemma disconnect_size its : Forall item_typed its ->
  blen (items_bytes (disconnect_items (disconnect_record its))) <= blen (items_bytes its).
Proof. intros HF. unfold disconnect_record, disconnect_items; cbn [V5Disconnect.session_expiry_interval V5Disconnect.reason_string V5Disconnect.user_properties V5Disconnect.server_reference]. set_sized its HF (allowed_at InDisconnect). Qed.
Lemma disconnect_nonempty its : its <> [] -> Forall item_typed its -> Forall (fun it => In (fst it) (allowed_at InDisconnect)) its ->
  disconnect_items (disconnect_record its) <> [].
Proof. unfold disconnect_record, disconnect_items; cbn [V5Disconnect.session_expiry_interval V5Disconnect.reason_string V5Disconnect.user_properties V5Disconnect.server_reference]. set_nonempty. Qed.
Lemma disconnect_same a b : same_props a b -> disconnect_record a = disconnect_record b.
Proof. intros H. unfold disconnect_record. set_same H. Qed.

(** PropTopic.v -- property theorems about src/topic.rs: C30-C34. *)
From Verif Require Import ProofBase Utf8 ProofUtf8 Topic SpecTopic ProofTopic.

(** ** C30: `matches` decides the filter relation *)
(** on any two strings *)
Theorem C30_matches_exact : forall topic filter ts fs,
  is_utf8 topic -> ~ multibyte_first topic -> ~ starts_with_dollar topic ->
  levels topic ts -> levels filter fs ->
  (matches topic filter = Ok true <-> covers fs ts) /\
  (matches topic filter = Ok false <-> ~ covers fs ts).
Proof.
  intros topic filter ts fs Hu Hm Hd Ht Hf.
  rewrite (levels_split _ _ Ht), (levels_split _ _ Hf).
  destruct (matches_cases topic filter Hu) as [[H _]|[(_ & H & _)|(_ & _ & E)]]; [contradiction|contradiction|].
  rewrite E. assert (H := loop_covers (split_slash filter) (split_slash topic)).
  destruct (matches_loop (split_slash filter) (split_slash topic)).
  - split; split; intros X; try reflexivity; try discriminate.
    + apply H; reflexivity.
    + exfalso. apply X, H. reflexivity.
  - split; split; intros X; try reflexivity; try discriminate.
    + apply H in X. discriminate.
    + intros Y. apply H in Y. discriminate.
Qed.
(** for a filter the crate calls valid and a topic name without '#' level this is
    the relation of MQTT section 4.7 *)
Theorem C30_matches_valid : forall topic filter ts fs,
  is_utf8 topic -> ~ multibyte_first topic -> ~ starts_with_dollar topic ->
  levels topic ts -> levels filter fs ->
  valid_filter filter = true -> ~ In [HASH] ts ->
  (matches topic filter = Ok true <-> accepts fs ts) /\
  (matches topic filter = Ok false <-> ~ accepts fs ts).
Proof.
  intros topic filter ts fs Hu Hm Hd Ht Hf Hv Hn.
  assert (C : covers fs ts <-> accepts fs ts).
  { apply covers_accepts; [|exact Hn]. intros pre post E.
    apply valid_filter_spec in Hv as [_ Hv]. destruct Hf as (_ & HF & ->). subst fs.
    destruct post as [|q post]; [reflexivity|exfalso].
    assert (E : exists p, join (pre ++ [HASH] :: q :: post) = p ++ HASH :: SLASH :: join (q :: post)).
    { clear. induction pre as [|x pre [p IH]]; [exists []; reflexivity|].
      exists (x ++ SLASH :: p). cbn [app]. destruct (pre ++ [HASH] :: q :: post) as [|y l] eqn:El.
      - destruct pre; discriminate.
      - change (join (x :: y :: l)) with (x ++ SLASH :: join (y :: l)). rewrite IH, <- app_assoc. reflexivity. }
    destruct E as [p E]. destruct (Hv _ _ E) as [H _]. discriminate. }
  destruct (C30_matches_exact topic filter ts fs Hu Hm Hd Ht Hf) as [H1 H2].
  rewrite H1, H2, C. split; reflexivity.
Qed.
(** every string has exactly one list of levels *)
Theorem C30_levels_unique : forall s, exists ls, levels s ls /\ forall ls', levels s ls' -> ls' = ls.
Proof.
  intros s. exists (split_slash s). split; [apply split_levels|]. intros ls' H. apply levels_split, H.
Qed.
(** topics starting with '$' match no filter, not even themselves *)
Theorem C30_dollar_never : forall topic filter, is_utf8 topic -> starts_with_dollar topic ->
  matches topic filter = Ok false.
Proof.
  intros topic filter Hu Hd. destruct (matches_cases topic filter Hu) as [[H _]|[(_ & _ & E)|(_ & H & _)]];
    [|exact E|contradiction].
  destruct Hd as (r & ->). assert (X := multi_not_ascii _ _ _ H eq_refl). unfold DOLLAR in X. lia.
Qed.
(** "a/b" against "a/+/#": '#' also stands for no level at all *)
Example C30_case :
  let topic := [97; SLASH; 98] in let filter := [97; SLASH; PLUS; SLASH; HASH] in
  is_utf8 topic /\ ~ multibyte_first topic /\ ~ starts_with_dollar topic /\
  levels topic [[97]; [98]] /\ levels filter [[97]; [PLUS]; [HASH]] /\
  valid_filter filter = true /\ ~ In [HASH] [[97]; [98]] /\ accepts [[97]; [PLUS]; [HASH]] [[97]; [98]].
Proof.
  cbv zeta. assert (Hnm : ~ multibyte_first [97; SLASH; 98]).
  { intros H. assert (X := multi_not_ascii _ _ _ H eq_refl). lia. }
  repeat split; try exact Hnm; try discriminate; try reflexivity.
  - apply utf8_ok_spec. reflexivity.
  - intros (r & H). discriminate.
  - repeat constructor; intros [H|[]]; discriminate.
  - repeat constructor; intros [H|[]]; discriminate.
  - intros [H|[H|[]]]; discriminate.
  - apply a_same; [discriminate|]. apply a_plus. apply a_hash.
Qed.
Example C30_case_dollar : is_utf8 [36; 83] /\ starts_with_dollar [36; 83] /\ covers [[HASH]] [[36; 83]].
Proof.
  split; [apply utf8_ok_spec; reflexivity|]. split; [exists [83]; reflexivity|]. apply c_hash.
Qed.

(** ** C31: `matches` panics exactly on topics whose first character is not ASCII *)
Theorem C31_panics_exactly : forall topic filter, is_utf8 topic ->
  (matches topic filter = Panic <-> multibyte_first topic) /\
  (~ multibyte_first topic -> exists b, matches topic filter = Ok b).
Proof.
  intros topic filter Hu.
  destruct (matches_cases topic filter Hu) as [[H E]|[(H & _ & E)|(H & _ & E)]]; rewrite E.
  - split; [split; auto|]. intros X; contradiction.
  - split; [split; [discriminate|intros X; contradiction]|]. eauto.
  - split; [split; [discriminate|intros X; contradiction]|]. eauto.
Qed.
(** so the claim "never panics" is false: topic U+00E9, filter '#' *)
Theorem C31_total_refuted :
  ~ (forall topic filter, is_utf8 topic -> is_utf8 filter -> exists b, matches topic filter = Ok b).
Proof.
  intros H. destruct (H [0xC3; 0xA9] [HASH]) as [b E].
  - apply utf8_ok_spec. reflexivity.
  - apply utf8_ok_spec. reflexivity.
  - vm_compute in E. discriminate.
Qed.
Example C31_case : is_utf8 [0xC3; 0xA9] /\ multibyte_first [0xC3; 0xA9] /\ ~ multibyte_first [97].
Proof.
  split; [apply utf8_ok_spec; reflexivity|]. split.
  - exists 0xE9, []. repeat split; try (cbv; congruence). left. cbv. reflexivity.
  - intros H. assert (X := multi_not_ascii _ _ _ H eq_refl). lia.
Qed.

(** ** C32: `valid_filter` *)
Theorem C32_valid_filter_exact : forall f, valid_filter f = true <-> f <> [] /\ hash_only_last f.
Proof. exact valid_filter_spec. Qed.
Theorem C32_valid_filter_otherwise : forall f, valid_filter f = false <-> f = [] \/ ~ hash_only_last f.
Proof.
  intros f. assert (H := valid_filter_spec f). destruct (valid_filter f).
  - split; [discriminate|]. destruct (proj1 H eq_refl) as [H1 H2]. intros [X|X]; contradiction.
  - split; [intros _|reflexivity]. destruct f as [|b f]; [left; reflexivity|right].
    intros X. assert (false = true); [apply H; split; [discriminate|exact X]|discriminate].
Qed.
(** MQTT also wants '+' to be a whole level: not checked, "a+" is accepted *)
Theorem C32_plus_rule_refuted : ~ (forall f, valid_filter f = true -> plus_whole_level f).
Proof.
  intros H. destruct (H [97; PLUS] eq_refl [97] [] eq_refl) as [[X|(p & X)] _]; [discriminate|].
  destruct p as [|? [|? ?]]; discriminate.
Qed.
Example C32_case : valid_filter [97; SLASH; HASH] = true /\ ~ hash_only_last [97; HASH] /\
  valid_filter [97; HASH] = false /\ ~ hash_only_last [HASH; SLASH; 97] /\ valid_filter [HASH; SLASH; 97] = false.
Proof.
  repeat split; try reflexivity.
  - intros H. destruct (H [97] [] eq_refl) as [_ [X|(p & X)]]; [discriminate|]. destruct p as [|? [|? ?]]; discriminate.
  - intros H. destruct (H [] [SLASH; 97] eq_refl) as [X _]. discriminate.
Qed.

(** ** C33: covering *)
Lemma matches_true topic filter : matches topic filter = Ok true ->
  (forall g, matches topic g = Ok (matches_loop (split_slash g) (split_slash topic))) /\
  covers (split_slash filter) (split_slash topic).
Proof.
  intros H. assert (Hg : forall g, matches topic g = Ok (matches_loop (split_slash g) (split_slash topic))).
  { intros g. revert H. unfold matches. destruct (is_empty topic); [cbn [obind]; reflexivity|].
    destruct (str_first topic) as [fst|e| |]; cbn [obind]; try discriminate.
    destruct (contains ch_dollar fst); [discriminate|reflexivity]. }
  split; [exact Hg|]. rewrite Hg in H. injection H as H. apply loop_covers, H.
Qed.
Theorem C33_covering_sound : forall f1 f2 topic,
  matches f1 f2 = Ok true -> matches topic f1 = Ok true -> matches topic f2 = Ok true.
Proof.
  intros f1 f2 t H12 Ht. destruct (matches_true _ _ H12) as [_ C1]. destruct (matches_true _ _ Ht) as [Hg C2].
  rewrite Hg. f_equal. apply loop_covers. eapply covers_trans; eassumption.
Qed.
(** the converse fails: "+/#" matches every topic name that "#" matches, but
    `matches("#", "+/#")` is false *)
Theorem C33_covering_complete_refuted :
  ~ (forall f1 f2, valid_filter f1 = true -> valid_filter f2 = true ->
       (forall topic, valid_topic topic = true -> matches topic f1 = Ok true -> matches topic f2 = Ok true) ->
       matches f1 f2 = Ok true).
Proof.
  intros H. assert (X : matches [HASH] [PLUS; SLASH; HASH] = Ok true).
  { apply H; [reflexivity|reflexivity|]. intros t Hv Ht.
    destruct (matches_true _ _ Ht) as [Hg _]. rewrite Hg. f_equal. apply loop_covers.
    change (split_slash [PLUS; SLASH; HASH]) with [[PLUS]; [HASH]].
    assert (Hn := split_nonempty t). destruct (split_levels t) as (_ & _ & E).
    destruct (split_slash t) as [|x ls]; [contradiction|].
    apply c_plus; [|apply c_hash]. intros ->.
    assert (Hh : In HASH t).
    { rewrite E. apply in_join; [discriminate|]. exists [HASH]. split; left; reflexivity. }
    unfold valid_topic in Hv. destruct (contains ch_plus t); [discriminate|].
    assert (contains ch_hash t = true) as Y by (apply contains_spec, Hh). rewrite Y in Hv. discriminate. }
  vm_compute in X. discriminate.
Qed.
(** *** exactly how far the converse goes *)
Lemma utf8_cut c : scalar c -> c <> SLASH -> forall l r cs,
  flat_map utf8_encode (c :: cs) = l ++ SLASH :: r ->
  exists l', l = utf8_encode c ++ l' /\ flat_map utf8_encode cs = l' ++ SLASH :: r.
Proof.
  intros Hc Hn l r cs E. cbn [flat_map] in E.
  assert (Hb : Forall (fun b => b <> SLASH) (utf8_encode c)).
  { unfold utf8_encode, SLASH in *. unfold scalar in Hc.
    destruct (c <? 128); [repeat constructor; assumption|].
    destruct (c <? 2048); [repeat constructor; lia|]. destruct (c <? 65536); repeat constructor; lia. }
  revert l E. induction Hb as [|b bs Hb Hbs IH]; intros l E.
  - exists l. split; [reflexivity|exact E].
  - destruct l as [|x l]; cbn [app] in E; injection E as E1 E; [contradiction|]. subst x.
    destruct (IH l E) as (l' & -> & H). exists l'. split; [reflexivity|exact H].
Qed.
Lemma utf8_split l r : is_utf8 (l ++ SLASH :: r) -> no_slash l -> is_utf8 l /\ is_utf8 r.
Proof.
  intros (cs & HF & E) Hl. revert l Hl E. induction HF as [|c cs Hc HF IH]; intros l Hl E.
  - destruct l; discriminate.
  - destruct (N.eq_dec c SLASH) as [->|Hn].
    + cbn [flat_map] in E. change (utf8_encode SLASH) with [SLASH] in E. cbn [app] in E.
      destruct l as [|x l]; cbn [app] in E.
      * injection E as E. split; [exists []; split; [constructor|reflexivity]|exists cs; split; assumption].
      * injection E as E1 E. exfalso. apply Hl. left. exact E1.
    + symmetry in E. destruct (utf8_cut c Hc Hn l r cs E) as (l' & -> & E').
      destruct (IH l') as [(ds & HD & Ed) Hr].
      * intros H. apply Hl. apply in_or_app. right. exact H.
      * symmetry. exact E'.
      * split; [|exact Hr]. exists (c :: ds). split; [constructor; assumption|]. cbn [flat_map]. congruence.
Qed.
Lemma utf8_app a b : is_utf8 a -> is_utf8 b -> is_utf8 (a ++ b).
Proof.
  intros (x & Hx & ->) (y & Hy & ->). exists (x ++ y). split; [apply Forall_app; split; assumption|].
  rewrite flat_map_app. reflexivity.
Qed.
Lemma utf8_slash r : is_utf8 r -> is_utf8 (SLASH :: r).
Proof. intros H. apply (utf8_app [SLASH] r); [|exact H]. exists [SLASH]. split; [constructor; [left; cbv; reflexivity|constructor]|reflexivity]. Qed.
Lemma utf8_levels ls : Forall no_slash ls -> is_utf8 (join ls) -> Forall is_utf8 ls.
Proof.
  induction ls as [|l [|m ls] IH]; intros Hn Hu; [constructor|constructor; [exact Hu|constructor]|].
  inversion_clear Hn. change (join (l :: m :: ls)) with (l ++ SLASH :: join (m :: ls)) in Hu.
  apply utf8_split in Hu as [H1 H2]; [|assumption]. constructor; [exact H1|]. apply IH; assumption.
Qed.
Lemma utf8_join ls : Forall is_utf8 ls -> is_utf8 (join ls).
Proof.
  induction ls as [|l [|m ls] IH]; intros H; inversion_clear H.
  - exists []. split; [constructor|reflexivity].
  - assumption.
  - change (join (l :: m :: ls)) with (l ++ SLASH :: join (m :: ls)). apply utf8_app; [assumption|].
    apply utf8_slash, IH. assumption.
Qed.

(** a level longer than every level of [f2] *)
Definition long_level (f2 : bytes) : bytes := 97 :: repeat 97 (length f2).
Lemma long_repeat f2 b : In b (long_level f2) -> b = 97.
Proof. intros [H|H]; [auto|]. apply repeat_spec in H. exact H. Qed.
Lemma long_fresh f2 : ~ In (long_level f2) (split_slash f2).
Proof.
  intros H. destruct (split_levels f2) as (_ & _ & E).
  assert (L : forall ls l, In l ls -> (length l <= length (join ls))%nat).
  { clear. induction ls as [|x [|y ls] IH]; intros l Hl; [contradiction|destruct Hl as [->|[]]; reflexivity|destruct Hl as [->|Hl]].
    - change (join (l :: y :: ls)) with (l ++ SLASH :: join (y :: ls)). rewrite app_length. lia.
    - change (join (x :: y :: ls)) with (x ++ SLASH :: join (y :: ls)). rewrite app_length. cbn [length].
      specialize (IH l Hl). lia. }
  specialize (L _ _ H). rewrite <- E in L. unfold long_level in L. cbn [length] in L. rewrite repeat_length in L. lia.
Qed.
Lemma long_utf8 f2 : is_utf8 (long_level f2).
Proof.
  exists (long_level f2). split.
  - apply Forall_forall. intros b Hb. rewrite (long_repeat _ _ Hb). left. cbv. reflexivity.
  - assert (H := long_repeat f2). induction (long_level f2) as [|b l IH]; [reflexivity|].
    cbn [flat_map]. rewrite <- IH by (intros x Hx; apply H; right; exact Hx).
    rewrite (H b (or_introl eq_refl)). reflexivity.
Qed.
Lemma long_plain f2 : no_slash (long_level f2) /\ ~ In PLUS (long_level f2) /\ ~ In HASH (long_level f2).
Proof. repeat split; intros H; apply long_repeat in H; discriminate. Qed.

Definition filled (w l : bytes) : bytes := if bytes_eqb l [PLUS] then w else l.
Lemma covers_filled w pre : forall F2 X, ~ In w F2 -> w <> [HASH] -> ~ In [HASH] pre ->
  covers F2 (map (filled w) pre ++ X) ->
  (forall Y, covers F2 (pre ++ Y)) \/
  (covers (skipn (length pre) F2) X /\ forall Y, covers (skipn (length pre) F2) Y -> covers F2 (pre ++ Y)).
Proof.
  induction pre as [|l pre IH]; intros F2 X Hw Hwh Hh C; cbn [map app length skipn] in *.
  - right. split; auto.
  - assert (Hl : l <> [HASH]) by (intros ->; apply Hh; left; reflexivity).
    assert (Hp : ~ In [HASH] pre) by (intros H; apply Hh; right; exact H).
    inversion C as [|fs ts|fs t ts H1 H2|l' fs ts H1 H2]; subst.
    + left. intros Y. apply c_hash.
    + cbn [skipn]. destruct (IH fs X) as [H|[H3 H4]]; try assumption; [intros H; apply Hw; right; exact H|..].
      * left. intros Y. apply c_plus; [exact Hl|apply H].
      * right. split; [exact H3|]. intros Y HY. apply c_plus; [exact Hl|apply H4, HY].
    + cbn [skipn]. assert (El : filled w l = l).
      { unfold filled in *. destruct (bytes_eqb l [PLUS]); [|reflexivity]. exfalso. apply Hw. left. reflexivity. }
      rewrite El in *.
      destruct (IH fs X) as [H|[H3 H4]]; try assumption; [intros H; apply Hw; right; exact H|..].
      * left. intros Y. apply c_same; [exact Hl|apply H].
      * right. split; [exact H3|]. intros Y HY. apply c_same; [exact Hl|apply H4, HY].
Qed.
Lemma filled_covers w pre : w <> [HASH] -> ~ In [HASH] pre -> forall F X, covers F X -> covers (pre ++ F) (map (filled w) pre ++ X).
Proof.
  intros Hw. induction pre as [|l pre IH]; intros Hh F X C; [exact C|]. cbn [map app].
  assert (Hl : l <> [HASH]) by (intros ->; apply Hh; left; reflexivity).
  assert (Hp : ~ In [HASH] pre) by (intros H; apply Hh; right; exact H).
  unfold filled at 1. destruct (bytes_eqb l [PLUS]) eqn:E.
  - apply bytes_eqb_eq in E. subst l. apply c_plus; [exact Hw|apply IH; assumption].
  - apply c_same; [exact Hl|apply IH; assumption].
Qed.

(** the levels of a filter that obeys MQTT's rules: the wildcards are whole levels, '#' the last one *)
Lemma in_levels ls l : In l ls -> exists a b, join ls = a ++ l ++ b /\
  (a = [] \/ exists a', a = a' ++ [SLASH]) /\ (b = [] \/ exists b', b = SLASH :: b').
Proof.
  induction ls as [|x [|y ls] IH]; intros H; [contradiction|destruct H as [->|[]]|destruct H as [->|H]].
  - exists [], []. rewrite app_nil_r. auto.
  - exists [], (SLASH :: join (y :: ls)). split; [reflexivity|]. eauto.
  - destruct (IH H) as (a & b & E & Ha & Hb). exists (x ++ SLASH :: a), b.
    change (join (x :: y :: ls)) with (x ++ SLASH :: join (y :: ls)). rewrite E, <- app_assoc. split; [reflexivity|].
    split; [right|exact Hb]. destruct Ha as [->|(a' & ->)]; [exists x; reflexivity|].
    exists (x ++ SLASH :: a'). rewrite <- app_assoc. reflexivity.
Qed.
Lemma plus_level f ls l : plus_whole_level f -> levels f ls -> In l ls -> In PLUS l -> l = [PLUS].
Proof.
  intros Hp (_ & HF & E) Hl Hi. destruct (in_levels ls l Hl) as (a & b & Ej & _ & _).
  assert (Hs : no_slash l) by (rewrite Forall_forall in HF; apply HF, Hl).
  apply in_split in Hi as (x & y & ->). rewrite Ej in E.
  destruct (Hp (a ++ x) (y ++ b)) as [H1 H2].
  { rewrite E, <- !app_assoc. reflexivity. }
  assert (Hx : x = []).
  { destruct x as [|c x _] using rev_ind; [reflexivity|exfalso].
    destruct H1 as [H1|(p & H1)]; [apply app_eq_nil in H1 as [_ H1]; apply app_eq_nil in H1 as [_ H1]; discriminate|].
    rewrite app_assoc in H1. apply app_inj_tail in H1 as [_ ->]. apply Hs. rewrite <- app_assoc. apply in_or_app. right. left. reflexivity. }
  assert (Hy : y = []).
  { destruct y as [|c y]; [reflexivity|exfalso]. destruct H2 as [H2|(p & H2)]; [discriminate|].
    cbn [app] in H2. injection H2 as -> _. apply Hs. apply in_or_app. right. right. left. reflexivity. }
  subst. reflexivity.
Qed.
Lemma hash_level f ls l : hash_only_last f -> levels f ls -> In l ls -> In HASH l -> l = [HASH].
Proof.
  intros Hp (_ & HF & E) Hl Hi. destruct (in_levels ls l Hl) as (a & b & Ej & _ & _).
  assert (Hs : no_slash l) by (rewrite Forall_forall in HF; apply HF, Hl).
  apply in_split in Hi as (x & y & ->). rewrite Ej in E.
  destruct (Hp (a ++ x) (y ++ b)) as [H2 H1].
  { rewrite E, <- !app_assoc. reflexivity. }
  apply app_eq_nil in H2 as [-> _].
  assert (Hx : x = []).
  { destruct x as [|c x _] using rev_ind; [reflexivity|exfalso].
    destruct H1 as [H1|(p & H1)]; [apply app_eq_nil in H1 as [_ H1]; apply app_eq_nil in H1 as [_ H1]; discriminate|].
    rewrite app_assoc in H1. apply app_inj_tail in H1 as [_ ->]. apply Hs. rewrite <- app_assoc. apply in_or_app. right. left. reflexivity. }
  subst. reflexivity.
Qed.
Lemma hash_last f ls pre post : hash_only_last f -> levels f ls -> ls = pre ++ [HASH] :: post -> post = [].
Proof.
  intros Hv (_ & HF & ->) ->. destruct post as [|q post]; [reflexivity|exfalso].
  assert (E : exists p, join (pre ++ [HASH] :: q :: post) = p ++ HASH :: SLASH :: join (q :: post)).
  { clear. induction pre as [|x pre [p IH]]; [exists []; reflexivity|].
    exists (x ++ SLASH :: p). cbn [app]. destruct (pre ++ [HASH] :: q :: post) as [|y l] eqn:El.
    - destruct pre; discriminate.
    - change (join (x :: y :: l)) with (x ++ SLASH :: join (y :: l)). rewrite IH, <- app_assoc. reflexivity. }
  destruct E as [p E]. destruct (Hv _ _ E) as [H _]. discriminate.
Qed.

(** strings `matches` looks at *)
Definition good_start (s : bytes) : Prop := match s with [] => True | b :: _ => b < 128 /\ b <> DOLLAR end.
Lemma good_start_intro s : is_utf8 s -> ~ multibyte_first s -> ~ starts_with_dollar s -> good_start s.
Proof.
  intros Hu Hm Hd. destruct (utf8_first s Hu) as [->|[(b & r & -> & Hb & _)|H]]; [exact I| |contradiction].
  split; [exact Hb|]. intros ->. apply Hd. exists r. reflexivity.
Qed.
Lemma good_start_matches s f : is_utf8 s -> good_start s ->
  matches s f = Ok (matches_loop (split_slash f) (split_slash s)).
Proof.
  intros Hu Hg. destruct (matches_cases s f Hu) as [[H _]|[(_ & (r & ->) & _)|(_ & _ & E)]]; [exfalso|exfalso|exact E].
  - destruct s as [|b r]; [|assert (X := multi_not_ascii _ _ _ H eq_refl); destruct Hg; lia].
    destruct H as (c & rest & Hc & Hge & E). unfold utf8_encode in E.
    destruct (c <? 128), (c <? 2048), (c <? 65536); discriminate.
  - destruct Hg as [_ Hg]. contradiction.
Qed.
Lemma good_start_join l ls l' ls' : good_start (join (l :: ls)) -> l' = l \/ good_start l' /\ l' <> [] ->
  good_start (join (l' :: ls')).
Proof.
  intros Hg [->|[Hl Hn]].
  - destruct l as [|b l]; [destruct ls'; cbn; [exact I|split; cbv; congruence]|].
    destruct ls, ls'; exact Hg.
  - destruct l' as [|b l']; [contradiction|]. destruct ls'; exact Hl.
Qed.

Theorem C33_covering_exact : forall f1 f2,
  is_utf8 f1 -> ~ multibyte_first f1 -> ~ starts_with_dollar f1 ->
  valid_filter f1 = true -> plus_whole_level f1 ->
  ((forall topic, is_utf8 topic -> valid_topic topic = true ->
      matches topic f1 = Ok true -> matches topic f2 = Ok true) <->
   matches f1 f2 = Ok true \/ f1 = [HASH] /\ exists more, levels f2 ([PLUS] :: [HASH] :: more)).
Proof.
  intros f1 f2 Hu Hm Hd Hv Hp. apply valid_filter_spec in Hv as [_ Hv].
  assert (Hg := good_start_intro _ Hu Hm Hd). assert (HL := split_levels f1).
  split.
  - intros H.
    (* topics made from f1: fill in '+', and replace a final '#' by further levels *)
    set (w := long_level f2). destruct (long_plain f2) as (W1 & W2 & W3). fold w in W1, W2, W3.
    assert (Wh : w <> [HASH]) by (intros E; apply W3; rewrite E; left; reflexivity).
    assert (Wf := long_fresh f2). fold w in Wf. assert (Wu := long_utf8 f2). fold w in Wu.
    assert (T : forall pre F X, split_slash f1 = pre ++ F -> ~ In [HASH] pre -> covers F X -> Forall (eq w) X -> pre ++ X <> [] ->
      covers (split_slash f2) (map (filled w) pre ++ X)).
    { intros pre F X E Hh C HX Hne.
      assert (HX' : forall P : bytes -> Prop, P w -> Forall P X).
      { intros P HP. eapply Forall_impl; [|exact HX]. intros a <-. exact HP. }
      assert (HP : forall P : bytes -> Prop, P w -> (forall l, In l pre -> (l = [PLUS] -> False) -> P l) -> Forall P (map (filled w) pre)).
      { intros P Pw Pl. apply Forall_forall. intros x Hx. apply in_map_iff in Hx as (l & <- & Hl). unfold filled.
        destruct (bytes_eqb l [PLUS]) eqn:El; [exact Pw|]. apply Pl; [exact Hl|]. intros ->. discriminate. }
      assert (Hin : forall l, In l pre -> In l (split_slash f1)) by (intros l Hl; rewrite E; apply in_or_app; left; exact Hl).
      destruct HL as (L1 & L2 & L3).
      assert (N1 : Forall no_slash (map (filled w) pre ++ X)).
      { apply Forall_app. split; [|apply HX', W1]. apply HP; [exact W1|]. intros l Hl _. rewrite Forall_forall in L2. apply L2, Hin, Hl. }
      assert (N0 : map (filled w) pre ++ X <> []).
      { intros N. apply app_eq_nil in N as [N ->]. apply map_eq_nil in N. subst pre. apply Hne. reflexivity. }
      set (t := join (map (filled w) pre ++ X)).
      assert (Et : split_slash t = map (filled w) pre ++ X) by (apply split_join; assumption).
      assert (Tu : is_utf8 t).
      { apply utf8_join. apply Forall_app. split; [|apply HX', Wu]. apply HP; [exact Wu|]. intros l Hl _.
        assert (K : Forall is_utf8 (split_slash f1)) by (apply utf8_levels; [exact L2|rewrite <- L3; exact Hu]).
        rewrite Forall_forall in K. apply K, Hin, Hl. }
      assert (Tv : valid_topic t = true).
      { assert (Hw : forall c, c <> SLASH -> ~ In c w -> (forall l, In l pre -> (l = [PLUS] -> False) -> ~ In c l) -> contains c t = false).
        { intros c Hc Hcw Hcl. apply contains_false. intros Hi. apply (in_join c _ Hc) in Hi as (l & Hl & Hi).
          apply in_app_or in Hl as [Hl|Hl].
          - assert (K := HP (fun l => ~ In c l) Hcw Hcl). rewrite Forall_forall in K. exact (K l Hl Hi).
          - assert (K := HX' (fun l => ~ In c l) Hcw). rewrite Forall_forall in K. exact (K l Hl Hi). }
        unfold valid_topic.
        rewrite (Hw ch_plus); [|discriminate|exact W2|].
        2: { intros l Hl Hn Hi. apply Hn. eapply plus_level; [exact Hp|exact (conj L1 (conj L2 L3))|apply Hin, Hl|exact Hi]. }
        rewrite (Hw ch_hash); [reflexivity|discriminate|exact W3|].
        intros l Hl Hn Hi. apply Hh. rewrite <- (hash_level f1 (split_slash f1) l Hv (conj L1 (conj L2 L3)) (Hin l Hl) Hi). exact Hl. }
      assert (Ts : good_start t).
      { assert (Hws : good_start w /\ w <> []) by (split; [split; cbv; congruence|discriminate]).
        unfold t. destruct pre as [|l pre]; cbn [map app].
        - destruct X as [|x X]; [exact I|]. inversion HX; subst x. destruct Hws as [Hw1 Hw2].
          destruct X; exact Hw1.
        - rewrite E in L3. cbn [app] in L3. rewrite L3 in Hg. eapply good_start_join; [exact Hg|].
          unfold filled. destruct (bytes_eqb l [PLUS]); [right; exact Hws|left; reflexivity]. }
      specialize (H t Tu Tv). rewrite !(good_start_matches _ _ Tu Ts), Et in H.
      assert (H1 : matches_loop (split_slash f1) (map (filled w) pre ++ X) = true).
      { apply loop_covers. rewrite E. apply filled_covers; assumption. }
      rewrite H1 in H. specialize (H eq_refl). injection H as H. apply loop_covers, H. }
    rewrite (good_start_matches _ _ Hu Hg).
    assert (Goal1 : covers (split_slash f2) (split_slash f1) \/ f1 = [HASH] /\ exists more, levels f2 ([PLUS] :: [HASH] :: more)).
    2: { destruct Goal1 as [C|C]; [left|right; exact C]. f_equal. apply loop_covers, C. }
    destruct (in_dec (list_eq_dec N.eq_dec) [HASH] (split_slash f1)) as [Hh|Hh].
    + apply in_split in Hh as (pre & post & E). assert (post = []) as -> by (eapply hash_last; eauto).
      assert (Hpre : ~ In [HASH] pre).
      { intros K. apply in_split in K as (a & b & ->). rewrite <- app_assoc in E. cbn [app] in E.
        assert (X := hash_last f1 _ _ _ Hv HL E). destruct b; discriminate. }
      destruct pre as [|l pre].
      * (* f1 = "#" *)
        assert (C1 := T [] [[HASH]] [w] E (fun x => x) (c_hash _ _) ltac:(repeat constructor) ltac:(discriminate)).
        assert (C2 := T [] [[HASH]] [w; w] E (fun x => x) (c_hash _ _) ltac:(repeat constructor) ltac:(discriminate)).
        cbn [map app] in C1, C2, E. rewrite E.
        assert (E2 := split_levels f2). revert C1 C2 Wf E2. generalize (split_slash f2). intros F2 C1 C2 Wf E2.
        inversion C1 as [|fs ts|fs t ts K1 K2|l' fs ts K1 K2]; subst; [left; apply c_hash| |exfalso; apply Wf; left; reflexivity].
        inversion C2 as [|fs' ts'|fs' t' ts' K3 K4|l' fs' ts' K3 K4]; subst.
        inversion K2; subst; [inversion K4|]. right. split; [|eexists; exact E2].
        destruct HL as (_ & _ & ->). rewrite E. reflexivity.
      * (* f1 = "l/.../#": topics of two lengths *)
        assert (Hne : forall X, (l :: pre) ++ X <> []) by discriminate.
        assert (C1 := T (l :: pre) [[HASH]] [] E Hpre (c_hash _ _) ltac:(constructor) (Hne _)).
        assert (C2 := T (l :: pre) [[HASH]] [w] E Hpre (c_hash _ _) ltac:(repeat constructor) (Hne _)).
        left. rewrite E.
        destruct (covers_filled w (l :: pre) _ _ Wf Wh Hpre C1) as [K|[K1 K2]]; [apply K|].
        destruct (covers_filled w (l :: pre) _ _ Wf Wh Hpre C2) as [K|[K3 _]]; [apply K|].
        assert (K0 : forall G, covers G [] -> covers G [w] -> covers G [[HASH]]).
        { intros G G1 G2. inversion G1; subst; [inversion G2|apply c_hash]. }
        apply K2, K0; assumption.
    + left. assert (E : split_slash f1 = split_slash f1 ++ []) by (rewrite app_nil_r; reflexivity).
      assert (C1 := T (split_slash f1) [] [] E Hh c_end ltac:(constructor) ltac:(rewrite app_nil_r; apply split_nonempty)).
      destruct (covers_filled w _ _ _ Wf Wh Hh C1) as [K|[K1 K2]].
      * specialize (K []). rewrite app_nil_r in K. exact K.
      * specialize (K2 [] K1). rewrite app_nil_r in K2. exact K2.
  - intros [H|[-> (more & H)]] topic Tu Tv Ht.
    + eapply C33_covering_sound; eassumption.
    + destruct (matches_true _ _ Ht) as [Hx _]. rewrite Hx. f_equal. apply loop_covers.
      rewrite <- (levels_split _ _ H).
      assert (Hn := split_nonempty topic). destruct (split_levels topic) as (_ & _ & E).
      destruct (split_slash topic) as [|x ls]; [contradiction|].
      apply c_plus; [|apply c_hash]. intros ->.
      assert (Hh : In HASH topic).
      { rewrite E. apply in_join; [discriminate|]. exists [HASH]. split; left; reflexivity. }
      unfold valid_topic in Tv. destruct (contains ch_plus topic); [discriminate|].
      assert (contains ch_hash topic = true) as Y by (apply contains_spec, Hh). rewrite Y in Tv. discriminate.
Qed.

(** covering orders the valid filters (that do not start with '$' or a multi-byte character): each covers itself, two that
    cover each other are the same; it is transitive by C33_covering_sound *)
Lemma covers_refl ls : covers ls ls.
Proof.
  induction ls as [|l ls IH]; [constructor|]. destruct (list_eq_dec N.eq_dec l [HASH]) as [->|H]; [constructor|]. constructor; assumption.
Qed.
Lemma covers_antisym fs : forall gs, (forall pre post, fs = pre ++ [HASH] :: post -> post = []) ->
  (forall pre post, gs = pre ++ [HASH] :: post -> post = []) -> covers fs gs -> covers gs fs -> fs = gs.
Proof.
  induction fs as [|f fs IH]; intros gs Hf Hg C D.
  - inversion C. reflexivity.
  - assert (Hf' : forall pre post, fs = pre ++ [HASH] :: post -> post = []) by (intros pre post E; apply (Hf (f :: pre)); rewrite E; reflexivity).
    assert (Hg' : forall x gs', gs = x :: gs' -> forall pre post, gs' = pre ++ [HASH] :: post -> post = []) by (intros x gs' -> pre post E; apply (Hg (x :: pre)); rewrite E; reflexivity).
    inversion C; subst.
    + rewrite (Hf [] fs eq_refl) in D |- *. inversion D; subst; try congruence. rewrite (Hg [] fs0 eq_refl). reflexivity.
    + inversion D; subst; try congruence; rewrite (IH ts); auto; eapply Hg'; reflexivity.
    + inversion D; subst; try congruence; rewrite (IH ts); auto; eapply Hg'; reflexivity.
Qed.
Theorem C33_covering_order : forall f g, is_utf8 f -> is_utf8 g -> valid_filter f = true -> valid_filter g = true ->
  (~ multibyte_first f -> ~ starts_with_dollar f -> matches f f = Ok true) /\
  (matches f g = Ok true -> matches g f = Ok true -> f = g).
Proof.
  intros f g Hf Hg Vf Vg. apply valid_filter_spec in Vf as [_ Vf]. apply valid_filter_spec in Vg as [_ Vg].
  assert (Lf := split_levels f). assert (Lg := split_levels g). split.
  - intros Hm Hd. apply (proj1 (C30_matches_exact f f _ _ Hf Hm Hd Lf Lf)). apply covers_refl.
  - assert (K : forall a b, is_utf8 a -> matches a b = Ok true -> covers (split_slash b) (split_slash a)).
    { intros a b Ha H. destruct (matches_cases a b Ha) as [[_ E]|[(_ & _ & E)|(_ & _ & E)]]; rewrite E in H; try discriminate.
      apply loop_covers. injection H as H. exact H. }
    intros H1 H2. apply (K f g Hf) in H1. apply (K g f Hg) in H2.
    assert (E : split_slash f = split_slash g).
    { apply covers_antisym; [|  |exact H2|exact H1]; intros pre post E; [apply (hash_last f _ _ _ Vf Lf E)|apply (hash_last g _ _ _ Vg Lg E)]. }
    destruct Lf as (_ & _ & ->). destruct Lg as (_ & _ & ->). rewrite E. reflexivity.
Qed.
Example C33_order_case : matches [97; 47; 35] [97; 47; 35] = Ok true /\ valid_filter [97; 47; 35] = true /\
  matches [97; 47; 43] [97; 47; 35] = Ok true /\ matches [97; 47; 35] [97; 47; 43] = Ok false /\
  (* not valid: each covers the other *) matches [97; 47; 35; 47; 98] [97; 47; 35] = Ok true /\ matches [97; 47; 35] [97; 47; 35; 47; 98] = Ok true.
Proof. repeat split; vm_compute; reflexivity. Qed.
Example C33_case : (* "a/+/c" is covered by "a/#"; "a/b/c" is matched by both *)
  matches [97; SLASH; PLUS; SLASH; 99] [97; SLASH; HASH] = Ok true /\
  matches [97; SLASH; 98; SLASH; 99] [97; SLASH; PLUS; SLASH; 99] = Ok true.
Proof. split; reflexivity. Qed.

Example C33_exact_case : (* "a/+" satisfies the hypotheses *)
  let f1 := [97; SLASH; PLUS] in
  is_utf8 f1 /\ ~ multibyte_first f1 /\ ~ starts_with_dollar f1 /\ valid_filter f1 = true /\ plus_whole_level f1 /\
  matches f1 [97; SLASH; HASH] = Ok true /\ matches f1 [PLUS; SLASH; 98] = Ok false.
Proof.
  cbv zeta. split; [apply utf8_ok_spec; reflexivity|].
  split; [intros H; assert (X := multi_not_ascii _ _ _ H eq_refl); lia|].
  split; [intros (r & H); discriminate|]. split; [reflexivity|]. split; [|split; reflexivity].
  intros pre post E. destruct pre as [|a [|b [|c pre]]]; try discriminate E.
  - injection E as <- <- <-. split; [right; exists [97]; reflexivity|left; reflexivity].
  - injection E as <- <- <- E. destruct pre; discriminate E.
Qed.

(** ** C34: filters without wildcards *)
Theorem C34_plain_filter : forall topic filter,
  is_utf8 topic -> ~ multibyte_first topic -> ~ starts_with_dollar topic ->
  has_wildcards filter = false ->
  (matches topic filter = Ok true <-> topic = filter).
Proof.
  intros topic filter Hu Hm Hd Hw. unfold has_wildcards in Hw. apply orb_false_iff in Hw as [Hp Hh].
  apply contains_false in Hp. apply contains_false in Hh.
  assert (Hin : forall c, ~ In c filter -> c <> SLASH -> ~ In [c] (split_slash filter)).
  { intros c Hc Hs Hi. apply Hc. destruct (split_levels filter) as (_ & _ & E). rewrite E.
    apply in_join; [exact Hs|]. exists [c]. split; [exact Hi|left; reflexivity]. }
  destruct (C30_matches_exact topic filter _ _ Hu Hm Hd (split_levels topic) (split_levels filter)) as [H _].
  rewrite H, covers_plain.
  - split; [intros E; symmetry; apply split_inj, E|intros ->; reflexivity].
  - apply Hin; [exact Hh|discriminate].
  - apply Hin; [exact Hp|discriminate].
Qed.
Theorem C34_has_wildcards : forall s,
  (has_wildcards s = true <-> In PLUS s \/ In HASH s) /\ valid_topic s = negb (has_wildcards s).
Proof.
  intros s. unfold has_wildcards, valid_topic. split.
  - rewrite orb_true_iff, !contains_spec. reflexivity.
  - destruct (contains ch_plus s), (contains ch_hash s); reflexivity.
Qed.
Example C34_case : is_utf8 [97; SLASH; 98] /\ has_wildcards [97; SLASH; 98] = false /\
  has_wildcards [97; PLUS] = true /\ valid_topic [] = true.
Proof. split; [apply utf8_ok_spec; reflexivity|]. repeat split; reflexivity. Qed.

Print Assumptions C30_matches_exact.
Print Assumptions C30_matches_valid.
Print Assumptions C30_levels_unique.
Print Assumptions C30_dollar_never.
Print Assumptions C31_panics_exactly.
Print Assumptions C31_total_refuted.
Print Assumptions C32_valid_filter_exact.
Print Assumptions C32_valid_filter_otherwise.
Print Assumptions C32_plus_rule_refuted.
Print Assumptions C33_covering_sound.
Print Assumptions C33_covering_complete_refuted.
Print Assumptions C33_covering_exact.
Print Assumptions C33_covering_order.
Print Assumptions C34_plain_filter.
Print Assumptions C34_has_wildcards.

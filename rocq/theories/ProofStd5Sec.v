(** ProofStd5Sec.v -- property sections: standard or odd, and read in one way only *)
From Verif Require Import Base SpecWire SpecTopic SpecProps SpecPropSets SpecV5 SpecPlaces SpecErrorsV5 SpecStd5 SpecStd5Dev
  ProofStd ProofBase ProofLib ProofRead ProofProps ProofPropSets ProofSections ProofPlaces ProofV5Read ProofV5Write ProofV5 ProofErrorsV5 ProofStd5.

Lemma be32_inj n m (r r' : bytes) : u32 n -> u32 m -> be32 n ++ r = be32 m ++ r' -> n = m /\ r = r'.
Proof.
  intros Hn Hm H. assert (E := read_u32_be32 n r Hn). rewrite H, (read_u32_be32 m r' Hm) in E.
  injection E as -> ->. auto.
Qed.
Lemma value_det v v' vb vb' r r' : type_of v = type_of v' -> value_typed v -> value_typed v' ->
  value_short v -> value_short v' -> value_enc v vb -> value_enc v' vb' -> vb ++ r = vb' ++ r' -> v = v' /\ vb = vb' /\ r = r'.
Proof.
  intros Ht Hv Hv' Hs Hs' He He' E. destruct v, v'; try discriminate Ht; cbn [value_enc value_bytes value_short value_typed] in *.
  - subst. injection E as -> ->. auto.
  - subst. apply be16_inj in E as [-> ->]; auto.
  - subst. apply be32_inj in E as [-> ->]; auto.
  - destruct (lenfield_det _ _ _ _ _ _ (proj1 He) (proj1 He') E) as (-> & -> & ->). auto.
  - subst. apply field_inj in E as [-> ->]; auto.
  - subst. apply field_inj in E as [-> ->]; auto.
  - subst. rewrite <- !app_assoc in E. apply field_inj in E as [-> E]; [|tauto|tauto]. apply field_inj in E as [-> ->]; [auto|tauto|tauto].
Qed.
Lemma reads_det allowed plen c its bs c1 : reads allowed plen c its bs c1 -> plen <= c1 ->
  forall its' bs' c2 r r', reads allowed plen c its' bs' c2 -> plen <= c2 -> bs ++ r = bs' ++ r' -> its = its' /\ bs = bs'.
Proof.
  induction 1 as [c|c id v vb its bs c' Hc Hin Hok He Hr IH]; intros Hp its' bs' c2 r r' Hr' Hp' E.
  - inversion Hr'; subst; [auto|]. lia.
  - inversion Hr' as [|? id' v' vb' its'' bs'' ? Hc' Hin' Hok' He' Hr'']; subst; [lia|].
    cbn [app] in E. injection E as <- E. rewrite <- !app_assoc in E.
    destruct Hok as ([T1 T2] & T3 & _), Hok' as ([U1 U2] & U3 & _). cbn [fst snd] in *.
    destruct (value_det v v' vb vb' (bs ++ r) (bs'' ++ r')) as (-> & -> & E'); auto; [congruence|].
    destruct (IH Hp _ _ _ _ _ Hr'' Hp' E') as [-> ->]. auto.
Qed.
(** a section as the reader sees it *)
Definition parsed (pl : place) (sec f : bytes) (plen : N) (its : list item) (bs : bytes) : Prop :=
  sec = f ++ bs /\ lenfield f plen /\ blen f <= 4 /\ section (allowed_at pl) plen its bs.
Lemma parsed_det pl sec f plen its bs sec' f' plen' its' bs' (r r' : bytes) :
  parsed pl sec f plen its bs -> parsed pl sec' f' plen' its' bs' -> sec ++ r = sec' ++ r' ->
  sec = sec' /\ f = f' /\ plen = plen' /\ its = its' /\ bs = bs' /\ r = r'.
Proof.
  intros (-> & H1 & _ & (c & H2 & H3)) (-> & H1' & _ & (c' & H2' & H3')) E. rewrite <- !app_assoc in E.
  destruct (lenfield_det _ _ _ _ _ _ H1 H1' E) as (-> & -> & E').
  destruct (reads_det _ _ _ _ _ _ H2 H3 _ _ _ _ _ H2' H3' E') as [-> ->]. apply app_inv_head in E'. auto 7.
Qed.
Lemma good_parsed pl sec : good_section pl sec -> exists f plen its bs, parsed pl sec f plen its bs.
Proof.
  intros [[its|] H]; cbn [decodes_props] in H.
  - destruct H as (f & plen & its' & bs & -> & H1 & H2 & H3 & H4 & _). exists f, plen, its', bs. repeat split; assumption.
  - exists sec, 0, [], []. split; [rewrite app_nil_r; reflexivity|]. split; [apply H|]. split; [apply H|].
    exists 0. split; [constructor|lia].
Qed.
Lemma good_det pl sec sec' (r r' : bytes) : good_section pl sec -> good_section pl sec' -> sec ++ r = sec' ++ r' -> sec = sec' /\ r = r'.
Proof.
  intros H H' E. apply good_parsed in H as (f & plen & its & bs & H). apply good_parsed in H' as (f' & plen' & its' & bs' & H').
  destruct (parsed_det _ _ _ _ _ _ _ _ _ _ _ _ _ H H' E) as (-> & _ & _ & _ & _ & ->). auto.
Qed.
Lemma parsed_zero pl sec f its bs : parsed pl sec f 0 its bs -> its = [] /\ bs = [].
Proof. intros (_ & _ & _ & (c & H & _)). inversion H; subst; [auto|lia]. Qed.
Lemma odd_good pl sec : odd_section pl sec -> good_section pl sec.
Proof.
  intros [f plen its bs H1 H2 H3 _]. destruct (N.eq_dec plen 0) as [->|Hn].
  - destruct (parsed_zero pl (f ++ bs) f its bs) as [-> ->]; [repeat split; assumption|]. exists None. rewrite app_nil_r. split; assumption.
  - exists (Some its), f, plen, its, bs. repeat split; try assumption. lia.
Qed.

(** *** decidability *)
Lemma text_dec s : is_string s -> short s -> {text s} + {~ text s}.
Proof. intros H1 H2. destruct (in_dec_n 0 s) as [H|H]; [right; intros (_ & _ & H'); contradiction|left; repeat split; assumption]. Qed.
Lemma topic_name_dec s : is_string s -> short s -> {topic_name s} + {~ topic_name s}.
Proof.
  intros H1 H2. destruct (text_dec s H1 H2) as [H|H]; [|right; intros [H' _]; contradiction].
  destruct (list_eq_dec N.eq_dec s []) as [E|E]; [right; intros (_ & H' & _); contradiction|].
  destruct (in_dec_n PLUS s) as [E1|E1]; [right; intros (_ & _ & H' & _); contradiction|].
  destruct (in_dec_n HASH s) as [E2|E2]; [right; intros (_ & _ & _ & H'); contradiction|].
  left. repeat split; assumption || apply H.
Qed.
Lemma value_rule_dec it : item_ok it -> {value_rule it} + {~ value_rule it}.
Proof.
  destruct it as [id v]. intros ([_ H1] & H2 & _). cbn [fst snd] in *. unfold value_rule. cbn [fst snd]. destruct v; cbn [value_typed value_short] in *.
  - destruct (n <=? 1) eqn:H; [left; lia|right; lia].
  - destruct (N.eq_dec n 0) as [->|Hn]; [|left; auto].
    destruct (N.eq_dec id 33) as [E|E]; [right; intros H; apply H; auto|].
    destruct (N.eq_dec id 35) as [E'|E']; [right; intros H; apply H; auto|]. left. intros [H|H]; contradiction.
  - destruct (N.eq_dec n 0) as [->|Hn]; [|left; auto].
    destruct (N.eq_dec id 39) as [E|E]; [right; intros H; apply H; auto|]. left. intros H; contradiction.
  - destruct (N.eq_dec n 0) as [->|Hn]; [right; intros H; apply H; reflexivity|left; exact Hn].
  - destruct (text_dec s H1 H2) as [Ht|Ht]; [|right; intros [H _]; contradiction].
    destruct (N.eq_dec id 8) as [E|E]; [|left; split; [exact Ht|intros H; contradiction]].
    destruct (topic_name_dec s H1 H2) as [H|H]; [left; auto|right; intros [_ H']; auto].
  - left. exact H2.
  - destruct (text_dec k) as [H|H]; [tauto|tauto| |right; intros [H' _]; contradiction].
    destruct (text_dec v) as [H'|H']; [tauto|tauto| |right; intros [_ H'']; contradiction]. left. auto.
Qed.
Lemma values_dec its : Forall item_ok its -> Forall value_rule its \/ Exists (fun it => ~ value_rule it) its.
Proof.
  induction 1 as [|it its H _ IH]; [left; constructor|]. destruct (value_rule_dec it H) as [Hv|Hv]; [|right; left; exact Hv].
  destruct IH as [IH|IH]; [left; constructor; assumption|right; right; exact IH].
Qed.
(** an identifier twice *)
Lemma twice_dec (ok : N -> bool) (l : list N) :
  (forall id a b c, l = a ++ id :: b ++ id :: c -> ok id = true) \/
  (exists id a b c, l = a ++ id :: b ++ id :: c /\ ok id = false).
Proof.
  induction l as [|x l IH].
  - left. intros id [|? ?] b c H; discriminate H.
  - destruct IH as [IH|(id & a & b & c & -> & H)]; [|right; exists id, (x :: a), b, c; auto].
    destruct (ok x) eqn:Ex; [left|].
    + intros id [|y a] b c H; cbn [app] in H; injection H as -> H; [exact Ex|]. exact (IH _ _ _ _ H).
    + destruct (in_dec_n x l) as [Hi|Hi].
      * right. apply in_split in Hi as (b & c & ->). exists x, [], b, c. auto.
      * left. intros id [|y a] b c H; cbn [app] in H; injection H as -> H; [|exact (IH _ _ _ _ H)].
        exfalso. apply Hi. rewrite H. apply in_or_app. right. left. reflexivity.
Qed.
Definition repeat_ok (pl : place) (id : N) : bool :=
  (id =? 38) || (match pl with InPublish => id =? 11 | _ => false end).
Lemma repeat_ok_in pl id : repeat_ok pl id = true -> In id (match pl with InPublish => [38; 11] | _ => [38] end).
Proof.
  unfold repeat_ok. intros H. apply orb_true_iff in H as [H|H]; [apply N.eqb_eq in H; subst; destruct pl; left; reflexivity|].
  destruct pl; try discriminate H. apply N.eqb_eq in H. subst. right. left. reflexivity.
Qed.
Lemma repeat_not pl id : repeat_ok pl id = false -> id <> 38 /\ ~ (pl = InPublish /\ id = 11).
Proof.
  unfold repeat_ok. intros H. apply orb_false_iff in H as [H1 H2]. apply N.eqb_neq in H1. split; [exact H1|].
  intros [-> ->]. discriminate H2.
Qed.
Lemma not_repeatable pl id : id <> 38 -> ~ (pl = InPublish /\ id = 11) ->
  ~ In id (match pl with InPublish => [38; 11] | _ => [38] end).
Proof. intros H1 H2 H. destruct pl; cbn [In] in H; try (destruct H as [H|[]]; congruence). destruct H as [H|[H|[]]]; [congruence|]. apply H2. auto. Qed.

(** *** a section that is read is standard or odd *)
Lemma parsed_or pl sec f plen its bs : parsed pl sec f plen its bs ->
  (rules_at pl its /\ sec = section_bytes its /\ f = varint (blen (items_bytes its)) /\ bs = items_bytes its /\ plen = blen (items_bytes its)) \/ odd_section pl sec.
Proof.
  intros (-> & H1 & H2 & H3). assert (Hsec := H3). destruct H3 as (c & H3 & H4).
  assert (HF := reads_items _ _ _ _ _ _ H3).
  destruct (list_eq_dec N.eq_dec f (varint plen)) as [Ef|Ef]; [|right; econstructor; eauto].
  destruct (N.eq_dec (blen bs) plen) as [Ep|Ep]; [|right; econstructor; eauto].
  destruct (list_eq_dec N.eq_dec bs (items_bytes its)) as [Eb|Eb]; [|right; econstructor; eauto].
  destruct (values_dec its) as [Hv|Hv]; [eapply Forall_impl; [|exact HF]; intros it H; apply H| |right; econstructor; eauto 6].
  destruct (twice_dec (repeat_ok pl) (map fst its)) as [Ht|(id & a & b & c' & Et & Ht)].
  2: { right. econstructor; eauto. do 4 right. left. exists id, a, b, c'. split; [exact Et|]. exact (repeat_not _ _ Ht). }
  assert (Ha : (occurs 22 its -> occurs 21 its) \/ (occurs 22 its /\ ~ occurs 21 its)).
  { destruct (in_dec_n 22 (map fst its)) as [H|H]; [|left; intros H'; contradiction].
    destruct (in_dec_n 21 (map fst its)) as [H'|H']; [left; intros _; exact H'|right; split; assumption]. }
  destruct Ha as [Ha|Ha]; [|right; econstructor; eauto 8].
  left. split; [|subst; auto]. split; [|split; [|exact Ha]].
  - apply Forall_forall. intros it Hi. rewrite Forall_forall in HF, Hv. destruct (HF it Hi). auto.
  - intros id a b c' E. exact (repeat_ok_in _ _ (Ht _ _ _ _ E)).
Qed.
Lemma decoded_parsed {R} pl (rec : list item -> R) o sec : decodes_props (allowed_at pl) rec o sec ->
  exists f plen its bs, parsed pl sec f plen its bs /\ o = props_of rec its.
Proof.
  destruct o as [r|]; cbn [decodes_props].
  - intros (f & plen & its & bs & -> & H1 & H2 & H3 & H4 & ->). exists f, plen, its, bs. split; [repeat split; assumption|].
    destruct its as [|it its]; [|reflexivity]. destruct H4 as (c & H4 & H5). inversion H4; subst. lia.
  - intros [H1 H2]. exists sec, 0, [], []. split; [|reflexivity]. split; [rewrite app_nil_r; reflexivity|]. split; [exact H1|]. split; [exact H2|].
    exists 0. split; [constructor|lia].
Qed.
Lemma reads_last allowed plen c pre x bs c' : reads allowed plen c (pre ++ [x]) bs c' -> bs = items_bytes (pre ++ [x]) ->
  c + blen (items_bytes pre) + ids_n pre < plen.
Proof.
  revert c bs. induction pre as [|it pre IH]; intros c bs H E; cbn [app] in H;
    inversion H as [|? id v vb its0 bs0 ? Hc Hin Hok He Hr]; subst.
  - change (blen (items_bytes [])) with 0. change (ids_n []) with 0. lia.
  - match goal with E0 : id :: _ = _ |- _ => rename E0 into E end.
    cbn [app] in E. rewrite items_bytes_cons in E. unfold item_bytes in E. cbn [fst snd app] in E. injection E as E.
    assert (E' : vb = value_bytes v /\ bs0 = items_bytes (pre ++ [x])).
    { destruct Hok as ([T1 T2] & T3 & T4). cbn [fst snd] in *.
      destruct (value_det v v vb (value_bytes v) bs0 (items_bytes (pre ++ [x]))) as (_ & -> & ->); auto using value_enc_written. }
    destruct E' as [-> ->]. specialize (IH _ _ Hr eq_refl). rewrite items_bytes_cons, ids_n_cons, blen_app. unfold item_bytes, counted in *. cbn [fst snd] in *.
    rewrite blen_cons. lia.
Qed.
Lemma section_or {R} pl (rec : list item -> R) o sec : decodes_props (allowed_at pl) rec o sec ->
  (exists its, rules_at pl its /\ sec = section_bytes its /\ o = props_of rec its /\
     (forall pre x, its = pre ++ [x] -> ids_n pre < blen (item_bytes x))) \/ odd_section pl sec.
Proof.
  intros H. destruct (decoded_parsed pl rec o sec H) as (f & plen & its & bs & Hp & Ho).
  destruct (parsed_or _ _ _ _ _ _ Hp) as [(H1 & H2 & H3 & H4 & H5)|H1]; [left|right; exact H1].
  exists its. split; [exact H1|]. split; [exact H2|]. split; [exact Ho|]. intros pre x E.
  destruct Hp as (_ & _ & _ & (c & Hr & _)). rewrite E in Hr.
  assert (L := reads_last _ _ _ _ _ _ _ Hr). rewrite <- E in L. specialize (L H4).
  rewrite H5, E, items_bytes_app, blen_app in L. cbn [items_bytes flat_map] in L. rewrite app_nil_r in L. lia.
Qed.
(** a standard section is not odd *)
Lemma std_parsed pl its : Forall (allowed_ok (allowed_at pl)) its -> blen (items_bytes its) <= max_len ->
  (forall pre x, its = pre ++ [x] -> ids_n pre < blen (item_bytes x)) ->
  parsed pl (section_bytes its) (varint (blen (items_bytes its))) (blen (items_bytes its)) its (items_bytes its).
Proof.
  intros HF Hl Hi. split; [reflexivity|]. split; [apply lenfield_varint, Hl|]. split; [apply varint_len_bound|].
  assert (Hb := proj1 (split_all its) Hi).
  destruct (split_props (blen (items_bytes its)) 0 its) as [a b] eqn:E. cbn [snd] in Hb. subst b.
  assert (a = its) by exact (split_all_eq _ _ _ _ E). subst a. exact (proj2 (split_section _ _ _ _ HF E)).
Qed.
Lemma std_not_odd pl its : rules_at pl its -> blen (items_bytes its) <= max_len ->
  (forall pre x, its = pre ++ [x] -> ids_n pre < blen (item_bytes x)) -> ~ odd_section pl (section_bytes its).
Proof.
  intros Hr Hl Hi H. assert (P := std_parsed pl its (rules_allowed _ _ _ Hr) Hl Hi).
  inversion H as [f plen its' bs H1 H2 H3 D E].
  assert (P' : parsed pl (f ++ bs) f plen its' bs) by (repeat split; assumption).
  destruct (parsed_det _ _ _ _ _ _ _ _ _ _ _ [] [] P P') as (_ & <- & <- & <- & <- & _); [rewrite E; reflexivity|].
  destruct Hr as (R1 & R2 & R3). destruct D as [D|[D|[D|[D|[(id & a & b & c & D1 & D2 & D3)|[D1 D2]]]]]]; try (apply D; reflexivity); auto.
  - apply Exists_exists in D as (it & Hin & Hv). rewrite Forall_forall in R1. apply Hv, R1, Hin.
  - exact (not_repeatable pl id D2 D3 (R2 _ _ _ _ D1)).
Qed.

(** ProofTopic.v -- proofs about src/topic.rs. *)
From Verif Require Import ProofBase Utf8 ProofUtf8 Topic SpecTopic.

Lemma contains_spec c s : contains c s = true <-> In c s.
Proof.
  unfold contains. rewrite existsb_exists. split.
  - intros (x & Hx & He). apply N.eqb_eq in He. congruence.
  - intros H. exists c. split; [exact H|apply N.eqb_refl].
Qed.
Lemma contains_false c s : contains c s = false <-> ~ In c s.
Proof. rewrite <- contains_spec. destruct (contains c s); split; congruence. Qed.

(** *** splitting *)
Lemma split_nonempty s : split_slash s <> [].
Proof. destruct s as [|c s]; cbn; [discriminate|]. destruct (c =? ch_slash); [discriminate|].
  destruct (split_slash s); discriminate. Qed.
Lemma split_levels s : levels s (split_slash s).
Proof.
  split; [apply split_nonempty|].
  induction s as [|c s [IH1 IH2]].
  - cbn. split; [constructor; [exact (fun H => H)|constructor]|reflexivity].
  - cbn [split_slash]. destruct (c =? ch_slash) eqn:Ec.
    + apply N.eqb_eq in Ec. split; [constructor; [exact (fun H => H)|exact IH1]|].
      assert (Hn := split_nonempty s). destruct (split_slash s) as [|l ls]; [contradiction|].
      change (join ([] :: l :: ls)) with (SLASH :: join (l :: ls)).
      rewrite <- IH2. unfold ch_slash in Ec. unfold SLASH. congruence.
    + assert (Hn := split_nonempty s). destruct (split_slash s) as [|l ls]; [contradiction|].
      apply Forall_cons_iff in IH1 as [Hl Hls]. split.
      * constructor; [|exact Hls]. intros [E|Hin]; [|exact (Hl Hin)].
        apply N.eqb_neq in Ec. apply Ec. rewrite E. reflexivity.
      * rewrite IH2. destruct ls; reflexivity.
Qed.
Lemma split_join : forall ls, ls <> [] -> Forall no_slash ls -> split_slash (join ls) = ls.
Proof.
  assert (Hone : forall l r, no_slash l ->
    split_slash (l ++ SLASH :: r) = l :: split_slash r /\ split_slash l = [l]).
  { induction l as [|c l IH]; intros r Hl.
    - split; reflexivity.
    - assert (Hl' : no_slash l) by (intros H; apply Hl; right; exact H).
      assert (Hc : (c =? ch_slash) = false) by (apply N.eqb_neq; intros ->; apply Hl; left; reflexivity).
      destruct (IH r Hl') as [H1 H2]. cbn [app split_slash]. rewrite Hc, H1, H2. auto. }
  induction ls as [|l ls IH]; intros Hne HF; [contradiction|].
  apply Forall_cons_iff in HF as [Hl Hls]. destruct ls as [|l' ls].
  - cbn [join]. apply (Hone l [] Hl).
  - change (join (l :: l' :: ls)) with (l ++ SLASH :: join (l' :: ls)).
    rewrite (proj1 (Hone l (join (l' :: ls)) Hl)). rewrite IH; [reflexivity|discriminate|exact Hls].
Qed.
Lemma levels_split s ls : levels s ls -> ls = split_slash s.
Proof. intros (H1 & H2 & ->). symmetry. apply split_join; assumption. Qed.
Lemma split_inj s t : split_slash s = split_slash t -> s = t.
Proof.
  intros H. destruct (split_levels s) as (_ & _ & E1). destruct (split_levels t) as (_ & _ & E2).
  rewrite E1, E2, H. reflexivity.
Qed.

(** *** matching *)
Lemma beqb l c : bytes_eqb l [c] = true <-> l = [c].
Proof. apply bytes_eqb_eq. Qed.

Lemma loop_covers fs : forall ts, matches_loop fs ts = true <-> covers fs ts.
Proof.
  induction fs as [|f fs IH]; intros ts; cbn [matches_loop].
  - destruct ts; split; intros H; try discriminate; [constructor|reflexivity|inversion H].
  - destruct (bytes_eqb f [ch_hash]) eqn:Eh.
    + apply bytes_eqb_eq in Eh. subst f. split; [intros _; apply c_hash|reflexivity].
    + apply bytes_eqb_neq in Eh. destruct ts as [|t ts].
      * split; [discriminate|]. intros H. inversion H; subst. contradiction.
      * destruct (bytes_eqb t [ch_hash]) eqn:Et.
        { apply bytes_eqb_eq in Et. subst t. split; [discriminate|]. intros H.
          inversion H; subst; contradiction. }
        apply bytes_eqb_neq in Et. destruct (bytes_eqb f [ch_plus]) eqn:Ep.
        { apply bytes_eqb_eq in Ep. subst f. rewrite IH. split; intros H.
          - apply c_plus; assumption.
          - inversion H; subst; assumption. }
        apply bytes_eqb_neq in Ep. destruct (bytes_eqb f t) eqn:Eft; cbn [negb].
        { apply bytes_eqb_eq in Eft. subst t. rewrite IH. split; intros H.
          - apply c_same; assumption.
          - inversion H; subst; try contradiction; assumption. }
        { apply bytes_eqb_neq in Eft. split; [discriminate|]. intros H.
          inversion H; subst; contradiction. }
Qed.

(** a filter whose '#' is only last, against a topic without '#' level *)
Lemma covers_accepts fs ts :
  (forall pre post, fs = pre ++ [HASH] :: post -> post = []) -> ~ In [HASH] ts ->
  (covers fs ts <-> accepts fs ts).
Proof.
  revert ts; induction fs as [|f fs IH]; intros ts Hf Ht.
  - split; intros H; inversion H; constructor.
  - assert (Hf' : forall pre post, fs = pre ++ [HASH] :: post -> post = []).
    { intros pre post E. apply (Hf (f :: pre) post). rewrite E. reflexivity. }
    assert (Ht' : forall t ts', ts = t :: ts' -> ~ In [HASH] ts').
    { intros t ts' -> Hin. apply Ht. right. exact Hin. }
    split; intros H; inversion H; subst.
    + rewrite (Hf [] fs eq_refl). apply a_hash.
    + apply a_plus. apply IH; eauto.
    + apply a_same; [assumption|]. apply IH; eauto.
    + apply c_hash.
    + apply c_plus; [intros ->; apply Ht; left; reflexivity|]. apply IH; eauto.
    + apply c_same; [assumption|]. apply IH; eauto.
Qed.
Lemma covers_trans f2 : forall f1 t, covers f2 f1 -> covers f1 t -> covers f2 t.
Proof.
  induction f2 as [|x f2 IH]; intros f1 t H21 H1t.
  - inversion H21; subst. exact H1t.
  - inversion H21; subst.
    + apply c_hash.
    + inversion H1t; subst; try contradiction; apply c_plus; try assumption; eapply IH; eassumption.
    + inversion H1t; subst; try contradiction.
      * apply c_plus; [assumption|]. eapply IH; eassumption.
      * apply c_same; [assumption|]. eapply IH; eassumption.
Qed.
Lemma covers_same ls : ~ In [HASH] ls -> covers ls ls.
Proof.
  induction ls as [|l ls IH]; intros H; [constructor|].
  apply c_same; [intros ->; apply H; left; reflexivity|]. apply IH. intros Hin; apply H; right; exact Hin.
Qed.
Lemma covers_plain fs ts : ~ In [HASH] fs -> ~ In [PLUS] fs -> (covers fs ts <-> fs = ts).
Proof.
  intros Hh Hp. split.
  - intros H. induction H; try reflexivity.
    + exfalso; apply Hh; left; reflexivity.
    + exfalso; apply Hp; left; reflexivity.
    + f_equal. apply IHcovers; intros Hin; [apply Hh|apply Hp]; right; exact Hin.
  - intros <-. apply covers_same, Hh.
Qed.

(** *** the first character *)
Lemma utf8_first s : is_utf8 s ->
  s = [] \/ (exists b r, s = b :: r /\ b < 128 /\ is_utf8 r) \/ multibyte_first s.
Proof.
  intros (cs & HF & ->). destruct HF as [|c cs Hc HF]; [left; reflexivity|right].
  cbn [flat_map]. destruct (N.lt_ge_cases c 128) as [H|H].
  - left. exists c, (flat_map utf8_encode cs). unfold utf8_encode at 1. replace (c <? 128) with true by lia.
    split; [reflexivity|]. split; [exact H|]. exists cs. auto.
  - right. exists c, (flat_map utf8_encode cs). auto.
Qed.
Lemma utf8_head_not_cont s b r : is_utf8 s -> s = b :: r -> (128 <=? b) && (b <? 192) = false.
Proof.
  intros (cs & HF & ->) E. destruct HF as [|c cs Hc HF]; [discriminate|]. cbn [flat_map] in E.
  unfold scalar in Hc. unfold utf8_encode in E at 1.
  destruct (c <? 128) eqn:E1; [|destruct (c <? 2048) eqn:E2; [|destruct (c <? 65536) eqn:E3]];
    cbn [app] in E; injection E as <- _; lia.
Qed.
Lemma str_first_ascii b r : b < 128 -> is_utf8 r -> str_first (b :: r) = Ok [b].
Proof.
  intros Hb Hr. destruct r as [|b' r]; [reflexivity|]. cbn [str_first].
  change ((0x80 <=? b') && (b' <? 0xC0)) with ((128 <=? b') && (b' <? 192)).
  rewrite (utf8_head_not_cont _ _ _ Hr eq_refl). reflexivity.
Qed.
Lemma str_first_multi s : multibyte_first s -> str_first s = Panic.
Proof.
  intros (c & rest & Hc & Hge & ->). unfold scalar in Hc. unfold utf8_encode.
  replace (c <? 128) with false by lia.
  destruct (c <? 2048) eqn:E2; [|destruct (c <? 65536) eqn:E3]; cbn [app str_first].
  - replace ((0x80 <=? 0x80 + c mod 64) && (0x80 + c mod 64 <? 0xC0)) with true by lia. reflexivity.
  - replace ((0x80 <=? 0x80 + c / 64 mod 64) && (0x80 + c / 64 mod 64 <? 0xC0)) with true by lia. reflexivity.
  - replace ((0x80 <=? 0x80 + c / 4096 mod 64) && (0x80 + c / 4096 mod 64 <? 0xC0)) with true by lia. reflexivity.
Qed.
Lemma multi_not_ascii s b r : multibyte_first s -> s = b :: r -> 128 <= b.
Proof.
  intros (c & rest & Hc & Hge & ->) E. unfold scalar in Hc. unfold utf8_encode in E.
  replace (c <? 128) with false in E by lia.
  destruct (c <? 2048) eqn:E2; [|destruct (c <? 65536) eqn:E3]; cbn [app] in E; injection E as <- _; lia.
Qed.

(** the complete case analysis of [matches] *)
Lemma matches_cases topic filter : is_utf8 topic ->
  (multibyte_first topic /\ matches topic filter = Panic) \/
  (~ multibyte_first topic /\ starts_with_dollar topic /\ matches topic filter = Ok false) \/
  (~ multibyte_first topic /\ ~ starts_with_dollar topic /\
   matches topic filter = Ok (matches_loop (split_slash filter) (split_slash topic))).
Proof.
  intros Hu. unfold matches. destruct (utf8_first topic Hu) as [->|[(b & r & -> & Hb & Hr)|Hm]].
  - right; right. split; [|split; [|reflexivity]].
    + intros (c & rest & Hc & Hge & E). unfold utf8_encode in E. replace (c <? 128) with false in E by lia.
      destruct (c <? 2048); [discriminate|destruct (c <? 65536); discriminate].
    + intros (r & E); discriminate.
  - cbn [is_empty]. rewrite str_first_ascii by assumption. cbn [obind contains existsb].
    assert (Hnm : ~ multibyte_first (b :: r)).
    { intros H. assert (H1 := multi_not_ascii _ _ _ H eq_refl). lia. }
    destruct (b =? ch_dollar) eqn:Ed; cbn [orb].
    + right; left. split; [exact Hnm|]. split; [|reflexivity]. apply N.eqb_eq in Ed. exists r. subst b. reflexivity.
    + right; right. split; [exact Hnm|]. split; [|reflexivity]. intros (r' & E). injection E as -> _.
      apply N.eqb_neq in Ed. apply Ed. reflexivity.
  - left. split; [exact Hm|]. rewrite str_first_multi by exact Hm.
    destruct topic; [|reflexivity]. destruct Hm as (c & rest & Hc & Hge & E). exfalso.
    unfold utf8_encode in E. replace (c <? 128) with false in E by lia.
    destruct (c <? 2048); [discriminate|destruct (c <? 65536); discriminate].
Qed.

(** *** valid_filter *)
Lemma split_last_spec {A} (l : list A) :
  match split_last l with Some (x, r) => l = r ++ [x] | None => l = [] end.
Proof.
  induction l as [|x l IH]; cbn [split_last]; [reflexivity|].
  destruct (split_last l) as [[y r]|]; subst l; reflexivity.
Qed.
Lemma join_app ls l : ls <> [] -> join (ls ++ [l]) = join ls ++ SLASH :: l.
Proof.
  induction ls as [|x ls IH]; intros H; [contradiction|]. destruct ls as [|y ls]; [reflexivity|].
  change (join ((x :: y :: ls) ++ [l])) with (x ++ SLASH :: join ((y :: ls) ++ [l])).
  rewrite IH by discriminate. change (join (x :: y :: ls)) with (x ++ SLASH :: join (y :: ls)).
  rewrite <- app_assoc. reflexivity.
Qed.
Lemma in_join c ls : c <> SLASH -> (In c (join ls) <-> exists l, In l ls /\ In c l).
Proof.
  intros Hc. induction ls as [|x ls IH].
  - cbn. split; [tauto|]. intros (l & [] & _).
  - destruct ls as [|y ls].
    + cbn [join]. split; [intros H; exists x; split; [left; reflexivity|exact H]|].
      intros (l & [<-|[]] & H). exact H.
    + change (join (x :: y :: ls)) with (x ++ SLASH :: join (y :: ls)). rewrite in_app_iff. split.
      * intros [H|[H|H]]; [exists x; split; [left; reflexivity|exact H]|congruence|].
        apply IH in H as (l & Hl & H). exists l. split; [right; exact Hl|exact H].
      * intros (l & [<-|Hl] & H); [left; exact H|]. right; right. apply IH. eauto.
Qed.
Lemma valid_filter_spec f : valid_filter f = true <-> f <> [] /\ hash_only_last f.
Proof.
  unfold valid_filter. destruct f as [|b f].
  { cbn. split; [discriminate|]. intros [H _]. contradiction. }
  cbn [is_empty]. remember (b :: f) as s eqn:Es.
  assert (Hne : s <> []) by (subst s; discriminate). clear Es b f.
  destruct (split_levels s) as (Hn & HF & E). assert (Hl := split_last_spec (split_slash s)).
  cbv zeta. destruct (split_last (split_slash s)) as [[last rem]|]; [|contradiction].
  rewrite Hl in E, HF. apply Forall_app in HF as [HFr HFl]. apply Forall_cons_iff in HFl as [HFl _].
  assert (HSH : HASH <> SLASH) by discriminate.
  assert (Erem : existsb (fun entry => contains ch_hash entry) rem = true <-> In HASH (join rem)).
  { rewrite existsb_exists, in_join by exact HSH. split.
    - intros (x & Hx & H). apply contains_spec in H. eauto.
    - intros (x & Hx & H). exists x. split; [exact Hx|]. apply contains_spec; exact H. }
  assert (Hs : s = join rem ++ (match rem with [] => last | _ => SLASH :: last end)).
  { rewrite E. destruct rem as [|r rem]; [reflexivity|]. apply join_app. discriminate. }
  destruct (existsb (fun entry => contains ch_hash entry) rem) eqn:Ex.
  - split; [discriminate|]. intros [_ H]. exfalso.
    destruct (in_split _ _ (proj1 Erem eq_refl)) as (x & q & Hq).
    rewrite Hq in Hs. destruct rem as [|r rem]; [cbn in Hq; destruct x; discriminate|].
    rewrite <- app_assoc in Hs. cbn [app] in Hs.
    destruct (H _ _ Hs) as [Hp _]. destruct q; discriminate.
  - assert (Hnr : ~ In HASH (join rem)) by (intros Hx; apply Erem in Hx; congruence). clear Erem Ex.
    assert (Hin : In HASH (match rem with [] => last | _ => SLASH :: last end) <-> In HASH last).
    { destruct rem; [reflexivity|]. cbn [In]. split; [intros [Hx|Hx]; [discriminate|exact Hx]|auto]. }
    destruct (blen last =? 1) eqn:E1; cbn [negb andb].
    + split; [intros _; split; [exact Hne|]|reflexivity].
      destruct last as [|z [|? ?]]; try (exfalso; autorewrite with blen in E1; lia). clear E1.
      intros pre post Hp.
      assert (Hsz : exists q, s = q ++ [z] /\ ~ In HASH q /\ (q = [] \/ exists q', q = q' ++ [SLASH])).
      { destruct rem as [|r rem].
        - exists []. split; [exact Hs|]. split; [exact (fun H => H)|left; reflexivity].
        - exists (join (r :: rem) ++ [SLASH]). split; [rewrite <- app_assoc; exact Hs|]. split.
          + intros Hx. apply in_app_iff in Hx as [Hx|[Hx|[]]]; [exact (Hnr Hx)|discriminate].
          + right. eauto. }
      destruct Hsz as (q & Hq & Hnq & Hend). rewrite Hp in Hq.
      assert (post = [] /\ pre = q) as [-> ->]; [|auto].
      destruct (@exists_last _ (HASH :: post)) as (u & w & Hu); [discriminate|].
      rewrite Hu, app_assoc in Hq. apply app_inj_tail in Hq as [Hq _].
      destruct u as [|u0 u].
      * cbn in Hu. injection Hu as _ ->. rewrite app_nil_r in Hq. auto.
      * cbn in Hu. injection Hu as <- _. exfalso. apply Hnq. rewrite <- Hq. apply in_app_iff. right; left; reflexivity.
    + destruct (contains ch_hash last) eqn:Ec.
      * split; [discriminate|]. intros [_ H]. exfalso. apply contains_spec in Ec. change ch_hash with HASH in Ec.
        apply in_split in Ec as (u & w & Hw).
        destruct rem as [|r rem].
        -- cbn [join app] in Hs. rewrite Hw in Hs. destruct (H _ _ Hs) as [-> [->|(p' & ->)]].
           ++ subst last. cbn in E1. discriminate.
           ++ subst last. apply HFl. rewrite !in_app_iff. left; right; left; reflexivity.
        -- rewrite Hw in Hs. change (SLASH :: u ++ HASH :: w) with ((SLASH :: u) ++ HASH :: w) in Hs. rewrite app_assoc in Hs.
           destruct (H _ _ Hs) as [-> [Hx|(p' & Hx)]].
           ++ destruct (join (r :: rem)); discriminate.
           ++ destruct u as [|u0 u] using rev_ind; [subst last; cbn in E1; discriminate|].
              change (SLASH :: u ++ [u0]) with ((SLASH :: u) ++ [u0]) in Hx. rewrite app_assoc in Hx.
              apply app_inj_tail in Hx as [_ ->]. apply HFl. rewrite Hw, !in_app_iff. left; right; left; reflexivity.
      * split; [|reflexivity]. intros _. split; [exact Hne|]. intros pre post Hp. exfalso.
        apply contains_false in Ec. change ch_hash with HASH in Ec.
        assert (Hx : In HASH s) by (rewrite Hp; apply in_app_iff; right; left; reflexivity).
        rewrite Hs in Hx. apply in_app_iff in Hx as [Hx|Hx]; [exact (Hnr Hx)|]. apply Hin in Hx. exact (Ec Hx).
Qed.

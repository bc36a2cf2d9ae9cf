(** ProofSectErrors.v -- the property readers fail exactly as SpecErrors says. *)
From Verif Require Import ProofBase Utf8 ProofUtf8 Lib ProofLib ProofRead ProofV4Read SpecProps V5Property ProofProps
  SpecErrors ProofErrors.

Lemma read_val_lacks t s e : bytes_ok s -> value_lacks t s e -> read_val t s = Err e.
Proof.
  intros Hb H. destruct H; cbn [read_val].
  - apply rbind_err, lacks_read_u8, H.
  - apply rbind_err, lacks_read_u16, H.
  - apply rbind_err, lacks_read_u32, H.
  - apply rbind_err. unfold peek_length, rlift. apply length_lacks in H; [|exact Hb]. rewrite H. reflexivity.
  - apply rbind_err, lacks_read_string, H.
  - apply rbind_err, lacks_read_bytes, H.
  - apply rbind_err, lacks_read_string, H.
  - rewrite (rbind_ok _ _ _ _ _ (read_string_field _ _ H0 H)). apply rbind_err, lacks_read_string, H1.
Qed.
Ltac rv := cbn [fst snd wp rret type_of value_typed value_short value_small value_enc value_bytes];
  autorewrite with blen; repeat split; auto; lia.
Lemma wp_read_val_err (E : Error -> Prop) t s : bytes_ok s -> (forall e, value_lacks t s e -> E e) ->
  wp E (read_val t s) (fun vd s' => exists vb, s = vb ++ s' /\ bytes_ok s' /\
    type_of (fst vd) = t /\ value_typed (fst vd) /\ value_short (fst vd) /\ value_small (fst vd) /\
    value_enc (fst vd) vb /\ snd vd = blen vb + over t /\ 1 <= blen vb).
Proof.
  intros Hb HE. assert (W := wp_read_val t s Hb).
  destruct (read_val t s) as [[vd s']|e| |] eqn:Er; cbn [wp] in *; try contradiction; [exact W|]. clear W.
  apply HE. assert (G : wp (value_lacks t s) (read_val t s) (fun _ _ => True)); [|rewrite Er in G; exact G]. clear Er HE e.
  destruct t; cbn [read_val]; apply wp_bind.
  - apply wp_want_u8; [assumption|intros; constructor; assumption|intros; exact I].
  - apply wp_want_u16; [assumption|intros; constructor; assumption|intros; exact I].
  - apply wp_want_u32; [assumption|intros; constructor; assumption|intros; exact I].
  - unfold peek_length, rlift. destruct (length s) as [ll|e| |] eqn:El; cbn [wp].
    + unfold rbind, advance. destruct (length_cases s Hb) as [f n r -> Hf Hl|Hc Hl|a b c d r -> Hc]; try discriminate.
      injection El as <-. cbn [fst snd]. replace (blen f <=? blen (f ++ r)) with true by (autorewrite with blen; lia). exact I.
    + constructor. apply length_lacks; assumption.
    + destruct (length_cases s Hb); discriminate El.
    + destruct (length_cases s Hb); discriminate El.
  - apply wp_want_string; [assumption|intros; constructor; assumption|intros; exact I].
  - apply wp_want_bytes; [assumption|intros; constructor; assumption|intros; exact I].
  - apply wp_want_string; [assumption|intros; constructor; assumption|]. intros k s' -> Hk Hku Hs'.
    apply wp_bind. apply wp_want_string; [assumption|intros; apply vl_value; assumption|intros; exact I].
Qed.

Section Loop.
  Context {A : Type}.
  Variable step : PropertyType -> N -> A -> reader (A * N).
  Variable record_of : list item -> A.
  Variable allowed : list N.
  Hypothesis step_eq : forall ty its s,
    step ty (property_u8 ty) (record_of its) s =
      (if mem (property_u8 ty) allowed
       then (vd <-r read_val (ty_type ty) ;;
             rret (record_of (its ++ [(property_u8 ty, fst vd)]), snd vd))
       else rerr (InvalidPropertyType (property_u8 ty))) s.
  Hypothesis allowed_typed : forall id, In id allowed -> ptype_of id <> None.
  Notation loop := (props_loop_fuel step).

  (** failures of the loop at position [c] *)
  Inductive loop_fails (plen : N) : N -> bytes -> Error -> Prop :=
  | lf_end c its bs c' : reads allowed plen c its bs c' -> c' < plen -> loop_fails plen c bs MalformedPacket
  | lf_id c its bs c' id s : reads allowed plen c its bs c' -> c' < plen -> ~ In id allowed ->
      loop_fails plen c (bs ++ id :: s) (InvalidPropertyType id)
  | lf_value c its bs c' id t s e : reads allowed plen c its bs c' -> c' < plen -> In id allowed ->
      ptype_of id = Some t -> value_lacks t s e -> loop_fails plen c (bs ++ id :: s) e.
  Lemma loop_fails_step plen c id v vb s e : c < plen -> In id allowed -> item_ok (id, v) -> value_enc v vb ->
    loop_fails plen (c + counted id (1 + blen vb)) s e -> loop_fails plen c (id :: vb ++ s) e.
  Proof.
    intros Hc Hin Hok He H. remember (c + counted id (1 + blen vb)) as c1 eqn:E1.
    destruct H as [c1 its bs c' H|c1 its bs c' i s H|c1 its bs c' i t s e H]; subst c1.
    - eapply lf_end; [|eassumption]. econstructor; eassumption.
    - replace (id :: vb ++ bs ++ i :: s) with ((id :: vb ++ bs) ++ i :: s) by (cbn; rewrite <- app_assoc; reflexivity).
      eapply lf_id; [|eassumption..]. econstructor; eassumption.
    - replace (id :: vb ++ bs ++ i :: s) with ((id :: vb ++ bs) ++ i :: s) by (cbn; rewrite <- app_assoc; reflexivity).
      eapply lf_value; [|eassumption..]. econstructor; eassumption.
  Qed.

  Lemma loop_errs : forall fuel plen c its s,
    bytes_ok s -> c + 2 * blen s <= usize_max -> (List.length s < fuel)%nat ->
    wp (loop_fails plen c s) (loop fuel plen c (record_of its) s) (fun _ _ => True).
  Proof.
    induction fuel as [|fuel IH]; intros plen c its s Hb Hc Hl; [lia|].
    cbn [props_loop_fuel]. destruct (c <? plen) eqn:Ec; [|exact I].
    apply wp_bind. apply wp_want_u8; [assumption| |].
    { intros e He. inversion He; subst; try (destruct H; discriminate).
      apply (lf_end plen c [] [] c); [constructor|lia]. }
    intros id s1 -> Hid Hs1. autorewrite with blen in Hc. unfold rbind at 1, rlift at 1, usize_add.
    replace (c + 1 <=? usize_max) with true by lia.
    unfold rbind at 1, rlift at 1. destruct (property_cases id) as [(ty & Ep & Eid)|[Ep Hno]]; rewrite Ep.
    2: { cbn [wp]. apply (lf_id plen c [] [] c id s1); [constructor|lia|].
         intros Hin. exact (allowed_typed _ Hin Hno). }
    rewrite <- Eid. apply wp_bind. rewrite step_eq.
    destruct (mem (property_u8 ty) allowed) eqn:Em.
    2: { apply wp_err. rewrite Eid in *. apply (lf_id plen c [] [] c id s1); [constructor|lia|].
         rewrite <- mem_in, Em. discriminate. }
    apply mem_in in Em. apply wp_bind. eapply wp_mono.
    { apply wp_read_val_err; [exact Hs1|]. intros e He. apply (lf_value plen c [] [] c _ (ty_type ty) s1 e); auto; [constructor|lia|].
      apply ptype_of_ty. }
    intros [v d] s2 (vb & -> & Hs2 & Ht & Hv & Hsh & Hsm & He & Hd & Hvb). cbn [fst snd] in *.
    apply wp_ret. cbn [fst snd]. autorewrite with blen in Hc.
    assert (Ho : over (ty_type ty) <= 1) by (destruct (ty_type ty); cbn; lia).
    unfold rbind at 1, rlift at 1, usize_add.
    replace (c + 1 + d <=? usize_max) with true by lia.
    assert (Hpt : ptype_of (property_u8 ty) = Some (type_of v)) by (rewrite Ht; apply ptype_of_ty).
    specialize (IH plen (c + 1 + d) (its ++ [(property_u8 ty, v)]) s2 Hs2 ltac:(lia)).
    cbn [List.length] in Hl. rewrite app_length in Hl. specialize (IH ltac:(lia)).
    destruct (loop fuel plen (c + 1 + d) _ s2) as [[r s3]|e| |]; cbn [wp] in *; auto.
    eapply loop_fails_step; [lia|exact Em|exact (conj (conj Hpt Hv) (conj Hsh Hsm))|exact He|].
    rewrite (counted_over _ _ _ Hpt), Ht. replace (c + (1 + blen vb + over (ty_type ty))) with (c + 1 + d) by lia.
    exact IH.
  Qed.

  Lemma reads_bound : forall plen c its bs c', reads allowed plen c its bs c' -> c' <= c + 2 * blen bs.
  Proof.
    clear. induction 1 as [c|c id v vb new bs c' Hc Hin Hok He Hr IH]; [lia|].
    autorewrite with blen in *. unfold counted in IH. destruct (id =? 11); lia.
  Qed.
  Lemma loop_fails_err plen its s e fuel : bytes_ok s -> blen s <= huge -> (List.length s < fuel)%nat ->
    loop_fails plen 0 s e -> loop fuel plen 0 (record_of its) s = Err e.
  Proof.
    intros Hb Hm Hl H. unfold huge in Hm.
    assert (G : exists new bs c s', reads allowed plen 0 new bs c /\ c < plen /\ s = bs ++ s' /\
      (s' = [] /\ e = MalformedPacket \/ exists id r, s' = id :: r /\
        (~ In id allowed /\ e = InvalidPropertyType id \/
         In id allowed /\ exists t, ptype_of id = Some t /\ value_lacks t r e))).
    { remember 0 as z. destruct H as [c its' bs c' H Hc|c its' bs c' i s H Hc Hi|c its' bs c' i t s e H Hc Hi Ht Hv]; subst c.
      - exists its', bs, c', []. rewrite app_nil_r. repeat (split; [solve [auto]|]). left. split; reflexivity.
      - exists its', bs, c', (i :: s). repeat (split; [solve [auto]|]). right. exists i, s. auto.
      - exists its', bs, c', (i :: s). repeat (split; [solve [auto]|]). right. exists i, s. split; [reflexivity|]. eauto. }
    clear H. destruct G as (new & bs & c & s' & Hr & Hc & -> & G). rewrite app_length in Hl. autorewrite with blen in Hm.
    destruct (loop_reads step record_of allowed step_eq _ _ _ _ _ Hr fuel its s') as (fuel' & Hf & E).
    - unfold usize_max; lia.
    - lia.
    - rewrite E. assert (Hc' := reads_bound _ _ _ _ _ Hr). destruct fuel' as [|fuel']; [lia|].
      cbn [props_loop_fuel]. replace (c <? plen) with true by lia.
      destruct G as [[-> ->]|(id & r & -> & G)]; [reflexivity|].
      rewrite (rbind_ok _ _ _ _ _ (read_u8_cons _ _)).
      unfold rbind at 1, rlift at 1, usize_add. replace (c + 1 <=? usize_max) with true by (unfold usize_max; lia).
      destruct G as [[Hni ->]|(Hin & t & Ht & Hv)].
      + unfold rbind, rlift. destruct (property_cases id) as [(ty & Ep & Eid)|[Ep _]]; rewrite Ep; [|reflexivity].
        rewrite <- Eid, step_eq. destruct (mem (property_u8 ty) allowed) eqn:Em; [|reflexivity].
        exfalso. apply Hni. apply mem_in. congruence.
      + destruct (ptype_property _ _ Ht) as (ty & Ep & Eid & Ety).
        unfold rbind at 1, rlift at 1. rewrite Ep. apply rbind_err. rewrite <- Eid, step_eq.
        replace (mem (property_u8 ty) allowed) with true by (symmetry; apply mem_in; congruence).
        rewrite Ety. apply rbind_err, read_val_lacks; [|exact Hv].
        apply bytes_ok_app in Hb as [_ Hb]. apply bytes_ok_cons in Hb. apply Hb.
  Qed.

  Notation ex := (gextract step).
  Lemma section_cases s e : section_fails allowed s e <->
    lacks WLen s e \/ exists f plen r, s = f ++ r /\ lenfield f plen /\ blen f <= 4 /\ loop_fails plen 0 r e.
  Proof.
    split.
    - intros H. destruct H; [left; assumption| | |]; right; exists f, plen; eexists; (split; [reflexivity|]); split; try assumption; split; try assumption.
      + econstructor; eassumption.
      + eapply lf_id; eassumption.
      + eapply lf_value; eassumption.
    - intros [H|(f & plen & r & -> & Hf & Hl & H)]; [apply sf_len, H|].
      remember 0 as z. destruct H; subst c; econstructor; eassumption.
  Qed.
  Lemma extract_fails s e : bytes_ok s -> blen s <= huge -> section_fails allowed s e ->
    ex (record_of []) s = Err e.
  Proof.
    intros Hb Hm H. apply section_cases in H. unfold gextract. destruct H as [H|(f & plen & r & -> & Hf & Hl & H)].
    - apply rbind_err. unfold peek_length, rlift. apply length_lacks in H; [|exact Hb]. rewrite H. reflexivity.
    - refine (eq_trans (peek_length_ok f plen _ (fun n => if n =? 0 then rret None else p <-r props_loop step n (record_of []) ;; rret (Some p)) Hf Hl) _).
      replace (plen =? 0) with false.
      2: { remember 0 as z. destruct H; lia. }
      apply rbind_err. unfold props_loop. autorewrite with blen in Hm. apply bytes_ok_app in Hb as [_ Hb].
      apply loop_fails_err; auto; lia.
  Qed.
  Lemma wp_extract_err (E : Error -> Prop) s (Q : option A -> bytes -> Prop) : bytes_ok s -> blen s <= huge ->
    (forall e, section_fails allowed s e -> E e) ->
    (forall o bs s', s = bs ++ s' -> decodes_props allowed record_of o bs -> bytes_ok s' -> Q o s') ->
    wp E (ex (record_of []) s) Q.
  Proof.
    intros Hb Hm HE HQ.
    assert (W := wp_extract step record_of allowed step_eq s Q Hb Hm HQ).
    destruct (ex (record_of []) s) as [[o s']|e| |] eqn:Er; cbn [wp] in *; auto. clear W HQ.
    apply HE, section_cases. unfold gextract in Er.
    destruct (length s) as [ll|e'| |] eqn:El.
    - right. assert (HL := length_cases s Hb). rewrite El in HL. inversion HL as [f n r Es Hf Hl HL'| |]; subst.
      assert (Er' := eq_trans (eq_sym Er) (peek_length_ok f n r (fun n => if n =? 0 then rret None else p <-r props_loop step n (record_of []) ;; rret (Some p)) Hf Hl)).
      clear Er. cbv beta in Er'. exists f, n, r. repeat (split; [solve [auto]|]).
      destruct (n =? 0) eqn:E0; [discriminate|]. apply bytes_ok_app in Hb as [_ Hb].
      autorewrite with blen in Hm. unfold huge in Hm.
      assert (G := loop_errs (S (List.length r)) n 0 [] r Hb ltac:(unfold usize_max; lia) ltac:(lia)).
      unfold rbind, props_loop in Er'. destruct (loop _ n 0 (record_of []) r) as [[? ?]|e'| |]; try discriminate.
      injection Er' as ->. exact G.
    - left. apply length_lacks; [exact Hb|]. unfold rbind at 1, peek_length, rlift at 1 in Er. rewrite El in Er.
      injection Er as ->. exact El.
    - unfold rbind at 1, peek_length, rlift at 1 in Er. rewrite El in Er. discriminate.
    - unfold rbind at 1, peek_length, rlift at 1 in Er. rewrite El in Er. discriminate.
  Qed.
End Loop.

Lemma allowed_typed pl id : In id (allowed_at pl) -> ptype_of id <> None.
Proof.
  intros H. destruct pl; cbn [allowed_at In] in H;
    repeat match type of H with _ \/ _ => destruct H as [<-|H] end; try contradiction; discriminate.
Qed.

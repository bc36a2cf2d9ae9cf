(** ProofProps.v -- generic lemmas about v5 property sections. *)
From Verif Require Import ProofBase ProofUtf8 ProofLib ProofRead ProofV4Read ProofV4Write SpecProps.
From Verif Require Import V5Property Utf8.

(** the only InsufficientBytes a v5 decoder returns is InsufficientBytes(1) *)
Definition E5 (e : Error) : Prop := forall n, e = InsufficientBytes n -> n = 1.
Ltac e5 := first [ intros ? ?; discriminate | intros ? ? ?; discriminate
  | intros ? [=]; subst; reflexivity ].

(** *** identifiers *)
Lemma property_ok n ty : property n = Ok ty -> property_u8 ty = n.
Proof.
  intros H. unfold property in H.
  repeat match type of H with
  | match ?x with _ => _ end = _ => destruct x; try discriminate
  end; injection H as <-; reflexivity.
Qed.
Lemma property_of ty : property (property_u8 ty) = Ok ty.
Proof. destruct ty; reflexivity. Qed.
Lemma property_cases n : (exists ty, property n = Ok ty /\ property_u8 ty = n) \/
  (property n = Err (InvalidPropertyType n) /\ ptype_of n = None).
Proof.
  destruct (property n) as [ty|e| |] eqn:E.
  - left. exists ty. split; [reflexivity|]. apply property_ok, E.
  - right. unfold property in E.
    assert (Hg : E = E) by reflexivity. clear Hg.
    revert E. unfold ptype_of.
    destruct n as [|p]; [intros [= <-]; auto|].
    do 6 (try destruct p as [p|p|]); try (intros [= <-]; split; reflexivity); try discriminate.
  - exfalso. unfold property in E.
    repeat match type of E with match ?x with _ => _ end = _ => destruct x; try discriminate end.
  - exfalso. unfold property in E.
    repeat match type of E with match ?x with _ => _ end = _ => destruct x; try discriminate end.
Qed.
Definition ty_type (ty : PropertyType) : ptype :=
  match ptype_of (property_u8 ty) with Some t => t | None => TByte end.
Lemma ptype_of_ty ty : ptype_of (property_u8 ty) = Some (ty_type ty).
Proof. destruct ty; reflexivity. Qed.
Lemma ptype_property id t : ptype_of id = Some t -> exists ty, property id = Ok ty /\ property_u8 ty = id /\ ty_type ty = t.
Proof.
  intros H. destruct (property_cases id) as [(ty & H1 & H2)|[_ H2]]; [|congruence].
  exists ty. repeat split; auto. assert (Hp := ptype_of_ty ty). rewrite H2 in Hp. congruence.
Qed.

Definition mem (id : N) (l : list N) : bool := existsb (N.eqb id) l.
Lemma mem_in id l : mem id l = true <-> In id l.
Proof.
  unfold mem. rewrite existsb_exists. split.
  - intros (x & Hx & E). apply N.eqb_eq in E. subst; exact Hx.
  - intros H. exists id. split; [exact H|apply N.eqb_refl].
Qed.

(** *** reading one value: what every branch of every property `match` does *)
Definition read_val (t : ptype) : reader (pval * N) :=
  match t with
  | TByte => v <-r read_u8 ;; rret (VByte v, 1)
  | TTwo => v <-r read_u16 ;; rret (VTwo v, 2)
  | TFour => v <-r read_u32 ;; rret (VFour v, 4)
  | TVar => ll <-r peek_length ;; advance (fst ll) ;;r rret (VVar (snd ll), 1 + fst ll)
  | TStr => v <-r read_mqtt_string ;; rret (VStr v, 2 + blen v)
  | TBin => v <-r read_mqtt_bytes ;; rret (VBin v, 2 + blen v)
  | TPair => k <-r read_mqtt_string ;; v <-r read_mqtt_string ;;
             rret (VPair k v, 2 + blen k + 2 + blen v)
  end.
Definition over (t : ptype) : N := match t with TVar => 1 | _ => 0 end.

Ltac rd5 := apply wp_bind; first
  [ apply wp_read_u8; [assumption|e5|]
  | apply wp_read_u16; [assumption|e5|]
  | apply wp_read_u32; [assumption|e5|]
  | apply wp_read_string; [assumption|e5|e5|e5|]
  | apply wp_read_bytes; [assumption|e5|e5|] ].

Lemma wp_peek_length {A} s (k : N -> reader A) (Q : A -> bytes -> Prop) : bytes_ok s ->
  (forall f n s', s = f ++ s' -> lenfield f n -> blen f <= 4 -> bytes_ok s' -> wp E5 (k n s') Q) ->
  wp E5 ((ll <-r peek_length ;; advance (fst ll) ;;r k (snd ll)) s) Q.
Proof.
  intros Hb H. apply wp_bind. unfold peek_length, rlift.
  destruct (length_cases s Hb) as [f n r -> Hf Hl|Hc Hl|a b c d r -> Hc]; cbn [wp]; try e5.
  unfold rbind. cbn [fst snd]. rewrite advance_app by reflexivity.
  apply bytes_ok_app in Hb as [_ Hb]. eapply H; eauto.
Qed.
Lemma peek_length_ok {A} f n s (k : N -> reader A) : lenfield f n -> blen f <= 4 ->
  (ll <-r peek_length ;; advance (fst ll) ;;r k (snd ll)) (f ++ s) = k n s.
Proof.
  intros Hf Hl. unfold rbind, peek_length, rlift. rewrite (length_ok f n s Hf Hl). cbn [fst snd].
  rewrite advance_app by reflexivity. reflexivity.
Qed.

Ltac rv := cbn [fst snd wp rret type_of value_typed value_short value_small value_enc value_bytes];
  autorewrite with blen; repeat split; auto; lia.
Lemma wp_read_val t s : bytes_ok s ->
  wp E5 (read_val t s) (fun vd s' => exists vb, s = vb ++ s' /\ bytes_ok s' /\
    type_of (fst vd) = t /\ value_typed (fst vd) /\ value_short (fst vd) /\ value_small (fst vd) /\
    value_enc (fst vd) vb /\ snd vd = blen vb + over t /\ 1 <= blen vb).
Proof.
  intros Hb. destruct t; cbn [read_val over].
  - rd5. intros v s' -> Hv Hs'. exists [v]. rv.
  - rd5. intros v s' -> Hv Hs'. exists (be16 v). rv.
  - rd5. intros v s' -> Hv Hs'. exists (be32 v). rv.
  - change (wp E5 ((ll <-r peek_length ;; advance (fst ll) ;;r
       (fun n => fun s' => Ok ((VVar n, 1 + fst ll), s')) (snd ll)) s)
       (fun vd s' => exists vb, s = vb ++ s' /\ bytes_ok s' /\
    type_of (fst vd) = TVar /\ value_typed (fst vd) /\ value_short (fst vd) /\ value_small (fst vd) /\
    value_enc (fst vd) vb /\ snd vd = blen vb + 1 /\ 1 <= blen vb)).
    apply wp_bind. unfold peek_length, rlift.
    destruct (length_cases s Hb) as [f n r -> Hf Hl|Hc Hl|a b c d r -> Hc]; cbn [wp]; try e5.
    unfold rbind. cbn [fst snd]. rewrite advance_app by reflexivity. cbn [wp fst snd].
    apply bytes_ok_app in Hb as [_ Hb]. exists f.
    assert (H := lenfield_bound f n Hf Hl). assert (H1 := lenfield_nonempty f n Hf).
    unfold max_len in H. cbn [type_of value_typed value_short value_small value_enc].
    unfold usize, max_len. repeat split; auto; lia.
  - rd5. intros v s' -> Hv Hu Hs'. exists (field v). cbn [fst snd wp rret type_of value_typed value_short value_small value_enc value_bytes].
    autorewrite with blen. repeat split; auto; lia.
  - rd5. intros v s' -> Hv Hu Hs'. exists (field v). cbn [fst snd wp rret type_of value_typed value_short value_small value_enc value_bytes].
    autorewrite with blen. repeat split; auto; lia.
  - rd5. intros k s' -> Hk Hku Hs'. rd5. intros v s2 -> Hv Hvu Hs2.
    exists (field k ++ field v). cbn [fst snd wp rret type_of value_typed value_short value_small value_enc value_bytes].
    rewrite <- app_assoc. autorewrite with blen. repeat split; auto; lia.
Qed.
Lemma read_val_ok v vb s : value_typed v -> value_short v -> value_enc v vb ->
  read_val (type_of v) (vb ++ s) = Ok ((v, blen vb + over (type_of v)), s).
Proof.
  destruct v; cbn [value_typed value_short value_enc value_bytes type_of read_val over]; intros Ht Hs He.
  - subst vb. reflexivity.
  - subst vb. rewrite (rbind_ok _ _ _ _ _ (read_u16_be16 _ _ Ht)). reflexivity.
  - subst vb. rewrite (rbind_ok _ _ _ _ _ (read_u32_be32 _ _ Ht)). reflexivity.
  - destruct He as [Hf Hl]. unfold rbind, peek_length, rlift. rewrite (length_ok _ _ s Hf Hl). cbn [fst snd].
    rewrite advance_app by reflexivity. unfold rret. do 3 f_equal. lia.
  - subst vb. rewrite (rbind_ok _ _ _ _ _ (read_string_field _ _ Hs Ht)). unfold rret.
    autorewrite with blen. do 3 f_equal. lia.
  - subst vb. rewrite (rbind_ok _ _ _ _ _ (read_bytes_field _ _ Hs)). unfold rret.
    autorewrite with blen. do 3 f_equal. lia.
  - subst vb. rewrite <- app_assoc. destruct Hs as [Hk Hv], Ht as [Hku Hvu].
    rewrite (rbind_ok _ _ _ _ _ (read_string_field _ _ Hk Hku)).
    rewrite (rbind_ok _ _ _ _ _ (read_string_field _ _ Hv Hvu)). unfold rret.
    autorewrite with blen. do 3 f_equal. lia.
Qed.

Lemma counted_over id v n : ptype_of id = Some (type_of v) -> counted id n = n + over (type_of v).
Proof.
  intros H. unfold counted. destruct (N.eqb_spec id 11) as [-> |Hne].
  - cbn in H. injection H as <-. reflexivity.
  - destruct (type_of v) eqn:Ev; try reflexivity. exfalso. apply Hne.
    destruct (ptype_property _ _ H) as (ty & _ & Hty & Ht).
    destruct ty; try discriminate Ht. cbn in Hty. auto.
Qed.

(** *** the loop *)
(** what fits in memory, with room for the counting of C40 *)
Definition huge : N := 4611686018427387903.
Lemma le_huge n : n <= max_len -> n <= huge.
Proof. unfold max_len, huge. lia. Qed.
Section Loop.
  Context {A : Type}.
  Variable step : PropertyType -> N -> A -> reader (A * N).
  Variable record_of : list item -> A.
  Variable allowed : list N.
  Hypothesis step_eq : forall ty its s,
    step ty (property_u8 ty) (record_of its) s =
      (if mem (property_u8 ty) allowed
       then (vd <-r read_val (ty_type ty) ;;
             rret (record_of (its ++ [(property_u8 ty, fst vd)]), snd vd))
       else rerr (InvalidPropertyType (property_u8 ty))) s.

  Notation loop := (props_loop_fuel step).

  Lemma loop_sound : forall fuel plen c its s,
    bytes_ok s -> c + 2 * blen s <= usize_max -> (List.length s < fuel)%nat ->
    wp E5 (loop fuel plen c (record_of its) s)
      (fun r s' => exists new bs c', s = bs ++ s' /\ bytes_ok s' /\ r = record_of (its ++ new) /\
         reads allowed plen c new bs c' /\ plen <= c').
  Proof.
    induction fuel as [|fuel IH]; intros plen c its s Hb Hc Hl; [lia|].
    cbn [props_loop_fuel]. destruct (c <? plen) eqn:Ec.
    2: { cbn [wp]. exists [], [], c. rewrite app_nil_r. repeat split; auto; [constructor|lia]. }
    rd5. intros id s1 -> Hid Hs1. autorewrite with blen in Hc. unfold rbind at 1, rlift at 1, usize_add.
    replace (c + 1 <=? usize_max) with true by lia.
    unfold rbind at 1, rlift at 1. destruct (property_cases id) as [(ty & Ep & Eid)|[Ep _]]; rewrite Ep; [|e5].
    rewrite <- Eid. apply wp_bind. rewrite step_eq.
    destruct (mem (property_u8 ty) allowed) eqn:Em; [|cbn; e5].
    apply wp_bind. eapply wp_mono; [apply wp_read_val, Hs1|].
    intros [v d] s2 (vb & -> & Hs2 & Ht & Hv & Hsh & Hsm & He & Hd & Hvb). cbn [fst snd] in *.
    apply wp_ret. cbn [fst snd]. autorewrite with blen in Hc.
    assert (Ho : over (ty_type ty) <= 1) by (destruct (ty_type ty); cbn; lia).
    unfold rbind at 1, rlift at 1, usize_add.
    replace (c + 1 + d <=? usize_max) with true by lia.
    eapply wp_mono.
    - apply IH; [exact Hs2|lia|]. cbn [List.length] in Hl. rewrite app_length in Hl. lia.
    - intros r s3 (new & bs & c' & -> & Hs3 & -> & Hr & Hp).
      exists ((id, v) :: new), (id :: vb ++ bs), c'. repeat split; auto.
      + cbn [app]. rewrite Eid, <- app_assoc. reflexivity.
      + rewrite Eid, <- app_assoc. reflexivity.
      + assert (Hpt : ptype_of id = Some (type_of v)) by (rewrite <- Eid, Ht; apply ptype_of_ty).
        constructor; auto; [lia|apply mem_in; congruence|repeat split; auto|].
        rewrite (counted_over _ _ _ Hpt), Ht. replace (c + (1 + blen vb + over (ty_type ty))) with (c + 1 + d) by lia.
        exact Hr.
  Qed.

  Lemma loop_reads : forall plen c new bs c', reads allowed plen c new bs c' ->
    forall fuel its s, c + 2 * blen bs <= usize_max -> (List.length bs < fuel)%nat ->
    exists fuel', (fuel <= fuel' + List.length bs)%nat /\
    loop fuel plen c (record_of its) (bs ++ s) = loop fuel' plen c' (record_of (its ++ new)) s.
  Proof.
    induction 1 as [c|c id v vb new bs c' Hc Hin Hok He Hr IH]; intros fuel its s Hu Hl.
    - exists fuel. rewrite app_nil_r. cbn [app List.length]. split; [lia|reflexivity].
    - destruct fuel as [|fuel]; [cbn in Hl; lia|]. cbn [app List.length] in *. rewrite app_length in Hl.
      autorewrite with blen in Hu.
      destruct Hok as [[Hpt Hv] [Hsh Hsm]]. cbn [fst snd] in *.
      destruct (ptype_property _ _ Hpt) as (ty & Ep & Eid & Ety).
      assert (Hvb : 1 <= blen vb).
      { destruct v; cbn [value_enc value_bytes] in He; try (subst vb; autorewrite with blen; lia).
        destruct He as [He _]. exact (lenfield_nonempty _ _ He). }
      destruct (IH fuel (its ++ [(id, v)]) s) as (fuel' & Hf & E).
      + rewrite (counted_over _ _ _ Hpt). assert (over (type_of v) <= 1) by (destruct v; cbn; lia). lia.
      + lia.
      + exists fuel'. split; [rewrite app_length; lia|].
        rewrite <- app_assoc in E. refine (eq_trans _ E). clear E IH.
        cbn [props_loop_fuel]. replace (c <? plen) with true by lia.
        rewrite (rbind_ok _ _ _ _ _ (read_u8_cons _ _)).
        unfold rbind at 1, rlift at 1, usize_add. replace (c + 1 <=? usize_max) with true by lia.
        unfold rbind at 1, rlift at 1. rewrite Ep.
        unfold rbind at 1. rewrite <- Eid, step_eq.
        replace (mem (property_u8 ty) allowed) with true by (symmetry; apply mem_in; congruence).
        rewrite <- app_assoc, Ety. unfold rbind at 1. rewrite read_val_ok by assumption. cbn [fst snd rret].
        unfold rbind, rlift, usize_add. rewrite <- Eid in Hpt. rewrite (counted_over _ _ _ Hpt).
        assert (over (type_of v) <= 1) by (destruct v; cbn; lia).
        match goal with |- context [if ?b then _ else _] => replace b with true by lia end.
        replace (c + 1 + (blen vb + over (type_of v))) with (c + (1 + blen vb + over (type_of v))) by lia.
        reflexivity.
  Qed.

  (** `X::extract` *)
  Definition gextract (new : A) : reader (option A) :=
    ll <-r peek_length ;;
    advance (fst ll) ;;r
    if snd ll =? 0 then rret None
    else p <-r props_loop step (snd ll) new ;; rret (Some p).

  Lemma wp_extract s (Q : option A -> bytes -> Prop) : bytes_ok s -> blen s <= huge ->
    (forall o bs s', s = bs ++ s' -> decodes_props allowed record_of o bs -> bytes_ok s' -> Q o s') ->
    wp E5 (gextract (record_of []) s) Q.
  Proof.
    intros Hb Hm HQ. unfold gextract.
    apply (wp_peek_length s (fun n => if n =? 0 then rret None else p <-r props_loop step n (record_of []) ;; rret (Some p)) Q Hb).
    intros f n s1 -> Hf Hl Hs1. destruct (N.eqb_spec n 0) as [-> |Hn].
    - apply wp_ret. eapply HQ; [reflexivity| |exact Hs1]. split; assumption.
    - apply wp_bind. unfold props_loop. autorewrite with blen in Hm. unfold huge in Hm. eapply wp_mono.
      + apply (loop_sound _ n 0 []); [exact Hs1|unfold usize_max; lia|lia].
      + intros r s2 (new & bs & c' & -> & Hs2 & -> & Hr & Hp). apply wp_ret.
        apply (HQ _ (f ++ bs) s2); [rewrite <- app_assoc; reflexivity| |exact Hs2].
        exists f, n, new, bs. repeat split; auto; [lia|]. exists c'. auto.
  Qed.
  Lemma extract_ok o bs s : blen bs <= huge -> decodes_props allowed record_of o bs ->
    gextract (record_of []) (bs ++ s) = Ok (o, s).
  Proof.
    intros Hm Hd. unfold gextract.
    assert (Hg : forall f n r, lenfield f n -> blen f <= 4 ->
      (ll <-r peek_length ;; advance (fst ll) ;;r
       if snd ll =? 0 then rret None else p <-r props_loop step (snd ll) (record_of []) ;; rret (Some p)) (f ++ r)
      = (if n =? 0 then rret None else p <-r props_loop step n (record_of []) ;; rret (Some p)) r).
    { intros f n r Hf Hl. exact (peek_length_ok f n r (fun n => if n =? 0 then rret None else p <-r props_loop step n (record_of []) ;; rret (Some p)) Hf Hl). }
    destruct o as [r|]; cbn [decodes_props] in Hd.
    - destruct Hd as (f & plen & its & sec & -> & Hf & Hl & Hp & (c & Hr & Hc) & ->).
      rewrite <- app_assoc, Hg with (n := plen) by assumption. replace (plen =? 0) with false by lia.
      unfold rbind, props_loop. autorewrite with blen in Hm. unfold huge in Hm.
      destruct (loop_reads _ _ _ _ _ Hr (S (List.length (sec ++ s))) [] s) as (fuel' & Hf' & E).
      + unfold usize_max; lia.
      + rewrite app_length. lia.
      + rewrite E. destruct fuel' as [|fuel']; [rewrite app_length in Hf'; lia|].
        cbn [props_loop_fuel app]. replace (c <? plen) with false by lia. reflexivity.
    - destruct Hd as [Hf Hl]. rewrite Hg with (n := 0) by assumption. reflexivity.
  Qed.

  (** an identifier that does not belong there, after any number of good properties *)
  Lemma extract_bad f plen its bs c id s : lenfield f plen -> blen f <= 4 ->
    blen bs <= huge -> reads allowed plen 0 its bs c -> c < plen -> ~ In id allowed ->
    gextract (record_of []) (f ++ bs ++ id :: s) = Err (InvalidPropertyType id).
  Proof.
    intros Hf Hl Hm Hr Hc Hid. unfold gextract.
    refine (eq_trans (peek_length_ok f plen _ (fun n => if n =? 0 then rret None else p <-r props_loop step n (record_of []) ;; rret (Some p)) Hf Hl) _).
    replace (plen =? 0) with false by lia. unfold rbind, props_loop. unfold huge in Hm.
    destruct (loop_reads _ _ _ _ _ Hr (S (List.length (bs ++ id :: s))) [] (id :: s)) as (fuel' & Hf' & E).
    - unfold usize_max; lia.
    - rewrite app_length. cbn. lia.
    - rewrite E. destruct fuel' as [|fuel']; [rewrite app_length in Hf'; cbn in Hf'; lia|].
      cbn [props_loop_fuel app]. replace (c <? plen) with true by lia.
      rewrite (rbind_ok _ _ _ _ _ (read_u8_cons _ _)).
      assert (Hb : forall plen c its bs c', reads allowed plen c its bs c' -> c' <= c + 2 * blen bs).
      { clear. induction 1 as [c|c id v vb new bs c' Hc Hin Hok He Hr IH]; [lia|].
        autorewrite with blen in *. unfold counted in IH. destruct (id =? 11); lia. }
      assert (Hc' := Hb _ _ _ _ _ Hr). unfold rbind, rlift, usize_add.
      replace (c + 1 <=? usize_max) with true by (unfold usize_max; lia).
      destruct (property_cases id) as [(ty & Ep & Eid)|[Ep _]]; rewrite Ep; [|reflexivity].
      rewrite <- Eid, step_eq. destruct (mem (property_u8 ty) allowed) eqn:Em; [|reflexivity].
      exfalso. apply Hid. apply mem_in. congruence.
  Qed.
End Loop.

(** *** property sequences and records *)
Lemma last_of_snoc id its id' v : last_of id (its ++ [(id', v)]) = if id' =? id then Some v else last_of id its.
Proof.
  unfold last_of. rewrite rev_app_distr. cbn [rev app find fst].
  destruct (id' =? id); reflexivity.
Qed.
Lemma last_num_snoc id its id' v : last_num id (its ++ [(id', v)]) =
  if id' =? id then (match v with VByte n | VTwo n | VFour n | VVar n => Some n | _ => None end) else last_num id its.
Proof. unfold last_num. rewrite last_of_snoc. destruct (id' =? id); reflexivity. Qed.
Lemma last_bytes_snoc id its id' v : last_bytes id (its ++ [(id', v)]) =
  if id' =? id then (match v with VStr s | VBin s => Some s | _ => None end) else last_bytes id its.
Proof. unfold last_bytes. rewrite last_of_snoc. destruct (id' =? id); reflexivity. Qed.
Lemma all_pairs_app a b : all_pairs (a ++ b) = all_pairs a ++ all_pairs b.
Proof. apply flat_map_app. Qed.
Lemma all_ids_app a b : all_ids (a ++ b) = all_ids a ++ all_ids b.
Proof. apply flat_map_app. Qed.
Lemma all_pairs_snoc its id v : all_pairs (its ++ [(id, v)]) =
  match v with VPair k w => if id =? 38 then all_pairs its ++ [(k, w)] else all_pairs its | _ => all_pairs its end.
Proof.
  rewrite all_pairs_app. destruct v; cbn; rewrite ?app_nil_r; try reflexivity.
  destruct (id =? 38); rewrite ?app_nil_r; reflexivity.
Qed.
Lemma all_ids_snoc its id v : all_ids (its ++ [(id, v)]) =
  match v with VVar n => if id =? 11 then all_ids its ++ [n] else all_ids its | _ => all_ids its end.
Proof.
  rewrite all_ids_app. destruct v; cbn; rewrite ?app_nil_r; try reflexivity.
  destruct (id =? 11); rewrite ?app_nil_r; reflexivity.
Qed.
(** lookups in concatenations *)
Lemma last_of_app id a b : last_of id (a ++ b) = match last_of id b with Some v => Some v | None => last_of id a end.
Proof.
  unfold last_of. rewrite rev_app_distr.
  induction (rev b) as [|x l IH]; cbn [app find]; [reflexivity|].
  destruct (fst x =? id); [reflexivity|exact IH].
Qed.
Lemma last_of_one {A} id id' (c : A -> pval) o :
  last_of id (one id' c o) = if id' =? id then match o with Some a => Some (c a) | None => None end else None.
Proof. destruct o as [a|]; unfold last_of; cbn; destruct (id' =? id); reflexivity. Qed.
Lemma last_of_pairs id l : id <> 38 -> last_of id (pair_items l) = None.
Proof.
  intros H. unfold last_of, pair_items. rewrite <- map_rev.
  induction (rev l) as [|x m IH]; cbn [map find fst]; [reflexivity|].
  replace (38 =? id) with false by lia. exact IH.
Qed.
Lemma last_of_ids id l : id <> 11 -> last_of id (id_items l) = None.
Proof.
  intros H. unfold last_of, id_items. rewrite <- map_rev.
  induction (rev l) as [|x m IH]; cbn [map find fst]; [reflexivity|].
  replace (11 =? id) with false by lia. exact IH.
Qed.
Lemma all_pairs_one {A} id (c : A -> pval) o : id <> 38 -> all_pairs (one id c o) = [].
Proof.
  intros H. destruct o as [a|]; cbn; [|reflexivity].
  destruct (c a); try reflexivity. replace (id =? 38) with false by lia. reflexivity.
Qed.
Lemma all_pairs_pairs l : all_pairs (pair_items l) = l.
Proof. induction l as [|[k v] l IH]; [reflexivity|]. cbn. rewrite <- IH at 2. reflexivity. Qed.
Lemma all_pairs_ids l : all_pairs (id_items l) = [].
Proof. induction l as [|n l IH]; [reflexivity|]. exact IH. Qed.
Lemma all_ids_one {A} id (c : A -> pval) o : id <> 11 -> all_ids (one id c o) = [].
Proof.
  intros H. destruct o as [a|]; cbn; [|reflexivity].
  destruct (c a); try reflexivity. replace (id =? 11) with false by lia. reflexivity.
Qed.
Lemma all_ids_pairs l : all_ids (pair_items l) = [].
Proof. induction l as [|n l IH]; [reflexivity|]. exact IH. Qed.
Lemma all_ids_ids l : all_ids (id_items l) = l.
Proof. induction l as [|n l IH]; [reflexivity|]. cbn. rewrite <- IH at 2. reflexivity. Qed.

Definition lacks (id : N) (its : list item) : Prop := last_of id its = None.
Lemma lacks_app id a b : lacks id a -> lacks id b -> lacks id (a ++ b).
Proof. unfold lacks. intros H1 H2. rewrite last_of_app, H2. exact H1. Qed.
Lemma lacks_one {A} id id' (c : A -> pval) o : (id' =? id) = false -> lacks id (one id' c o).
Proof. unfold lacks. intros H. rewrite last_of_one, H. reflexivity. Qed.
Lemma lacks_pairs id l : (38 =? id) = false -> lacks id (pair_items l).
Proof. intros H. apply last_of_pairs. lia. Qed.
Lemma lacks_ids id l : (11 =? id) = false -> lacks id (id_items l).
Proof. intros H. apply last_of_ids. lia. Qed.
Lemma skip_front id a b : lacks id a -> last_of id (a ++ b) = last_of id b.
Proof. intros H. rewrite last_of_app, H. destruct (last_of id b); reflexivity. Qed.
Lemma skip_back id a b : lacks id b -> last_of id (a ++ b) = last_of id a.
Proof. intros H. rewrite last_of_app, H. reflexivity. Qed.
Ltac lacks := repeat apply lacks_app; first
  [ apply lacks_pairs; reflexivity | apply lacks_ids; reflexivity | apply lacks_one; reflexivity ].
Ltac find_item := repeat (rewrite skip_front by lacks); try (rewrite skip_back by lacks);
  rewrite last_of_one; match goal with |- context [?a =? ?b] => change (a =? b) with true end; cbv iota.
Ltac set_lookup := first
  [ unfold last_num; find_item; match goal with |- _ = ?o => destruct o; reflexivity end
  | unfold last_bytes; find_item; match goal with |- _ = ?o => destruct o; reflexivity end
  | rewrite ?all_pairs_app; rewrite ?all_pairs_pairs, ?all_pairs_ids; rewrite ?all_pairs_one by discriminate;
    cbn [app]; rewrite ?app_nil_r; reflexivity
  | rewrite ?all_ids_app; rewrite ?all_ids_pairs, ?all_ids_ids; rewrite ?all_ids_one by discriminate;
    cbn [app]; rewrite ?app_nil_r; reflexivity ].

(** what comes back from a record is among the properties it was built from *)
Lemma last_of_in id its v : last_of id its = Some v -> In (id, v) its.
Proof.
  unfold last_of. match goal with |- context [find ?f ?l] => destruct (find f l) as [[i w]|] eqn:E end; [|discriminate].
  cbn [snd]. intros H. injection H as <-. apply find_some in E as [H1 H2]. cbn [fst snd] in *.
  apply in_rev in H1. apply N.eqb_eq in H2. subst i. exact H1.
Qed.
Lemma incl_num id c t its : Forall item_typed its -> ptype_of id = Some t ->
  (forall v, type_of v = t -> match v with VByte n | VTwo n | VFour n | VVar n => v = c n | _ => False end) ->
  incl (one id c (last_num id its)) its.
Proof.
  intros HF Ht Hc x Hx. unfold last_num in Hx.
  destruct (last_of id its) as [v|] eqn:E; [|destruct Hx].
  apply last_of_in in E. assert (Hv : type_of v = t).
  { rewrite Forall_forall in HF. destruct (HF _ E) as [H _]. cbn [fst snd] in H. congruence. }
  specialize (Hc v Hv). destruct v; try contradiction; destruct Hx as [<-|[]]; rewrite <- Hc; exact E.
Qed.
Lemma incl_bytes id c t its : Forall item_typed its -> ptype_of id = Some t ->
  (forall v, type_of v = t -> match v with VStr n | VBin n => v = c n | _ => False end) ->
  incl (one id c (last_bytes id its)) its.
Proof.
  intros HF Ht Hc x Hx. unfold last_bytes in Hx.
  destruct (last_of id its) as [v|] eqn:E; [|destruct Hx].
  apply last_of_in in E. assert (Hv : type_of v = t).
  { rewrite Forall_forall in HF. destruct (HF _ E) as [H _]. cbn [fst snd] in H. congruence. }
  specialize (Hc v Hv). destruct v; try contradiction; destruct Hx as [<-|[]]; rewrite <- Hc; exact E.
Qed.
Lemma incl_pairs its : incl (pair_items (all_pairs its)) its.
Proof.
  intros x Hx. unfold pair_items, all_pairs in Hx. apply in_map_iff in Hx as ([k v] & <- & Hx).
  apply in_flat_map in Hx as ([id w] & Hin & Hx). cbn [fst snd] in *. destruct w; try destruct Hx.
  destruct (N.eqb_spec id 38) as [-> |]; [|destruct Hx]. destruct Hx as [Hx|[]]. injection Hx as -> ->. exact Hin.
Qed.
Lemma incl_ids its : incl (id_items (all_ids its)) its.
Proof.
  intros x Hx. unfold id_items, all_ids in Hx. apply in_map_iff in Hx as (n & <- & Hx).
  apply in_flat_map in Hx as ([id w] & Hin & Hx). cbn [fst snd] in *. destruct w; try destruct Hx.
  destruct (N.eqb_spec id 11) as [-> |]; [|destruct Hx]. destruct Hx as [Hx|[]]. subst. exact Hin.
Qed.
Ltac set_incl HF :=
  repeat (apply incl_app); first
   [ apply incl_pairs | apply incl_ids
   | eapply incl_num; [exact HF|reflexivity|intros [] H; try discriminate H; reflexivity]
   | eapply incl_bytes; [exact HF|reflexivity|intros [] H; try discriminate H; reflexivity] ].

(** *** identifiers and types of the properties of a record *)
Definition has_place (p : place) (it : item) : Prop :=
  In (fst it) (allowed_at p) /\ ptype_of (fst it) = Some (type_of (snd it)).
Lemma place_one {A} p id (c : A -> pval) o : mem id (allowed_at p) = true ->
  (forall a, ptype_of id = Some (type_of (c a))) -> Forall (has_place p) (one id c o).
Proof.
  intros H1 H2. destruct o as [a|]; constructor; [|constructor]. split; cbn [fst snd]; [apply mem_in, H1|apply H2].
Qed.
Lemma place_pairs p l : mem 38 (allowed_at p) = true -> Forall (has_place p) (pair_items l).
Proof.
  intros H1. apply Forall_map. apply Forall_forall. intros kv _. split; cbn [fst snd]; [apply mem_in, H1|reflexivity].
Qed.
Lemma place_ids p l : mem 11 (allowed_at p) = true -> Forall (has_place p) (id_items l).
Proof.
  intros H1. apply Forall_map. apply Forall_forall. intros kv _. split; cbn [fst snd]; [apply mem_in, H1|reflexivity].
Qed.
Ltac set_place :=
  repeat (apply Forall_app; split); first
   [ apply place_pairs; reflexivity | apply place_ids; reflexivity | apply place_one; reflexivity ].

(** *** writing *)
Definition put_val (v : pval) : writer unit :=
  match v with
  | VByte n => put_u8 n | VTwo n => put_u16 n | VFour n => put_u32 n
  | VVar n => write_remaining_length n ;;w wret tt
  | VStr s => write_mqtt_string s | VBin s => write_mqtt_bytes s
  | VPair k v => write_mqtt_string k ;;w write_mqtt_string v
  end.
Definition put_item (it : item) : writer unit := put_u8 (fst it) ;;w put_val (snd it).
Definition put_items (its : list item) : writer unit := for_each its put_item.

Lemma wbind_assoc {A B C} (m : writer A) (k : A -> writer B) (h : B -> writer C) b :
  wbind (wbind m k) h b = wbind m (fun a => wbind (k a) h) b.
Proof. unfold wbind. destruct (m b) as [[a|e| |] b']; reflexivity. Qed.
Lemma put_items_app a rest b : put_items (a ++ rest) b = (put_items a ;;w put_items rest) b.
Proof.
  revert b. induction a as [|x a IH]; intros b; [reflexivity|].
  change (put_items ((x :: a) ++ rest)) with (put_item x ;;w put_items (a ++ rest)).
  change (put_items (x :: a)) with (put_item x ;;w put_items a).
  rewrite wbind_assoc. unfold wbind at 1 2. destruct (put_item x b) as [[u|e| |] b']; try reflexivity.
  apply IH.
Qed.
Lemma put_seq (m : writer unit) (k : writer unit) a rest :
  (forall b, m b = put_items a b) -> (forall b, k b = put_items rest b) ->
  forall b, (m ;;w k) b = put_items (a ++ rest) b.
Proof.
  intros H1 H2 b. rewrite put_items_app. unfold wbind. rewrite H1.
  destruct (put_items a b) as [[u|e| |] b']; auto.
Qed.
Lemma put_seq_last (m : writer unit) a :
  (forall b, m b = put_items a b) -> forall b, (m ;;w wret tt) b = put_items a b.
Proof.
  intros H b. rewrite <- (app_nil_r a). apply put_seq; [exact H|reflexivity].
Qed.
Lemma wbind_ret (m : writer unit) b : (m ;;w wret tt) b = m b.
Proof. unfold wbind. destruct (m b) as [[[]|e| |] b']; reflexivity. Qed.
Lemma put_one {A} id (c : A -> pval) o (f : A -> writer unit) :
  (forall a b, f a b = put_item (id, c a) b) -> forall b, when_some o f b = put_items (one id c o) b.
Proof.
  intros H b. destruct o as [a|]; cbn [when_some one]; [|reflexivity].
  change (put_items [(id, c a)]) with (put_item (id, c a) ;;w wret tt). rewrite wbind_ret. apply H.
Qed.
Lemma for_each_ext {A B} (l : list A) (g : A -> B) f h :
  (forall a b, f a b = h (g a) b) -> forall b, for_each l f b = for_each (map g l) h b.
Proof.
  intros H. induction l as [|x l IH]; intros b; cbn [for_each map]; [reflexivity|].
  unfold wbind. rewrite H. destruct (h (g x) b) as [[u|e| |] b']; auto.
Qed.
Ltac set_write :=
  repeat match goal with
  | |- forall b, (_ ;;w wret tt) b = _ => apply put_seq_last
  | |- forall b, (_ ;;w _) b = _ => apply put_seq
  | |- forall b, when_some _ _ b = _ => apply put_one; intros ? ?; reflexivity
  | |- forall b, for_each _ _ b = _ => apply for_each_ext; intros ? ?; reflexivity
  end.

Lemma put_val_ok v : value_small v -> writes (put_val v) (Ok tt) (value_bytes v).
Proof.
  destruct v; cbn [value_small put_val value_bytes]; intros H; try wprim.
  - eapply writes_eq; [eapply writes_bind; [apply writes_remaining_length, H|apply writes_ret]|reflexivity|apply app_nil_r].
  - eapply writes_bind; wprim.
Qed.
Lemma put_items_ok its : Forall (fun it => value_small (snd it)) its ->
  writes (put_items its) (Ok tt) (items_bytes its).
Proof.
  intros H. apply writes_for_each with (g := item_bytes). intros it Hit.
  rewrite Forall_forall in H. unfold put_item, item_bytes.
  eapply writes_eq; [eapply writes_bind; [wprim|apply put_val_ok, H, Hit]|reflexivity|reflexivity].
Qed.
(** the first oversized subscription identifier stops the writer *)
Lemma put_items_big a id n b : Forall (fun it => value_small (snd it)) a -> max_len < n ->
  writes (put_items (a ++ (id, VVar n) :: b)) (Err PayloadTooLong) (items_bytes a ++ [id]).
Proof.
  intros Ha Hn buf. rewrite put_items_app. unfold wbind. rewrite (put_items_ok a Ha buf).
  change (put_items ((id, VVar n) :: b)) with (put_item (id, VVar n) ;;w put_items b).
  unfold put_item. cbn [fst snd put_val]. unfold wbind, put_u8, extend_from_slice.
  rewrite (writes_remaining_length_err n Hn). rewrite app_nil_r, <- app_assoc. reflexivity.
Qed.

Definition put_section (n : N) (its : list item) : writer unit :=
  write_remaining_length n ;;w put_items its.
Lemma put_section_eq n (m : writer unit) its b : (forall b, m b = put_items its b) ->
  (write_remaining_length n ;;w m) b = put_section n its b.
Proof.
  intros H. unfold put_section, wbind. destruct (write_remaining_length n b) as [[c|e| |] b']; auto.
Qed.
Lemma put_section_ok its : Forall (fun it => value_small (snd it)) its -> blen (items_bytes its) <= max_len ->
  writes (put_section (blen (items_bytes its)) its) (Ok tt) (section_bytes its).
Proof. intros H1 H2. eapply writes_bind; [apply writes_remaining_length, H2|apply put_items_ok, H1]. Qed.
Lemma put_section_big a id n b : Forall (fun it => value_small (snd it)) a -> max_len < n ->
  blen (items_bytes (a ++ (id, VVar n) :: b)) <= max_len ->
  writes (put_section (blen (items_bytes (a ++ (id, VVar n) :: b))) (a ++ (id, VVar n) :: b))
    (Err PayloadTooLong) (varint (blen (items_bytes (a ++ (id, VVar n) :: b))) ++ items_bytes a ++ [id]).
Proof.
  intros H1 H2 H3. eapply writes_bind; [apply writes_remaining_length, H3|apply put_items_big; assumption].
Qed.

(** *** lengths *)
Lemma items_bytes_app a b : items_bytes (a ++ b) = items_bytes a ++ items_bytes b.
Proof. apply flat_map_app. Qed.
Lemma blen_varint n : blen (varint n) = len_len n.
Proof. apply varint_len. Qed.
Definition len_one {A} (id : N) (c : A -> pval) (o : option A) : N := blen (items_bytes (one id c o)).
Lemma len_const {A} id (c : A -> pval) o (k len : N) : (forall a, blen (value_bytes (c a)) = k) ->
  (if is_some o then len + (1 + k) else len) = len + blen (items_bytes (one id c o)).
Proof.
  intros H. destruct o as [a|]; cbn [is_some one items_bytes flat_map].
  - unfold item_bytes. cbn [fst snd]. autorewrite with blen. rewrite H. lia.
  - autorewrite with blen. lia.
Qed.
Lemma len_str {A} id (c : A -> pval) o (g : A -> N) len : (forall a, blen (value_bytes (c a)) = g a) ->
  match o with Some v => len + (1 + g v) | None => len end = len + blen (items_bytes (one id c o)).
Proof.
  intros H. destruct o as [a|]; cbn [is_some one items_bytes flat_map].
  - unfold item_bytes. cbn [fst snd]. autorewrite with blen. rewrite H. lia.
  - autorewrite with blen. lia.
Qed.
Lemma len_str2 id (c : bytes -> pval) o len : (forall a, blen (value_bytes (c a)) = 2 + blen a) ->
  match o with Some v => len + (1 + 2 + blen v) | None => len end = len + blen (items_bytes (one id c o)).
Proof.
  intros H. rewrite <- (len_str id c o (fun v => 2 + blen v) len H). destruct o; lia.
Qed.
Lemma len_fold {A} (l : list A) (f : A -> item) (g : A -> N) len : (forall a, blen (item_bytes (f a)) = g a) ->
  fold_left (fun len a => len + g a) l len = len + blen (items_bytes (map f l)).
Proof.
  intros H. revert len. induction l as [|x l IH]; intros len; cbn [fold_left map].
  - autorewrite with blen. change (blen (items_bytes [])) with 0. lia.
  - rewrite IH. change (items_bytes (f x :: map f l)) with (item_bytes (f x) ++ items_bytes (map f l)).
    autorewrite with blen. rewrite H. lia.
Qed.
Lemma len_pairs l len :
  fold_left (fun len kv => len + (1 + 2 + blen (fst kv) + 2 + blen (snd kv))) l len
  = len + blen (items_bytes (pair_items l)).
Proof.
  apply (len_fold l (fun kv => (38, VPair (fst kv) (snd kv))) (fun kv => 1 + 2 + blen (fst kv) + 2 + blen (snd kv))).
  intros a. unfold item_bytes. cbn [fst snd value_bytes]. autorewrite with blen. lia.
Qed.
Lemma len_ids l len :
  fold_left (fun len id => len + (1 + len_len id)) l len = len + blen (items_bytes (id_items l)).
Proof.
  apply (len_fold l (fun n => (11, VVar n)) (fun id => 1 + len_len id)).
  intros a. unfold item_bytes. cbn [fst snd value_bytes]. autorewrite with blen. rewrite blen_varint. lia.
Qed.
Lemma len_peel (E L : N) a rest (K : N -> N) : E = L + blen (items_bytes a) ->
  (forall M, K M = M + blen (items_bytes rest)) ->
  (let len := E in K len) = L + blen (items_bytes (a ++ rest)).
Proof. intros -> H. cbv zeta. rewrite H, items_bytes_app, blen_app. lia. Qed.
Lemma len_peel_last (E L : N) a : E = L + blen (items_bytes a) ->
  (let len := E in len) = L + blen (items_bytes a).
Proof. auto. Qed.
Lemma len_start (K : N -> N) n : K 0 = 0 + n -> (let len := 0 in K len) = n.
Proof. cbv zeta. lia. Qed.
Ltac set_len1 := first
   [ apply len_pairs | apply len_ids | apply len_const; intros; reflexivity
   | apply len_str2; intros; cbn [value_bytes]; apply blen_field
   | match goal with |- match ?o with _ => _ end = _ + blen (items_bytes (one ?i ?c _)) =>
       apply (len_str i c o len_len) end; intros; cbn [value_bytes]; apply blen_varint ].
Ltac set_len :=
  match goal with |- (let len := 0 in @?K len) = _ => apply (len_start K) end; cbv beta;
  repeat (match goal with
  | |- (let len := ?E in len) = ?L + blen (items_bytes ?a) => apply len_peel_last; set_len1
  | |- (let len := ?E in @?K len) = ?L + blen (items_bytes (?a ++ ?rest)) =>
      apply (len_peel E L a rest K); [set_len1|intros ?; cbv beta]
  end).

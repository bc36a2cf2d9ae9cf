(** ProofSrcStop.v -- where a failing `extract` of the mechanical translation leaves the buffer
    (SpecStop.v). *)
From Verif Require Import ProofSrcTac ProofRead ProofUtf8 SpecProps ProofProps ProofErrors SpecErrors SpecStop.
From Verif Require SrcV5ConnAck SrcV5PubAck SrcV5PubRec SrcV5PubRel SrcV5PubComp SrcV5Subscribe SrcV5SubAck SrcV5UnsubAck SrcV5Disconnect.

(** ** fields *)
Lemma sim_read {A B} w (r : outcome (B * bytes)) (Q : A -> B -> bytes -> Prop) a s' :
  sim w r Q -> w = (Ok a, s') -> exists b, Q a b s'.
Proof. intros H ->. unfold sim in H. cbn in H. destruct r as [[b s]| | |]; try contradiction. destruct H as [<- H]. eauto. Qed.
Lemma sim_ok_read {A B} (w : outcome A * bytes) (b : B) s' (Q : A -> B -> bytes -> Prop) :
  sim w (Ok (b, s')) Q -> exists a, w = (Ok a, s') /\ Q a b s'.
Proof. destruct w as [[a| | |] s]; unfold sim; cbn; try contradiction. intros [-> H]. eauto. Qed.

Lemma u8_len s v s' : SrcLib.read_u8 s = (Ok v, s') -> blen s = 1 + blen s'.
Proof. intros H. destruct (sim_read _ _ _ _ _ (sim_u8 s) H) as (_ & _ & L). exact L. Qed.
Lemma u16_len s v s' : SrcLib.read_u16 s = (Ok v, s') -> blen s = 2 + blen s'.
Proof. intros H. destruct (sim_read _ _ _ _ _ (sim_u16 s) H) as (_ & _ & L). exact L. Qed.
Lemma u32_len s v s' : SrcLib.read_u32 s = (Ok v, s') -> blen s = 4 + blen s'.
Proof. intros H. destruct (sim_read _ _ _ _ _ (sim_u32 s) H) as (_ & _ & L). exact L. Qed.
Lemma bytes_len s v s' : SrcLib.read_mqtt_bytes s = (Ok v, s') -> blen s = 2 + blen v + blen s'.
Proof. intros H. destruct (sim_read _ _ _ _ _ (sim_bytes s) H) as (_ & _ & L). exact L. Qed.
Lemma string_len s v s' : SrcLib.read_mqtt_string s = (Ok v, s') -> blen s = 2 + blen v + blen s'.
Proof. intros H. destruct (sim_read _ _ _ _ _ (sim_string s) H) as (_ & _ & L). exact L. Qed.

Lemma u8_ok v s : SrcLib.read_u8 (v :: s) = (Ok v, s).
Proof. reflexivity. Qed.
Lemma u16_ok n s : n < 65536 -> SrcLib.read_u16 (be16 n ++ s) = (Ok n, s).
Proof.
  intros H. assert (S := sim_u16 (be16 n ++ s)). rewrite read_u16_be16 in S by exact H.
  apply sim_ok_read in S as (a & E & -> & _). exact E.
Qed.
Lemma u32_ok n s : n < 4294967296 -> SrcLib.read_u32 (be32 n ++ s) = (Ok n, s).
Proof.
  intros H. assert (S := sim_u32 (be32 n ++ s)). rewrite read_u32_be32 in S by exact H.
  apply sim_ok_read in S as (a & E & -> & _). exact E.
Qed.
Lemma bytes_ok_src v s : short v -> SrcLib.read_mqtt_bytes (field v ++ s) = (Ok v, s).
Proof.
  intros H. assert (S := sim_bytes (field v ++ s)). rewrite read_bytes_field in S by exact H.
  apply sim_ok_read in S as (a & E & -> & _). exact E.
Qed.
Lemma string_ok_src v s : short v -> is_utf8 v -> SrcLib.read_mqtt_string (field v ++ s) = (Ok v, s).
Proof.
  intros H H'. assert (S := sim_string (field v ++ s)). rewrite read_string_field in S by assumption.
  apply sim_ok_read in S as (a & E & -> & _). exact E.
Qed.

Lemma u8_stops s e s' : stops WByte s e s' -> SrcLib.read_u8 s = (Err e, s').
Proof. inversion 1; subst; try (destruct H0; discriminate). reflexivity. Qed.
Lemma u16_stops_lt s : blen s < 2 -> SrcLib.read_u16 s = (Err MalformedPacket, s).
Proof. intros H. unfold SrcLib.read_u16, wbind, get. replace (blen s <? 2) with true by lia. reflexivity. Qed.
Lemma u16_stops s e s' : stops WTwo s e s' -> SrcLib.read_u16 s = (Err e, s').
Proof. inversion 1; subst; try (destruct H0; discriminate). apply u16_stops_lt; assumption. Qed.
Lemma u32_stops s e s' : stops WFour s e s' -> SrcLib.read_u32 s = (Err e, s').
Proof.
  inversion 1; subst; try (destruct H0; discriminate). unfold SrcLib.read_u32, wbind, get.
  replace (blen s' <? 4) with true by lia. reflexivity.
Qed.
Lemma bytes_stops w s e s' : w = WBytes \/ w = WString -> stops w s e s' -> e <> TopicNotUtf8 -> SrcLib.read_mqtt_bytes s = (Err e, s').
Proof.
  intros Hw H Hn. unfold SrcLib.read_mqtt_bytes. unfold wbind at 1.
  destruct H; try (destruct Hw; discriminate); try contradiction.
  - rewrite u16_stops_lt by assumption. reflexivity.
  - rewrite u16_ok by assumption. unfold wbind, get. replace (blen s <? n) with true by lia. reflexivity.
Qed.
Lemma string_stops s e s' : stops WString s e s' -> SrcLib.read_mqtt_string s = (Err e, s').
Proof.
  intros H. unfold SrcLib.read_mqtt_string. unfold wbind at 1.
  destruct (match e with TopicNotUtf8 => true | _ => false end) eqn:E.
  - inversion H; subst; try discriminate E. rewrite bytes_ok_src by assumption.
    unfold from_utf8. destruct (Utf8.utf8_ok v) eqn:U; [|reflexivity]. exfalso. apply H1. apply utf8_ok_spec. exact U.
  - rewrite (bytes_stops WString s e s'); [reflexivity|auto|exact H|]. destruct e; discriminate.
Qed.
Lemma stops_lacks w s e s' : stops w s e s' -> lacks w s e.
Proof. destruct 1; constructor; assumption. Qed.
Lemma lacks_stops w s e : lacks w s e -> exists s', stops w s e s'.
Proof. destruct 1; eexists; constructor; eassumption. Qed.
Lemma len_stops s e s' : bytes_ok s -> stops WLen s e s' -> SrcLib.length s = Err e /\ s' = s.
Proof.
  intros Hb H. split.
  - rewrite length_eq. apply length_lacks; [exact Hb|]. eapply stops_lacks, H.
  - inversion H; subst; try reflexivity; destruct H0; discriminate.
Qed.

(** ** one property, independently of the property set *)
Definition kvalue (t : ptype) : writer N :=
  match t with
  | TByte => v <-w SrcLib.read_u8 ;; wret 1
  | TTwo => v <-w SrcLib.read_u16 ;; wret 2
  | TFour => v <-w SrcLib.read_u32 ;; wret 4
  | TVar => t1 <-w get ;; ll <-w lift (SrcLib.length t1) ;; keep (advance (fst ll)) ;;w wret (1 + fst ll)
  | TStr => v <-w SrcLib.read_mqtt_string ;; wret (2 + blen v)
  | TBin => v <-w SrcLib.read_mqtt_bytes ;; wret (2 + blen v)
  | TPair => k <-w SrcLib.read_mqtt_string ;; v <-w SrcLib.read_mqtt_string ;; wret (2 + blen k + 2 + blen v)
  end.
Definition kstep (allowed : list N) : writer N :=
  id <-w SrcLib.read_u8 ;;
  ty <-w lift (SrcV5Property.property id) ;;
  (if mem (property_u8 ty) allowed then kvalue (ty_type ty) else werr (InvalidPropertyType id)).

(** the translation's body [w], with cursor [cur], started at [c], does what [kstep] does *)
Definition follows {St} (cur : St -> N) (c : N) (k : outcome N * bytes) (w : outcome St * bytes) : Prop :=
  match k with
  | (Ok n, s') => exists st, w = (Ok st, s') /\ cur st = c + n
  | (Err e, s') => w = (Err e, s')
  | _ => True
  end.
Lemma follows_bind {X St} (cur : St -> N) c (m : writer X) k1 k2 s :
  (forall x s', m s = (Ok x, s') -> follows cur c (k1 x s') (k2 x s')) -> follows cur c (wbind m k1 s) (wbind m k2 s).
Proof. intros H. unfold wbind. destruct (m s) as [[x| | |] s']; cbn; auto. Qed.
Lemma follows_assoc {X Y St} (cur : St -> N) c k0 (m : writer X) (k1 : X -> writer Y) k2 s :
  follows cur c k0 (wbind m (fun x => wbind (k1 x) k2) s) -> follows cur c k0 (wbind (wbind m k1) k2 s).
Proof. unfold wbind. destruct (m s) as [[x| | |] s']; auto. Qed.
Lemma follows_add {St} (cur : St -> N) c k0 a b (k2 : N -> writer St) s : a + b <= usize_max ->
  follows cur c k0 (k2 (a + b) s) -> follows cur c k0 (wbind (lift (usize_add a b)) k2 s).
Proof. intros H. rewrite usize_add_ok by exact H. auto. Qed.
Lemma follows_wret {X St} (cur : St -> N) c k0 (a : X) (k2 : X -> writer St) s :
  follows cur c k0 (k2 a s) -> follows cur c k0 (wbind (wret a) k2 s).
Proof. auto. Qed.
Lemma follows_err {X St} (cur : St -> N) c e s (k2 : X -> writer St) : follows cur c (werr e s) (wbind (werr e) k2 s).
Proof. reflexivity. Qed.
Lemma follows_ret {St} (cur : St -> N) c n (st : St) s : cur st = c + n -> follows cur c (wret n s) (wret st s).
Proof. intros H. exists st. auto. Qed.
Lemma follows_len {St} (cur : St -> N) c k1 k2 s :
  (forall ll, SrcLib.length s = Ok ll -> fst ll <= 4 -> follows cur c (k1 ll s) (k2 ll s)) ->
  follows cur c (wbind (lift (SrcLib.length s)) k1 s) (wbind (lift (SrcLib.length s)) k2 s).
Proof.
  intros H. apply follows_bind. intros ll s' E. unfold lift in E. injection E as E <-. apply H; [exact E|].
  rewrite length_eq in E. destruct ll as [a n]. apply length_bound in E. exact E.
Qed.
Lemma follows_get {X St} (cur : St -> N) c (k1 : bytes -> writer N) (k2 : bytes -> writer X) (k3 : X -> writer St) s :
  follows cur c (k1 s s) (wbind (k2 s) k3 s) -> follows cur c (wbind get k1 s) (wbind (wbind get k2) k3 s).
Proof. auto. Qed.

Ltac flia := pose proof usize_half; pose proof usize_big; cbn [fst snd] in *; lia.
Ltac fol1 :=
  lazymatch goal with
  | |- follows _ _ _ (wbind (wbind get _) _ _) => apply follows_get
  | |- follows _ _ _ (wbind (wbind _ _) _ _) => apply follows_assoc
  | |- follows _ _ _ (wbind (lift (usize_add _ _)) _ _) => apply follows_add; [flia|]
  | |- follows _ _ _ (wbind (wret _) _ _) => apply follows_wret
  | |- follows _ _ (wbind SrcLib.read_u8 _ _) _ => let L := fresh "L" in apply follows_bind; intros ? ? L; apply u8_len in L
  | |- follows _ _ (wbind SrcLib.read_u16 _ _) _ => let L := fresh "L" in apply follows_bind; intros ? ? L; apply u16_len in L
  | |- follows _ _ (wbind SrcLib.read_u32 _ _) _ => let L := fresh "L" in apply follows_bind; intros ? ? L; apply u32_len in L
  | |- follows _ _ (wbind SrcLib.read_mqtt_bytes _ _) _ => let L := fresh "L" in apply follows_bind; intros ? ? L; apply bytes_len in L
  | |- follows _ _ (wbind SrcLib.read_mqtt_string _ _) _ => let L := fresh "L" in apply follows_bind; intros ? ? L; apply string_len in L
  | |- follows _ _ (wbind (lift (SrcLib.length _)) _ _) _ => let L := fresh "L" in apply follows_len; intros [? ?] _ L
  | |- follows _ _ (wbind (lift (SrcV5Property.property _)) _ _) _ => let E := fresh in apply follows_bind; intros ? ? E; apply (f_equal snd) in E; cbn [lift snd] in E; subst
  | |- follows _ _ (wbind (keep _) _ _) _ => apply follows_bind; intros ? ? ?
  | |- follows _ _ (werr _ _) (wbind (werr _) _ _) => apply follows_err
  | |- follows _ _ (wret _ _) (wret _ _) => apply follows_ret; cbv beta iota; flia
  | |- follows _ _ _ (wbind (match ?t with _ => _ end) _ _) => fail
  end.
Ltac fol := repeat (cbv beta iota zeta; fol1).

(** ** the loop *)
Inductive kstops (allowed : list N) (plen : N) : N -> bytes -> Error -> bytes -> Prop :=
| k_here c s e s' : c < plen -> kstep allowed s = (Err e, s') -> kstops allowed plen c s e s'
| k_more c n s s1 e s' : c < plen -> kstep allowed s = (Ok n, s1) -> n + 2 + 2 * blen s1 <= 2 * blen s -> (List.length s1 < List.length s)%nat ->
    kstops allowed plen (c + 1 + n) s1 e s' -> kstops allowed plen c s e s'.

Lemma while_stops {St} (cur : St -> N) (cond : St -> writer bool) (body : St -> writer St) allowed plen :
  (forall st b, cond st b = (Ok (cur st <? plen), b)) ->
  (forall st s, cur st + 2 * blen s + 10 <= usize_max -> follows cur (cur st + 1) (kstep allowed s) (body st s)) ->
  forall c s e s', kstops allowed plen c s e s' ->
  forall fuel st, cur st = c -> (List.length s < fuel)%nat -> c + 2 * blen s + 10 <= usize_max ->
  while_ fuel cond body st s = (Err e, s').
Proof.
  intros C B c s e s' H. induction H as [c s e s' Hc Hk|c n s s1 e s' Hc Hk Hn Hl H IH]; intros fuel st <- Hf Hu.
  - destruct fuel as [|fuel]; [lia|]. cbn [while_]. unfold wbind at 1. rewrite C. replace (cur st <? plen) with true by lia.
    specialize (B st s Hu). rewrite Hk in B. cbn in B. unfold wbind. rewrite B. reflexivity.
  - destruct fuel as [|fuel]; [lia|]. cbn [while_]. unfold wbind at 1. rewrite C. replace (cur st <? plen) with true by lia.
    specialize (B st s Hu). rewrite Hk in B. destruct B as (st' & E & Ec). unfold wbind. rewrite E.
    apply IH; [exact Ec|lia|lia].
Qed.

(** [kstep] on properties and on what is none *)
Lemma kstep_item allowed id v vb s : In id allowed -> item_ok (id, v) -> value_enc v vb ->
  kstep allowed (id :: vb ++ s) = (Ok (counted id (blen vb)), s).
Proof.
  intros Hin [[Ht Hv] [Hs Hm]] He. cbn [fst snd] in *.
  destruct (ptype_property _ _ Ht) as (ty & Ep & Eid & Ety).
  unfold kstep. unfold wbind at 1. rewrite u8_ok. unfold wbind at 1, lift at 1. rewrite property_eq, Ep.
  rewrite Eid. replace (mem id allowed) with true by (symmetry; apply mem_in, Hin). rewrite Ety.
  rewrite (counted_over _ _ _ Ht).
  destruct v; cbn [value_typed value_short value_enc value_bytes type_of kvalue over] in *.
  - subst vb. reflexivity.
  - subst vb. unfold wbind. rewrite u16_ok by exact Hv. reflexivity.
  - subst vb. unfold wbind. rewrite u32_ok by exact Hv. reflexivity.
  - destruct He as [Hf Hl]. unfold wbind at 1, get. unfold wbind at 1, lift at 1. rewrite length_eq, (length_ok _ _ s Hf Hl).
    cbn [fst]. unfold wbind, keep. rewrite advance_app by reflexivity. unfold wret. do 2 f_equal. lia.
  - subst vb. unfold wbind. rewrite string_ok_src by assumption. autorewrite with blen. unfold wret. do 2 f_equal. lia.
  - subst vb. unfold wbind. rewrite bytes_ok_src by assumption. autorewrite with blen. unfold wret. do 2 f_equal. lia.
  - subst vb. rewrite <- app_assoc. destruct Hs as [Hk Hv'], Hv as [Hku Hvu].
    unfold wbind at 1. rewrite string_ok_src by assumption. unfold wbind. rewrite string_ok_src by assumption.
    autorewrite with blen. unfold wret. do 2 f_equal. lia.
Qed.
Lemma kstep_end allowed : kstep allowed [] = (Err MalformedPacket, []).
Proof. reflexivity. Qed.
Lemma kstep_id allowed id s : ~ In id allowed -> kstep allowed (id :: s) = (Err (InvalidPropertyType id), s).
Proof.
  intros Hn. unfold kstep. unfold wbind at 1. rewrite u8_ok. unfold wbind at 1, lift at 1. rewrite property_eq.
  destruct (property_cases id) as [(ty & Ep & Eid)|[Ep _]]; rewrite Ep; [|reflexivity].
  rewrite Eid. destruct (mem id allowed) eqn:M; [|reflexivity]. exfalso. apply Hn, mem_in, M.
Qed.
Lemma kstep_value allowed id t s e s' : bytes_ok s -> In id allowed -> ptype_of id = Some t -> value_stops t s e s' ->
  kstep allowed (id :: s) = (Err e, s').
Proof.
  intros Hb Hin Ht H. destruct (ptype_property _ _ Ht) as (ty & Ep & Eid & Ety).
  unfold kstep. unfold wbind at 1. rewrite u8_ok. unfold wbind at 1, lift at 1. rewrite property_eq, Ep.
  rewrite Eid. replace (mem id allowed) with true by (symmetry; apply mem_in, Hin). rewrite Ety.
  destruct H; cbn [kvalue].
  - unfold wbind. rewrite (u8_stops _ _ _ H). reflexivity.
  - unfold wbind. rewrite (u16_stops _ _ _ H). reflexivity.
  - unfold wbind. rewrite (u32_stops _ _ _ H). reflexivity.
  - destruct (len_stops _ _ _ Hb H) as [E ->]. unfold wbind, get, lift. rewrite E. reflexivity.
  - unfold wbind. rewrite (string_stops _ _ _ H). reflexivity.
  - unfold wbind. rewrite (bytes_stops WBytes _ _ _ (or_introl eq_refl) H); [reflexivity|]. inversion H; discriminate.
  - unfold wbind. rewrite (string_stops _ _ _ H). reflexivity.
  - unfold wbind at 1. rewrite string_ok_src by assumption. unfold wbind. rewrite (string_stops _ _ _ H1). reflexivity.
Qed.
Lemma reads_kstops allowed plen c its bs c1 : reads allowed plen c its bs c1 ->
  forall s e s', kstops allowed plen c1 s e s' -> kstops allowed plen c (bs ++ s) e s'.
Proof.
  induction 1 as [c|c id v vb its bs c' Hc Hin Hok He Hr IH]; intros s e s' H; [exact H|].
  cbn [app]. rewrite <- app_assoc. eapply k_more; [exact Hc|eapply kstep_item; eassumption| | |].
  - autorewrite with blen. assert (1 <= blen vb).
    { destruct Hok as [[Ht _] _]. cbn [fst snd] in Ht. destruct v; cbn [value_enc value_bytes] in He; try (subst vb; autorewrite with blen; lia).
      destruct He as [Hf _]. apply lenfield_nonempty in Hf. exact Hf. }
    unfold counted. clear - H0. unfold bytes in *. destruct (id =? 11); lia.
  - cbn [List.length]. rewrite !app_length. lia.
  - replace (c + 1 + counted id (blen vb)) with (c + counted id (1 + blen vb)) by (unfold counted; lia).
    apply IH, H.
Qed.

(** ** the whole section *)
Lemma section_start {A} (k : N -> writer A) f plen s (kk : N * N -> writer A) :
  lenfield f plen -> blen f <= 4 ->
  (forall ll, kk ll = (keep (advance (fst ll)) ;;w k (snd ll))) ->
  wbind get (fun t1 => wbind (lift (SrcLib.length t1)) kk) (f ++ s) = k plen s.
Proof.
  intros Hf Hl Hk. unfold wbind at 1, get. unfold wbind at 1, lift at 1. rewrite length_eq, (length_ok _ _ s Hf Hl).
  rewrite Hk. unfold wbind, keep. cbn [fst snd]. rewrite advance_app by reflexivity. reflexivity.
Qed.
Lemma stops_cases allowed s e s' : section_stops allowed s e s' -> bytes_ok s ->
  (stops WLen s e s') \/
  exists f plen r, s = f ++ r /\ lenfield f plen /\ blen f <= 4 /\ 0 < plen /\ kstops allowed plen 0 r e s'.
Proof.
  intros H Hb. destruct H as [s e s' H|f plen its bs c Hf Hl Hr Hc|f plen its bs c id s Hf Hl Hr Hc Hn|f plen its bs c id t s e s' Hf Hl Hr Hc Hi Ht Hv]; [left; exact H| | |]; right.
  - exists f, plen, bs. repeat (split; [solve [auto|lia]|]). rewrite <- (app_nil_r bs). eapply reads_kstops; [exact Hr|].
    apply k_here; [exact Hc|reflexivity].
  - exists f, plen, (bs ++ id :: s). repeat (split; [solve [auto|lia]|]). eapply reads_kstops; [exact Hr|].
    apply k_here; [exact Hc|apply kstep_id, Hn].
  - exists f, plen, (bs ++ id :: s). repeat (split; [solve [auto|lia]|]). eapply reads_kstops; [exact Hr|].
    apply k_here; [exact Hc|]. apply bytes_ok_app in Hb as [_ Hb]. apply bytes_ok_app in Hb as [_ Hb]. apply bytes_ok_cons in Hb as [_ Hb].
    eapply kstep_value; eassumption.
Qed.

(** [stopping allowed ex]: the translation of an `extract` *)
Definition stopping {R} (allowed : list N) (ex : nat -> writer (option R)) : Prop :=
  forall fuel s e s', bytes_ok s -> blen s < 2 ^ 62 -> (List.length s < fuel)%nat -> section_stops allowed s e s' ->
  ex fuel s = (Err e, s').
Lemma usize_room n : n < 2 ^ 62 -> 0 + 2 * n + 10 <= usize_max.
Proof. pose proof usize_half. pose proof half_val. lia. Qed.

Ltac stop_body :=
  let st := fresh "st" in let s0 := fresh "s0" in let L := fresh "L" in
  intros st s0 L; destr_state; cbv beta iota in L; cbv beta iota; unfold kstep;
  fol; match goal with ty : PropertyType |- _ => destruct ty end;
  match goal with |- context [mem ?a ?b] => let v := eval vm_compute in (mem a b) in change (mem a b) with v end;
  cbv iota; try match goal with |- context [ty_type ?a] => let v := eval vm_compute in (ty_type a) in change (ty_type a) with v end;
  cbn [kvalue]; fol.
Ltac stop_tac curf :=
  let fuel := fresh "fuel" in let Hb := fresh "Hb" in let Hs := fresh "Hs" in let Hf := fresh "Hf" in let H := fresh "H" in
  intros fuel s e s' Hb Hs Hf H; destruct (stops_cases _ _ _ _ H Hb) as [H'|(f & plen & r & -> & Hl & Hl4 & Hp & Hk)];
  [ destruct (len_stops _ _ _ Hb H') as [E ->]; cbv zeta; unfold wbind, get, lift; rewrite E; reflexivity | ];
  cbv zeta; unfold wbind at 1, get at 1; unfold wbind at 1, lift at 1; rewrite length_eq, (length_ok _ _ r Hl Hl4);
  cbv beta iota; unfold wbind at 1, keep at 1; rewrite advance_app by reflexivity;
  replace (plen =? 0) with false by lia; cbv beta iota zeta; unfold wbind at 1;
  match type of Hk with kstops ?al _ _ _ _ _ => rewrite (while_stops curf _ _ al plen) with (e := e) (s' := s') (c := 0) end;
  [ reflexivity
  | intros; destr_state; reflexivity
  | stop_body
  | exact Hk
  | reflexivity
  | rewrite app_length in Hf; lia
  | apply usize_room; rewrite blen_app in Hs; lia ].

Lemma connack_stops : stopping (allowed_at InConnAck) SrcV5ConnAck.ConnAckProperties_extract.
Proof. unfold stopping, SrcV5ConnAck.ConnAckProperties_extract. stop_tac uconstr:(fun '(c, _, _, _, _, _, _, _, _, _, _, _, _, _, _, _, _, _) => c : N). Qed.
Lemma puback_stops : stopping (allowed_at InPubAck) SrcV5PubAck.PubAckProperties_extract.
Proof. unfold stopping, SrcV5PubAck.PubAckProperties_extract. stop_tac uconstr:(fun '(c, _, _) => c : N). Qed.
Lemma pubrec_stops : stopping (allowed_at InPubRec) SrcV5PubRec.PubRecProperties_extract.
Proof. unfold stopping, SrcV5PubRec.PubRecProperties_extract. stop_tac uconstr:(fun '(c, _, _) => c : N). Qed.
Lemma pubrel_stops : stopping (allowed_at InPubRel) SrcV5PubRel.PubRelProperties_extract.
Proof. unfold stopping, SrcV5PubRel.PubRelProperties_extract. stop_tac uconstr:(fun '(c, _, _) => c : N). Qed.
Lemma pubcomp_stops : stopping (allowed_at InPubComp) SrcV5PubComp.PubCompProperties_extract.
Proof. unfold stopping, SrcV5PubComp.PubCompProperties_extract. stop_tac uconstr:(fun '(c, _, _) => c : N). Qed.
Lemma subscribe_stops : stopping (allowed_at InSubscribe) SrcV5Subscribe.SubscribeProperties_extract.
Proof. unfold stopping, SrcV5Subscribe.SubscribeProperties_extract. stop_tac uconstr:(fun '(c, _, _) => c : N). Qed.
Lemma suback_stops : stopping (allowed_at InSubAck) SrcV5SubAck.SubAckProperties_extract.
Proof. unfold stopping, SrcV5SubAck.SubAckProperties_extract. stop_tac uconstr:(fun '(c, _, _) => c : N). Qed.
Lemma unsuback_stops : stopping (allowed_at InUnsubAck) SrcV5UnsubAck.UnsubAckProperties_extract.
Proof. unfold stopping, SrcV5UnsubAck.UnsubAckProperties_extract. stop_tac uconstr:(fun '(c, _, _) => c : N). Qed.
Lemma disconnect_stops : stopping (allowed_at InDisconnect) SrcV5Disconnect.DisconnectProperties_extract.
Proof. unfold stopping, SrcV5Disconnect.DisconnectProperties_extract. stop_tac uconstr:(fun '(c, _, _, _, _) => c : N). Qed.

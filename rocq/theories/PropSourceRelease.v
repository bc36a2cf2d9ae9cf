(** PropSourceRelease.v -- C64 and C65 for the text of the repository: the translation of the source
    with overflow checks (Src*.v) and the one without (Wrap*.v). *)
From Verif Require Import ProofBase Lib SrcBase SpecWire SpecErrors SpecDirect SpecRelease SpecSource SpecUnchecked.
From Verif Require Import ProofWrapBase ProofWrap ProofRelBase.
From Verif Require ProofSrcBase ProofSrcTac PropFrame PropV4 PropV5 PropRelease PropSource PropSourceApi PropDirect PropStop WrapBase Release RelV4Unsubscribe.

(** ** C64 *)
Theorem C64_source_check : forall s max, bytes_ok s -> WrapLib.check s max = SrcLib.check s max.
Proof.
  intros s max Hb. apply wLib_check. rewrite ProofSrcBase.check_eq.
  destruct (PropFrame.C02_check_total s max Hb) as [[h E]|[e E]]; rewrite E; discriminate.
Qed.
Theorem C64_source_v4_read : forall fuel s max, bytes_ok s -> blen s < 2 ^ 63 -> (List.length s < fuel)%nat ->
  WrapV4Mod.read fuel max s = SrcV4Mod.read fuel max s.
Proof.
  intros fuel s max Hb Hs Hf. apply wV4Mod_read.
  destruct (PropSource.C06_source_v4_total fuel s max Hb Hs Hf) as [[p E]|[e E]]; rewrite E; discriminate.
Qed.
Theorem C64_source_v5_read : forall fuel s max, bytes_ok s -> blen s < 2 ^ 63 -> (List.length s < fuel)%nat ->
  WrapV5Mod.read fuel max s = SrcV5Mod.read fuel max s.
Proof.
  intros fuel s max Hb Hs Hf. apply wV5Mod_read.
  destruct (PropSource.C07_source_v5_total fuel s max Hb Hs Hf) as [[p E]|[e E]]; rewrite E; discriminate.
Qed.
Lemma v4_write_sim fuel p : wsim (v4_write fuel p) (un_v4_write fuel p).
Proof. destruct p; cbn [v4_write un_v4_write]; auto with sim. Qed.
Lemma v5_write_sim fuel p : wsim (v5_write fuel p) (un_v5_write fuel p).
Proof. destruct p; cbn [v5_write un_v5_write]; auto with sim. Qed.
Theorem C64_source_v4_write : forall fuel p buf, (5 <= fuel)%nat -> v4_memory p <= 2 ^ 63 ->
  un_v4_write fuel p buf = v4_write fuel p buf.
Proof.
  intros fuel p buf Hf Hm. apply v4_write_sim. rewrite PropSource.v4_write_src by assumption.
  destruct (PropV4.C16_v4_exact p buf) as (_ & _ & _ & [E|[E|[n E]]]); rewrite E; discriminate.
Qed.
Theorem C64_source_v5_write : forall fuel p buf, (5 <= fuel)%nat -> v5_memory p <= 2 ^ 63 ->
  un_v5_write fuel p buf = v5_write fuel p buf.
Proof.
  intros fuel p buf Hf Hm. apply v5_write_sim. rewrite PropSource.v5_write_src by assumption.
  destruct (PropV5.C16_v5_exact p buf) as (_ & _ & _ & [E|[E|[n E]]]); rewrite E; discriminate.
Qed.

(** the `len` methods *)
Definition len_sim (x y : outcome N * N) : Prop := osim (fst x) (fst y) /\ snd x = snd y.
Lemma set_sim {R} (l l' : R -> outcome N) items o : (forall r, osim (l r) (l' r)) ->
  Forall2 len_sim (set_len l items o) (set_len l' items o).
Proof. intros H. destruct o as [r|]; cbn [set_len]; [|constructor]. constructor; [split; [apply H|reflexivity]|constructor]. Qed.
Lemma map_sim {R} (l l' : R -> outcome N) (n : R -> N) fs : (forall r, osim (l r) (l' r)) ->
  Forall2 len_sim (map (fun f => (l f, n f)) fs) (map (fun f => (l' f, n f)) fs).
Proof. intros H. induction fs as [|f fs IH]; cbn [map]; constructor; [split; [apply H|reflexivity]|exact IH]. Qed.
Lemma in_sim l l' : Forall2 len_sim l l' -> forall r n, In (r, n) l' -> exists r0, In (r0, n) l /\ osim r0 r.
Proof.
  induction 1 as [|[x m] [y k] l l' [S E] H IH]; intros r n Hin; [contradiction|]. destruct Hin as [Hin|Hin].
  - apply pair_equal_spec in Hin as [-> ->]. cbn [fst snd] in *. subst m. exists x. split; [left; reflexivity|exact S].
  - destruct (IH r n Hin) as (r0 & H0 & S0). exists r0. split; [right; exact H0|exact S0].
Qed.
Ltac lens := repeat first [apply Forall2_app | apply set_sim; intros; solve [auto with sim]
  | apply map_sim; intros; solve [auto with sim]
  | constructor; [split; [cbn [fst]; solve [auto with sim]|reflexivity]|] | constructor].
Theorem C64_source_v4_lens : forall p r n, In (r, n) (un_v4_lens p) -> v4_memory p <= 2 ^ 63 ->
  r = Ok n /\ n <= v4_memory p + 100.
Proof.
  intros p r n Hin Hm. assert (F : Forall2 len_sim (v4_lens p) (un_v4_lens p)).
  { clear. destruct p as [c|c|q|x|x|x|x|s|s|u|u| | |]; cbn [v4_lens un_v4_lens]; lens. }
  destruct (in_sim _ _ F r n Hin) as (r0 & H0 & S). pose proof (PropSource.declared_v4_memory p n r0 H0).
  pose proof (PropSource.C66_v4_len_in_memory p r0 n H0 Hm) as E. subst r0. split; [apply S; discriminate|lia].
Qed.
Theorem C64_source_v5_lens : forall p r n, In (r, n) (un_v5_lens p) -> v5_memory p <= 2 ^ 63 ->
  r = Ok n /\ n <= v5_memory p + 100.
Proof.
  intros p r n Hin Hm. assert (F : Forall2 len_sim (v5_lens p) (un_v5_lens p)).
  { clear. destruct p as [c|c|q|x|x|x|x|s|s|u|u| | |d]; cbn [v5_lens un_v5_lens]; lens. }
  destruct (in_sim _ _ F r n Hin) as (r0 & H0 & S). pose proof (PropSource.declared_v5_memory p n r0 H0).
  pose proof (PropSource.C66_v5_len_in_memory p r0 n H0 Hm) as E. subst r0. split; [apply S; discriminate|lia].
Qed.

(** ** C65 *)
Theorem C65_source_header : forall b ll rl,
  WrapLib.FixedHeader_new b ll rl = Ok (mkFixedHeader b ((ll + 1) mod 2 ^ 64) rl) /\
  WrapLib.FixedHeader_frame_length (mkFixedHeader b ll rl) = Ok ((ll + rl) mod 2 ^ 64).
Proof. intros b ll rl. split; reflexivity. Qed.

Lemma wrapped_sim {A P} (c : A -> P) o o' : osim o o' -> osim (wrapped c o) (wrapped c o').
Proof. intros S H. rewrite S; [reflexivity|]. intros ->. apply H. reflexivity. Qed.
Lemma advance_short {A} l (k : unit -> writer A) bs : blen bs < l -> run (wbind (keep (advance l)) k) bs = Panic.
Proof.
  intros H. unfold run, wbind, keep, advance. replace (l <=? blen bs) with false by lia. reflexivity.
Qed.
Ltac shorts Hl :=
  repeat first
    [ reflexivity
    | rewrite !advance_short by exact Hl ].

Ltac same_type Hin :=
  match type of Hin with (?a, _) = (?b, _) => tryif constr_eq a b then idtac else (apply (f_equal fst) in Hin; discriminate Hin) end.

Lemma v4_direct_sim t rd' rd : In (t, rd') un_v4_direct -> In (t, rd) v4_direct -> forall fuel h bs, osim (rd fuel h bs) (rd' fuel h bs).
Proof.
  intros Hin' Hin fuel h bs.
  cbn [un_v4_direct In] in Hin'. repeat match type of Hin' with _ \/ _ => destruct Hin' as [Hin'|Hin'] end; try contradiction;
    injection Hin' as <- <-; cbn [v4_direct In] in Hin;
    repeat match type of Hin with _ \/ _ => destruct Hin as [Hin|Hin] end; try contradiction;
    same_type Hin; apply (f_equal snd) in Hin; cbn [snd] in Hin; subst rd; apply wrapped_sim; auto with sim.
Qed.
Lemma v5_direct_sim t rd' rd : In (t, rd') un_v5_direct -> In (t, rd) v5_direct -> forall fuel h bs, osim (rd fuel h bs) (rd' fuel h bs).
Proof.
  intros Hin' Hin fuel h bs.
  cbn [un_v5_direct In] in Hin'. repeat match type of Hin' with _ \/ _ => destruct Hin' as [Hin'|Hin'] end; try contradiction;
    injection Hin' as <- <-; cbn [v5_direct In] in Hin;
    repeat match type of Hin with _ \/ _ => destruct Hin as [Hin|Hin] end; try contradiction;
    same_type Hin; apply (f_equal snd) in Hin; cbn [snd] in Hin; subst rd; apply wrapped_sim; auto with sim.
Qed.

(** a header longer than the buffer *)
Lemma lift_same {A B} (o : outcome A) (k k' : A -> writer B) bs : (forall a, run (k a) bs = run (k' a) bs) ->
  run (wbind (lift o) k) bs = run (wbind (lift o) k') bs.
Proof. intros H. destruct o as [a|e| |]; [exact (H a)|reflexivity..]. Qed.
Lemma lift_ok {A B} (a : A) (k : A -> writer B) bs : run (wbind (lift (Ok a)) k) bs = run (k a) bs.
Proof. reflexivity. Qed.
Lemma v4_publish_short h bs : blen bs < fixed_header_len h -> WrapV4Publish.Publish_read h bs = SrcV4Publish.Publish_read h bs.
Proof.
  intros H. unfold WrapV4Publish.Publish_read, SrcV4Publish.Publish_read.
  change (WrapBase.u8_shr (N.land (byte1 h) 6) 1) with (@Ok N (N.shiftr (N.land (byte1 h) 6) 1)).
  change (u8_shr (N.land (byte1 h) 6) 1) with (@Ok N (N.shiftr (N.land (byte1 h) 6) 1)).
  rewrite !lift_ok. change WrapLib.qos with SrcLib.qos. apply lift_same. intros q. cbv zeta. rewrite !advance_short by exact H. reflexivity.
Qed.
Lemma v5_publish_short fuel h bs : blen bs < fixed_header_len h -> WrapV5Publish.Publish_read fuel h bs = SrcV5Publish.Publish_read fuel h bs.
Proof.
  intros H. unfold WrapV5Publish.Publish_read, SrcV5Publish.Publish_read.
  change (WrapBase.u8_shr (N.land (byte1 h) 6) 1) with (@Ok N (N.shiftr (N.land (byte1 h) 6) 1)).
  change (u8_shr (N.land (byte1 h) 6) 1) with (@Ok N (N.shiftr (N.land (byte1 h) 6) 1)).
  rewrite !lift_ok. change WrapLib.qos with SrcLib.qos. apply lift_same. intros q. cbv zeta. rewrite !advance_short by exact H. reflexivity.
Qed.
Lemma v4_unsuback_short h bs : blen bs < fixed_header_len h -> WrapV4UnsubAck.UnsubAck_read h bs = SrcV4UnsubAck.UnsubAck_read h bs.
Proof.
  intros H. unfold WrapV4UnsubAck.UnsubAck_read, SrcV4UnsubAck.UnsubAck_read.
  destruct (negb _); [reflexivity|].
  match goal with |- run (wbind (wret tt) ?k) bs = run (wbind (wret tt) ?k') bs => change (run (k tt) bs = run (k' tt) bs) end.
  cbv beta zeta. rewrite !advance_short by exact H. reflexivity.
Qed.
Lemma v5_disconnect_short fuel h bs : blen bs < fixed_header_len h -> WrapV5Disconnect.Disconnect_read fuel h bs = SrcV5Disconnect.Disconnect_read fuel h bs.
Proof.
  intros H. unfold WrapV5Disconnect.Disconnect_read, SrcV5Disconnect.Disconnect_read.
  change (WrapBase.u8_shr (byte1 h) 4) with (@Ok N (N.shiftr (byte1 h) 4)).
  change (u8_shr (byte1 h) 4) with (@Ok N (N.shiftr (byte1 h) 4)).
  rewrite !lift_ok. cbv zeta. rewrite !advance_short by exact H. reflexivity.
Qed.
Ltac short_tac H :=
  lazymatch goal with
  | |- context [WrapV4Publish.Publish_read] => rewrite v4_publish_short by exact H
  | |- context [WrapV5Publish.Publish_read] => rewrite v5_publish_short by exact H
  | |- context [WrapV4UnsubAck.UnsubAck_read] => rewrite v4_unsuback_short by exact H
  | |- context [WrapV5Disconnect.Disconnect_read] => rewrite v5_disconnect_short by exact H
  | |- wrapped _ (?f ?x ?h ?b) = wrapped _ (?g ?x ?h ?b) => unfold f, g; cbv zeta; rewrite !advance_short by exact H
  | |- wrapped _ (?f ?h ?b) = wrapped _ (?g ?h ?b) => unfold f, g; cbv zeta; rewrite !advance_short by exact H
  end; reflexivity.
Lemma v4_direct_short t rd' rd : In (t, rd') un_v4_direct -> In (t, rd) v4_direct -> forall fuel h bs,
  blen bs < fixed_header_len h -> rd' fuel h bs = rd fuel h bs.
Proof.
  intros Hin' Hin fuel h bs H.
  cbn [un_v4_direct In] in Hin'. repeat match type of Hin' with _ \/ _ => destruct Hin' as [Hin'|Hin'] end; try contradiction;
    injection Hin' as <- <-; cbn [v4_direct In] in Hin;
    repeat match type of Hin with _ \/ _ => destruct Hin as [Hin|Hin] end; try contradiction;
    same_type Hin; apply (f_equal snd) in Hin; cbn [snd] in Hin; subst rd; cbv beta; short_tac H.
Qed.
Lemma v5_direct_short t rd' rd : In (t, rd') un_v5_direct -> In (t, rd) v5_direct -> forall fuel h bs,
  blen bs < fixed_header_len h -> rd' fuel h bs = rd fuel h bs.
Proof.
  intros Hin' Hin fuel h bs H.
  cbn [un_v5_direct In] in Hin'. repeat match type of Hin' with _ \/ _ => destruct Hin' as [Hin'|Hin'] end; try contradiction;
    injection Hin' as <- <-; cbn [v5_direct In] in Hin;
    repeat match type of Hin with _ \/ _ => destruct Hin as [Hin|Hin] end; try contradiction;
    same_type Hin; apply (f_equal snd) in Hin; cbn [snd] in Hin; subst rd; cbv beta; short_tac H.
Qed.
Theorem C65_source_v5_direct : forall t rd' rd, In (t, rd') un_v5_direct -> In (t, rd) v5_direct ->
  forall fuel b l rl bs, b < 256 -> bytes_ok bs -> blen bs < 2 ^ 62 -> (List.length bs < fuel)%nat ->
  rd' fuel (mkFixedHeader b l rl) bs = rd fuel (mkFixedHeader b l rl) bs.
Proof.
  intros t rd' rd Hin' Hin fuel b l rl bs Hb Hok Hs Hf.
  destruct (N.ltb_spec (blen bs) l) as [Hl|Hl]; [exact (v5_direct_short t rd' rd Hin' Hin fuel (mkFixedHeader b l rl) bs Hl)|].
  apply (v5_direct_sim t rd' rd Hin' Hin).
  destruct (proj2 (PropSourceApi.C51_source_total fuel b l rl bs Hb Hok Hs Hl Hf) t rd Hin) as [[p E]|[e E]]; rewrite E; discriminate.
Qed.
Theorem C65_source_v4_direct : forall t rd' rd, In (t, rd') un_v4_direct -> In (t, rd) v4_direct ->
  forall fuel b l rl bs, b < 256 -> bytes_ok bs -> blen bs < 2 ^ 62 -> (List.length bs < fuel)%nat ->
  t <> PT_Unsubscribe \/ blen bs < l \/ rd fuel (mkFixedHeader b l rl) bs <> Panic ->
  rd' fuel (mkFixedHeader b l rl) bs = rd fuel (mkFixedHeader b l rl) bs.
Proof.
  intros t rd' rd Hin' Hin fuel b l rl bs Hb Hok Hs Hf Hc.
  destruct (N.ltb_spec (blen bs) l) as [Hl|Hl]; [exact (v4_direct_short t rd' rd Hin' Hin fuel (mkFixedHeader b l rl) bs Hl)|].
  apply (v4_direct_sim t rd' rd Hin' Hin). destruct Hc as [Hc|[Hc|Hc]]; [|lia|exact Hc].
  destruct (proj1 (PropSourceApi.C51_source_total fuel b l rl bs Hb Hok Hs Hl Hf) t rd Hin Hc) as [[p E]|[e E]]; rewrite E; discriminate.
Qed.

(** UNSUBSCRIBE of 3.1.1: the translation agrees with the model of that build *)
Lemma wrap_u16 s : ProofSrcBase.sim (WrapLib.read_u16 s) (read_u16 s) (fun a b s' => a = b /\ blen s = 2 + blen s').
Proof.
  rewrite wLib_read_u16; [apply ProofSrcBase.sim_u16|]. pose proof (ProofSrcBase.sim_u16 s) as S. unfold ProofSrcBase.sim in S.
  destruct (fst (SrcLib.read_u16 s)) eqn:E; try discriminate.
  revert S. unfold read_u16. destruct (blen s <? 2) eqn:El; [contradiction|].
  destruct s as [|a [|c s]]; cbn [get_u16]; try contradiction; cbn in El; discriminate El.
Qed.
Lemma read_string_total s : read_mqtt_string s <> Panic.
Proof.
  unfold read_mqtt_string, read_mqtt_bytes, rbind, read_u16.
  destruct (blen s <? 2) eqn:El; [discriminate|].
  destruct s as [|a [|c s]]; cbn in El; try discriminate El. cbn [get_u16].
  destruct (blen s <? _) eqn:E; [discriminate|]. unfold split_to. rewrite N.leb_antisym, E. cbn [negb].
  destruct (Utf8.utf8_ok _); discriminate.
Qed.
Lemma wrap_string s : ProofSrcBase.sim (WrapLib.read_mqtt_string s) (read_mqtt_string s)
  (fun a b s' => a = b /\ blen s = 2 + blen a + blen s').
Proof.
  rewrite wLib_read_mqtt_string; [apply ProofSrcBase.sim_string|]. pose proof (ProofSrcBase.sim_string s) as S. unfold ProofSrcBase.sim in S.
  destruct (fst (SrcLib.read_mqtt_string s)) eqn:E; try discriminate.
  pose proof (read_string_total s) as T. destruct (read_mqtt_string s) as [[? ?]| | |]; contradiction || congruence.
Qed.
Lemma wrap_sub a b : WrapBase.usize_sub a b = Ok (@Release.wsub Release.release a b).
Proof.
  unfold WrapBase.usize_sub, Release.wsub, Release.release, Release.underflowed. rewrite usize_val.
  destruct (b <=? a) eqn:E; [reflexivity|]. f_equal. symmetry. apply N.mod_small.
  change (2 ^ 64) with 18446744073709551616. lia.
Qed.
Lemma wrap_add a b : WrapBase.usize_add a b = Ok (@Release.wadd Release.release a b).
Proof.
  unfold WrapBase.usize_add, Release.wadd, Release.release, Release.overflowed. rewrite usize_val.
  destruct (a + b <=? usize_max) eqn:E; [|reflexivity]. f_equal. apply N.mod_small. rewrite <- usize_val. lia.
Qed.
Notation ssim := ProofSrcBase.sim.
Lemma wrap_loop (cond := fun '(payload_bytes, topics) => wret (0 <? payload_bytes))
    (body := fun '(payload_bytes, topics) =>
        topic_filter <-w WrapLib.read_mqtt_string ;;
        t1 <-w lift (WrapBase.usize_add (blen topic_filter) 2) ;;
        payload_bytes <-w lift (WrapBase.usize_sub payload_bytes t1) ;;
        let topics := (topics ++ [topic_filter]) in
        wret (payload_bytes, topics)) :
  forall f1 f2 n l s, (List.length s < f1)%nat -> (List.length s < f2)%nat ->
    ssim (while_ f1 cond body (n, l) s) (@RelV4Unsubscribe.topics_loop Release.release f2 n l s) (fun a b _ => snd a = b).
Proof.
  induction f1 as [|f1 IH]; intros f2 n l s H1 H2; [lia|].
  destruct f2 as [|f2]; [lia|]. cbn [while_ RelV4Unsubscribe.topics_loop]. unfold cond at 1, body at 1.
  apply ProofSrcBase.sim_wret. destruct (0 <? n); [|split; reflexivity].
  apply ProofSrcBase.sim_assoc. eapply ProofSrcBase.sim_bind; [apply wrap_string|]. intros t t' s' [<- L].
  apply ProofSrcBase.sim_assoc. rewrite wrap_add. apply ProofSrcBase.sim_ok.
  apply ProofSrcBase.sim_assoc. rewrite wrap_sub. apply ProofSrcBase.sim_ok.
  unfold Release.usize_sub. apply ProofSrcTac.sim_rok. cbv zeta. apply ProofSrcBase.sim_wret.
  apply IH; unfold blen in *; lia.
Qed.
Lemma wrap_unsubscribe fuel h s : (List.length s < fuel)%nat ->
  WrapV4Unsubscribe.Unsubscribe_read fuel h s = ProofSrcBase.value (@RelV4Unsubscribe.read Release.release h s).
Proof.
  intros Hf. unfold WrapV4Unsubscribe.Unsubscribe_read. apply ProofSrcBase.sim_run with (Q := fun a b _ => a = b); [|auto]. unfold RelV4Unsubscribe.read. cbv zeta.
  eapply ProofSrcBase.sim_bind; [apply ProofSrcBase.sim_advance|]. intros [] [] s1 L. cbv beta in L.
  eapply ProofSrcBase.sim_bind; [apply wrap_u16|]. intros n n' s2 [<- L2].
  rewrite wrap_sub. apply ProofSrcBase.sim_ok. unfold Release.usize_sub. apply ProofSrcTac.sim_rok. cbv zeta.
  eapply ProofSrcBase.sim_bind; [apply wrap_loop; unfold blen in *; lia|]. intros [k l] l' s3 <-. cbn [snd].
  split; reflexivity.
Qed.
Theorem C65_source_v4_unsubscribe : forall fuel b hdr rl bd, bytes_ok bd -> blen (hdr ++ bd) < 2 ^ 63 ->
  (List.length (hdr ++ bd) < fuel)%nat -> unsubscribe_answer rl bd Panic ->
  SrcV4Unsubscribe.Unsubscribe_read fuel (mkFixedHeader b (blen hdr) rl) (hdr ++ bd) = Panic /\
  exists id ts s e, id < 65536 /\ Forall (fun t => is_utf8 t /\ short t) ts /\ lacks WString s e /\
    bd = be16 id ++ flat_map field ts ++ s /\
    WrapV4Unsubscribe.Unsubscribe_read fuel (mkFixedHeader b (blen hdr) rl) (hdr ++ bd) = Err e.
Proof.
  intros fuel b hdr rl bd Hb Hs Hf Ha. split.
  - apply (PropSourceApi.C51_source_v4_unsubscribe fuel b hdr rl bd Panic Hb Hf Hs) in Ha.
    destruct (SrcV4Unsubscribe.Unsubscribe_read _ _ _); try discriminate Ha. reflexivity.
  - destruct (PropRelease.C65_v4_unsubscribe b hdr rl bd Hb) as (id & ts & s & e & H1 & H2 & H3 & H4 & H5); [rewrite blen_app in Hs; lia|exact Ha|].
    exists id, ts, s, e. repeat split; auto. rewrite wrap_unsubscribe by exact Hf. rewrite H5. reflexivity.
Qed.

(** the public `extract` functions of the property sets *)
Definition same_extract {R} (ex ex' : nat -> bytes -> outcome (option R) * bytes) : Prop :=
  forall fuel s, bytes_ok s -> blen s < 2 ^ 62 -> (List.length s < fuel)%nat -> ex' fuel s = ex fuel s.
Lemma extract_same {R} pl (rec : list SpecProps.item -> R) ex ex' :
  PropStop.extracts_from pl rec ex -> (forall fuel, wsim (ex fuel) (ex' fuel)) -> same_extract ex ex'.
Proof. intros H S fuel s Hb Hs Hf. apply S. apply (H fuel s Hb Hs Hf). Qed.
Theorem C64_source_extract :
  same_extract SrcV5ConnAck.ConnAckProperties_extract WrapV5ConnAck.ConnAckProperties_extract /\
  same_extract SrcV5PubAck.PubAckProperties_extract WrapV5PubAck.PubAckProperties_extract /\
  same_extract SrcV5PubRec.PubRecProperties_extract WrapV5PubRec.PubRecProperties_extract /\
  same_extract SrcV5PubRel.PubRelProperties_extract WrapV5PubRel.PubRelProperties_extract /\
  same_extract SrcV5PubComp.PubCompProperties_extract WrapV5PubComp.PubCompProperties_extract /\
  same_extract SrcV5Subscribe.SubscribeProperties_extract WrapV5Subscribe.SubscribeProperties_extract /\
  same_extract SrcV5SubAck.SubAckProperties_extract WrapV5SubAck.SubAckProperties_extract /\
  same_extract SrcV5UnsubAck.UnsubAckProperties_extract WrapV5UnsubAck.UnsubAckProperties_extract /\
  same_extract SrcV5Disconnect.DisconnectProperties_extract WrapV5Disconnect.DisconnectProperties_extract.
Proof.
  destruct PropStop.C67_extract_exact as (A & B & C & D & E & F & G & H & I).
  split; [exact (extract_same _ _ _ _ A wV5ConnAck_ConnAckProperties_extract)|].
  split; [exact (extract_same _ _ _ _ B wV5PubAck_PubAckProperties_extract)|].
  split; [exact (extract_same _ _ _ _ C wV5PubRec_PubRecProperties_extract)|].
  split; [exact (extract_same _ _ _ _ D wV5PubRel_PubRelProperties_extract)|].
  split; [exact (extract_same _ _ _ _ E wV5PubComp_PubCompProperties_extract)|].
  split; [exact (extract_same _ _ _ _ F wV5Subscribe_SubscribeProperties_extract)|].
  split; [exact (extract_same _ _ _ _ G wV5SubAck_SubAckProperties_extract)|].
  split; [exact (extract_same _ _ _ _ H wV5UnsubAck_UnsubAckProperties_extract)|].
  exact (extract_same _ _ _ _ I wV5Disconnect_DisconnectProperties_extract).
Qed.

(** cases: a publication written, measured and read back without overflow checks; the wrap-around of
    an UNSUBSCRIBE whose header announces too little, and of a frame length *)
Example C64_source_case :
  let q := V5Mod.Publish (V5Publish.mkPublish false AtLeastOnce false [97; 47; 98] 7
    (Some (V5Publish.mkPublishProperties None None None None None [([107], [118])] [5] None)) [1; 2; 3]) in
  v5_memory q = 64 /\ un_v5_write 5 q [] = v5_write 5 q [] /\ fst (un_v5_write 5 q []) = Ok 22 /\
  un_v5_lens q = [(Ok 20, 20)] /\ un_v5_reads (snd (un_v5_write 5 q [])) 100 = (Ok q, []).
Proof. vm_compute. repeat split; auto. Qed.
Example C65_source_case :
  SrcV4Unsubscribe.Unsubscribe_read 10 (mkFixedHeader 0xA2 2 4) [0xA2; 5; 0; 7; 0; 1; 97] = Panic /\
  WrapV4Unsubscribe.Unsubscribe_read 10 (mkFixedHeader 0xA2 2 4) [0xA2; 5; 0; 7; 0; 1; 97] = Err MalformedPacket /\
  unsubscribe_answer 4 [0; 7; 0; 1; 97] Panic /\
  SrcLib.FixedHeader_frame_length (mkFixedHeader 0x30 2 (2 ^ 64 - 1)) = Panic /\
  WrapLib.FixedHeader_frame_length (mkFixedHeader 0x30 2 (2 ^ 64 - 1)) = Ok 1.
Proof.
  split; [vm_compute; reflexivity|]. split; [vm_compute; reflexivity|]. split; [|split; vm_compute; reflexivity].
  apply (PropDirect.C51_v4_unsubscribe 0xA2 [0xA2; 5]); [repeat constructor|vm_compute; reflexivity].
Qed.
Print Assumptions C64_source_check.
Print Assumptions C64_source_v4_read.
Print Assumptions C64_source_v5_read.
Print Assumptions C64_source_v4_write.
Print Assumptions C64_source_v5_write.
Print Assumptions C64_source_v4_lens.
Print Assumptions C64_source_v5_lens.
Print Assumptions C64_source_extract.
Print Assumptions C65_source_header.
Print Assumptions C65_source_v5_direct.
Print Assumptions C65_source_v4_direct.
Print Assumptions C65_source_v4_unsubscribe.

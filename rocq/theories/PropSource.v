(** PropSource.v -- properties stated about the Rust text itself, i.e. about its mechanical
    translation (Src*.v, SpecSource.v), not about the hand-written model. *)
From Verif Require Import Base SpecWire SpecProps SpecPropSets SpecFrame SpecRelease ProofBase ProofLib ProofRelBase ProofSrcBase.
From Verif Require Import ProofSrcTac ProofSrcTacW ProofSrcTop ProofSrcLen ProofSrcV4Write ProofSrcV5Write SpecSource.
From Verif Require SpecTopic Topic V4Mod V5Mod SpecV4 SpecV5 SpecErrorsV4 SpecErrorsV5 SpecErrors SpecStd311 SpecStd5.
From Verif Require ProofSrcFits PropFrame PropV4 PropV5 PropErrorsV4 PropErrorsV5 PropTopic PropRelease ProofRelWrite PropStandard PropStandard5 SampleV4 SampleV5 PropLen ProofPropSets ProofRead.

(** ** the translation of the public functions, in terms of the model *)
Lemma v4_read_src fuel max s : (List.length s < fuel)%nat -> blen s < 2 ^ 63 -> SrcV4Mod.read fuel max s = V4Mod.read s max.
Proof. intros Hf Hs. apply v4_read; [exact Hf|apply PropRelease.small_half, Hs]. Qed.
Lemma v5_read_src fuel max s : (List.length s < fuel)%nat -> blen s < 2 ^ 63 -> SrcV5Mod.read fuel max s = V5Mod.read s max.
Proof. intros Hf Hs. apply v5_read; [exact Hf|apply PropRelease.small_half, Hs]. Qed.
Lemma v4_write_src fuel p buf : (5 <= fuel)%nat -> v4_memory p <= 2 ^ 63 -> v4_write fuel p buf = V4Mod.write p buf.
Proof.
  intros Hf Hm.
  assert (B : forall a n, In (a, n) (SpecRelease.v4_lens Release.release p) -> n <= usize_max).
  { intros a n Hin. apply PropRelease.memory_usize. pose proof (PropRelease.v4_bound _ p a n Hin). lia. }
  pose proof usize_big as U.
  destruct p as [c|c|q|x|x|x|x|s|s|u|u| | |]; cbn [v4_write V4Mod.write].
  - apply v4connect_write, (B _ _ (or_introl eq_refl)). exact Hf.
  - apply v4connack_write, (B _ _ (or_introl eq_refl)). exact Hf.
  - apply v4publish_write, (B _ _ (or_introl eq_refl)). exact Hf.
  - apply v4puback_write; [exact Hf|unfold V4PubAck.len; lia].
  - apply v4pubrec_write; [exact Hf|unfold V4PubRec.len; lia].
  - apply v4pubrel_write; [exact Hf|unfold V4PubRel.len; lia].
  - apply v4pubcomp_write; [exact Hf|unfold V4PubComp.len; lia].
  - apply v4subscribe_write, (B _ _ (or_introl eq_refl)). exact Hf.
  - apply v4suback_write, (B _ _ (or_introl eq_refl)). exact Hf.
  - apply v4unsubscribe_write; [exact Hf|]. apply PropRelease.memory_usize. pose proof (PropRelease.v4_unsubscribe_bound u) as V. unfold ProofRelWrite.v4_unsubscribe_len in V. lia.
  - apply v4unsuback_write.
  - reflexivity.
  - reflexivity.
  - reflexivity.
Qed.
Lemma v5_write_src fuel p buf : (5 <= fuel)%nat -> v5_memory p <= 2 ^ 63 -> v5_write fuel p buf = V5Mod.write p buf.
Proof.
  intros Hf Hm.
  assert (B : forall a n, In (a, n) (SpecRelease.v5_lens Release.release p) -> n <= usize_max).
  { intros a n Hin. apply PropRelease.memory_usize. pose proof (PropRelease.v5_bound _ p a n Hin). lia. }
  destruct p as [c|c|q|x|x|x|x|s|s|u|u| | |d]; cbn [v5_write V5Mod.write].
  - apply v5connect_write, (B _ _ (or_introl eq_refl)). exact Hf.
  - apply v5connack_write, (B _ _ (or_introl eq_refl)). exact Hf.
  - apply v5publish_write, (B _ _ (or_introl eq_refl)). exact Hf.
  - apply v5puback_write, (B _ _ (or_introl eq_refl)). exact Hf.
  - apply v5pubrec_write, (B _ _ (or_introl eq_refl)). exact Hf.
  - apply v5pubrel_write, (B _ _ (or_introl eq_refl)). exact Hf.
  - apply v5pubcomp_write, (B _ _ (or_introl eq_refl)). exact Hf.
  - apply v5subscribe_write, (B _ _ (or_introl eq_refl)). exact Hf.
  - apply v5suback_write, (B _ _ (or_introl eq_refl)). exact Hf.
  - apply v5unsubscribe_write, (B _ _ (or_introl eq_refl)). exact Hf.
  - apply v5unsuback_write, (B _ _ (or_introl eq_refl)). exact Hf.
  - reflexivity.
  - reflexivity.
  - apply v5disconnect_write, (B _ _ (or_introl eq_refl)). exact Hf.
Qed.

(** ** C02 *)
Theorem C02_source_check_exact : forall s max r, bytes_ok s -> (SrcLib.check s max = r <-> verdict s max r).
Proof. intros s max r Hb. rewrite check_eq. apply PropFrame.C02_check_exact, Hb. Qed.

(** ** C06, C07: no panic, no endless loop *)
Theorem C06_source_v4_total : forall fuel s max, bytes_ok s -> blen s < 2 ^ 63 -> (List.length s < fuel)%nat ->
  (exists p, fst (SrcV4Mod.read fuel max s) = Ok p) \/ (exists e, fst (SrcV4Mod.read fuel max s) = Err e).
Proof. intros fuel s max Hb Hs Hf. rewrite v4_read_src by assumption. apply PropV4.C06_v4_total, Hb. Qed.
Theorem C07_source_v5_total : forall fuel s max, bytes_ok s -> blen s < 2 ^ 63 -> (List.length s < fuel)%nat ->
  (exists p, fst (SrcV5Mod.read fuel max s) = Ok p) \/ (exists e, fst (SrcV5Mod.read fuel max s) = Err e).
Proof. intros fuel s max Hb Hs Hf. rewrite v5_read_src by assumption. apply PropV5.C07_v5_total, Hb. Qed.

(** ** C12, C13: the bytes written *)
Theorem C12_source_v4_encoding : forall fuel p, (5 <= fuel)%nat -> SpecV4.fits p ->
  exists n, v4_write fuel p [] = (Ok n, SpecV4.wire p).
Proof. intros fuel p Hf Hp. rewrite v4_write_src by (assumption || apply ProofSrcFits.fits4, Hp). apply PropV4.C12_v4_encoding, Hp. Qed.
Theorem C13_source_v5_written : forall fuel p, (5 <= fuel)%nat -> SpecV5.fits p ->
  exists n, v5_write fuel p [] = (Ok n, SpecV5.written_wire p).
Proof. intros fuel p Hf Hp. rewrite v5_write_src by (assumption || apply ProofSrcFits.fits5, Hp). apply PropV5.C13_v5_written, Hp. Qed.
Theorem C13_source_v5_deviations : forall fuel p, (5 <= fuel)%nat -> SpecV5.fits p ->
  ((exists n, v5_write fuel p [] = (Ok n, SpecV5.wire p)) <-> ~ SpecV5.deviates p).
Proof. intros fuel p Hf Hp. rewrite v5_write_src by (assumption || apply ProofSrcFits.fits5, Hp). apply PropV5.C13_v5_deviations_exact, Hp. Qed.

(** ** C16: the outcome of every v4 `write` *)
Theorem C16_source_v4_exact : forall fuel p buf, (5 <= fuel)%nat -> v4_memory p <= 2 ^ 63 ->
  (fst (v4_write fuel p buf) = Err PayloadTooLong <-> max_len < SpecV4.declared_len p) /\
  (fst (v4_write fuel p buf) = Err PacketIdZero <-> SpecV4.declared_len p <= max_len /\ ~ SpecV4.has_id p) /\
  ((exists n, fst (v4_write fuel p buf) = Ok n) <-> blen (SpecV4.body p) <= max_len /\ SpecV4.has_id p).
Proof.
  intros fuel p buf Hf Hm. rewrite v4_write_src by assumption.
  destruct (PropV4.C16_v4_exact p buf) as (H1 & H2 & H3 & _). auto.
Qed.

(** ** C18, C19: round trips *)
Theorem C18_source_v4_round_trip : forall p rest max,
  SpecV4.fits p -> SpecV4.has_payload p -> SpecV4.canonical p -> bytes_ok rest ->
  blen (SpecV4.body p) <= max ->
  exists n out, (forall fuel, (5 <= fuel)%nat -> v4_write fuel p [] = (Ok n, out)) /\
    forall fuel, (List.length (out ++ rest) < fuel)%nat -> blen (out ++ rest) < 2 ^ 63 ->
      SrcV4Mod.read fuel max (out ++ rest) = (Ok p, rest).
Proof.
  intros p rest max Hp Hy Hc Hr Hx.
  destruct (PropV4.C18_v4_round_trip_identity p rest max Hp Hy Hc Hr Hx) as (n & out & H1 & H2). exists n, out. split.
  - intros fuel Hf. rewrite v4_write_src by (assumption || apply ProofSrcFits.fits4, Hp). exact H1.
  - intros fuel Hf Hs. rewrite v4_read_src by assumption. exact H2.
Qed.
Theorem C19_source_v5_round_trip : forall p rest max,
  SpecV5.fits p -> SpecV5.readable p -> SpecV5.canonical p -> bytes_ok rest ->
  blen (SpecV5.written p) <= max ->
  exists n out, (forall fuel, (5 <= fuel)%nat -> v5_write fuel p [] = (Ok n, out)) /\
    forall fuel, (List.length (out ++ rest) < fuel)%nat -> blen (out ++ rest) < 2 ^ 63 ->
      SrcV5Mod.read fuel max (out ++ rest) = (Ok p, rest).
Proof.
  intros p rest max Hp Hy Hc Hr Hx.
  destruct (PropV5.C19_v5_round_trip_identity p rest max Hp Hy Hc Hr Hx) as (n & out & H1 & H2). exists n, out. split.
  - intros fuel Hf. rewrite v5_write_src by (assumption || apply ProofSrcFits.fits5, Hp). exact H1.
  - intros fuel Hf Hs. rewrite v5_read_src by assumption. exact H2.
Qed.

(** ** C30, C31, C32: topics *)
Theorem C30_source_matches_exact : forall topic filter ts fs,
  is_utf8 topic -> ~ SpecTopic.multibyte_first topic -> ~ SpecTopic.starts_with_dollar topic ->
  SpecTopic.levels topic ts -> SpecTopic.levels filter fs ->
  (SrcTopic.matches topic filter = Ok true <-> SpecTopic.covers fs ts) /\
  (SrcTopic.matches topic filter = Ok false <-> ~ SpecTopic.covers fs ts).
Proof.
  intros topic filter ts fs Hu Hm Hd Ht Hf. rewrite matches_eq by (apply ProofRead.is_utf8_bytes; exact Hu).
  apply PropTopic.C30_matches_exact; assumption.
Qed.
Theorem C31_source_panics_exactly : forall topic filter, is_utf8 topic ->
  (SrcTopic.matches topic filter = Panic <-> SpecTopic.multibyte_first topic).
Proof.
  intros topic filter Hu. rewrite matches_eq by (apply ProofRead.is_utf8_bytes; exact Hu). apply PropTopic.C31_panics_exactly, Hu.
Qed.
Theorem C32_source_valid_filter : forall f, SrcTopic.valid_filter f = Ok true <-> f <> [] /\ SpecTopic.hash_only_last f.
Proof.
  intros f. rewrite valid_filter_eq, <- PropTopic.C32_valid_filter_exact. split; [intros H; injection H; auto|intros ->; reflexivity].
Qed.

(** ** C49: errors *)
Theorem C49_source_v4_errors : forall fuel s max e rest, bytes_ok s -> blen s < 2 ^ 63 -> (List.length s < fuel)%nat ->
  (exists b1 bd, starts_with_frame s b1 bd rest /\ blen bd <= max /\ SpecErrorsV4.fails b1 bd e) <->
  (SrcV4Mod.read fuel max s = (Err e, rest) /\ rest <> s).
Proof. intros fuel s max e rest Hb Hs Hf. rewrite v4_read_src by assumption. apply PropErrorsV4.C49_v4_errors_exact, Hb. Qed.
Theorem C49_source_v5_errors : forall fuel s max e rest, bytes_ok s -> blen s < 2 ^ 63 -> (List.length s < fuel)%nat ->
  (exists b1 bd, starts_with_frame s b1 bd rest /\ blen bd <= max /\ SpecErrorsV5.fails b1 bd e) <->
  (SrcV5Mod.read fuel max s = (Err e, rest) /\ rest <> s).
Proof. intros fuel s max e rest Hb Hs Hf. rewrite v5_read_src by assumption. apply PropErrorsV5.C49_v5_errors_exact, Hb. Qed.

(** ** C60, C62: messages of the standards *)
Theorem C60_source_v4_standard : forall fuel m s rest max, bytes_ok s -> blen s < 2 ^ 63 -> (List.length s < fuel)%nat ->
  SpecStd311.conforms m -> starts_with_frame s (SpecStd311.header_byte m) (SpecStd311.content m) rest ->
  blen (SpecStd311.content m) <= max ->
  (forall cl ka id w u pw, m = SpecStd311.M_CONNECT cl ka id w u (Some pw) -> is_string pw) ->
  SrcV4Mod.read fuel max s = (Ok (SpecStd311.as_packet m), rest).
Proof. intros. rewrite v4_read_src by assumption. apply PropStandard.C60_v4_standard_accepted; assumption. Qed.
Theorem C62_source_v5_standard : forall fuel m s rest max, bytes_ok s -> blen s < 2 ^ 63 -> (List.length s < fuel)%nat ->
  SpecStd5.conforms m -> starts_with_frame s (SpecStd5.header_byte m) (SpecStd5.content m) rest ->
  blen (SpecStd5.content m) <= max -> (forall e, ~ SpecStd5.unsupported m e) -> ~ SpecStd5.misread m ->
  exists p, SpecStd5.as_packet m = Some p /\ SrcV5Mod.read fuel max s = (Ok p, rest).
Proof. intros. rewrite v5_read_src by assumption. apply PropStandard5.C62_v5_standard_accepted; assumption. Qed.

(** ** C66: length arithmetic with overflow checks *)
Lemma in_total {A} (f : A -> N) x l : In x l -> f x <= total f l.
Proof. induction l as [|y l IH]; cbn [In total fold_right]; [tauto|]. intros [->|H]; [lia|]. apply IH in H. unfold total in H. lia. Qed.
Lemma pair_inv {A B} (a c : A) (b d : B) : (a, b) = (c, d) -> a = c /\ b = d.
Proof. intros H. inversion H. auto. Qed.
Lemma v4_lens_cap p r n : In (r, n) (v4_lens p) -> r = cap n.
Proof.
  intros H. destruct p as [c|c|q|x|x|x|x|s|s|u|u| | |]; cbn [v4_lens] in H; cbn [In] in H; try tauto.
  - destruct H as [H|[]]; apply pair_inv in H as [<- <-]. rewrite v4connect_len. f_equal. apply PropLen.v4_len_declared; reflexivity.
  - destruct H as [H|[]]; apply pair_inv in H as [<- <-]. rewrite v4publish_len. f_equal. apply PropLen.v4_len_declared; reflexivity.
  - destruct H as [H|H].
    + apply pair_inv in H as [<- <-]. rewrite v4subscribe_len. f_equal. apply PropLen.v4_len_declared; reflexivity.
    + apply in_map_iff in H as (f & E & _). apply pair_inv in E as [<- <-]. rewrite v4subscribe_filter_len. f_equal.
      unfold V4Subscribe.filter_len. autorewrite with blen. lia.
  - destruct H as [H|[]]; apply pair_inv in H as [<- <-]. rewrite v4suback_len. f_equal. apply PropLen.v4_len_declared; reflexivity.
Qed.
Lemma in_set_len {R} (len : R -> outcome N) items o r n (pl : R -> N) : In (r, n) (set_len len items o) ->
  (forall x, len x = cap (pl x)) -> (forall x, pl x = blen (items_bytes (items x))) -> r = cap n.
Proof. intros H H1 H2. destruct o as [x|]; [|destruct H]. destruct H as [H|[]]. apply pair_inv in H as [<- <-]. rewrite H1, H2. reflexivity. Qed.
Lemma v5_lens_cap p r n : In (r, n) (v5_lens p) -> r = cap n.
Proof.
  intros H. destruct p as [c|c|q|x|x|x|x|s|s|u|u| | |d]; cbn [v5_lens] in H; cbn [In] in H; try tauto.
  - destruct H as [H|[]]; apply pair_inv in H as [<- <-]. rewrite v5connect_len. f_equal. apply PropLen.v5_len_declared; reflexivity.
  - apply (in_set_len _ _ _ _ _ _ H v5connack_props_len ProofPropSets.connack_props_len).
  - destruct H as [H|[]]; apply pair_inv in H as [<- <-]. rewrite v5publish_len. f_equal. apply PropLen.v5_len_declared; reflexivity.
  - apply (in_set_len _ _ _ _ _ _ H v5puback_props_len ProofPropSets.puback_props_len).
  - apply (in_set_len _ _ _ _ _ _ H v5pubrec_props_len ProofPropSets.pubrec_props_len).
  - apply (in_set_len _ _ _ _ _ _ H v5pubrel_props_len ProofPropSets.pubrel_props_len).
  - apply (in_set_len _ _ _ _ _ _ H v5pubcomp_props_len ProofPropSets.pubcomp_props_len).
  - destruct H as [H|H]; [|apply in_app_or in H as [H|H]].
    + apply pair_inv in H as [<- <-]. rewrite v5subscribe_len. f_equal. apply PropLen.v5_len_declared; reflexivity.
    + apply (in_set_len _ _ _ _ _ _ H v5subscribe_props_len ProofPropSets.subscribe_props_len).
    + apply in_map_iff in H as (f & E & _). apply pair_inv in E as [<- <-]. rewrite v5subscribe_filter_len. f_equal.
      unfold V5Subscribe.filter_len. autorewrite with blen. lia.
  - destruct H as [H|H].
    + apply pair_inv in H as [<- <-]. rewrite v5suback_len. f_equal. apply PropLen.v5_len_declared; reflexivity.
    + apply (in_set_len _ _ _ _ _ _ H v5suback_props_len ProofPropSets.suback_props_len).
  - destruct H as [H|[]]; apply pair_inv in H as [<- <-]. rewrite v5unsubscribe_len. f_equal. apply PropLen.v5_len_declared; reflexivity.
  - destruct H as [H|H].
    + apply pair_inv in H as [<- <-]. rewrite v5unsuback_len. f_equal. apply PropLen.v5_len_declared; reflexivity.
    + apply (in_set_len _ _ _ _ _ _ H v5unsuback_props_len ProofPropSets.unsuback_props_len).
Qed.
(** every public `len` is the exact number of bytes, or -- exactly when that is no `usize` -- the
    overflow panic *)
Lemma cap_cases n : (n < 2 ^ 64 -> cap n = Ok n) /\ (2 ^ 64 <= n -> cap n = Panic).
Proof. pose proof usize_val. split; intros; [apply cap_ok|apply cap_panic]; lia. Qed.
Theorem C66_v4_len_exact : forall p r n, In (r, n) (v4_lens p) ->
  (n < 2 ^ 64 -> r = Ok n) /\ (2 ^ 64 <= n -> r = Panic).
Proof. intros p r n H. apply v4_lens_cap in H as ->. apply cap_cases. Qed.
Theorem C66_v5_len_exact : forall p r n, In (r, n) (v5_lens p) ->
  (n < 2 ^ 64 -> r = Ok n) /\ (2 ^ 64 <= n -> r = Panic).
Proof. intros p r n H. apply v5_lens_cap in H as ->. apply cap_cases. Qed.

(** in particular it never overflows for a packet whose contents fit into memory *)
Lemma declared_v4_memory p n r : In (r, n) (v4_lens p) -> n <= v4_memory p + 50.
Proof.
  intros H. destruct p as [c|c|q|x|x|x|x|s|s|u|u| | |]; cbn [v4_lens] in H; cbn [In] in H; try tauto.
  - destruct H as [H|[]]; apply pair_inv in H as [_ <-]. rewrite <- (PropLen.v4_len_declared (V4Mod.Connect c) _ eq_refl).
    eapply (PropRelease.v4_bound Release.release); left; reflexivity.
  - destruct H as [H|[]]; apply pair_inv in H as [_ <-]. rewrite <- (PropLen.v4_len_declared (V4Mod.Publish q) _ eq_refl).
    eapply (PropRelease.v4_bound Release.release); left; reflexivity.
  - destruct H as [H|H].
    + apply pair_inv in H as [_ <-]. rewrite <- (PropLen.v4_len_declared (V4Mod.Subscribe s) _ eq_refl).
      eapply (PropRelease.v4_bound Release.release); left; reflexivity.
    + apply in_map_iff in H as (f & E & I). apply pair_inv in E as [_ <-]. cbn [v4_memory].
      assert (L : 32 + blen (V4Subscribe.path f) <= total (fun f => 32 + blen (V4Subscribe.path f)) (V4Subscribe.filters s)).
      { apply (in_total (fun f => 32 + blen (V4Subscribe.path f)) f), I. }
      autorewrite with blen. lia.
  - destruct H as [H|[]]; apply pair_inv in H as [_ <-]. rewrite <- (PropLen.v4_len_declared (V4Mod.SubAck s) _ eq_refl).
    eapply (PropRelease.v4_bound Release.release); left; reflexivity.
Qed.
Lemma in_set_len_bound {R} (len : R -> outcome N) items o r n : In (r, n) (set_len len items o) ->
  n <= total property_memory (SpecV5.opt_items items o).
Proof.
  intros H. destruct o as [x|]; [|destruct H]. destruct H as [H|[]]. apply pair_inv in H as [_ <-].
  apply PropRelease.items_memory.
Qed.
Lemma declared_v5_memory p n r : In (r, n) (v5_lens p) -> n <= v5_memory p + 100.
Proof.
  intros H. destruct p as [c|c|q|x|x|x|x|s|s|u|u| | |d]; cbn [v5_lens] in H; cbn [In] in H; try tauto.
  - destruct H as [H|[]]; apply pair_inv in H as [_ <-]. rewrite <- (PropLen.v5_len_declared (V5Mod.Connect c) _ eq_refl).
    eapply (PropRelease.v5_bound Release.release); left; reflexivity.
  - apply in_set_len_bound in H. unfold v5_memory. cbn [SpecV5.packet_items]. lia.
  - destruct H as [H|[]]; apply pair_inv in H as [_ <-]. rewrite <- (PropLen.v5_len_declared (V5Mod.Publish q) _ eq_refl).
    eapply (PropRelease.v5_bound Release.release); left; reflexivity.
  - apply in_set_len_bound in H. unfold v5_memory. cbn [SpecV5.packet_items]. lia.
  - apply in_set_len_bound in H. unfold v5_memory. cbn [SpecV5.packet_items]. lia.
  - apply in_set_len_bound in H. unfold v5_memory. cbn [SpecV5.packet_items]. lia.
  - apply in_set_len_bound in H. unfold v5_memory. cbn [SpecV5.packet_items]. lia.
  - destruct H as [H|H]; [|apply in_app_or in H as [H|H]].
    + apply pair_inv in H as [_ <-]. rewrite <- (PropLen.v5_len_declared (V5Mod.Subscribe s) _ eq_refl).
      eapply (PropRelease.v5_bound Release.release); left; reflexivity.
    + apply in_set_len_bound in H. unfold v5_memory. cbn [SpecV5.packet_items]. lia.
    + apply in_map_iff in H as (f & E & I). apply pair_inv in E as [_ <-]. unfold v5_memory.
      assert (L : 32 + blen (V5Subscribe.path f) <= total (fun f => 32 + blen (V5Subscribe.path f)) (V5Subscribe.filters s)).
      { apply (in_total (fun f => 32 + blen (V5Subscribe.path f)) f), I. }
      autorewrite with blen. lia.
  - destruct H as [H|H].
    + apply pair_inv in H as [_ <-]. rewrite <- (PropLen.v5_len_declared (V5Mod.SubAck s) _ eq_refl).
      eapply (PropRelease.v5_bound Release.release); left; reflexivity.
    + apply in_set_len_bound in H. unfold v5_memory. cbn [SpecV5.packet_items]. lia.
  - destruct H as [H|[]]; apply pair_inv in H as [_ <-]. rewrite <- (PropLen.v5_len_declared (V5Mod.Unsubscribe u) _ eq_refl).
    eapply (PropRelease.v5_bound Release.release); left; reflexivity.
  - destruct H as [H|H].
    + apply pair_inv in H as [_ <-]. rewrite <- (PropLen.v5_len_declared (V5Mod.UnsubAck u) _ eq_refl).
      eapply (PropRelease.v5_bound Release.release); left; reflexivity.
    + apply in_set_len_bound in H. unfold v5_memory. cbn [SpecV5.packet_items]. lia.
Qed.
Theorem C66_v4_len_in_memory : forall p r n, In (r, n) (v4_lens p) -> v4_memory p <= 2 ^ 63 -> r = Ok n.
Proof.
  intros p r n H Hm. pose proof (declared_v4_memory _ _ _ H) as L. apply v4_lens_cap in H as ->. apply cap_ok.
  apply PropRelease.memory_usize. lia.
Qed.
Theorem C66_v5_len_in_memory : forall p r n, In (r, n) (v5_lens p) -> v5_memory p <= 2 ^ 63 -> r = Ok n.
Proof.
  intros p r n H Hm. pose proof (declared_v5_memory _ _ _ H) as L. apply v5_lens_cap in H as ->. apply cap_ok.
  apply PropRelease.memory_usize. lia.
Qed.

(** cases: packets written, read back, refused and measured by the translated source *)
Example C06_C18_source_case :
  let p := SampleV4.ex_publish in
  v4_memory p <= 2 ^ 63 /\ (exists n, v4_write 5 p [] = (Ok n, SpecV4.wire p)) /\
  SrcV4Mod.read 100 1000 (SpecV4.wire p ++ [208; 0]) = (Ok p, [208; 0]) /\
  SrcV4Mod.read 100 1000 [0x82; 1; 0; 9] = (Err MalformedPacket, [9]).
Proof. vm_compute. split; [discriminate|]. split; [eexists; reflexivity|]. split; reflexivity. Qed.
Example C07_C19_source_case :
  let p := SampleV5.ex_publish5 in
  v5_memory p <= 2 ^ 63 /\ (exists n, v5_write 5 p [] = (Ok n, SpecV5.written_wire p)) /\
  SrcV5Mod.read 100 1000 (SpecV5.written_wire p ++ [208; 0]) = (Ok p, [208; 0]) /\
  SrcV5Mod.read 100 1000 [0x40; 6; 0; 9; 0; 2; 31; 0; 7] = (Err MalformedPacket, [7]).
Proof. vm_compute. split; [discriminate|]. split; [eexists; reflexivity|]. split; reflexivity. Qed.
Example C66_source_case :
  In (Ok (SpecV5.declared_len SampleV5.ex_subscribe5), SpecV5.declared_len SampleV5.ex_subscribe5) (v5_lens SampleV5.ex_subscribe5) /\
  In (Ok (SpecV4.declared_len SampleV4.ex_subscribe), SpecV4.declared_len SampleV4.ex_subscribe) (v4_lens SampleV4.ex_subscribe) /\
  (List.length (v5_lens SampleV5.ex_subscribe5) >= 2)%nat.
Proof. vm_compute. repeat split; auto. Qed.
Example C30_source_case :
  SrcTopic.matches [97; 47; 98] [43; 47; 35] = Ok true /\ SrcTopic.matches [195; 169] [35] = Panic /\
  SrcTopic.valid_filter [97; 47; 35; 47; 98] = Ok false.
Proof. vm_compute. auto. Qed.
Print Assumptions C02_source_check_exact.
Print Assumptions C06_source_v4_total.
Print Assumptions C07_source_v5_total.
Print Assumptions C12_source_v4_encoding.
Print Assumptions C13_source_v5_written.
Print Assumptions C13_source_v5_deviations.
Print Assumptions C16_source_v4_exact.
Print Assumptions C18_source_v4_round_trip.
Print Assumptions C19_source_v5_round_trip.
Print Assumptions C30_source_matches_exact.
Print Assumptions C31_source_panics_exactly.
Print Assumptions C32_source_valid_filter.
Print Assumptions C49_source_v4_errors.
Print Assumptions C49_source_v5_errors.
Print Assumptions C60_source_v4_standard.
Print Assumptions C62_source_v5_standard.
Print Assumptions C66_v4_len_exact.
Print Assumptions C66_v5_len_exact.
Print Assumptions C66_v4_len_in_memory.
Print Assumptions C66_v5_len_in_memory.

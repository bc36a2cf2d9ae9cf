(** ProofSrcTop.v -- the two entry points `read` and src/topic.rs: the mechanical
    translation against the model. *)
From Verif Require Import ProofSrcTac ProofSrcV4Read ProofSrcV5Read.
From Verif Require V4Mod SrcV4Mod V5Mod SrcV5Mod Topic SrcTopic.

Lemma wrap4 {A} (f : A -> V4Mod.Packet) (o : outcome A) (r : outcome (A * bytes)) s :
  o = value r -> (t <-w lift o ;; wret (f t)) s = (V4Mod.wrap f r, s).
Proof. intros ->. destruct r as [[a s']| | |]; reflexivity. Qed.
Lemma wrap5 {A} (f : A -> V5Mod.Packet) (o : outcome A) (r : outcome (A * bytes)) s :
  o = value r -> (t <-w lift o ;; wret (f t)) s = (V5Mod.wrap f r, s).
Proof. intros ->. destruct r as [[a s']| | |]; reflexivity. Qed.
Lemma wbind_wret {A} (m : writer A) s : (x <-w m ;; wret x) s = m s.
Proof. unfold wbind, wret. destruct (m s) as [[a| | |] s']; reflexivity. Qed.

Lemma v4_read_rounds fuel m s : (forall fh n, check s m = Ok fh -> frame_length fh = Ok n -> n < N.of_nat fuel) -> blen s <= half ->
  SrcV4Mod.read fuel m s = V4Mod.read s m.
Proof.
  intros Hf Hs. unfold SrcV4Mod.read, V4Mod.read. unfold wbind at 1, get. unfold wbind at 1, lift at 1.
  rewrite check_eq. destruct (check s m) as [fh| | |]; try reflexivity. specialize (Hf fh).
  unfold wbind at 1, lift at 1. rewrite frame_length_eq. unfold obind at 1.
  destruct (frame_length fh) as [n|e| |] eqn:E;
    [|revert E; unfold frame_length, usize_add; destruct (_ <=? _); discriminate|reflexivity|
      revert E; unfold frame_length, usize_add; destruct (_ <=? _); discriminate].
  specialize (Hf n eq_refl eq_refl). unfold wbind at 1, keep. unfold split_to. destruct (n <=? blen s) eqn:En; [|reflexivity].
  set (fr := firstn (N.to_nat n) s). set (rest := skipn (N.to_nat n) s).
  assert (Lf : (List.length fr < fuel)%nat) by (unfold fr; rewrite firstn_length; lia).
  assert (Lb : blen fr <= half) by (unfold fr, blen in *; rewrite firstn_length; lia).
  clearbody fr rest. unfold V4Mod.read_frame, wbind at 1, lift at 1. rewrite packet_type_eq.
  destruct (packet_type fh) as [ty| | |]; try reflexivity. cbn [obind].
  destruct (remaining_len fh =? 0); [destruct ty; reflexivity|]. rewrite wbind_wret.
  destruct ty; try reflexivity; apply wrap4.
  - apply v4_connect_read. - apply v4_connack_read. - apply v4_publish_read. - apply v4_puback_read.
  - apply v4_pubrec_read. - apply v4_pubrel_read. - apply v4_pubcomp_read. - apply v4_subscribe_read; assumption.
  - apply v4_suback_read; assumption. - apply v4_unsubscribe_read; assumption. - apply v4_unsuback_read.
Qed.
Lemma v5_read_rounds fuel m s : (forall fh n, check s m = Ok fh -> frame_length fh = Ok n -> n < N.of_nat fuel) -> blen s <= half ->
  SrcV5Mod.read fuel m s = V5Mod.read s m.
Proof.
  intros Hf Hs. unfold SrcV5Mod.read, V5Mod.read. unfold wbind at 1, get. unfold wbind at 1, lift at 1.
  rewrite check_eq. destruct (check s m) as [fh| | |]; try reflexivity. specialize (Hf fh).
  unfold wbind at 1, lift at 1. rewrite frame_length_eq. unfold obind at 1.
  destruct (frame_length fh) as [n|e| |] eqn:E;
    [|revert E; unfold frame_length, usize_add; destruct (_ <=? _); discriminate|reflexivity|
      revert E; unfold frame_length, usize_add; destruct (_ <=? _); discriminate].
  specialize (Hf n eq_refl eq_refl). unfold wbind at 1, keep. unfold split_to. destruct (n <=? blen s) eqn:En; [|reflexivity].
  set (fr := firstn (N.to_nat n) s). set (rest := skipn (N.to_nat n) s).
  assert (Lf : (List.length fr < fuel)%nat) by (unfold fr; rewrite firstn_length; lia).
  assert (Lb : blen fr <= half) by (unfold fr, blen in *; rewrite firstn_length; lia).
  clearbody fr rest. unfold V5Mod.read_frame, wbind at 1, lift at 1. rewrite packet_type_eq.
  destruct (packet_type fh) as [ty| | |]; try reflexivity. cbn [obind].
  destruct (remaining_len fh =? 0); [destruct ty; reflexivity|]. rewrite wbind_wret.
  destruct ty; try reflexivity; apply wrap5.
  - apply v5_connect_read; assumption. - apply v5_connack_read; assumption. - apply v5_publish_read; assumption.
  - apply v5_puback_read; assumption. - apply v5_pubrec_read; assumption. - apply v5_pubrel_read; assumption.
  - apply v5_pubcomp_read; assumption. - apply v5_subscribe_read; assumption.
  - apply v5_suback_read; assumption. - apply v5_unsubscribe_read; assumption. - apply v5_unsuback_read; assumption.
  - apply v5_disconnect_read; assumption.
Qed.

Lemma frame_in_stream s m fh n : check s m = Ok fh -> frame_length fh = Ok n -> n <= blen s.
Proof.
  unfold check, obind. destruct (parse_fixed_header s) as [h| | |]; try discriminate.
  destruct (m <? remaining_len h); [discriminate|]. destruct (frame_length h) as [k| | |] eqn:E; try discriminate.
  destruct (blen s <? k) eqn:El; [destruct (usize_sub k (blen s)); discriminate|]. intros H; injection H as <-. rewrite E. intros H; injection H as <-. lia.
Qed.
Lemma v4_read fuel m s : (List.length s < fuel)%nat -> blen s <= half -> SrcV4Mod.read fuel m s = V4Mod.read s m.
Proof. intros Hf Hs. apply v4_read_rounds; [|exact Hs]. intros fh n H1 H2. pose proof (frame_in_stream _ _ _ _ H1 H2). unfold blen in *. lia. Qed.
Lemma v5_read fuel m s : (List.length s < fuel)%nat -> blen s <= half -> SrcV5Mod.read fuel m s = V5Mod.read s m.
Proof. intros Hf Hs. apply v5_read_rounds; [|exact Hs]. intros fh n H1 H2. pose proof (frame_in_stream _ _ _ _ H1 H2). unfold blen in *. lia. Qed.

(** ** src/topic.rs *)
Lemma contains_eq c s : SrcBase.contains c s = Topic.contains c s.
Proof.
  induction s as [|b s IH]; [reflexivity|]. cbn [SrcBase.contains]. rewrite IH. unfold Topic.contains. cbn [existsb].
  destruct (b =? c); reflexivity.
Qed.
Lemma split_go_eq s : forall piece, split_go 47 piece s =
  match Topic.split_slash s with x :: l => (piece ++ x) :: l | [] => [piece] end.
Proof.
  induction s as [|b s IH]; intros piece; cbn [split_go Topic.split_slash]; [rewrite app_nil_r; reflexivity|].
  unfold Topic.ch_slash. change 0x2F with 47. destruct (b =? 47).
  - rewrite app_nil_r. rewrite IH. destruct (Topic.split_slash s) as [|x l] eqn:E; [|reflexivity].
    exfalso. destruct s as [|c s]; cbn in E; [discriminate|]. destruct (c =? _); [discriminate|].
    destruct (Topic.split_slash s); discriminate.
  - rewrite IH. destruct (Topic.split_slash s) as [|x l]; [reflexivity|]. rewrite <- app_assoc. reflexivity.
Qed.
Lemma split_eq s : split 47 s = Topic.split_slash s.
Proof.
  unfold split. rewrite split_go_eq. destruct (Topic.split_slash s) as [|x l] eqn:E; [|reflexivity].
  exfalso. destruct s as [|c s]; cbn in E; [discriminate|]. destruct (c =? _); [discriminate|].
  destruct (Topic.split_slash s); discriminate.
Qed.
Lemma split_last_eq {A} (l : list A) : SrcBase.split_last l = Topic.split_last l.
Proof.
  unfold SrcBase.split_last. induction l as [|x l IH]; [reflexivity|]. cbn [rev Topic.split_last]. rewrite <- IH.
  destruct (rev l) as [|y r]; [reflexivity|]. cbn. rewrite rev_app_distr. reflexivity.
Qed.
Lemma has_wildcards_eq s : SrcTopic.has_wildcards s = Ok (Topic.has_wildcards s).
Proof. unfold SrcTopic.has_wildcards, Topic.has_wildcards, run. rewrite !contains_eq. reflexivity. Qed.
Lemma valid_topic_eq s : SrcTopic.valid_topic s = Ok (Topic.valid_topic s).
Proof.
  unfold SrcTopic.valid_topic, Topic.valid_topic, run. rewrite !contains_eq.
  change Topic.ch_plus with 43. change Topic.ch_hash with 35.
  destruct (Topic.contains 43 s); [reflexivity|]. destruct (Topic.contains 35 s); reflexivity.
Qed.
Lemma valid_filter_eq s : SrcTopic.valid_filter s = Ok (Topic.valid_filter s).
Proof.
  unfold SrcTopic.valid_filter, Topic.valid_filter, run. destruct (is_empty s); [reflexivity|]. cbv zeta.
  rewrite split_eq, split_last_eq. destruct (Topic.split_last (Topic.split_slash s)) as [[last rem]|]; [|reflexivity].
  change Topic.ch_hash with 35. rewrite contains_eq.
  set (body := fun entry _ => _).
  assert (F : for_ctl body rem tt [] = (Ok (if existsb (fun e => Topic.contains 35 e) rem then inr false else inl tt), [])).
  { induction rem as [|e rem IH]; [reflexivity|]. cbn [for_ctl existsb]. unfold body at 1. rewrite contains_eq.
    destruct (Topic.contains 35 e); [reflexivity|]. exact IH. }
  unfold wbind at 1. rewrite F. destruct (existsb _ rem); [reflexivity|].
  destruct (negb (blen last =? 1) && Topic.contains 35 last); reflexivity.
Qed.
Lemma continuation b : b < 256 -> (N.land b 0xC0 =? 0x80) = (0x80 <=? b) && (b <? 0xC0).
Proof.
  intros H. assert (A : forall n, (n < 256)%nat ->
    (N.land (N.of_nat n) 0xC0 =? 0x80) = (0x80 <=? N.of_nat n) && (N.of_nat n <? 0xC0)).
  { intros n Hn. do 256 (destruct n as [|n]; [vm_compute; reflexivity|]). lia. }
  specialize (A (N.to_nat b)). rewrite N2Nat.id in A. apply A. lia.
Qed.
Lemma str_first_eq b s : Forall (fun x => x < 256) (b :: s) -> str_to (b :: s) 1 = Topic.str_first (b :: s).
Proof.
  intros H. unfold str_to, is_char_boundary, Topic.str_first.
  destruct s as [|b' s]; [reflexivity|]. rewrite !blen_cons.
  replace (1 =? 0) with false by reflexivity. replace (1 =? 1 + (1 + blen s)) with false by lia.
  cbn [orb]. change (N.to_nat 1) with 1%nat. cbn [nth_error firstn].
  rewrite continuation by (inversion H as [|? ? ? H']; inversion H'; assumption).
  destruct (_ && _); reflexivity.
Qed.
Lemma lift_bind2 {A B C} (a : A) (g : A -> B) (k : B -> writer C) b :
  wbind (wbind (lift (Ok a)) (fun x => wret (g x))) k b = k (g a) b.
Proof. reflexivity. Qed.
Lemma matches_eq t f : Forall (fun x => x < 256) t -> SrcTopic.matches t f = Topic.matches t f.
Proof.
  intros Ht. unfold SrcTopic.matches, Topic.matches, run.
  set (body := fun f0 topics => _).
  assert (L : forall fs ts, (t4 <-w for_ctl body fs ts ;;
      match t4 with
      | inl topics => let '(t6, _) := iter_next topics in if is_some t6 then wret false else wret true
      | inr t5 => wret t5
      end) [] = (Ok (Topic.matches_loop fs ts), [])).
  { induction fs as [|x fs IH]; intros ts; cbn [for_ctl Topic.matches_loop].
    - destruct ts; reflexivity.
    - unfold body at 1. change [Topic.ch_hash] with [35]. change [Topic.ch_plus] with [43].
      destruct (bytes_eqb x [35]); [reflexivity|]. destruct ts as [|y ts]; cbn [iter_next].
      + reflexivity.
      + destruct (bytes_eqb y [35]); [reflexivity|]. destruct (bytes_eqb x [43]); [apply IH|].
        destruct (bytes_eqb x y); [apply IH|reflexivity]. }
  rewrite !split_eq.
  destruct t as [|b t].
  - cbn [is_empty negb]. rewrite wret_bind. cbv zeta. change (Topic.split_slash []) with [@nil N].
    rewrite L. reflexivity.
  - cbn [is_empty negb obind]. rewrite str_first_eq by exact Ht.
    destruct (Topic.str_first (b :: t)) as [w| | |]; try reflexivity. rewrite lift_bind2.
    cbn [obind]. rewrite contains_eq. change Topic.ch_dollar with 36.
    destruct (Topic.contains 36 w); [reflexivity|]. cbv zeta. rewrite L. reflexivity.
Qed.

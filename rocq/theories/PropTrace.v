(** PropTrace.v -- C76: what the crate prints on standard error.  `dbg!` in v5 `Unsubscribe::read` is the only output;
    PropTraceAll.v says so for every other function.  The translation with output (Trace*.v) is the text of Src*.v
    over TraceBase.v. *)
From Verif Require Import ProofBase Lib ProofLib ProofRead ProofCheck ProofStream SrcBase SpecWire SpecTrace ProofTraceBase ProofTrace ProofTraceRead.
From Verif Require ProofBits ProofSrcBase ProofSrcStop PropSession PropSource TraceBase.
From Verif Require V4Mod V5Mod SrcLib SrcV4Mod SrcV5Mod TraceV4Mod TraceV5Mod SrcV5Unsubscribe TraceV5Unsubscribe.

(** the first two bytes, if they are there *)
Definition first_two (s : bytes) : list N := match s with x :: y :: _ => [x * 256 + y] | _ => [] end.
Lemma src_u16 s : SrcLib.read_u16 s = match s with x :: y :: r => (Ok (x * 256 + y), r) | _ => (Err MalformedPacket, s) end.
Proof. destruct s as [|x [|y r]]; try reflexivity.
  unfold SrcLib.read_u16, get, wbind. cbn [fst snd]. replace (blen (x :: y :: r) <? 2) with false by (symmetry; rewrite !blen_cons; lia). reflexivity. Qed.
Lemma seen_after h hdr bd : blen hdr = fixed_header_len h -> seen_id h (hdr ++ bd) = first_two bd.
Proof.
  intros H. unfold seen_id, keep, advance. rewrite <- H. replace (blen hdr <=? blen (hdr ++ bd)) with true by (rewrite blen_app; lia).
  rewrite to_nat_blen, skipn_app, skipn_all, Nat.sub_diag. cbn [app skipn]. rewrite src_u16. destruct bd as [|x [|y r]]; reflexivity.
Qed.
Lemma first_two_ok bd id : bytes_ok bd -> (first_two bd = [id] <-> id < 65536 /\ exists r, bd = be16 id ++ r).
Proof.
  intros Hb. split.
  - destruct bd as [|x [|y r]]; try discriminate. intros E. injection E as <-. apply bytes_ok_cons in Hb as [Hx Hb].
    apply bytes_ok_cons in Hb as [Hy _]. split; [lia|]. exists r. rewrite be16_bytes by assumption. reflexivity.
  - intros [Hi [r ->]]. cbn. f_equal. lia.
Qed.
(** what `read` prints for a complete frame *)
Lemma prints_frame s max b1 bd rest : bytes_ok s -> starts_with_frame s b1 bd rest -> blen bd <= max ->
  read_prints max s = if b1 / 16 =? 10 then first_two bd else [].
Proof.
  intros Hb (f & -> & Hf & Hl) Hm. assert (Hb' := Hb). apply bytes_ok_cons in Hb' as [Hb1 _].
  unfold read_prints. rewrite ProofSrcBase.check_eq.
  rewrite check_frame with (n := blen bd) by (auto; autorewrite with blen; lia).
  rewrite ProofSrcBase.frame_length_eq, frame_length_field by assumption.
  replace (b1 :: f ++ bd ++ rest) with ((b1 :: f ++ bd) ++ rest) by (cbn [app]; rewrite <- app_assoc; reflexivity).
  unfold keep. rewrite split_to_app by (autorewrite with blen; lia).
  rewrite ProofSrcBase.packet_type_eq. unfold packet_type. cbn [byte1 remaining_len]. rewrite ProofBits.shiftr4 by exact Hb1.
  assert (S : seen_id (mkFixedHeader b1 (1 + blen f) (blen bd)) (b1 :: f ++ bd) = first_two bd).
  { change (b1 :: f ++ bd) with ((b1 :: f) ++ bd). apply seen_after. cbn [fixed_header_len]. autorewrite with blen. lia. }
  rewrite S. assert (Z : (if blen bd =? 0 then [] else first_two bd) = first_two bd).
  { destruct bd; [reflexivity|]. rewrite blen_cons. replace (1 + blen bd =? 0) with false by lia. reflexivity. }
  rewrite Z. destruct (N.eqb_spec (b1 / 16) 10) as [->|Hn]; [reflexivity|].
  assert (L : b1 / 16 < 16) by (apply N.div_lt_upper_bound; lia).
  destruct (b1 / 16) as [|p]; [reflexivity|]. do 4 (destruct p as [p|p|]; try reflexivity; try lia).
Qed.
Lemma prints_no_frame s max : bytes_ok s -> (forall b1 bd rest, starts_with_frame s b1 bd rest -> max < blen bd) -> read_prints max s = [].
Proof.
  intros Hb H. unfold read_prints. destruct (SrcLib.check s max) as [h|e| |] eqn:Ec; try reflexivity. exfalso.
  rewrite ProofSrcBase.check_eq in Ec. destruct (check_ok_inv s max h Hb Ec) as (b1 & f & bd & rest & -> & Hf & Hl & Hm & ->).
  specialize (H b1 bd rest). assert (blen bd <= max) by assumption. enough (max < blen bd) by lia. apply H. exists f. auto.
Qed.

(** ** `read`, v5: the identifier of an UNSUBSCRIBE, whether the frame is accepted or refused, and nothing else *)
Theorem C76_v5_read_output : forall fuel s max, bytes_ok s ->
  (forall id, starts_with_unsubscribe s max id -> printed (TraceV5Mod.read fuel max s) = [id]) /\
  ((forall id, ~ starts_with_unsubscribe s max id) -> printed (TraceV5Mod.read fuel max s) = []).
Proof.
  intros fuel s max Hb. unfold printed. rewrite q_v5_read. cbn [fst snd]. split.
  - intros id (b1 & r & rest & Hs & Hm & Ht & Hi). rewrite (prints_frame s max b1 _ rest Hb Hs Hm), Ht. cbn [N.eqb Pos.eqb].
    destruct Hs as (f & -> & _). apply first_two_ok; [|eauto]. apply bytes_ok_cons in Hb as [_ Hb].
    apply bytes_ok_app in Hb as [_ Hb]. apply bytes_ok_app in Hb. apply Hb.
  - intros Hn. destruct (SrcLib.check s max) as [h|e| |] eqn:Ec; try (unfold read_prints; rewrite Ec; reflexivity).
    rewrite ProofSrcBase.check_eq in Ec. destruct (check_ok_inv s max h Hb Ec) as (b1 & f & bd & rest & -> & Hf & Hl & Hm & ->).
    assert (Hs : starts_with_frame (b1 :: f ++ bd ++ rest) b1 bd rest) by (exists f; auto).
    rewrite (prints_frame _ max b1 bd rest Hb Hs Hm). destruct (N.eqb_spec (b1 / 16) 10) as [Ht|Ht]; [|reflexivity].
    destruct (first_two bd) as [|id l] eqn:E; [reflexivity|]. exfalso.
    assert (l = []) by (destruct bd as [|x [|y r]]; cbn in E; congruence). subst l.
    assert (Hbd : bytes_ok bd). { apply bytes_ok_cons in Hb as [_ Hb]. apply bytes_ok_app in Hb as [_ Hb]. apply bytes_ok_app in Hb. apply Hb. }
    apply first_two_ok in E; [|exact Hbd]. destruct E as [Hi [r ->]]. apply (Hn id). exists b1, r, rest. auto.
Qed.
(** ... while it returns and removes what it does without the printing *)
Theorem C76_v5_read_same : forall fuel s max,
  result (TraceV5Mod.read fuel max s) = fst (SrcV5Mod.read fuel max s) /\
  left_over (TraceV5Mod.read fuel max s) = snd (SrcV5Mod.read fuel max s).
Proof. intros fuel s max. unfold result, left_over. rewrite q_v5_read. auto. Qed.
(** `read`, v4, prints nothing *)
Theorem C76_v4_read_silent : forall fuel max, runs_silently (SrcV4Mod.read fuel max) (TraceV4Mod.read fuel max).
Proof. intros fuel max s. unfold result, left_over, printed. rewrite (qV4Mod_read fuel max s). auto. Qed.

(** a call that leaves the stream untouched has printed nothing: waiting for more bytes does not print the identifier again *)
Theorem C76_v5_printed_once : forall fuel s max, bytes_ok s -> blen s < 2 ^ 63 -> (List.length s < fuel)%nat ->
  left_over (TraceV5Mod.read fuel max s) = s -> printed (TraceV5Mod.read fuel max s) = [].
Proof.
  intros fuel s max Hb Hl Hf E. apply (C76_v5_read_output fuel s max Hb). intros id (b1 & r & rest & Hs & Hm & _ & _).
  rewrite (proj2 (C76_v5_read_same fuel s max)) in E. rewrite PropSource.v5_read_src in E by assumption.
  destruct Hs as (f & -> & Hlf & Hl4). rewrite ProofV5.read_gread, g_frame in E by assumption. cbn [snd] in E.
  assert (G := g_frame_len b1 f (be16 id ++ r) rest Hlf). rewrite <- E in G. lia.
Qed.

(** a stream of complete frames, whatever is in them, read one after the other: what is printed is what each frame on its own
    prints, in their order *)
Lemma frame_step fuel max x tail : PropSession.complete_frame max x -> bytes_ok tail ->
  blen (x ++ tail) < 2 ^ 63 -> (List.length (x ++ tail) < fuel)%nat ->
  left_over (TraceV5Mod.read fuel max (x ++ tail)) = tail /\
  printed (TraceV5Mod.read fuel max (x ++ tail)) = printed (TraceV5Mod.read fuel max x).
Proof.
  intros [Hb (b1 & bd & (f & Hx & Hlf & Hl4) & Hm)] Ht Hl Hf. rewrite app_nil_r in Hx. subst x.
  assert (Hbt : bytes_ok ((b1 :: f ++ bd) ++ tail)) by (apply bytes_ok_app; auto).
  assert (S1 : starts_with_frame (b1 :: f ++ bd) b1 bd []) by (exists f; rewrite app_nil_r; auto).
  assert (EQ : (b1 :: f ++ bd) ++ tail = b1 :: f ++ bd ++ tail) by (cbn [app]; rewrite <- app_assoc; reflexivity).
  assert (S2 : starts_with_frame ((b1 :: f ++ bd) ++ tail) b1 bd tail) by (exists f; auto). split.
  - rewrite (proj2 (C76_v5_read_same fuel _ max)), PropSource.v5_read_src by assumption.
    rewrite EQ in *. rewrite ProofV5.read_gread, g_frame by assumption. reflexivity.
  - unfold printed. rewrite !q_v5_read. cbn [fst snd]. rewrite (prints_frame _ max b1 bd tail Hbt S2 Hm), (prints_frame _ max b1 bd [] Hb S1 Hm). reflexivity.
Qed.
Theorem C76_v5_session_output : forall frames tail fuel max,
  Forall (PropSession.complete_frame max) frames -> bytes_ok tail ->
  blen (concat frames ++ tail) < 2 ^ 63 -> (List.length (concat frames ++ tail) < fuel)%nat ->
  printed_by_reading (TraceV5Mod.read fuel max) (List.length frames) (concat frames ++ tail) =
  flat_map (fun x => printed (TraceV5Mod.read fuel max x)) frames.
Proof.
  induction frames as [|x frames IH]; intros tail fuel max HF Ht Hl Hf; [reflexivity|].
  apply Forall_cons_iff in HF as [Hx HF]. cbn [concat flat_map List.length printed_by_reading] in *. rewrite <- app_assoc in *.
  assert (Hr : bytes_ok (concat frames ++ tail)) by (apply bytes_ok_app; split; [exact (PropSession.frames_bytes max frames HF)|exact Ht]).
  destruct (frame_step fuel max x _ Hx Hr Hl Hf) as [E1 E2]. rewrite E1, E2. f_equal. apply IH; auto.
  - rewrite blen_app in Hl. lia.
  - rewrite app_length in Hf. lia.
Qed.

(** ** v5 `Unsubscribe::read` called directly *)
Theorem C76_unsubscribe_read_output : forall fuel h hdr bd, bytes_ok bd -> blen hdr = fixed_header_len h ->
  (forall id r, id < 65536 -> bd = be16 id ++ r -> snd (TraceV5Unsubscribe.Unsubscribe_read fuel h (hdr ++ bd)) = [id]) /\
  (blen bd < 2 -> snd (TraceV5Unsubscribe.Unsubscribe_read fuel h (hdr ++ bd)) = []) /\
  fst (TraceV5Unsubscribe.Unsubscribe_read fuel h (hdr ++ bd)) = SrcV5Unsubscribe.Unsubscribe_read fuel h (hdr ++ bd).
Proof.
  intros fuel h hdr bd Hb Hh. rewrite q_Unsubscribe_read. cbn [fst snd]. rewrite (seen_after h hdr bd Hh). split; [|split].
  - intros id r Hi ->. apply first_two_ok; eauto.
  - destruct bd as [|x [|y r]]; try reflexivity. rewrite !blen_cons. lia.
  - reflexivity.
Qed.
(** ... on bytes shorter than the fixed header it is said to have: the call panics and prints nothing *)
Theorem C76_unsubscribe_read_short : forall fuel h bs, blen bs < fixed_header_len h ->
  TraceV5Unsubscribe.Unsubscribe_read fuel h bs = (Panic, []).
Proof.
  intros fuel h bs H. rewrite q_Unsubscribe_read.
  assert (K : keep (advance (fixed_header_len h)) bs = (Panic, bs)).
  { unfold keep, advance. replace (fixed_header_len h <=? blen bs) with false by lia. reflexivity. }
  unfold seen_id, SrcV5Unsubscribe.Unsubscribe_read, run, wbind. rewrite K. reflexivity.
Qed.

(** ** cases *)
(** an UNSUBSCRIBE with identifier 258 and one filter, then a PINGREQ *)
Definition two_frames : bytes := [162; 8; 1; 2; 0; 0; 3; 97; 47; 98] ++ [192; 0].
Example C76_case_printed :
  starts_with_unsubscribe two_frames 100 258 /\
  TraceV5Mod.read 100 100 two_frames =
    ((Ok (V5Mod.Unsubscribe (V5Unsubscribe.mkUnsubscribe 258 [[97; 47; 98]] None)), [258]), [192; 0]).
Proof.
  split; [|vm_compute; reflexivity]. exists 162, [0; 0; 3; 97; 47; 98], [192; 0].
  split; [exists [8]; split; [reflexivity|split; [left; vm_compute; split; reflexivity|vm_compute; discriminate]]|].
  split; [vm_compute; discriminate|split; reflexivity].
Qed.
(** refused after the printing: the length of the properties runs out of the frame *)
Example C76_case_refused : TraceV5Mod.read 100 100 [162; 3; 1; 2; 1; 192; 0] = ((Err MalformedPacket, [258]), [192; 0]).
Proof. vm_compute. reflexivity. Qed.
(** the frame is not complete yet: nothing is printed and nothing is removed; two UNSUBSCRIBEs and a PINGREQ between them *)
Example C76_case_waiting : exists n,
  TraceV5Mod.read 100 100 [162; 8; 1; 2; 0] = ((Err (InsufficientBytes n), []), [162; 8; 1; 2; 0]).
Proof. eexists. vm_compute. reflexivity. Qed.
Example C76_case_session :
  printed_by_reading (TraceV5Mod.read 100 100) 3 ([162; 2; 1; 2] ++ [192; 0] ++ [162; 8; 3; 4; 0; 0; 3; 97; 47; 98]) = [258; 772].
Proof. vm_compute. reflexivity. Qed.
Example C76_case_short : TraceV5Unsubscribe.Unsubscribe_read 9 (mkFixedHeader 162 2 8) [162] = (Panic, []).
Proof. apply C76_unsubscribe_read_short. vm_compute. reflexivity. Qed.

Print Assumptions C76_v5_read_output.
Print Assumptions C76_v5_read_same.
Print Assumptions C76_v4_read_silent.
Print Assumptions C76_v5_printed_once.
Print Assumptions C76_v5_session_output.
Print Assumptions C76_unsubscribe_read_output.
Print Assumptions C76_unsubscribe_read_short.

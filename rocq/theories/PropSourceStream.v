(** PropSourceStream.v -- histories of the Rust text (its translation Src*.v): streams cut into
    chunks, buffers with old contents, failed writes. *)
From Verif Require Import Base SpecWire SpecFrame SpecStream SpecRelease ProofBase ProofLib ProofRelBase ProofSrcBase SpecSource.
From Verif Require ProofSrcFits V4Mod V5Mod SpecV4 SpecV5 PropV4 PropV5 PropSession PropRelease PropSource SampleV4 SampleV5.

(** ** two receivers with the same `read` *)
Section Same.
  Context {P : Type}.
  Variables (rd rd' : bytes -> N -> outcome P * bytes) (max : N) (careful : bool) (B : N).
  Hypothesis Hrd : forall s, bytes_ok s -> blen s < B -> rd s max = rd' s max.
  Hypothesis Hs : forall s, bytes_ok s -> exists p, s = p ++ snd (rd' s max).
  Lemma drain_same fuel : forall s, bytes_ok s -> blen s < B -> drain rd max careful fuel s = drain rd' max careful fuel s.
  Proof.
    induction fuel as [|fuel IH]; intros s Hb Hl; [reflexivity|]. cbn [drain]. rewrite Hrd by assumption.
    destruct (Hs s Hb) as [p E]. destruct (rd' s max) as [r s']. cbn [snd] in E.
    destruct (is_insufficient r && _); [reflexivity|]. destruct (_ <? _); [|reflexivity].
    rewrite IH; [reflexivity| |].
    - rewrite E in Hb. apply bytes_ok_app in Hb. apply Hb.
    - rewrite E, blen_app in Hl. lia.
  Qed.
  Lemma drain_suffix fuel : forall s, bytes_ok s -> exists p, s = p ++ snd (snd (drain rd' max careful fuel s)).
  Proof.
    induction fuel as [|fuel IH]; intros s Hb; [exists []; reflexivity|]. cbn [drain].
    destruct (Hs s Hb) as [p E]. destruct (rd' s max) as [r s']. cbn [snd] in E.
    destruct (is_insufficient r && _); [exists p; exact E|]. destruct (_ <? _); [|exists p; exact E].
    assert (Hb' : bytes_ok s') by (rewrite E in Hb; apply bytes_ok_app in Hb; apply Hb).
    destruct (IH s' Hb') as [p' E']. destruct (drain rd' max careful fuel s') as [evs st]. cbn [snd] in *.
    exists (p ++ p'). rewrite <- app_assoc, <- E'. exact E.
  Qed.
  Lemma receive_same chunks : forall st, bytes_ok (snd st) -> Forall bytes_ok chunks -> blen (snd st) + blen (concat chunks) < B ->
    receive rd max careful st chunks = receive rd' max careful st chunks.
  Proof.
    induction chunks as [|c cs IH]; intros [st buf] Hb Hc Hl; [reflexivity|]. cbn [snd concat] in *. rewrite blen_app in Hl.
    inversion Hc as [|? ? Hc1 Hc2]; subst. assert (Hbc : bytes_ok (buf ++ c)) by (apply bytes_ok_app; auto).
    cbn [receive feed]. destruct st.
    - rewrite drain_same by (try assumption; rewrite blen_app; lia).
      destruct (drain_suffix (S (List.length (buf ++ c))) _ Hbc) as [p E].
      destruct (drain rd' max careful _ _) as [evs [st b]]. cbn [snd] in E.
      rewrite IH; [reflexivity| |exact Hc2|].
      + cbn [snd]. rewrite E in Hbc. apply bytes_ok_app in Hbc. apply Hbc.
      + cbn [snd]. apply (f_equal blen) in E. rewrite !blen_app in E. lia.
    - rewrite IH; [reflexivity|exact Hbc|exact Hc2|]. cbn [snd]. rewrite blen_app. lia.
  Qed.
End Same.

Lemma v4_reads_eq s max : blen s < 2 ^ 63 -> v4_reads s max = V4Mod.read s max.
Proof. intros H. apply PropSource.v4_read_src; [lia|exact H]. Qed.
Lemma v5_reads_eq s max : blen s < 2 ^ 63 -> v5_reads s max = V5Mod.read s max.
Proof. intros H. apply PropSource.v5_read_src; [lia|exact H]. Qed.
Lemma v4_suffix max s : bytes_ok s -> exists p, s = p ++ snd (V4Mod.read s max).
Proof.
  intros Hb. pose proof (PropV4.C08_v4_consumes_one_frame s max Hb) as H. destruct (Lib.check s max) as [h|e| |]; try contradiction.
  - destruct H as (fr & H & _). eauto.
  - rewrite H. exists []. reflexivity.
Qed.
Lemma v5_suffix max s : bytes_ok s -> exists p, s = p ++ snd (V5Mod.read s max).
Proof.
  intros Hb. pose proof (PropV5.C08_v5_consumes_one_frame s max Hb) as H. destruct (Lib.check s max) as [h|e| |]; try contradiction.
  - destruct H as (fr & H & _). eauto.
  - rewrite H. exists []. reflexivity.
Qed.
Lemma v4_receive_eq max careful chunks : Forall bytes_ok chunks -> blen (concat chunks) < 2 ^ 63 ->
  receive v4_reads max careful (Waiting, []) chunks = receive V4Mod.read max careful (Waiting, []) chunks.
Proof.
  intros Hb Hl. apply (receive_same _ _ _ _ (2 ^ 63)); [intros s _ H; apply v4_reads_eq, H|apply v4_suffix|constructor|exact Hb|exact Hl].
Qed.
Lemma v5_receive_eq max careful chunks : Forall bytes_ok chunks -> blen (concat chunks) < 2 ^ 63 ->
  receive v5_reads max careful (Waiting, []) chunks = receive V5Mod.read max careful (Waiting, []) chunks.
Proof.
  intros Hb Hl. apply (receive_same _ _ _ _ (2 ^ 63)); [intros s _ H; apply v5_reads_eq, H|apply v5_suffix|constructor|exact Hb|exact Hl].
Qed.
Lemma concat_bytes_ok chunks : bytes_ok (concat chunks) -> Forall bytes_ok chunks.
Proof.
  induction chunks as [|c cs IH]; intros H; [constructor|]. apply bytes_ok_app in H as [H1 H2]. constructor; auto.
Qed.

(** ** C22, C23: whatever is written comes out of the receiver, however the stream is cut *)
Theorem C22_source_v4_reassembly : forall ps chunks max,
  Forall (fun p => SpecV4.fits p /\ SpecV4.has_payload p /\ SpecV4.canonical p /\ blen (SpecV4.body p) <= max) ps ->
  concat chunks = flat_map (fun p => snd (v4_write 5 p [])) ps -> blen (concat chunks) < 2 ^ 63 ->
  receive v4_reads max false (Waiting, []) chunks = (map Ok ps, (Waiting, [])).
Proof.
  intros ps chunks max HF E Hl.
  assert (E' : flat_map (fun p => snd (v4_write 5 p [])) ps = flat_map (fun p => snd (V4Mod.write p [])) ps).
  { clear - HF. induction HF as [|p ps (Hm & _) _ IH]; [reflexivity|]. cbn [flat_map]. rewrite IH.
    rewrite PropSource.v4_write_src by (lia || apply ProofSrcFits.fits4, Hm). reflexivity. }
  rewrite E' in E. rewrite v4_receive_eq; [|apply concat_bytes_ok|exact Hl].
  - apply PropV4.C22_v4_reassembly; [|exact E]. eapply Forall_impl; [|exact HF]. intros p (A & B & C & D). auto.
  - rewrite E. clear - HF. induction HF as [|p ps (Hf & _) _ IH]; [constructor|]. cbn [flat_map]. apply bytes_ok_app. split; [|exact IH].
    destruct (PropV4.C12_v4_encoding p Hf) as [n ->]. exact (ProofV4.wire_bytes p Hf).
Qed.
Theorem C23_source_v5_reassembly : forall ps chunks max careful,
  Forall (fun p => SpecV5.fits p /\ SpecV5.readable p /\ SpecV5.canonical p /\ blen (SpecV5.written p) <= max) ps ->
  concat chunks = flat_map (fun p => snd (v5_write 5 p [])) ps -> blen (concat chunks) < 2 ^ 63 ->
  receive v5_reads max careful (Waiting, []) chunks = (map Ok ps, (Waiting, [])).
Proof.
  intros ps chunks max careful HF E Hl.
  assert (E' : flat_map (fun p => snd (v5_write 5 p [])) ps = flat_map (fun p => snd (V5Mod.write p [])) ps).
  { clear - HF. induction HF as [|p ps (Hm & _) _ IH]; [reflexivity|]. cbn [flat_map]. rewrite IH.
    rewrite PropSource.v5_write_src by (lia || apply ProofSrcFits.fits5, Hm). reflexivity. }
  rewrite E' in E. rewrite v5_receive_eq; [|apply concat_bytes_ok|exact Hl].
  - apply PropV5.C23_v5_reassembly; [|exact E]. eapply Forall_impl; [|exact HF]. intros p (A & B & C & D). auto.
  - rewrite E. clear - HF. induction HF as [|p ps (Hf & _) _ IH]; [constructor|]. cbn [flat_map]. apply bytes_ok_app. split; [|exact IH].
    destruct (PropV5.C13_v5_written p Hf) as [n ->]. exact (ProofV5.wire_bytes p Hf).
Qed.

(** ** C24, C48: arbitrary bytes *)
Theorem C24_source_v4_chunking : forall chunks chunks' max,
  Forall bytes_ok chunks -> concat chunks = concat chunks' -> blen (concat chunks) < 2 ^ 63 ->
  receive v4_reads max false (Waiting, []) chunks = receive v4_reads max false (Waiting, []) chunks'.
Proof.
  intros chunks chunks' max Hb E Hl.
  assert (Hb' : Forall bytes_ok chunks').
  { apply concat_bytes_ok. rewrite <- E. clear - Hb. induction Hb; [constructor|]. cbn [concat]. apply bytes_ok_app. auto. }
  rewrite !v4_receive_eq by (assumption || rewrite <- E; assumption). apply PropV4.C24_v4_chunking_irrelevant; assumption.
Qed.
Theorem C48_source_v5_chunking : forall chunks chunks' max,
  Forall bytes_ok chunks -> concat chunks = concat chunks' -> blen (concat chunks) < 2 ^ 63 ->
  receive v5_reads max true (Waiting, []) chunks = receive v5_reads max true (Waiting, []) chunks'.
Proof.
  intros chunks chunks' max Hb E Hl.
  assert (Hb' : Forall bytes_ok chunks').
  { apply concat_bytes_ok. rewrite <- E. clear - Hb. induction Hb; [constructor|]. cbn [concat]. apply bytes_ok_app. auto. }
  rewrite !v5_receive_eq by (assumption || rewrite <- E; assumption). apply PropV5.C48_v5_chunking_irrelevant; assumption.
Qed.

(** ** C14, C15, C16, C17: writing behind old contents, and failing *)
Theorem C14_source_v4 : forall p, v4_memory p <= 2 ^ 63 ->
  (~ SpecV4.is_connect p -> exists r out, forall buf, v4_write 5 p buf = (r, buf ++ out)) /\
  (forall c buf, p = V4Mod.Connect c -> blen (SpecV4.body p) <= max_len ->
     v4_write 5 p buf =
       (Ok (blen (SpecV4.body p)),
        overwrite (8 + blen (varint (blen (SpecV4.body p)))) (SpecV4.connect_flags c)
          (buf ++ frame 0x10 (SpecV4.connect_body_with (2 * bit (V4Connect.clean_session c)) c)))).
Proof.
  intros p Hm. split.
  - intros Hc. destruct (PropV4.C14_v4_append_except_connect p Hc) as (r & out & H). exists r, out. intros buf.
    rewrite PropSource.v4_write_src by (assumption || lia). apply H.
  - intros c buf -> Hl. rewrite PropSource.v4_write_src by (assumption || lia). apply PropV4.C14_v4_connect_exact, Hl.
Qed.
Theorem C14_source_v5 : forall p, v5_memory p <= 2 ^ 63 ->
  (~ SpecV5.is_connect p -> exists r out, forall buf, v5_write 5 p buf = (r, buf ++ out)) /\
  (forall c buf, p = V5Mod.Connect c -> blen (SpecV5.written p) <= max_len ->
     v5_write 5 p buf =
       (Ok (blen (SpecV5.written p)),
        overwrite (8 + blen (varint (blen (SpecV5.written p)))) (SpecV5.connect_flags c)
          (buf ++ frame 0x10 (SpecV5.connect_body_with (2 * bit (V5Connect.clean_session c)) c)))).
Proof.
  intros p Hm. split.
  - intros Hc. destruct (PropV5.C14_v5_append_except_connect p Hc) as (r & out & H). exists r, out. intros buf.
    rewrite PropSource.v5_write_src by (assumption || lia). apply H.
  - intros c buf -> Hl. rewrite PropSource.v5_write_src by (assumption || lia). apply PropV5.C14_v5_connect_exact, Hl.
Qed.
Theorem C15_source_size : 
  (forall p buf n buf', v4_memory p <= 2 ^ 63 -> v4_write 5 p buf = (Ok n, buf') ->
     blen buf' = blen buf + n + (if match p with V4Mod.Connect _ => true | _ => false end then 1 + blen (varint n) else 0)) /\
  (forall p buf n buf', v5_memory p <= 2 ^ 63 -> v5_write 5 p buf = (Ok n, buf') ->
     blen buf' = blen buf + n + (if match p with V5Mod.Connect _ => true | _ => false end then 1 + blen (varint n) else 0)).
Proof.
  split; intros p buf n buf' Hm H.
  - rewrite PropSource.v4_write_src in H by (assumption || lia).
    destruct p as [c|c|q|x|x|x|x|s|s|u|u| | |]; [apply PropV4.C15_v4_connect_exact in H as [_ H]; lia|..];
      apply PropV4.C15_v4_size_except_connect in H; try exact (fun x => x); lia.
  - rewrite PropSource.v5_write_src in H by (assumption || lia).
    destruct p as [c|c|q|x|x|x|x|s|s|u|u| | |d]; [apply PropV5.C15_v5_connect_exact in H as [_ H]; lia|..];
      apply PropV5.C15_v5_size_except_connect in H; try exact (fun x => x); lia.
Qed.
Theorem C16_source_v5_exact : forall fuel p buf, (5 <= fuel)%nat -> v5_memory p <= 2 ^ 63 ->
  (fst (v5_write fuel p buf) = Err PayloadTooLong <-> max_len < SpecV5.declared_len p \/ SpecV5.has_id p /\ ~ SpecV5.small_ids p) /\
  (fst (v5_write fuel p buf) = Err PacketIdZero <-> SpecV5.declared_len p <= max_len /\ ~ SpecV5.has_id p) /\
  ((exists n, fst (v5_write fuel p buf) = Ok n) <-> blen (SpecV5.written p) <= max_len /\ SpecV5.has_id p /\ SpecV5.small_ids p).
Proof.
  intros fuel p buf Hf Hm. rewrite PropSource.v5_write_src by assumption.
  destruct (PropV5.C16_v5_exact p buf) as (H1 & H2 & H3 & _). auto.
Qed.
Theorem C17_source_v4 : forall p buf e buf', v4_memory p <= 2 ^ 63 -> v4_write 5 p buf = (Err e, buf') ->
  (e = PayloadTooLong /\ max_len < SpecV4.declared_len p /\ buf' = buf ++ [SpecV4.first_byte p]) \/
  (e = PacketIdZero /\ ~ SpecV4.has_id p /\ buf' = buf ++ SpecV4.id_zero_output p).
Proof. intros p buf e buf' Hm H. rewrite PropSource.v4_write_src in H by (assumption || lia). apply PropV4.C17_v4_exact, H. Qed.
Theorem C17_source_v5 : forall p buf e buf', v5_memory p <= 2 ^ 63 -> v5_write 5 p buf = (Err e, buf') ->
  (e = PayloadTooLong /\ max_len < SpecV5.declared_len p /\ buf' = buf ++ [SpecV5.first_byte p]) \/
  (e = PacketIdZero /\ ~ SpecV5.has_id p /\ buf' = buf ++ SpecV5.id_zero_output p) \/
  (e = PayloadTooLong /\ ~ SpecV5.small_ids p /\ buf' = buf ++ SpecV5.big_id_output p).
Proof. intros p buf e buf' Hm H. rewrite PropSource.v5_write_src in H by (assumption || lia). apply PropV5.C17_v5_exact, H. Qed.

(** ** C58: one verdict per frame, defective ones included *)
Theorem C58_source_frames : forall frames chunks max,
  Forall (PropSession.complete_frame max) frames -> concat chunks = concat frames -> blen (concat chunks) < 2 ^ 63 ->
  receive v4_reads max false (Waiting, []) chunks = (map (fun x => fst (v4_reads x max)) frames, (Waiting, [])) /\
  receive v5_reads max true (Waiting, []) chunks = (map (fun x => fst (v5_reads x max)) frames, (Waiting, [])).
Proof.
  intros frames chunks max HF E Hl.
  assert (Hb : bytes_ok (concat frames)).
  { clear - HF. induction HF as [|x l [H _] _ IH]; [constructor|]. cbn [concat]. apply bytes_ok_app. auto. }
  assert (Hc : Forall bytes_ok chunks) by (apply concat_bytes_ok; rewrite E; exact Hb).
  assert (Hx : Forall (fun x => blen x < 2 ^ 63) frames).
  { clear - E Hl. rewrite E in Hl. clear E. revert Hl. induction frames as [|x l IH]; intros H; [constructor|].
    cbn [concat] in H. rewrite blen_app in H. constructor; [lia|apply IH; lia]. }
  rewrite v4_receive_eq, v5_receive_eq by assumption.
  rewrite (PropSession.C58_v4_frames_only frames chunks max HF E), (PropSession.C58_v5_frames_only frames chunks max HF E).
  split; f_equal; apply map_ext_in; intros x Hin; rewrite Forall_forall in Hx; specialize (Hx x Hin).
  - rewrite v4_reads_eq by exact Hx. reflexivity.
  - rewrite v5_reads_eq by exact Hx. reflexivity.
Qed.

(** cases *)
Example C22_source_case :
  let p := SampleV4.ex_publish in
  let w := snd (v4_write 5 p []) in
  receive v4_reads 1000 false (Waiting, []) [firstn 3 w; skipn 3 w ++ w; [0xC0]; [0]] = ([Ok p; Ok p; Ok V4Mod.PingReq], (Waiting, [])).
Proof. vm_compute. reflexivity. Qed.
Example C24_source_case :
  receive v4_reads 50 false (Waiting, []) [[0x40; 2; 0]; [7; 0x40]; [1; 7; 0xC0; 0; 0x30; 60; 1]]
  = ([Ok (V4Mod.PubAck (V4PubAck.mkPubAck 7)); Err MalformedPacket; Ok V4Mod.PingReq; Err (PayloadSizeLimitExceeded 60)],
     (Stopped, [0x30; 60; 1])).
Proof. vm_compute. reflexivity. Qed.
Example C58_source_case : Forall (PropSession.complete_frame 50) [[0x40; 2; 0; 7]; [0x40; 1; 9]; [0xC0; 0]].
Proof.
  repeat apply Forall_cons; [..|apply Forall_nil]; (split; [repeat constructor|]).
  - exists 0x40, [0; 7]. split; [|vm_compute; discriminate]. exists [2]. repeat split; [|vm_compute; discriminate]. apply (lf_last 2). reflexivity.
  - exists 0x40, [9]. split; [|vm_compute; discriminate]. exists [1]. repeat split; [|vm_compute; discriminate]. apply (lf_last 1). reflexivity.
  - exists 0xC0, []. split; [|vm_compute; discriminate]. exists [0]. repeat split; [|vm_compute; discriminate]. apply (lf_last 0). reflexivity.
Qed.
Print Assumptions C22_source_v4_reassembly.
Print Assumptions C23_source_v5_reassembly.
Print Assumptions C24_source_v4_chunking.
Print Assumptions C48_source_v5_chunking.
Print Assumptions C14_source_v4.
Print Assumptions C14_source_v5.
Print Assumptions C15_source_size.
Print Assumptions C16_source_v5_exact.
Print Assumptions C17_source_v4.
Print Assumptions C17_source_v5.
Print Assumptions C58_source_frames.

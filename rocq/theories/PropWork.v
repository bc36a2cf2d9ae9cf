(** PropWork.v -- C68: how often the loops of the Rust text (its translation Src*.v) run. *)
From Verif Require Import Base SpecWire SpecFrame SpecRelease ProofBase ProofLib ProofCheck ProofRelBase ProofSrcBase ProofSrcTop SpecSource.
From Verif Require V4Mod V5Mod SrcV4Mod SrcV5Mod PropV4 PropV5 PropRelease PropSource SampleV4 SampleV5.

(** [n] is more than the size of the frame at the front of [s], if there is a whole one within the limit *)
Definition rounds (s : bytes) (max : N) (n : nat) : Prop :=
  forall b1 bd rest, starts_with_frame s b1 bd rest -> blen bd <= max -> blen s - blen rest < N.of_nat n.

Lemma rounds_checked s max n : bytes_ok s -> rounds s max n ->
  forall fh k, Lib.check s max = Ok fh -> Lib.frame_length fh = Ok k -> k < N.of_nat n.
Proof.
  intros Hb H fh k Hc Hl. apply check_iff in Hc; [|exact Hb]. inversion Hc as [| | | | |b1 f m r Es Hf H4 Hm Hr Eh]; subst fh.
  unfold Lib.frame_length, usize_add in Hl. cbn [Lib.fixed_header_len Lib.remaining_len] in Hl.
  destruct (_ <=? _) in Hl; [|discriminate]. injection Hl as <-.
  pose proof (firstn_skipn (N.to_nat m) r) as E.
  assert (L : blen (firstn (N.to_nat m) r) = m) by (unfold blen in *; rewrite firstn_length; lia).
  specialize (H b1 (firstn (N.to_nat m) r) (skipn (N.to_nat m) r)).
  assert (S1 : starts_with_frame s b1 (firstn (N.to_nat m) r) (skipn (N.to_nat m) r)).
  { exists f. rewrite E, L. auto. }
  rewrite L in H. specialize (H S1 Hm).
  assert (L2 : blen s = 1 + blen f + (m + blen (skipn (N.to_nat m) r))).
  { rewrite Es, blen_cons, blen_app. rewrite <- E at 1. rewrite blen_app, L. lia. }
  lia.
Qed.

(** ** C68: reading *)
Theorem C68_v4_read_rounds : forall s max n, bytes_ok s -> blen s < 2 ^ 63 -> rounds s max n ->
  (exists p, fst (SrcV4Mod.read n max s) = Ok p) \/ (exists e, fst (SrcV4Mod.read n max s) = Err e).
Proof.
  intros s max n Hb Hs Hn. rewrite v4_read_rounds; [|apply rounds_checked; assumption|apply PropRelease.small_half, Hs].
  apply PropV4.C06_v4_total, Hb.
Qed.
Theorem C68_v5_read_rounds : forall s max n, bytes_ok s -> blen s < 2 ^ 63 -> rounds s max n ->
  (exists p, fst (SrcV5Mod.read n max s) = Ok p) \/ (exists e, fst (SrcV5Mod.read n max s) = Err e).
Proof.
  intros s max n Hb Hs Hn. rewrite v5_read_rounds; [|apply rounds_checked; assumption|apply PropRelease.small_half, Hs].
  apply PropV5.C07_v5_total, Hb.
Qed.
(** more rounds would change nothing *)
Theorem C68_rounds_enough : forall s max n m, bytes_ok s -> blen s < 2 ^ 63 -> rounds s max n -> (n <= m)%nat ->
  SrcV4Mod.read m max s = SrcV4Mod.read n max s /\ SrcV5Mod.read m max s = SrcV5Mod.read n max s.
Proof.
  intros s max n m Hb Hs Hn Hm. assert (Hh := PropRelease.small_half _ Hs).
  assert (Hn' : rounds s max m) by (intros b1 bd rest H1 H2; specialize (Hn b1 bd rest H1 H2); lia).
  rewrite !v4_read_rounds, !v5_read_rounds by (assumption || apply rounds_checked; assumption). auto.
Qed.
(** in particular: no loop runs while the frame is incomplete or too large, and with a size limit
    the number of rounds is bounded before the stream is known *)
Theorem C68_waiting : forall s max, bytes_ok s -> blen s < 2 ^ 63 ->
  (forall b1 bd rest, starts_with_frame s b1 bd rest -> max < blen bd) ->
  (exists e, SrcV4Mod.read 0 max s = (Err e, s)) /\ (exists e, SrcV5Mod.read 0 max s = (Err e, s)).
Proof.
  intros s max Hb Hs H. assert (Hh := PropRelease.small_half _ Hs).
  assert (Hn : rounds s max 0) by (intros b1 bd rest H1 H2; specialize (H b1 bd rest H1); lia).
  assert (Hc : exists e, Lib.check s max = Err e).
  { destruct (PropFrame.C02_check_total s max Hb) as [[h E]|E]; [|exact E]. exfalso.
    assert (V := proj1 (check_iff s max _ Hb) E). inversion V as [| | | | |b1 f m r Es Hf H4 Hm Hr Eh].
    assert (L : blen (firstn (N.to_nat m) r) = m) by (unfold blen in *; rewrite firstn_length; lia).
    specialize (H b1 (firstn (N.to_nat m) r) (skipn (N.to_nat m) r)). rewrite L in H.
    enough (max < m) by lia. apply H. exists f. rewrite firstn_skipn, L. auto. }
  destruct Hc as [e E].
  rewrite v4_read_rounds, v5_read_rounds by (assumption || apply rounds_checked; assumption).
  unfold V4Mod.read, V5Mod.read. rewrite E. split; eexists; reflexivity.
Qed.
Theorem C68_limit : forall s max n, bytes_ok s -> max + 5 < N.of_nat n -> rounds s max n.
Proof.
  intros s max n Hb Hn b1 bd rest (f & -> & Hf & H4) Hm. rewrite blen_cons, !blen_app. lia.
Qed.

(** ** C68: writing; the only loop writes the length fields, at most four rounds each *)
Theorem C68_v4_write_rounds : forall p buf, v4_memory p <= 2 ^ 63 ->
  ((exists n, fst (v4_write 5 p buf) = Ok n) \/ (exists e, fst (v4_write 5 p buf) = Err e)) /\
  forall n, (5 <= n)%nat -> v4_write n p buf = v4_write 5 p buf.
Proof.
  intros p buf Hm. split; [|intros n Hn; rewrite !PropSource.v4_write_src by (lia || assumption); reflexivity].
  rewrite PropSource.v4_write_src by (lia || assumption).
  destruct (PropV4.C16_v4_exact p buf) as (_ & _ & _ & [H|[H|H]]); [right; eauto|right; eauto|left; exact H].
Qed.
Theorem C68_v5_write_rounds : forall p buf, v5_memory p <= 2 ^ 63 ->
  ((exists n, fst (v5_write 5 p buf) = Ok n) \/ (exists e, fst (v5_write 5 p buf) = Err e)) /\
  forall n, (5 <= n)%nat -> v5_write n p buf = v5_write 5 p buf.
Proof.
  intros p buf Hm. split; [|intros n Hn; rewrite !PropSource.v5_write_src by (lia || assumption); reflexivity].
  rewrite PropSource.v5_write_src by (lia || assumption).
  destruct (PropV5.C16_v5_exact p buf) as (_ & _ & _ & [H|[H|H]]); [right; eauto|right; eauto|left; exact H].
Qed.

(** cases: a SUBSCRIBE frame of 9 bytes followed by a long tail needs at most 9 rounds; fewer than the
    one round its filter takes are noticed *)
Example C68_case :
  let s := [0x82; 6; 0; 1; 0; 1; 97; 0] ++ repeat 0 100 in
  rounds s 1000 9 /\ (exists p, fst (SrcV4Mod.read 9 1000 s) = Ok p) /\ fst (SrcV4Mod.read 0 1000 s) = Diverge /\
  SrcV4Mod.read 0 1000 [0x82; 6; 0; 1] = (Err (InsufficientBytes 4), [0x82; 6; 0; 1]) /\
  v4_memory SampleV4.ex_publish <= 2 ^ 63 /\ v5_memory SampleV5.ex_publish5 <= 2 ^ 63.
Proof.
  cbv zeta. split.
  - intros b1 bd rest (f & E & Hf & H4) Hm. 
    assert (F : f = [6]).
    { destruct f as [|x f]; [inversion Hf|]. injection E as <- E2 E. subst x. inversion Hf as [b Hlt|b l n Hlt Hl]; [reflexivity|exfalso; lia]. }
    subst f. assert (Hn : blen bd = 6) by (inversion Hf as [b Hlt|b l n Hlt Hl]; [reflexivity|exfalso; lia]).
    rewrite E. cbn [app]. rewrite !blen_cons, blen_app. lia.
  - vm_compute. split; [eexists; reflexivity|]. repeat split; discriminate.
Qed.
Print Assumptions C68_v4_read_rounds.
Print Assumptions C68_v5_read_rounds.
Print Assumptions C68_rounds_enough.
Print Assumptions C68_waiting.
Print Assumptions C68_limit.
Print Assumptions C68_v4_write_rounds.
Print Assumptions C68_v5_write_rounds.

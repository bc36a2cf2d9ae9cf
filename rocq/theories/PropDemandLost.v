(** PropDemandLost.v -- C77: exactly which MQTT 5 frames a receiver that fetches what `read` asks for loses, and how. *)
From Verif Require Import ProofBase Lib SpecFrame SpecStream SpecDemand SpecSource ProofLib ProofCheck ProofStream ProofDemand.
From Verif Require V5Mod ProofV5 PropV5 PropErrorsV5 PropSession PropDemand PropSourceDemand PropSourceStream PropSchedule.
Notation complete_frame := PropSession.complete_frame.
Notation ends_in_length := PropErrorsV5.ends_in_length.

(** the frames whose own answer is InsufficientBytes: those whose body ends inside a property length or a subscription
    identifier *)
Theorem C77_v5_lost_exact : forall x b1 bd max, bytes_ok x -> starts_with_frame x b1 bd [] -> blen bd <= max ->
  ((exists n, fst (V5Mod.read x max) = Err (InsufficientBytes n)) <-> ends_in_length b1 bd) /\
  (ends_in_length b1 bd -> V5Mod.read x max = (Err (InsufficientBytes 1), [])).
Proof.
  intros x b1 bd max Hb Hx Hm.
  assert (Hr : exists r, V5Mod.read x max = (r, [])).
  { destruct Hx as (f & -> & Hf & Hl). rewrite ProofV5.read_gread. eexists. apply g_frame; assumption. }
  assert (Hne : [] <> x) by (destruct Hx as (f & -> & _); discriminate).
  assert (E : (exists n, V5Mod.read x max = (Err (InsufficientBytes n), [])) <-> ends_in_length b1 bd).
  { pose proof (PropErrorsV5.C11_v5_consumed_exact x max [] Hb) as C. split.
    - intros H. destruct (proj1 C (conj H Hne)) as (b1' & bd' & (f' & E & Hf' & _) & _ & He).
      destruct Hx as (f & E2 & Hf & _). rewrite E in E2. injection E2 as <- E2.
      destruct (PropSchedule.same_parts _ _ _ _ _ _ E2 Hf' Hf) as (_ & -> & _). exact He.
    - intros He. apply (proj2 C). exists b1, bd. auto. }
  destruct Hr as [r Hr]. rewrite Hr in *. cbn [fst]. split.
  - rewrite <- E. split; intros [n H]; exists n; [rewrite H; reflexivity|injection H as ->; reflexivity].
  - intros He. destruct (proj2 E He) as [n H]. rewrite H. injection H as H.
    destruct (PropV5.C11_v5_insufficient_exact x max n [] Hb) as [[H' _]|[-> _]]; [rewrite Hr, H; reflexivity|contradiction|reflexivity].
Qed.

Local Lemma lost_step x rest max calls : complete_frame max x -> bytes_ok rest -> V5Mod.read x max = (Err (InsufficientBytes 1), []) -> (6 <= calls)%nat ->
  exists k, (calls <= k + 6)%nat /\ (k <= calls)%nat /\
    pull V5Mod.read max calls [] (x ++ rest) = if blen rest <? 1 then Blocks 1 [] rest else pull V5Mod.read max k (firstn 1 rest) (skipn 1 rest).
Proof.
  intros [Hb (b1 & bd & (f & Hx & Hf & Hl) & Hm)] Hr Hrd Hc. rewrite app_nil_r in Hx. subst x.
  assert (Hbf : bytes_ok (b1 :: f)) by (change (b1 :: f ++ bd) with ((b1 :: f) ++ bd) in Hb; apply bytes_ok_app in Hb; apply Hb).
  change V5Mod.read with (gread V5Mod.read_frame) in *.
  assert (E : (b1 :: f ++ bd) ++ rest = b1 :: f ++ (bd ++ rest)) by (cbn [app]; rewrite <- app_assoc; reflexivity). rewrite E.
  assert (Hlf : (List.length f <= 4)%nat) by (unfold blen in Hl; lia).
  assert (Step : forall k, pull (gread V5Mod.read_frame) max (S k) (b1 :: f ++ bd) rest =
    if blen rest <? 1 then Blocks 1 [] rest else pull (gread V5Mod.read_frame) max k (firstn 1 rest) (skipn 1 rest)).
  { intros k. cbn [pull]. rewrite Hrd. cbn [app]. reflexivity. }
  destruct bd as [|y bd].
  - exists (calls - List.length f - 1)%nat. split; [lia|]. split; [lia|].
    replace calls with (List.length f + S (calls - List.length f - 1))%nat at 1 by lia.
    rewrite (pull_header V5Mod.read_frame max b1 f 0 _ _ Hbf Hf Hl). cbn [app]. rewrite app_nil_r in Step. apply Step.
  - exists (calls - List.length f - 2)%nat. split; [lia|]. split; [lia|].
    replace calls with (List.length f + S (S (calls - List.length f - 2)))%nat at 1 by lia.
    rewrite (pull_header V5Mod.read_frame max b1 f (blen (y :: bd)) _ _ Hbf Hf Hl).
    rewrite (pull_take V5Mod.read_frame max _ (b1 :: f) ((y :: bd) ++ rest) (blen (y :: bd)) (y :: bd) rest); [|apply check_iff; [exact Hbf|]|reflexivity|reflexivity].
    + apply Step.
    + assert (V := v_partial (b1 :: f) max b1 f (blen (y :: bd)) []). rewrite app_nil_r in V.
      change (@blen N []) with 0 in V. rewrite N.sub_0_r in V. apply V; [reflexivity|exact Hf|exact Hl|exact Hm|autorewrite with blen; lia].
Qed.
(** if nothing follows, the receiver waits for one byte more, with an empty buffer *)
Theorem C77_v5_lost_waits : forall x b1 bd max calls, bytes_ok x -> starts_with_frame x b1 bd [] -> blen bd <= max ->
  ends_in_length b1 bd -> (6 <= calls)%nat ->
  pull V5Mod.read max calls [] x = Blocks 1 [] [].
Proof.
  intros x b1 bd max calls Hb Hx Hm He Hc.
  destruct (C77_v5_lost_exact x b1 bd max Hb Hx Hm) as [_ Hr]. specialize (Hr He).
  assert (HF : complete_frame max x) by (split; [exact Hb|]; exists b1, bd; auto).
  destruct (lost_step x [] max calls HF bytes_ok_nil Hr Hc) as (k & _ & _ & E). rewrite app_nil_r in E. rewrite E. reflexivity.
Qed.
(** if another frame follows, its answer is returned in place of an error for the first: the first one is gone *)
Theorem C77_v5_lost_silently : forall x b1 bd y rest max calls, bytes_ok x -> starts_with_frame x b1 bd [] -> blen bd <= max ->
  ends_in_length b1 bd -> complete_frame max y -> (forall n, fst (V5Mod.read y max) <> Err (InsufficientBytes n)) -> bytes_ok rest ->
  (12 <= calls)%nat ->
  pull V5Mod.read max calls [] (x ++ y ++ rest) = Got (fst (V5Mod.read y max)) [] rest.
Proof.
  intros x b1 bd y rest max calls Hb Hx Hm He Hy Hn Hr Hc.
  destruct (C77_v5_lost_exact x b1 bd max Hb Hx Hm) as [_ Hrd]. specialize (Hrd He).
  assert (HF : complete_frame max x) by (split; [exact Hb|]; exists b1, bd; auto).
  assert (Hyr : bytes_ok (y ++ rest)) by (apply bytes_ok_app; split; [apply Hy|exact Hr]).
  destruct (lost_step x (y ++ rest) max calls HF Hyr Hrd ltac:(lia)) as (k & Hk & _ & E). rewrite E.
  rewrite <- (PropDemand.C77_v5_takes_one_frame y rest max k Hy Hr Hn) by lia.
  destruct Hy as [_ (b1' & bd' & (f' & Ey & Hf' & _) & _)]. rewrite app_nil_r in Ey.
  destruct f' as [|z f']; [inversion Hf'|]. rewrite Ey. cbn [app].
  replace (blen (b1' :: z :: (f' ++ bd') ++ rest) <? 1) with false by (autorewrite with blen; lia).
  cbn [firstn skipn]. destruct k as [|k]; [lia|].
  assert (Hz : bytes_ok [b1']).
  { rewrite Ey in Hyr. cbn [app] in Hyr. apply bytes_ok_cons in Hyr as [H _]. constructor; [exact H|constructor]. }
  change V5Mod.read with (gread V5Mod.read_frame).
  rewrite (pull_take V5Mod.read_frame max k [b1'] _ 1 [z] ((f' ++ bd') ++ rest)); [|apply check_tiny; [exact Hz|reflexivity]|reflexivity|reflexivity].
  rewrite (pull_take V5Mod.read_frame max k [] _ 2 [b1'; z] ((f' ++ bd') ++ rest)); reflexivity.
Qed.
(** the same about the Rust text *)
Theorem C77_source_v5_lost : forall x b1 bd y rest max calls, bytes_ok x -> starts_with_frame x b1 bd [] -> blen bd <= max ->
  ends_in_length b1 bd -> (12 <= calls)%nat -> blen (x ++ y ++ rest) < 2 ^ 63 ->
  pull v5_reads max calls [] x = Blocks 1 [] [] /\
  (complete_frame max y -> (forall n, fst (v5_reads y max) <> Err (InsufficientBytes n)) -> bytes_ok rest ->
   pull v5_reads max calls [] (x ++ y ++ rest) = Got (fst (v5_reads y max)) [] rest).
Proof.
  intros x b1 bd y rest max calls Hb Hx Hm He Hc Hl. assert (Hl2 := Hl). rewrite !blen_app in Hl2. split.
  - rewrite PropSourceDemand.v5_pull_eq by (try assumption; lia). apply (C77_v5_lost_waits x b1 bd); try assumption. lia.
  - intros Hy Hn Hr. assert (Ey := PropSourceStream.v5_reads_eq y max ltac:(lia)). rewrite Ey in *.
    rewrite PropSourceDemand.v5_pull_eq; [apply (C77_v5_lost_silently x b1 bd); assumption| |exact Hl].
    apply bytes_ok_app. split; [exact Hb|]. apply bytes_ok_app. split; [apply Hy|exact Hr].
Qed.
(** the CONNACK without properties, and a PUBLISH cut inside a subscription identifier *)
Example C77_v5_lost_case :
  ends_in_length 0x20 [0; 0] /\ starts_with_frame [0x20; 2; 0; 0] 0x20 [0; 0] [] /\
  pull V5Mod.read 100 12 [] ([0x20; 2; 0; 0] ++ [0xD0; 0] ++ [1]) = Got (Ok V5Mod.PingResp) [] [1] /\
  ends_in_length 0x30 [0; 1; 97; 2; 11; 0x80] /\
  pull V5Mod.read 100 12 [] ([0x30; 6; 0; 1; 97; 2; 11; 0x80] ++ [0xD0; 0] ++ [1]) = Got (Ok V5Mod.PingResp) [] [1].
Proof.
  split; [apply PropErrorsV5.C11_v5_consumed_case|]. split.
  { exists [2]. split; [reflexivity|]. split; [apply lf_last; reflexivity|cbv; discriminate]. }
  split; [vm_compute; reflexivity|]. split; [apply PropErrorsV5.C11_v5_consumed_case|vm_compute; reflexivity].
Qed.

Print Assumptions C77_v5_lost_exact.
Print Assumptions C77_v5_lost_waits.
Print Assumptions C77_v5_lost_silently.
Print Assumptions C77_source_v5_lost.

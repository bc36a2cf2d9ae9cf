(** PropDemandPeer4.v -- C77: a receiver that fetches what `read` asks for, at the other end of the crate's own writer and
    of a peer that keeps to MQTT 3.1.1. *)
From Verif Require Import Base Lib SpecWire SpecV4 SpecDemand SpecStd311 SpecForward4 ProofBase ProofLib ProofV4 SpecSource ProofSrcBase.
From Verif Require V4Mod PropV4 PropStandard PropSession PropDemand PropSourceDemand SampleV4 V4Subscribe.

(** the packets a user of the crate wrote arrive as they are, and the receiver then waits for the next one *)
Theorem C77_v4_packets : forall ps max calls packets,
  Forall (fun p => fits p /\ has_payload p /\ canonical p /\ blen (body p) <= max) ps -> (6 <= calls)%nat ->
  pull_all V4Mod.read max (List.length ps + S packets) calls [] (flat_map (fun p => snd (V4Mod.write p [])) ps) =
    (map Ok ps, Blocks 2 [] []).
Proof.
  intros ps max calls packets HF Hc.
  assert (E : flat_map (fun p => snd (V4Mod.write p [])) ps = concat (map wire ps) ++ []).
  { rewrite app_nil_r. clear - HF. induction HF as [|p l (Hf & _) _ IH]; [reflexivity|]. cbn [flat_map map concat]. rewrite IH. f_equal.
    destruct (PropV4.C12_v4_encoding p Hf) as [n Hn]. rewrite Hn. reflexivity. }
  assert (HX : Forall (PropSession.complete_frame max) (map wire ps)).
  { clear - HF. induction HF as [|p l (Hf & _ & _ & Hm) _ IH]; [constructor|]. cbn [map]. constructor; [|exact IH].
    split; [apply wire_bytes, Hf|]. exists (first_byte p), (body p). split; [|exact Hm].
    exists (varint (blen (body p))). rewrite app_nil_r. split; [reflexivity|]. split; [apply lenfield_varint, Hf|apply varint_len_bound]. }
  rewrite E. pose proof (PropDemand.C77_v4_connection (map wire ps) [] (S packets) max calls HX bytes_ok_nil Hc) as H.
  rewrite map_length in H.
  assert (Et : pull_all V4Mod.read max (S packets) calls [] [] = ([], Blocks 2 [] [])).
  { destruct calls as [|k]; [lia|reflexivity]. }
  rewrite Et in H. rewrite H, app_nil_r. f_equal. clear - HF.
  induction HF as [|p l (Hf & Hp & Hcn & Hm) _ IH]; [reflexivity|]. cbn [map]. rewrite IH. f_equal.
  pose proof (read_wire p [] max Hf Hp bytes_ok_nil Hm) as Hr. rewrite app_nil_r in Hr. rewrite Hr. cbn [fst].
  rewrite canonical_canon by exact Hcn. reflexivity.
Qed.
(** the messages of a peer that keeps to the standard, with any legal length field *)
Theorem C77_v4_conversation : forall ms xs max calls packets, Forall2 sent_as ms xs -> Forall conforms ms -> Forall text_password ms ->
  Forall (fun m => blen (content m) <= max) ms -> (6 <= calls)%nat ->
  pull_all V4Mod.read max (List.length ms + S packets) calls [] (concat xs) = (map (fun m => Ok (as_packet m)) ms, Blocks 2 [] []).
Proof.
  intros ms xs max calls packets HX HC HP HL Hc.
  assert (HF : Forall (PropSession.complete_frame max) xs).
  { clear HC HP. induction HX as [|m x ms xs [Hb Hs] HX IH]; [constructor|]. apply Forall_cons_iff in HL as [Hl HL].
    constructor; [|auto]. split; [exact Hb|]. exists (header_byte m), (content m). auto. }
  pose proof (PropDemand.C77_v4_connection xs [] (S packets) max calls HF bytes_ok_nil Hc) as H.
  assert (Et : pull_all V4Mod.read max (S packets) calls [] [] = ([], Blocks 2 [] [])) by (destruct calls as [|k]; [lia|reflexivity]).
  assert (El : List.length ms = List.length xs) by (clear - HX; induction HX; cbn [List.length]; congruence).
  rewrite Et, !app_nil_r in H. rewrite El, H. f_equal. clear H El HF.
  induction HX as [|m x ms xs [Hb Hs] HX IH]; [reflexivity|].
  apply Forall_cons_iff in HC as [Hc' HC]. apply Forall_cons_iff in HP as [Hp HP]. apply Forall_cons_iff in HL as [Hl HL].
  cbn [map]. rewrite (IH HC HP HL). rewrite (PropStandard.C60_v4_standard_accepted m x [] max Hb Hc' Hs Hl Hp). reflexivity.
Qed.
(** the same about the Rust text *)
Theorem C77_source_v4_conversation : forall ms xs max calls packets, Forall2 sent_as ms xs -> Forall conforms ms -> Forall text_password ms ->
  Forall (fun m => blen (content m) <= max) ms -> blen (concat xs) < 2 ^ 63 -> (6 <= calls)%nat ->
  pull_all v4_reads max (List.length ms + S packets) calls [] (concat xs) = (map (fun m => Ok (as_packet m)) ms, Blocks 2 [] []).
Proof.
  intros ms xs max calls packets HX HC HP HL Hs Hc. rewrite PropSourceDemand.v4_pull_all_eq; [apply C77_v4_conversation; assumption| |exact Hs].
  clear - HX. induction HX as [|m x ms xs [Hb _] _ IH]; [constructor|]. cbn [concat]. apply bytes_ok_app. auto.
Qed.
Example C77_v4_packets_case :
  Forall (fun p => fits p /\ has_payload p /\ canonical p /\ blen (body p) <= 100) [SampleV4.ex_connect; V4Mod.PingReq; SampleV4.ex_connect] /\
  pull_all V4Mod.read 100 4 6 [] (flat_map (fun p => snd (V4Mod.write p [])) [SampleV4.ex_connect; V4Mod.PingReq; SampleV4.ex_connect]) =
    (map Ok [SampleV4.ex_connect; V4Mod.PingReq; SampleV4.ex_connect], Blocks 2 [] []).
Proof.
  split; [|vm_compute; reflexivity].
  assert (H : fits SampleV4.ex_connect /\ has_payload SampleV4.ex_connect /\ canonical SampleV4.ex_connect /\ blen (body SampleV4.ex_connect) <= 100).
  { split; [apply SampleV4.ex_connect_fits|]. split; [exact I|]. split; [apply PropV4.C18_v4_case|cbv; discriminate]. }
  constructor; [exact H|]. constructor; [|constructor; [exact H|constructor]].
  repeat split; cbv; discriminate.
Qed.
Example C77_v4_conversation_case :
  let ms := [M_PINGREQ; M_PUBACK 7] in let xs := [[0xC0; 0x80; 0]; [0x40; 2; 0; 7]] in
  Forall2 sent_as ms xs /\ pull_all V4Mod.read 100 3 6 [] (concat xs) = (map (fun m => Ok (as_packet m)) ms, Blocks 2 [] []).
Proof.
  cbv zeta. split; [|vm_compute; reflexivity].
  constructor; [|constructor; [|constructor]].
  - split; [repeat constructor; lia|]. exists [0x80; 0]. split; [reflexivity|]. split; [|cbv; discriminate].
    apply (lf_more 0 [0] 0); [lia|apply lf_last; lia].
  - split; [repeat constructor; lia|]. exists [2]. split; [reflexivity|]. split; [apply lf_last; reflexivity|cbv; discriminate].
Qed.

Print Assumptions C77_v4_packets.
Print Assumptions C77_v4_conversation.
Print Assumptions C77_source_v4_conversation.

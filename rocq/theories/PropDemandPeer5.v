(** PropDemandPeer5.v -- C77: a receiver that fetches what `read` asks for, at the other end of the crate's own writer and
    of a peer that keeps to MQTT 5. *)
From Verif Require Import Base Lib SpecWire SpecV5 SpecDemand SpecStd5 SpecStd5Mean ProofBase ProofLib ProofV5 SpecSource ProofSrcBase.
From Verif Require V5Mod PropV5 PropStandard5 PropSession PropDemand PropSourceDemand PropConverse5 SampleV5 V5PubAck V5ConnAck.
Notation understood := PropConverse5.understood.

(** the packets a user of the crate wrote arrive as they are, and the receiver then waits for the next one *)
Theorem C77_v5_packets : forall ps max calls packets,
  Forall (fun p => fits p /\ readable p /\ canonical p /\ blen (written p) <= max) ps -> (6 <= calls)%nat ->
  pull_all V5Mod.read max (List.length ps + S packets) calls [] (flat_map (fun p => snd (V5Mod.write p [])) ps) =
    (map Ok ps, Blocks 2 [] []).
Proof.
  intros ps max calls packets HF Hc.
  assert (E : flat_map (fun p => snd (V5Mod.write p [])) ps = concat (map written_wire ps) ++ []).
  { rewrite app_nil_r. clear - HF. induction HF as [|p l (Hf & _) _ IH]; [reflexivity|]. cbn [flat_map map concat]. rewrite IH. f_equal.
    destruct (write_fits p Hf) as [n Hn]. rewrite Hn. reflexivity. }
  assert (HX : Forall (PropSession.complete_frame max) (map written_wire ps)).
  { clear - HF. induction HF as [|p l (Hf & _ & _ & Hm) _ IH]; [constructor|]. cbn [map]. constructor; [|exact IH].
    split; [apply wire_bytes, Hf|]. exists (first_byte p), (written p). split; [|exact Hm].
    exists (varint (blen (written p))). rewrite app_nil_r. split; [reflexivity|]. split; [apply lenfield_varint, Hf|apply varint_len_bound]. }
  assert (HR : map (fun x => fst (V5Mod.read x max)) (map written_wire ps) = map Ok ps).
  { clear - HF. induction HF as [|p l (Hf & Hp & Hcn & Hm) _ IH]; [reflexivity|]. cbn [map]. rewrite IH. f_equal.
    pose proof (read_wire p [] max Hf Hp bytes_ok_nil Hm) as Hr. rewrite app_nil_r in Hr. rewrite Hr. cbn [fst].
    rewrite Hcn. reflexivity. }
  assert (HN : Forall (fun x => forall n, fst (V5Mod.read x max) <> Err (InsufficientBytes n)) (map written_wire ps)).
  { apply Forall_forall. intros x Hx n Hn. apply (in_map (fun x => fst (V5Mod.read x max))) in Hx. rewrite HR, Hn in Hx.
    apply in_map_iff in Hx as (q & Hq & _). discriminate. }
  rewrite E. pose proof (PropDemand.C77_v5_connection (map written_wire ps) [] (S packets) max calls HX HN bytes_ok_nil Hc) as H.
  assert (Et : pull_all V5Mod.read max (S packets) calls [] [] = ([], Blocks 2 [] [])) by (destruct calls as [|k]; [lia|reflexivity]).
  rewrite map_length, Et in H. rewrite H, app_nil_r, HR. reflexivity.
Qed.
(** the messages of a peer that keeps to the standard, with any legal length field *)
Theorem C77_v5_conversation : forall ms xs max calls packets, Forall2 sent_as ms xs -> Forall conforms ms -> Forall understood ms ->
  Forall (fun m => blen (content m) <= max) ms -> (6 <= calls)%nat ->
  exists ps, Forall2 (fun m p => as_packet m = Some p) ms ps /\
    pull_all V5Mod.read max (List.length ms + S packets) calls [] (concat xs) = (map Ok ps, Blocks 2 [] []).
Proof.
  intros ms xs max calls packets HX HC HP HL Hc.
  assert (K : exists ps, Forall2 (fun m p => as_packet m = Some p) ms ps /\ map (fun x => fst (V5Mod.read x max)) xs = map Ok ps).
  { induction HX as [|m x ms xs [Hb Hs] HX IH]; [exists []; split; constructor|].
    apply Forall_cons_iff in HC as [Hc' HC]. apply Forall_cons_iff in HP as [[Hp Hp'] HP]. apply Forall_cons_iff in HL as [Hl HL].
    destruct (IH HC HP HL) as (ps & F & M).
    destruct (PropStandard5.C62_v5_standard_accepted m x [] max Hb Hc' Hs Hl Hp Hp') as (p & Ep & R).
    exists (p :: ps). split; [constructor; assumption|]. cbn [map]. rewrite R, M. reflexivity. }
  destruct K as (ps & F & HR). exists ps. split; [exact F|].
  assert (HF : Forall (PropSession.complete_frame max) xs).
  { clear - HX HL. induction HX as [|m x ms xs [Hb Hs] HX IH]; [constructor|]. apply Forall_cons_iff in HL as [Hl HL].
    constructor; [|auto]. split; [exact Hb|]. exists (header_byte m), (content m). auto. }
  assert (HN : Forall (fun x => forall n, fst (V5Mod.read x max) <> Err (InsufficientBytes n)) xs).
  { apply Forall_forall. intros x Hx n Hn. apply (in_map (fun x => fst (V5Mod.read x max))) in Hx. rewrite HR, Hn in Hx.
    apply in_map_iff in Hx as (q & Hq & _). discriminate. }
  pose proof (PropDemand.C77_v5_connection xs [] (S packets) max calls HF HN bytes_ok_nil Hc) as H.
  assert (Et : pull_all V5Mod.read max (S packets) calls [] [] = ([], Blocks 2 [] [])) by (destruct calls as [|k]; [lia|reflexivity]).
  assert (El : List.length ms = List.length xs) by (clear - HX; induction HX; cbn [List.length]; congruence).
  rewrite Et, !app_nil_r in H. rewrite El, H, HR. reflexivity.
Qed.
(** the same about the Rust text *)
Theorem C77_source_v5_conversation : forall ms xs max calls packets, Forall2 sent_as ms xs -> Forall conforms ms -> Forall understood ms ->
  Forall (fun m => blen (content m) <= max) ms -> blen (concat xs) < 2 ^ 63 -> (6 <= calls)%nat ->
  exists ps, Forall2 (fun m p => as_packet m = Some p) ms ps /\
    pull_all v5_reads max (List.length ms + S packets) calls [] (concat xs) = (map Ok ps, Blocks 2 [] []).
Proof.
  intros ms xs max calls packets HX HC HP HL Hs Hc. rewrite PropSourceDemand.v5_pull_all_eq; [apply C77_v5_conversation; assumption| |exact Hs].
  clear - HX. induction HX as [|m x ms xs [Hb _] _ IH]; [constructor|]. cbn [concat]. apply bytes_ok_app. auto.
Qed.
Example C77_v5_conversation_case :
  let ms := [M_PINGREQ; M_PUBACK 7 (CodeProps V5PubAck.Success [])] in let xs := [[0xC0; 0x80; 0]; [0x40; 4; 0; 7; 0; 0]] in
  Forall2 sent_as ms xs /\ Forall conforms ms /\ Forall understood ms /\
  exists ps, pull_all V5Mod.read 100 3 6 [] (concat xs) = (map Ok ps, Blocks 2 [] []).
Proof.
  cbv zeta. split; [|split; [|split]].
  - constructor; [|constructor; [|constructor]].
    + split; [repeat constructor; lia|]. exists [0x80; 0]. split; [reflexivity|]. split; [|cbv; discriminate].
      apply (lf_more 0 [0] 0); [lia|apply lf_last; lia].
    + split; [repeat constructor; lia|]. exists [4]. split; [reflexivity|]. split; [apply lf_last; reflexivity|cbv; discriminate].
  - constructor; [exact I|]. constructor; [|constructor]. cbn [conforms ending_ok]. split; [split; cbv; reflexivity|].
    split; [constructor|]. split; [intros id a b c E; destruct a; discriminate E|intros []].
  - constructor; [|constructor; [|constructor]]; (split; [intros e H; inversion H|]; intros (pre & x & E & _); cbn [message_props] in E; destruct pre; discriminate E).
  - exists [V5Mod.PingReq; V5Mod.PubAck (V5PubAck.mkPubAck 7 V5PubAck.Success None)]. vm_compute. reflexivity.
Qed.

Print Assumptions C77_v5_packets.
Print Assumptions C77_v5_conversation.
Print Assumptions C77_source_v5_conversation.

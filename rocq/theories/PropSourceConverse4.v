(** PropSourceConverse4.v -- C75 said of the Rust text of the MQTT 3.1.1 module ([v4_reads], [v4_write], SpecSource.v). *)
From Verif Require Import Base Lib SpecWire SpecTopic SpecV4 SpecStream SpecSession SpecStd311 SpecForward4 ProofBase ProofLib SpecSource PropSourceStream ProofSrcFits.
From Verif Require V4Mod PropSource ProofV4 PropSourceRest PropStandard PropConverse4.

Local Lemma wsrc p buf : fits p -> v4_write 5 p buf = V4Mod.write p buf.
Proof. intros H. apply PropSource.v4_write_src; [lia|apply fits4, H]. Qed.
Local Lemma sent_bytes ms xs : Forall2 sent_as ms xs -> bytes_ok (concat xs).
Proof.
  induction 1 as [|m x ms xs [Hb _] _ IH]; [constructor|]. cbn [concat]. apply bytes_ok_app. auto.
Qed.

Theorem C75_source_v4_conversation : forall ms xs chunks max, Forall2 sent_as ms xs -> Forall conforms ms -> Forall text_password ms ->
  Forall (fun m => blen (content m) <= max) ms -> concat chunks = concat xs -> blen (concat chunks) < 2 ^ 63 ->
  receive v4_reads max false (Waiting, []) chunks = (map (fun m => Ok (as_packet m)) ms, (Waiting, [])).
Proof.
  intros ms xs chunks max HX HC HP HL E Hl.
  rewrite v4_receive_eq by (try apply concat_bytes_ok; try rewrite E; try rewrite E in Hl; try assumption; eapply sent_bytes, HX).
  apply (PropConverse4.C75_v4_conversation ms xs chunks max HX HC HP HL E).
Qed.

Theorem C75_source_v4_relay : forall m ms xs chunks max first ops, Forall2 sent_as (m :: ms) xs -> Forall conforms (m :: ms) ->
  Forall text_password (m :: ms) -> Forall (fun m => blen (content m) <= max) (m :: ms) ->
  Forall (fun m => ~ nameless m) (m :: ms) -> Forall (fun m => header_byte m <> 0x10) ms ->
  concat chunks = concat xs -> blen (concat chunks) < 2 ^ 63 ->
  fst (receive v4_reads max false (Waiting, []) chunks) = map Ok (first :: packets ops) ->
  let s := run (v4_write 5) (Send first :: ops) in
  transport s ++ buffer s = flat_map (fun m => frame (header_byte (relayed m)) (content (relayed m))) (m :: ms) /\
  (forall chunks', buffer s = [] -> Forall bytes_ok chunks' -> concat chunks' = transport s -> blen (concat chunks') < 2 ^ 63 ->
     receive v4_reads max false (Waiting, []) chunks' = receive v4_reads max false (Waiting, []) chunks).
Proof.
  intros m ms xs chunks max first ops HX HC HP HL HN H1 E Hl HR.
  assert (Hb : Forall bytes_ok chunks) by (apply concat_bytes_ok; rewrite E; eapply sent_bytes, HX).
  rewrite v4_receive_eq in * by assumption.
  assert (Hf : forall p, In p (first :: packets ops) -> fits p).
  { rewrite (PropConverse4.C75_v4_conversation (m :: ms) xs chunks max HX HC HP HL E) in HR. cbn [fst] in HR.
    intros p Hp. assert (Hi : In (Ok p) (map (fun m => Ok (as_packet m)) (m :: ms))) by (rewrite HR; apply in_map, Hp).
    apply in_map_iff in Hi as (x & Ex & Hx). injection Ex as <-.
    assert (G : exists y, sent_as x y).
    { clear - HX Hx. induction HX as [|a b l l' Hab _ IH]; [destruct Hx|]. destruct Hx as [<-|Hx]; [exists b; exact Hab|auto]. }
    destruct G as (y & Hy & Hs). rewrite Forall_forall in HC, HP, HL.
    assert (R := PropStandard.C60_v4_standard_accepted x y [] max Hy (HC x Hx) Hs (HL x Hx) (HP x Hx)).
    apply (ProofV4.read_well_formed y max _ [] Hy R). }
  assert (W : forall p, In p (first :: packets ops) -> forall buf, v4_write 5 p buf = V4Mod.write p buf) by (intros p Hp buf; apply wsrc, Hf, Hp).
  cbv zeta. rewrite (PropSourceRest.run_same _ V4Mod.write) by exact W.
  destruct (PropConverse4.C75_v4_relay m ms xs chunks max first ops HX HC HP HL HN H1 E HR) as [A B].
  split; [exact A|]. intros chunks' Eb Hb' Ec Hl'. rewrite v4_receive_eq by assumption. exact (B chunks' Eb Ec).
Qed.
(** the conversation of C75_v4_case *)
Example C75_source_v4_case :
  let m := M_CONNECT true 60 [99] None (Some [117]) (Some []) in
  let xs := [0x10 :: 18 :: content m; [0x82; 6; 0; 1; 0; 1; 116; 1]; [0x31; 0x84; 0; 0; 1; 116; 9]] in
  let chunks := [firstn 7 (concat xs); []; skipn 7 (concat xs)] in
  exists first p q, receive v4_reads 50 false (Waiting, []) chunks = ([Ok first; Ok p; Ok q], (Waiting, [])) /\
    let s := run (v4_write 5) (Send first :: [Flush 3; Send p; Flush 2; Send q; Flush 99]) in
    buffer s = [] /\
    transport s = [0x10; 16; 0; 4; 77; 81; 84; 84; 4; 0x82; 0; 60; 0; 1; 99; 0; 1; 117; 0x82; 6; 0; 1; 0; 1; 116; 1; 0x31; 4; 0; 1; 116; 9].
Proof. cbv zeta. do 3 eexists. split; [vm_compute; reflexivity|]. split; vm_compute; reflexivity. Qed.
Print Assumptions C75_source_v4_conversation.
Print Assumptions C75_source_v4_relay.

(** PropSourceConverse5.v -- C75 said of the Rust text of the MQTT 5 module ([v5_reads], [v5_write], SpecSource.v). *)
From Verif Require Import Base Lib SpecWire SpecTopic SpecProps SpecV5 SpecStream SpecSession SpecStd5 SpecStd5Mean ProofBase ProofLib SpecSource PropSourceStream ProofSrcFits.
From Verif Require V5Mod PropSource PropStandard5 PropForward5 PropSourceRest PropConverse5.
Notation understood := PropConverse5.understood.

Local Lemma wsrc p buf : fits p -> v5_write 5 p buf = V5Mod.write p buf.
Proof. intros H. apply PropSource.v5_write_src; [lia|apply fits5, H]. Qed.
Local Lemma sent_bytes ms xs : Forall2 sent_as ms xs -> bytes_ok (concat xs).
Proof.
  induction 1 as [|m x ms xs [Hb _] _ IH]; [constructor|]. cbn [concat]. apply bytes_ok_app. auto.
Qed.

Theorem C75_source_v5_conversation : forall ms xs chunks max careful, Forall2 sent_as ms xs -> Forall conforms ms -> Forall understood ms ->
  Forall (fun m => blen (content m) <= max) ms -> concat chunks = concat xs -> blen (concat chunks) < 2 ^ 63 ->
  exists ps, Forall2 (fun m p => as_packet m = Some p) ms ps /\
    receive v5_reads max careful (Waiting, []) chunks = (map Ok ps, (Waiting, [])).
Proof.
  intros ms xs chunks max careful HX HC HP HL E Hl.
  rewrite v5_receive_eq by (try apply concat_bytes_ok; try rewrite E; try rewrite E in Hl; try assumption; eapply sent_bytes, HX).
  apply (PropConverse5.C75_v5_conversation ms xs chunks max careful HX HC HP HL E).
Qed.

Local Lemma received_fit ms xs chunks max careful l : Forall2 sent_as ms xs -> Forall conforms ms -> Forall understood ms ->
  Forall (fun m => blen (content m) <= max) ms -> concat chunks = concat xs ->
  fst (receive V5Mod.read max careful (Waiting, []) chunks) = map Ok l -> forall p, In p l -> fits p.
Proof.
  intros HX HC HP HL E HR.
  destruct (PropConverse5.C75_v5_conversation ms xs chunks max careful HX HC HP HL E) as (ps & F & R).
  rewrite R in HR. cbn [fst] in HR.
  intros p Hp. assert (Hi : In p ps).
  { assert (Hi : In (Ok p) (map (@Ok V5Mod.Packet) ps)) by (rewrite HR; apply in_map, Hp). apply in_map_iff in Hi as (x & Ex & Hx). injection Ex as <-. exact Hx. }
  clear - Hi F HX HC HP HL. revert xs HX HC HP HL. induction F as [|x p' l l' Ep F IH]; intros xs HX HC HP HL; [destruct Hi|].
  inversion HX as [|? y ? ys [Hy Hs] HX']; subst.
  apply Forall_cons_iff in HC as [Hc HC]. apply Forall_cons_iff in HP as [Hq HP]. apply Forall_cons_iff in HL as [Hl HL].
  destruct Hi as [->|Hi]; [|eapply IH; eassumption]. destruct Hq as [Hu Hr].
  destruct (PropStandard5.C62_v5_standard_accepted x y [] max Hy Hc Hs Hl Hu Hr) as (q & Eq & R).
  rewrite Ep in Eq. injection Eq as <-. exact (PropForward5.forwarded_fits x y [] max p Hy Hc Hr Hs R).
Qed.

Theorem C75_source_v5_relay : forall m ms xs chunks max careful first ops, Forall2 sent_as (m :: ms) xs -> Forall conforms (m :: ms) ->
  Forall understood (m :: ms) -> Forall (fun m => blen (content m) <= max) (m :: ms) ->
  Forall (fun m => forall sp code, m <> M_CONNACK sp code []) (m :: ms) -> Forall (fun m => header_byte m <> 0x10) ms ->
  concat chunks = concat xs -> blen (concat chunks) < 2 ^ 63 ->
  fst (receive v5_reads max careful (Waiting, []) chunks) = map Ok (first :: packets ops) ->
  let s := run (v5_write 5) (Send first :: ops) in
  exists ms', Forall2 same_message (m :: ms) ms' /\ Forall conforms ms' /\
    Forall2 (fun m m' => blen (content m') <= blen (content m)) (m :: ms) ms' /\
    transport s ++ buffer s = flat_map (fun m => frame (header_byte m) (content m)) ms'.
Proof.
  intros m ms xs chunks max careful first ops HX HC HP HL HN H1 E Hl HR.
  assert (Hb : Forall bytes_ok chunks) by (apply concat_bytes_ok; rewrite E; eapply sent_bytes, HX).
  rewrite v5_receive_eq in * by assumption.
  assert (W : forall p, In p (first :: packets ops) -> forall buf, v5_write 5 p buf = V5Mod.write p buf)
    by (intros p Hp buf; apply wsrc; revert p Hp; eapply received_fit; eassumption).
  cbv zeta. rewrite (PropSourceRest.run_same _ V5Mod.write) by exact W.
  exact (PropConverse5.C75_v5_relay m ms xs chunks max careful first ops HX HC HP HL HN H1 E HR).
Qed.
Theorem C75_source_v5_second_hop : forall m ms xs chunks max first ops, Forall2 sent_as (m :: ms) xs -> Forall conforms (m :: ms) ->
  Forall understood (m :: ms) -> Forall (fun m => blen (content m) <= max) (m :: ms) ->
  Forall (fun m => forall sp code, m <> M_CONNACK sp code []) (m :: ms) -> Forall (fun m => header_byte m <> 0x10) ms ->
  concat chunks = concat xs -> blen (concat chunks) < 2 ^ 63 ->
  fst (receive v5_reads max true (Waiting, []) chunks) = map Ok (first :: packets ops) ->
  let s := run (v5_write 5) (Send first :: ops) in
  forall chunks', buffer s = [] -> Forall bytes_ok chunks' -> concat chunks' = transport s -> blen (concat chunks') < 2 ^ 63 ->
  (receive v5_reads max true (Waiting, []) chunks' = receive v5_reads max true (Waiting, []) chunks <->
   Forall readable (first :: packets ops)).
Proof.
  intros m ms xs chunks max first ops HX HC HP HL HN H1 E Hl HR.
  assert (Hb : Forall bytes_ok chunks) by (apply concat_bytes_ok; rewrite E; eapply sent_bytes, HX).
  rewrite (v5_receive_eq max true chunks) in * by assumption.
  assert (W : forall p, In p (first :: packets ops) -> forall buf, v5_write 5 p buf = V5Mod.write p buf)
    by (intros p Hp buf; apply wsrc; revert p Hp; eapply received_fit; eassumption).
  cbv zeta. rewrite (PropSourceRest.run_same _ V5Mod.write) by exact W.
  intros chunks' Eb Hb' Ec Hl'. rewrite v5_receive_eq by assumption.
  exact (PropConverse5.C75_v5_second_hop m ms xs chunks max first ops HX HC HP HL HN H1 E HR chunks' Eb Ec).
Qed.
(** the messages of C75_v5_case *)
Example C75_source_v5_case :
  let xs := [PropConverse5.ex_bytes; [0x40; 4; 0; 7; 0; 0]] in
  let chunks := [firstn 7 (concat xs); []; skipn 7 (concat xs)] in
  exists first p, receive v5_reads 50 false (Waiting, []) chunks = ([Ok first; Ok p], (Waiting, [])) /\
    let s := run (v5_write 5) (Send first :: [Flush 3; Send p; Flush 2; Flush 99]) in
    buffer s = [] /\
    transport s = [0x30; 21; 0; 1; 116; 16; 38; 0; 1; 97; 0; 1; 98; 11; 1; 11; 2; 11; 3; 3; 0; 0; 9; 0x40; 2; 0; 7].
Proof. cbv zeta. do 2 eexists. split; [vm_compute; reflexivity|]. split; vm_compute; reflexivity. Qed.
(** the second user of the crate, on its text *)
Theorem C75_source_v5_second_reading_refuted : exists m x p out q, conforms m /\ understood m /\ sent_as m x /\
  v5_reads x 50 = (Ok p, []) /\ fst (v5_write 5 p []) = Ok 23 /\ snd (v5_write 5 p []) = out /\ v5_reads out 50 = (Ok q, []) /\ p <> q.
Proof.
  exists PropConverse5.ex_message, PropConverse5.ex_bytes. do 3 eexists. destruct PropConverse5.ex_conforms as (A & B & C). split; [exact A|]. split; [exact B|]. split; [exact C|].
  split; [vm_compute; reflexivity|]. split; [vm_compute; reflexivity|]. split; [vm_compute; reflexivity|]. split; [vm_compute; reflexivity|]. discriminate.
Qed.
Print Assumptions C75_source_v5_conversation.
Print Assumptions C75_source_v5_relay.
Print Assumptions C75_source_v5_second_hop.
Print Assumptions C75_source_v5_second_reading_refuted.

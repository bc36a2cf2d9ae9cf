(** PropConverse5.v -- C75: whole connections with a peer that keeps to MQTT 5. *)
From Verif Require Import Base Lib SpecWire SpecTopic SpecProps SpecV5 SpecStream SpecSession SpecStd5 SpecStd5Mean ProofBase ProofLib ProofStd ProofRead ProofV5Read ProofV5.
From Verif Require V5Mod V5ConnAck V5Publish V5PubAck PropStandard5 PropFrame PropV5 ProofStream PropForward5 PropSession.

(** the messages the crate reads as what they are (C62) *)
Definition understood (m : Message) : Prop := (forall e, ~ unsupported m e) /\ ~ misread m.

Local Lemma one_message m x max : sent_as m x -> conforms m -> understood m -> blen (content m) <= max ->
  exists p, as_packet m = Some p /\ V5Mod.read x max = (Ok p, []).
Proof. intros [Hb Hs] Hc [Hu Hr] Hl. exact (PropStandard5.C62_v5_standard_accepted m x [] max Hb Hc Hs Hl Hu Hr). Qed.

(** whatever a peer that keeps to the standard sends, however it is cut into pieces, and whether the receiver checks that the
    buffer is untouched on InsufficientBytes or not: it gets the packets, in order, and nothing is left over *)
Theorem C75_v5_conversation : forall ms xs chunks max careful, Forall2 sent_as ms xs -> Forall conforms ms -> Forall understood ms ->
  Forall (fun m => blen (content m) <= max) ms -> concat chunks = concat xs ->
  exists ps, Forall2 (fun m p => as_packet m = Some p) ms ps /\
    receive V5Mod.read max careful (Waiting, []) chunks = (map Ok ps, (Waiting, [])).
Proof.
  intros ms xs chunks max careful HX HC HP HL E.
  assert (K : exists ps, Forall2 (fun m p => as_packet m = Some p) ms ps /\ map (fun x => fst (V5Mod.read x max)) xs = map Ok ps).
  { clear E. induction HX as [|m x ms xs Hs HX IH]; [exists []; split; constructor|].
    apply Forall_cons_iff in HC as [Hc HC]. apply Forall_cons_iff in HP as [Hp HP]. apply Forall_cons_iff in HL as [Hl HL].
    destruct (IH HC HP HL) as (ps & F & M). destruct (one_message m x max Hs Hc Hp Hl) as (p & Ep & R).
    exists (p :: ps). split; [constructor; assumption|]. cbn [map]. rewrite R, M. reflexivity. }
  destruct K as (ps & F & M). exists ps. split; [exact F|].
  assert (H : receive V5Mod.read max true (Waiting, []) chunks = (map Ok ps, (Waiting, []))).
  { rewrite (PropSession.C58_v5_frames_only xs chunks max); [rewrite M; reflexivity| |exact E].
    clear - HX HL. induction HX as [|m x ms xs [Hb Hs] HX IH]; [constructor|]. apply Forall_cons_iff in HL as [Hl HL].
    constructor; [|auto]. split; [exact Hb|]. exists (header_byte m), (content m). auto. }
  destruct careful; [exact H|]. rewrite receive_naive; [exact H|]. rewrite H. cbn [fst].
  clear. induction ps; cbn [map]; constructor; auto.
Qed.

(** A relay sends on what it has received ([first] and the packets of [ops] are what `read` gave), written one after the
    other to one buffer that is flushed in between as the transport likes.  What leaves it is a sequence of messages of the
    standard that say the same. *)
Theorem C75_v5_relay : forall m ms xs chunks max careful first ops, Forall2 sent_as (m :: ms) xs -> Forall conforms (m :: ms) ->
  Forall understood (m :: ms) -> Forall (fun m => blen (content m) <= max) (m :: ms) ->
  Forall (fun m => forall sp code, m <> M_CONNACK sp code []) (m :: ms) -> Forall (fun m => header_byte m <> 0x10) ms ->
  concat chunks = concat xs ->
  fst (receive V5Mod.read max careful (Waiting, []) chunks) = map Ok (first :: packets ops) ->
  let s := run V5Mod.write (Send first :: ops) in
  exists ms', Forall2 same_message (m :: ms) ms' /\ Forall conforms ms' /\
    Forall2 (fun m m' => blen (content m') <= blen (content m)) (m :: ms) ms' /\
    transport s ++ buffer s = flat_map (fun m => frame (header_byte m) (content m)) ms'.
Proof.
  intros m ms xs chunks max careful first ops HX HC HP HL HN H1 E HR s.
  destruct (C75_v5_conversation (m :: ms) xs chunks max careful HX HC HP HL E) as (ps & F & R). rewrite R in HR. cbn [fst] in HR.
  assert (EP : ps = first :: packets ops).
  { clear - HR. revert HR. generalize (first :: packets ops). induction ps as [|x l IH]; intros [|y l'] H; try discriminate H; [reflexivity|].
    cbn [map] in *. injection H as -> H. f_equal. apply IH, H. }
  subst ps.
  assert (W : exists ms', Forall2 same_message (m :: ms) ms' /\ Forall conforms ms' /\
    Forall2 (fun m m' => blen (content m') <= blen (content m)) (m :: ms) ms' /\
    filter (succeeds V5Mod.write) (first :: packets ops) = first :: packets ops /\
    flat_map (fun p => snd (V5Mod.write p [])) (first :: packets ops) = flat_map (fun m => frame (header_byte m) (content m)) ms').
  { clear - HX HC HP HL HN F. revert HC HP HL HN F. generalize (first :: packets ops). induction HX as [|x y l l' Hxy HX IH]; intros ps HC HP HL HN F.
    - inversion F; subst. exists []. repeat split; constructor.
    - inversion F as [|? p ? ps' Ep F']; subst.
      apply Forall_cons_iff in HC as [Hc HC]. apply Forall_cons_iff in HP as [Hp HP]. apply Forall_cons_iff in HL as [Hl HL]. apply Forall_cons_iff in HN as [Hn HN].
      destruct (IH ps' HC HP HL HN F') as (ms' & A & B & C & D & G).
      destruct (one_message x y max Hxy Hc Hp Hl) as (p' & Ep' & R). rewrite Ep in Ep'. injection Ep' as <-.
      destruct (PropForward5.C74_v5_forwarded x y [] max p (proj1 Hxy) Hc (proj2 Hp) (proj2 Hxy) R Hn) as (n & x' & Wx & Cx & Sx & _ & Lx).
      exists (x' :: ms'). split; [constructor; assumption|]. split; [constructor; assumption|]. split; [constructor; assumption|].
      cbn [filter flat_map]. unfold succeeds at 1. rewrite Wx. cbn [fst snd]. rewrite D, G. split; reflexivity. }
  destruct W as (ms' & A & B & C & D & G).
  assert (NC : Forall (fun p => ~ is_connect p) (packets ops)).
  { inversion F as [|? ? ? ? _ F']; subst. clear - F' H1. induction F' as [|x p l l' Ep _ IH]; [constructor|].
    apply Forall_cons_iff in H1 as [Hx H1]. constructor; [|apply IH, H1].
    destruct x; cbn [as_packet header_byte] in *; try discriminate Ep; injection Ep as <-; cbn [is_connect]; try (intros []); try (intros [? H']; discriminate H'); congruence. }
  destruct (PropSession.C59_v5_buffer first ops NC) as [I J]. fold s in I, J.
  exists ms'. split; [exact A|]. split; [exact B|]. split; [exact C|]. rewrite J, I, D. exact G.
Qed.

(** What a far peer that uses the crate too receives: the very same packets exactly when every packet is of a readable shape
    (SpecV5.readable, C28), whatever the number of relays before it. *)
Local Lemma other_end m x max p : sent_as m x -> conforms m -> understood m -> blen (content m) <= max ->
  (forall sp code, m <> M_CONNACK sp code []) -> as_packet m = Some p ->
  PropSession.complete_frame max (snd (V5Mod.write p [])) /\
  (fst (V5Mod.read (snd (V5Mod.write p [])) max) = Ok p <-> readable p).
Proof.
  intros Hs Hc Hp Hl Hn Ep. destruct (one_message m x max Hs Hc Hp Hl) as (p' & Ep' & R). rewrite Ep in Ep'. injection Ep' as <-.
  destruct (PropForward5.C74_v5_forwarded m x [] max p (proj1 Hs) Hc (proj2 Hp) (proj2 Hs) R Hn) as (n & m' & W & Cm & Sm & Ep' & Lm).
  assert (Hf := PropForward5.forwarded_fits m x [] max p (proj1 Hs) Hc (proj2 Hp) (proj2 Hs) R).
  assert (Ew : snd (V5Mod.write p []) = written_wire p) by (destruct (PropV5.C13_v5_written p Hf) as [k ->]; reflexivity).
  assert (Hb : bytes_ok (written_wire p)) by exact (wire_bytes p Hf).
  assert (Lc : blen (content m) <= max_len) by (destruct (proj2 Hs) as (f & _ & Hlf & Hff); exact (lenfield_bound f _ Hlf Hff)).
  assert (Sf : starts_with_frame (written_wire p) (header_byte m') (content m') []).
  { rewrite W in Ew. cbn [snd] in Ew. rewrite <- Ew. exists (varint (blen (content m'))).
    split; [rewrite app_nil_r; reflexivity|]. split; [apply lenfield_varint; lia|apply varint_len_bound]. }
  rewrite Ew. split.
  - split; [exact Hb|]. exists (header_byte m'), (content m'). split; [exact Sf|lia].
  - assert (Sz : blen (written p) = blen (content m')).
    { rewrite W in Ew. cbn [snd] in Ew. unfold written_wire, frame in Ew. injection Ew as _ Ew.
      assert (K : blen (content m') <= max_len) by lia.
      destruct (PropFrame.C01_injective _ _ _ _ K (proj2 (proj2 (proj2 (proj2 Hf)))) Ew) as [K' _]. symmetry. exact K'. }
    assert (Er : snd (V5Mod.read (written_wire p) max) = []).
    { destruct Sf as (f & Es & Hlf & Hff). rewrite Es in *. rewrite app_nil_r in *.
      assert (G := ProofStream.g_frame V5Mod.read_frame (header_byte m') f (content m') [] max). rewrite app_nil_r in G.
      change (ProofStream.gread V5Mod.read_frame) with V5Mod.read in G. rewrite G by (assumption || lia). reflexivity. }
    destruct (V5Mod.read (written_wire p) max) as [r rest] eqn:Rd. cbn [fst snd] in *. subst rest.
    assert (C := PropV5.C28_v5_reencode_exact x max p [] (proj1 Hs) R).
    destruct C as [(k & out & Wo & C)|(out & Wo & _)]; [|rewrite W in Wo; discriminate Wo].
    assert (Eo : out = written_wire p) by (rewrite Wo in Ew; exact Ew). subst out.
    specialize (C [] max bytes_ok_nil ltac:(lia)). rewrite app_nil_r, Rd in C.
    assert (NB : ~ blank_311 p).
    { destruct m; cbn [as_packet] in Ep; try discriminate Ep; injection Ep as <-; cbn [blank_311]; try (intros []; fail).
      all: try (intros [H' _]; discriminate H'). }
    split.
    + intros ->. destruct (proj1 C eq_refl) as [H|H]; [exact H|contradiction].
    + intros H. assert (H' := proj2 C (or_introl H)). injection H' as ->. reflexivity.
Qed.
Theorem C75_v5_second_hop : forall m ms xs chunks max first ops, Forall2 sent_as (m :: ms) xs -> Forall conforms (m :: ms) ->
  Forall understood (m :: ms) -> Forall (fun m => blen (content m) <= max) (m :: ms) ->
  Forall (fun m => forall sp code, m <> M_CONNACK sp code []) (m :: ms) -> Forall (fun m => header_byte m <> 0x10) ms ->
  concat chunks = concat xs ->
  fst (receive V5Mod.read max true (Waiting, []) chunks) = map Ok (first :: packets ops) ->
  let s := run V5Mod.write (Send first :: ops) in
  forall chunks', buffer s = [] -> concat chunks' = transport s ->
  (receive V5Mod.read max true (Waiting, []) chunks' = receive V5Mod.read max true (Waiting, []) chunks <->
   Forall readable (first :: packets ops)).
Proof.
  intros m ms xs chunks max first ops HX HC HP HL HN H1 E HR s chunks' Hb Ec.
  destruct (C75_v5_conversation (m :: ms) xs chunks max true HX HC HP HL E) as (ps & F & R). rewrite R in HR |- *. cbn [fst] in HR.
  assert (EP : ps = first :: packets ops).
  { clear - HR. revert HR. generalize (first :: packets ops). induction ps as [|x l IH]; intros [|y l'] H; try discriminate H; [reflexivity|].
    cbn [map] in *. injection H as -> H. f_equal. apply IH, H. }
  assert (NC : Forall (fun p => ~ is_connect p) (packets ops)).
  { rewrite EP in F. inversion F as [|? ? ? ? _ F']; subst. clear - F' H1. induction F' as [|x p l l' Ep _ IH]; [constructor|].
    apply Forall_cons_iff in H1 as [Hx H1]. constructor; [|apply IH, H1].
    destruct x; cbn [as_packet header_byte] in *; try discriminate Ep; injection Ep as <-; cbn [is_connect]; try (intros []); try (intros [? H']; discriminate H'); congruence. }
  assert (W : Forall (fun p => succeeds V5Mod.write p = true /\ PropSession.complete_frame max (snd (V5Mod.write p [])) /\
                (fst (V5Mod.read (snd (V5Mod.write p [])) max) = Ok p <-> readable p)) ps).
  { clear - HX HC HP HL HN F. revert xs HX. induction F as [|x p l l' Ep F IH]; intros xs HX; [constructor|].
    inversion HX as [|? y ? ys Hxy HX']; subst.
    apply Forall_cons_iff in HC as [Hc HC]. apply Forall_cons_iff in HP as [Hp HP]. apply Forall_cons_iff in HL as [Hl HL]. apply Forall_cons_iff in HN as [Hn HN].
    constructor; [|eapply IH; eassumption]. split; [|exact (other_end x y max p Hxy Hc Hp Hl Hn Ep)].
    destruct (one_message x y max Hxy Hc Hp Hl) as (p' & Ep' & R). rewrite Ep in Ep'. injection Ep' as <-.
    destruct (PropForward5.C74_v5_forwarded x y [] max p (proj1 Hxy) Hc (proj2 Hp) (proj2 Hxy) R Hn) as (n & m' & Wn & _).
    unfold succeeds. rewrite Wn. reflexivity. }
  destruct (PropSession.C59_v5_buffer first ops NC) as [I J]. fold s in I, J. rewrite <- EP in *.
  rewrite Hb, app_nil_r, I in J. 
  assert (T : concat chunks' = concat (map (fun p => snd (V5Mod.write p [])) ps)).
  { rewrite Ec, J. clear - W. induction W as [|p l (S & _) _ IH]; [reflexivity|]. cbn [filter map concat]. rewrite S. cbn [flat_map]. rewrite IH. reflexivity. }
  rewrite (PropSession.C58_v5_frames_only (map (fun p => snd (V5Mod.write p [])) ps) chunks' max); [| |exact T].
  - clear - W. induction W as [|p l (_ & _ & C) _ IH]; [split; [constructor|reflexivity]|]. cbn [map]. split.
    + intros H. injection H as H H'. constructor; [apply C, H|]. apply IH. rewrite H'. reflexivity.
    + intros H. apply Forall_cons_iff in H as [H H']. apply C in H. apply IH in H'. injection H' as H'. rewrite H, H'. reflexivity.
  - clear - W. induction W as [|p l (_ & C & _) _ IH]; cbn [map]; constructor; assumption.
Qed.

Definition ex_props : list item := [(3, VStr []); (11, VVar 1); (11, VVar 2); (11, VVar 3); (38, VPair [97] [98])].
Definition ex_message : Message := M_PUBLISH0 false [116] ex_props [9].
Definition ex_bytes : bytes := [0x30; 21; 0; 1; 116; 16; 3; 0; 0; 11; 1; 11; 2; 11; 3; 38; 0; 1; 97; 0; 1; 98; 9].
Lemma ascii c : 0 < c < 128 -> text [c].
Proof.
  intros Hc. split; [|split; [cbv; discriminate|intros [H|[]]; lia]]. exists [c]. split; [repeat constructor; lia|].
  cbn [flat_map]. unfold utf8_encode. rewrite (proj2 (N.ltb_lt c 0x80)) by lia. reflexivity.
Qed.
Lemma ex_conforms : conforms ex_message /\ understood ex_message /\ sent_as ex_message ex_bytes.
Proof.
  assert (T0 : text []) by (split; [apply string_nil|]; split; [cbv; discriminate|intros []]).
  split; [|split].
  - cbn [conforms ex_message]. split; [|split; [split; [|split]|repeat constructor]].
    + split; [apply ascii; lia|]. split; [intros [H|[]]; discriminate H|]. split; [intros [H|[]]; discriminate H|discriminate].
    + assert (V : forall n, 1 <= n <= 3 -> In 11 (allowed_at InPublish) /\ item_ok (11, VVar n) /\ value_rule (11, VVar n)).
      { intros n Hn. assert (Hc : n = 1 \/ n = 2 \/ n = 3) by lia. split; [cbn; tauto|].
        destruct Hc as [-> | [-> | ->]]; (split; [|cbn; lia]); (split; [split; [reflexivity|]|split; [exact I|]]); cbv; first [reflexivity|discriminate]. }
      unfold ex_props. constructor; [|constructor; [apply V; lia|constructor; [apply V; lia|constructor; [apply V; lia|constructor; [|constructor]]]]].
      * split; [cbn; tauto|]. split; [|cbn; split; [exact T0|discriminate]]. split; [split; [reflexivity|apply string_nil]|split; [cbv; discriminate|exact I]].
      * assert (A := ascii 97 ltac:(lia)). assert (B := ascii 98 ltac:(lia)).
        split; [cbn; tauto|]. split; [|split; assumption]. split; [split; [reflexivity|split; [apply A|apply B]]|split; [split; cbv; discriminate|exact I]].
    + intros id a b c E. cbn [map fst ex_props] in E. cbn [In].
      destruct a as [|? a]; cbn [app] in E; injection E as <- E; [exfalso; do 4 (destruct b as [|? b]; cbn [app] in E; [discriminate E|injection E as <- E]); destruct b; discriminate E|].
      do 4 (destruct a as [|? a]; cbn [app] in E; injection E as <- E; [tauto|]). destruct a; discriminate E.
    + intros H. cbn in H. exfalso. repeat (destruct H as [H|H]; [discriminate H|]). exact H.
  - split; [intros e H; inversion H|]. intros (pre & x & E & L). cbn [message_props ex_message] in E. unfold ex_props in E.
    do 4 (destruct pre as [|? pre]; [discriminate E|]; cbn [app] in E; injection E as <- E).
    destruct pre as [|? pre]; [|destruct pre; discriminate E]. injection E as <-. vm_compute in L. apply L. reflexivity.
  - split; [repeat constructor|]. exists [21]. split; [reflexivity|]. split; [apply (lf_last 21); lia|cbv; discriminate].
Qed.
(** so the far peer, if it keeps to the standard, gets what was sent.  But the far peer may not be another user of the crate:
    written in the crate's order the properties of this PUBLISH are misread (C62), although they were understood as sent *)
Theorem C75_v5_second_reading_refuted : exists m x p out q, conforms m /\ understood m /\ sent_as m x /\
  V5Mod.read x 50 = (Ok p, []) /\ fst (V5Mod.write p []) = Ok 23 /\ snd (V5Mod.write p []) = out /\ V5Mod.read out 50 = (Ok q, []) /\ p <> q.
Proof.
  exists ex_message, ex_bytes. do 3 eexists. destruct ex_conforms as (A & B & C). split; [exact A|]. split; [exact B|]. split; [exact C|].
  split; [vm_compute; reflexivity|]. split; [vm_compute; reflexivity|]. split; [vm_compute; reflexivity|]. split; [vm_compute; reflexivity|]. discriminate.
Qed.
(** meets the hypotheses of all theorems above; the first packet is not readable, the second one is (C75_v5_second_hop) *)
Example C75_v5_case :
  let b := M_PUBACK 7 (CodeProps V5PubAck.Success []) in
  let xs := [ex_bytes; [0x40; 4; 0; 7; 0; 0]] in
  let chunks := [firstn 7 (concat xs); []; skipn 7 (concat xs)] in
  Forall2 sent_as [ex_message; b] xs /\ Forall conforms [ex_message; b] /\ Forall understood [ex_message; b] /\
  Forall (fun m => blen (content m) <= 50) [ex_message; b] /\ concat chunks = concat xs /\
  Forall (fun m => forall sp code, m <> M_CONNACK sp code []) [ex_message; b] /\ Forall (fun m => header_byte m <> 0x10) [b] /\
  exists first p, receive V5Mod.read 50 false (Waiting, []) chunks = ([Ok first; Ok p], (Waiting, [])) /\
    let s := run V5Mod.write (Send first :: [Flush 3; Send p; Flush 2; Flush 99]) in
    buffer s = [] /\
    transport s = [0x30; 21; 0; 1; 116; 16; 38; 0; 1; 97; 0; 1; 98; 11; 1; 11; 2; 11; 3; 3; 0; 0; 9; 0x40; 2; 0; 7].
Proof.
  destruct ex_conforms as (A & B & C). cbv zeta. split; [|split; [|split; [|split; [|split; [|split; [|split]]]]]].
  - constructor; [exact C|]. constructor; [|constructor]. split; [repeat constructor|].
    exists [4]. split; [reflexivity|]. split; [apply (lf_last 4); lia|cbv; discriminate].
  - constructor; [exact A|]. constructor; [|constructor]. cbn [conforms ending_ok]. split; [split; cbv; reflexivity|].
    split; [constructor|]. split; [intros id a b c E; destruct a; discriminate E|intros []].
  - constructor; [exact B|]. constructor; [|constructor]. split; [intros e H; inversion H|]. intros (pre & x & E & _). cbn [message_props] in E. destruct pre; discriminate E.
  - constructor; [cbv; discriminate|constructor; [cbv; discriminate|constructor]].
  - reflexivity.
  - constructor; [discriminate|constructor; [discriminate|constructor]].
  - constructor; [discriminate|constructor].
  - do 2 eexists. split; [vm_compute; reflexivity|]. cbv zeta. split; vm_compute; reflexivity.
Qed.
Print Assumptions C75_v5_conversation.
Print Assumptions C75_v5_relay.
Print Assumptions C75_v5_second_hop.
Print Assumptions C75_v5_second_reading_refuted.

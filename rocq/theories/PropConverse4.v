(** PropConverse4.v -- C75: whole connections with a peer that keeps to MQTT 3.1.1. *)
From Verif Require Import Base Lib SpecWire SpecTopic SpecV4 SpecStream SpecSession SpecStd311 SpecForward4 ProofBase ProofLib ProofRead ProofV4Read ProofV4 ProofStd ProofStd311.
From Verif Require V4Mod PropStandard PropForward4 PropSession.

(** whatever a peer that keeps to the standard sends, however it is cut into pieces: the receiver gets the packets, in
    order, and nothing is left over *)
Theorem C75_v4_conversation : forall ms xs chunks max, Forall2 sent_as ms xs -> Forall conforms ms -> Forall text_password ms ->
  Forall (fun m => blen (content m) <= max) ms -> concat chunks = concat xs ->
  receive V4Mod.read max false (Waiting, []) chunks = (map (fun m => Ok (as_packet m)) ms, (Waiting, [])).
Proof.
  intros ms xs chunks max HX HC HP HL E.
  rewrite (PropSession.C58_v4_frames_only xs chunks max).
  - f_equal. clear E. induction HX as [|m x ms xs [Hb Hs] HX IH]; [reflexivity|].
    apply Forall_cons_iff in HC as [Hc HC]. apply Forall_cons_iff in HP as [Hp HP]. apply Forall_cons_iff in HL as [Hl HL].
    cbn [map]. rewrite (IH HC HP HL). rewrite (PropStandard.C60_v4_standard_accepted m x [] max Hb Hc Hs Hl Hp). reflexivity.
  - clear E. induction HX as [|m x ms xs [Hb Hs] HX IH]; [constructor|].
    apply Forall_cons_iff in HC as [Hc HC]. apply Forall_cons_iff in HP as [Hp HP]. apply Forall_cons_iff in HL as [Hl HL].
    constructor; [|auto]. split; [exact Hb|]. exists (header_byte m), (content m). auto.
  - exact E.
Qed.

(** A relay sends on what it has received: [first] and the packets of [ops] are what `read` gave, written one after the
    other to one buffer that is flushed in between as the transport likes.  The far peer gets the same messages. *)
Theorem C75_v4_relay : forall m ms xs chunks max first ops, Forall2 sent_as (m :: ms) xs -> Forall conforms (m :: ms) ->
  Forall text_password (m :: ms) -> Forall (fun m => blen (content m) <= max) (m :: ms) ->
  Forall (fun m => ~ nameless m) (m :: ms) -> Forall (fun m => header_byte m <> 0x10) ms ->
  concat chunks = concat xs ->
  fst (receive V4Mod.read max false (Waiting, []) chunks) = map Ok (first :: packets ops) ->
  let s := run V4Mod.write (Send first :: ops) in
  transport s ++ buffer s = flat_map (fun m => frame (header_byte (relayed m)) (content (relayed m))) (m :: ms) /\
  (forall chunks', buffer s = [] -> concat chunks' = transport s ->
     receive V4Mod.read max false (Waiting, []) chunks' = receive V4Mod.read max false (Waiting, []) chunks).
Proof.
  intros m ms xs chunks max first ops HX HC HP HL HN H1 E HR s.
  rewrite (C75_v4_conversation (m :: ms) xs chunks max HX HC HP HL E) in *. cbn [fst] in HR.
  assert (EP : map as_packet (m :: ms) = first :: packets ops).
  { clear - HR. revert HR. generalize (m :: ms) (first :: packets ops). induction l as [|x l IH]; intros [|y l'] H; try discriminate H; [reflexivity|].
    cbn [map] in *. injection H as -> H. f_equal. apply IH, H. }
  assert (W : forall x, In x (m :: ms) -> exists n, V4Mod.write (as_packet x) [] = (Ok n, frame (header_byte (relayed x)) (content (relayed x)))).
  { intros x Hx.
    assert (G : exists y, sent_as x y).
    { clear - HX Hx. induction HX as [|a b l l' Hab _ IH]; [destruct Hx|]. destruct Hx as [<-|Hx]; [exists b; exact Hab|auto]. }
    destruct G as (y & Hb & Hs). rewrite Forall_forall in HC, HP, HL, HN.
    assert (R := PropStandard.C60_v4_standard_accepted x y [] max Hb (HC x Hx) Hs (HL x Hx) (HP x Hx)).
    destruct (PropForward4.C74_v4_forwarded x y [] max _ Hb (HC x Hx) Hs R (HN x Hx)) as (n & Wn & _). exists n. exact Wn. }
  assert (NC : Forall (fun p => ~ is_connect p) (packets ops)).
  { injection EP as _ EP. rewrite <- EP. apply Forall_forall. intros p Hp. apply in_map_iff in Hp as (x & <- & Hx).
    rewrite Forall_forall in H1. specialize (H1 x Hx). destruct x; cbn [as_packet is_connect header_byte] in *; try (intros []); try (intros [? H']; discriminate H'); congruence. }
  destruct (PropSession.C59_v4_buffer first ops NC) as [A B]. fold s in A, B.
  assert (AC : accepted s = first :: packets ops).
  { rewrite A, <- EP. clear - W. revert W. generalize (m :: ms). induction l as [|x l IH]; intros W; [reflexivity|].
    cbn [map filter]. unfold succeeds at 1. destruct (W x (or_introl eq_refl)) as [n ->]. cbn [fst]. f_equal. apply IH. intros y Hy. apply W. right. exact Hy. }
  assert (T : transport s ++ buffer s = flat_map (fun m => frame (header_byte (relayed m)) (content (relayed m))) (m :: ms)).
  { rewrite B, AC, <- EP. clear - W. revert W. generalize (m :: ms). induction l as [|x l IH]; intros W; [reflexivity|].
    cbn [map flat_map]. destruct (W x (or_introl eq_refl)) as [n ->]. cbn [snd]. f_equal. apply IH. intros y Hy. apply W. right. exact Hy. }
  split; [exact T|].
  intros chunks' Eb Ec. rewrite Eb, app_nil_r in T. rewrite T in Ec.
  rewrite (C75_v4_conversation (map relayed (m :: ms)) (map (fun m => frame (header_byte (relayed m)) (content (relayed m))) (m :: ms)) chunks' max).
  - f_equal. clear. generalize (m :: ms). induction l as [|x l IH]; [reflexivity|]. cbn [map]. rewrite IH. f_equal. f_equal.
    destruct x; try reflexivity. cbn [relayed as_packet]. unfold login_of. destruct user as [[|? ?]|], password as [[|? ?]|]; reflexivity.
  - assert (G : forall x, In x (m :: ms) -> sent_as (relayed x) (frame (header_byte (relayed x)) (content (relayed x)))).
    { intros x Hx. 
      assert (G : exists y, sent_as x y).
      { clear - HX Hx. induction HX as [|a b l l' Hab _ IH]; [destruct Hx|]. destruct Hx as [<-|Hx]; [exists b; exact Hab|auto]. }
      destruct G as (y & Hb & Hs). rewrite Forall_forall in HC, HP, HL, HN.
      assert (R := PropStandard.C60_v4_standard_accepted x y [] max Hb (HC x Hx) Hs (HL x Hx) (HP x Hx)).
      destruct (PropForward4.C74_v4_forwarded x y [] max _ Hb (HC x Hx) Hs R (HN x Hx)) as (n & Wn & Cr & _ & Sh).
      assert (Lm : blen (content x) <= max_len) by (destruct Hs as (f & _ & Hf & Hlf); exact (lenfield_bound f _ Hf Hlf)).
      assert (Ff : fits (as_packet x)) by apply (read_well_formed y max _ [] Hb R).
      split.
      - assert (Eo : snd (V4Mod.write (as_packet x) []) = wire (as_packet x)) by (apply write_empty; apply Ff).
        rewrite Wn in Eo. cbn [snd] in Eo. rewrite Eo. apply wire_bytes, Ff.
      - exists (varint (blen (content (relayed x)))). split; [rewrite app_nil_r; reflexivity|]. split; [apply lenfield_varint; lia|apply varint_len_bound]. }
    clear - G. revert G. generalize (m :: ms). induction l as [|x l IH]; intros G; [constructor|]. cbn [map]. constructor; [apply G; left; reflexivity|].
    apply IH. intros y Hy. apply G. right. exact Hy.
  - rewrite Forall_forall in HC, HN |- *. intros x Hx. apply in_map_iff in Hx as (y & <- & Hy). apply PropForward4.relayed_conforms; auto.
  - rewrite Forall_forall in HP |- *. intros x Hx. apply in_map_iff in Hx as (y & <- & Hy). specialize (HP y Hy).
    unfold text_password in *. destruct y; try exact HP. cbn [relayed]. intros cl ka id w u pw Ey. injection Ey as _ _ _ _ _ Ep.
    destruct password as [[|? ?]|]; try discriminate Ep. cbn [unless_empty] in Ep. injection Ep as <-. eapply HP. reflexivity.
  - rewrite Forall_forall in HL |- *. intros x Hx. apply in_map_iff in Hx as (y & <- & Hy). specialize (HL y Hy).
    assert (Sh := PropForward4.relayed_shorter y). lia.
  - rewrite Ec. clear. generalize (m :: ms). induction l as [|x l IH]; [reflexivity|]. cbn [flat_map map concat]. rewrite IH. reflexivity.
Qed.

(** a conversation: CONNECT with an empty password, SUBSCRIBE, PUBLISH with an overlong length field *)
Example C75_v4_case :
  let m := M_CONNECT true 60 [99] None (Some [117]) (Some []) in
  let ms := [M_SUBSCRIBE 1 [([116], AtLeastOnce)]; M_PUBLISH0 true [116] [9]] in
  let xs := [0x10 :: 18 :: content m; [0x82; 6; 0; 1; 0; 1; 116; 1]; [0x31; 0x84; 0; 0; 1; 116; 9]] in
  let chunks := [firstn 7 (concat xs); []; skipn 7 (concat xs)] in
  Forall2 sent_as (m :: ms) xs /\ Forall conforms (m :: ms) /\ Forall text_password (m :: ms) /\
  Forall (fun m => ~ nameless m) (m :: ms) /\ Forall (fun m => header_byte m <> 0x10) ms /\
  Forall (fun m => blen (content m) <= 50) (m :: ms) /\ concat chunks = concat xs /\
  exists first p q, receive V4Mod.read 50 false (Waiting, []) chunks = ([Ok first; Ok p; Ok q], (Waiting, [])) /\
    let s := run V4Mod.write (Send first :: [Flush 3; Send p; Flush 2; Send q; Flush 99]) in
    buffer s = [] /\
    transport s = [0x10; 16; 0; 4; 77; 81; 84; 84; 4; 0x82; 0; 60; 0; 1; 99; 0; 1; 117; 0x82; 6; 0; 1; 0; 1; 116; 1; 0x31; 4; 0; 1; 116; 9].
Proof.
  assert (U : forall c, c < 128 -> is_string [c]).
  { intros c Hc. exists [c]. split; [repeat constructor; lia|]. cbn [flat_map]. unfold utf8_encode.
    rewrite (proj2 (N.ltb_lt c 0x80) Hc). reflexivity. }
  assert (T : forall c, 0 < c < 128 -> text [c]).
  { intros c Hc. split; [apply U; lia|]. split; [cbv; discriminate|]. intros [H|[]]; lia. }
  cbv zeta. split; [|split; [|split; [|split; [|split; [|split; [|split]]]]]].
  - constructor; [|constructor; [|constructor; [|constructor]]]; (split; [repeat constructor|]).
    + exists [18]. split; [reflexivity|]. split; [apply (lf_last 18); lia|cbv; discriminate].
    + exists [6]. split; [reflexivity|]. split; [apply (lf_last 6); lia|cbv; discriminate].
    + exists [0x84; 0]. split; [reflexivity|]. split; [|cbv; discriminate].
      change (blen (content (M_PUBLISH0 true [116] [9]))) with (4 + 128 * 0). change [0x84; 0] with (128 + 4 :: [0]). apply lf_more; [lia|]. apply lf_last. lia.
  - constructor; [|constructor; [|constructor; [|constructor]]]; cbn [conforms on_some].
    + split; [cbv; reflexivity|]. split; [apply T; lia|]. split; [discriminate|].
      split; [exact I|]. split; [apply T; lia|]. split; [split; [constructor|cbv; discriminate]|discriminate].
    + split; [split; cbv; reflexivity|]. split; [discriminate|]. constructor; [|constructor]. cbn [fst]. split; [apply T; lia|]. split; [discriminate|].
      split; [intros a b E|intros a b E].
      all: destruct a as [|x a]; [discriminate E|]; injection E as _ E; destruct a; discriminate E.
    + split; [|repeat constructor]. split; [apply T; lia|]. split; [discriminate|]. split; intros [H|[]]; discriminate H.
  - constructor; [|constructor; [|constructor; [|constructor]]]; intros cl ka id w u pw E; try discriminate E. injection E as _ _ _ _ _ <-. apply string_nil.
  - constructor; [|constructor; [|constructor; [|constructor]]]; intros (? & ? & ? & ? & ? & ? & E & Hu & _); try discriminate E. injection E as _ _ _ _ <- _. discriminate Hu.
  - constructor; [discriminate|constructor; [discriminate|constructor]].
  - constructor; [|constructor; [|constructor; [|constructor]]]; cbv; discriminate.
  - reflexivity.
  - do 3 eexists. split; [vm_compute; reflexivity|]. cbv zeta. split; vm_compute; reflexivity.
Qed.
Print Assumptions C75_v4_conversation.
Print Assumptions C75_v4_relay.

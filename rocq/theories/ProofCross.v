(** ProofCross.v -- CONNECT packets across the two modules. *)
From Verif Require Import ProofBase Lib ProofLib ProofRead SpecFrame ProofCheck ProofBits ProofV4Read ProofUtf8 ProofV4
  SpecProps SpecPropSets ProofProps SpecV5 ProofV5Write ProofV5Read ProofV5 ProofV5Back SpecCross.
From Verif Require V4Connect V4Mod SpecV4.

Lemma lift_flags c : SpecV4.connect_flags c = connect_flags (lift_connect c).
Proof.
  unfold SpecV4.connect_flags, connect_flags. destruct c as [pr ka cid cs [[t m q r]|] [[u p]|]]; reflexivity.
Qed.
Lemma lift_body c : SpecV4.body (V4Mod.Connect c) =
  field MQTT ++ [level (V4Connect.protocol c); connect_flags (lift_connect c)]
  ++ be16 (V4Connect.keep_alive c) ++ field (V4Connect.client_id c)
  ++ opt will_bytes_311 (option_map lift_will (V4Connect.last_will c))
  ++ opt login_bytes (option_map lift_login (V4Connect.login c)).
Proof.
  rewrite <- lift_flags. cbn [SpecV4.body]. destruct c as [pr ka cid cs [[t m q r]|] [[u p]|]]; reflexivity.
Qed.
Lemma lift_read_iff c q rest max : SpecV4.fits (V4Mod.Connect c) -> bytes_ok rest ->
  blen (SpecV4.body (V4Mod.Connect c)) <= max ->
  read (SpecV4.wire (V4Mod.Connect c) ++ rest) max = (Ok q, rest) <->
  decodes_body 0x10 (SpecV4.body (V4Mod.Connect c)) q.
Proof.
  intros Hf Hr Hm. assert (Hl : blen (SpecV4.body (V4Mod.Connect c)) <= max_len) by apply Hf.
  assert (Hb : bytes_ok (SpecV4.wire (V4Mod.Connect c))) by (apply ProofV4.wire_bytes, Hf).
  unfold SpecV4.wire, frame in *. cbn [SpecV4.first_byte app] in *. rewrite <- app_assoc.
  apply bytes_ok_cons in Hb as [H1 H2]. apply bytes_ok_app in H2 as [H2 H3].
  assert (Hbb : bytes_ok (16 :: varint (blen (SpecV4.body (V4Mod.Connect c))) ++ SpecV4.body (V4Mod.Connect c) ++ rest)).
  { apply bytes_ok_cons. split; [assumption|]. apply bytes_ok_app. split; [assumption|]. apply bytes_ok_app. auto. }
  rewrite read_complete_frame by (assumption || apply lenfield_varint, Hl || apply varint_len_bound || (apply varint_len_bound; exact Hl)).
  assert (Hs := frame_sound 16 (16 :: varint (blen (SpecV4.body (V4Mod.Connect c)))) _ H1 H3 (ProofProps.le_huge _ Hl)).
  split.
  - intros H. apply (f_equal fst) in H. cbn [fst] in H. rewrite H in Hs. exact Hs.
  - intros H. f_equal. apply frame_complete; try assumption. apply ProofProps.le_huge; assumption.
Qed.

(** without a will the v5 module reads the same field values *)
Lemma lift_no_will c rest max : SpecV4.fits (V4Mod.Connect c) -> V4Connect.protocol c = V4 ->
  V4Connect.last_will c = None -> bytes_ok rest -> blen (SpecV4.body (V4Mod.Connect c)) <= max ->
  read (SpecV4.wire (V4Mod.Connect c) ++ rest) max = (Ok (canon (Connect (lift_connect c))), rest).
Proof.
  intros Hf Hp Hw Hr Hm. apply lift_read_iff; auto. rewrite lift_body. cbn [decodes_body canon].
  cbn [V5Connect.protocol V5Connect.keep_alive V5Connect.client_id V5Connect.clean_session V5Connect.last_will V5Connect.login V5Connect.properties].
  cbn [lift_connect V5Connect.protocol V5Connect.keep_alive V5Connect.client_id V5Connect.clean_session V5Connect.last_will V5Connect.login V5Connect.properties].
  split; [reflexivity|]. destruct (bit_at_connect (lift_connect c)) as (B1 & B2 & B8 & B4 & B5 & B6 & B7).
  destruct Hf as ((Hka & Hcu & _ & Hlg) & (Hcs & _ & Hls) & _ & _).
  cbn [lift_connect V5Connect.protocol V5Connect.keep_alive V5Connect.client_id V5Connect.clean_session V5Connect.last_will V5Connect.login V5Connect.properties] in *.
  rewrite Hw in *. cbn [option_map opt is_some app] in *.
  set (l := option_map lift_login (V4Connect.login c)) in *.
  exists (connect_flags (lift_connect c)), [], [].
  exists (match l with Some l => if nonempty (V5Connect.username l) then field (V5Connect.username l) else [] | None => [] end).
  exists (match l with Some l => if nonempty (V5Connect.password l) then field (V5Connect.password l) else [] | None => [] end).
  exists (match l with Some l => V5Connect.username l | None => [] end).
  exists (match l with Some l => V5Connect.password l | None => [] end), [].
  split; [apply connect_flags_ok|]. split.
  { destruct l as [l|]; cbn [opt app]; unfold login_bytes; rewrite ?app_nil_r; reflexivity. }
  split; [exact Hka|]. split; [exact Hcu|]. split; [exact Hcs|]. split; [congruence|].
  rewrite Hp. split; [auto|]. split; [repeat split; assumption|].
  rewrite B6, B7. unfold decodes_opt_string, l.
  destruct (V4Connect.login c) as [[u pw]|] eqn:El; cbn [option_map lift_login V4Connect.username V4Connect.password V5Connect.username V5Connect.password on_some] in *.
  - destruct Hlg as [Hu Hpw]. destruct Hls as [Hus Hps]. cbn [V4Connect.username V4Connect.password] in *.
    split; [|split].
    + destruct (nonempty u) eqn:En; [repeat split; assumption|]. split; [reflexivity|apply nonempty_false; assumption].
    + destruct (nonempty pw) eqn:En; [repeat split; assumption|]. split; [reflexivity|apply nonempty_false; assumption].
    + reflexivity.
  - repeat split; auto.
Qed.

(** with a will it never does *)
Lemma opt_string_len b u ubs : decodes_opt_string b u ubs -> nonempty u = true -> blen ubs = 2 + blen u.
Proof.
  unfold decodes_opt_string. destruct b; intros [-> H] Hn; [apply blen_field|subst; discriminate].
Qed.
Lemma lift_will_lost c w q rest max : SpecV4.fits (V4Mod.Connect c) -> V4Connect.protocol c = V4 ->
  V4Connect.last_will c = Some w -> bytes_ok rest -> blen (SpecV4.body (V4Mod.Connect c)) <= max ->
  read (SpecV4.wire (V4Mod.Connect c) ++ rest) max = (Ok (Connect q), rest) ->
  ~ (exists wq, V5Connect.client_id q = V4Connect.client_id c /\ V5Connect.last_will q = Some wq /\
       V5Connect.lw_topic wq = V4Connect.lw_topic w /\ V5Connect.lw_message wq = V4Connect.lw_message w /\
       V5Connect.login q = canon_login (option_map lift_login (V4Connect.login c))).
Proof.
  intros Hf Hp Hw Hr Hm H (wq & Ec & Ew & Et & Em & El). apply lift_read_iff in H; auto.
  rewrite lift_body, Hw in H. cbn [decodes_body] in H.
  destruct H as (_ & flags & sec & wbs & ubs & pbs & u & pw & junk & _ & E & _ & _ & _ & _ & Hsec & Hdw & Hu & Hpw & Hl).
  rewrite Ew in Hdw. cbn [decodes_will] in Hdw. destruct Hdw as (_ & _ & _ & _ & _ & _ & sw & -> & Hsw).
  apply dprops_len in Hsw. rewrite Ec, Et, Em in E. rewrite El in Hl.
  apply (f_equal blen) in E. cbn [option_map opt] in E. unfold will_bytes_311 in E. cbn [lift_will V5Connect.lw_topic V5Connect.lw_message] in E.
  autorewrite with blen in E.
  assert (Hlog : blen (opt login_bytes (option_map lift_login (V4Connect.login c))) <= blen ubs + blen pbs).
  { destruct (V4Connect.login c) as [[lu lp]|]; cbn [option_map opt lift_login V4Connect.username V4Connect.password] in *; [|apply N.le_0_l].
    unfold login_bytes, canon_login, lift_login in *. cbn [V4Connect.username V4Connect.password V5Connect.username V5Connect.password] in *.
    destruct (nonempty lu) eqn:E1, (nonempty lp) eqn:E2; cbn [orb] in Hl; [| | |apply N.le_0_l];
      (destruct (nonempty u || nonempty pw); [injection Hl as Hl1 Hl2|discriminate Hl]); subst u pw;
      rewrite ?app_nil_r, ?blen_app, ?blen_field; rewrite ?(opt_string_len _ _ _ Hu E1), ?(opt_string_len _ _ _ Hpw E2); cbn [app]; rewrite ?app_nil_r, ?blen_app, ?blen_field; change (blen []) with 0; lia. }
  lia.
Qed.

(** PropHeader.v -- property theorems about the public `FixedHeader` API: C50. *)
From Verif Require Import ProofBase SpecFrame SpecCodes Lib ProofLib ProofCheck.
From Verif Require Import ProofRead ProofStream.
From Verif Require PropCodes.

(** ** C50: a header built from any arguments: what it answers, and exactly when the
    arithmetic leaves `usize` (64 bits; builds with overflow checks) *)
Theorem C50_new : forall b ll rl, b < 256 -> ll < 2 ^ 64 -> rl < 2 ^ 64 ->
  (ll = 2 ^ 64 - 1 -> new_fixed_header b ll rl = Panic) /\
  (ll < 2 ^ 64 - 1 -> exists h, new_fixed_header b ll rl = Ok h /\
     (forall t, packet_type h = Ok t <-> type_code t = b / 16) /\
     ((forall t, type_code t <> b / 16) -> packet_type h = Err (InvalidPacketType (b / 16))) /\
     frame_length h = if ll + 1 + rl <? 2 ^ 64 then Ok (ll + 1 + rl) else Panic).
Proof.
  intros b ll rl Hb Hll Hrl. unfold new_fixed_header, usize_add, usize_max.
  change (2 ^ 64) with 18446744073709551616 in *.
  split; intros H.
  - replace (ll + 1 <=? 18446744073709551616 - 1) with false by lia. reflexivity.
  - replace (ll + 1 <=? 18446744073709551616 - 1) with true by lia. cbn [obind].
    eexists. split; [reflexivity|].
    destruct (PropCodes.C35_packet_type (b mod 16) (ll + 1)) as (_ & Hinj & Hok & Herr); [clear; lia|].
    assert (E : forall t, packet_type (mkFixedHeader b (ll + 1) rl)
      = packet_type (mkFixedHeader (16 * (b / 16) + b mod 16) (ll + 1) t)).
    { intros t. replace (16 * (b / 16) + b mod 16) with b by (clear; lia). reflexivity. }
    repeat split.
    + intros Ht. rewrite (E 0) in Ht.
      destruct (N.eq_dec (type_code t) (b / 16)) as [Heq|Hne]; [exact Heq|exfalso].
      destruct (existsb (fun t => type_code t =? b / 16)
        [PT_Connect; PT_ConnAck; PT_Publish; PT_PubAck; PT_PubRec; PT_PubRel; PT_PubComp; PT_Subscribe;
         PT_SubAck; PT_Unsubscribe; PT_UnsubAck; PT_PingReq; PT_PingResp; PT_Disconnect]) eqn:Ex.
      * apply existsb_exists in Ex as (t' & _ & Et'). apply N.eqb_eq in Et'.
        rewrite <- Et' in Ht. rewrite Hok in Ht. injection Ht as <-. congruence.
      * rewrite Herr in Ht; [discriminate|]. intros a Ha. rewrite Ha in Ex.
        cbn [existsb] in Ex. repeat (apply orb_false_iff in Ex as [?E Ex]).
        destruct a; rewrite N.eqb_refl in *; discriminate.
    + intros Ht. rewrite (E 0). rewrite <- Ht. apply Hok.
    + intros Hn. rewrite (E 0). apply Herr. intros a Ha. exact (Hn a (eq_sym Ha)).
    + unfold frame_length, usize_add, usize_max. cbn [fixed_header_len remaining_len].
      change (2 ^ 64) with 18446744073709551616.
      destruct (ll + 1 + rl <? 18446744073709551616) eqn:E1.
      * replace (ll + 1 + rl <=? 18446744073709551616 - 1) with true by lia. reflexivity.
      * replace (ll + 1 + rl <=? 18446744073709551616 - 1) with false by lia. reflexivity.
Qed.

(** the header `check` returns measures exactly one frame at the front of the stream: that
    many bytes alone give the same header, and no shorter prefix does *)
Theorem C50_frame_length : forall s max h, bytes_ok s -> check s max = Ok h ->
  exists frame rest, s = frame ++ rest /\ frame_length h = Ok (blen frame) /\ 2 <= blen frame /\
    check frame max = Ok h /\
    (forall p q, frame = p ++ q -> q <> [] -> exists m, check p max = Err (InsufficientBytes m)).
Proof.
  intros s max h Hb H.
  apply check_ok_inv in H as (b1 & f & bd & rest & -> & Hf & Hl & Hm & ->); [|exact Hb].
  exists (b1 :: f ++ bd), rest. split; [cbn [app]; rewrite <- app_assoc; reflexivity|].
  assert (Hf1 := lenfield_nonempty _ _ Hf).
  split; [rewrite frame_length_field by assumption; autorewrite with blen; f_equal; lia|].
  split; [autorewrite with blen; lia|].
  assert (Hb' : bytes_ok (b1 :: f ++ bd)).
  { replace (b1 :: f ++ bd ++ rest) with ((b1 :: f ++ bd) ++ rest) in Hb
      by (cbn [app]; rewrite <- app_assoc; reflexivity). apply bytes_ok_app in Hb. tauto. }
  assert (Hfull : check (b1 :: f ++ bd) max = Ok (mkFixedHeader b1 (1 + blen f) (blen bd)))
    by (apply check_frame; auto; lia).
  split; [exact Hfull|].
  intros p q E Hq.
  destruct (check p max) as [h'|e| |] eqn:Ep.
  - exfalso. assert (Hs : check (p ++ q) max = Ok h').
    { apply check_stable; [rewrite <- E; exact Hb'|exact Ep|discriminate]. }
    rewrite <- E, Hfull in Hs. injection Hs as <-.
    assert (Hbp : bytes_ok p) by (rewrite E in Hb'; apply bytes_ok_app in Hb'; tauto).
    apply check_ok_inv in Ep as (b1' & f' & bd' & rest' & -> & Hf' & Hl' & Hm' & Eh); [|exact Hbp].
    injection Eh as -> El En. apply (f_equal blen) in E. autorewrite with blen in E.
    destruct q; [contradiction|]. autorewrite with blen in E. lia.
  - destruct e; try (eauto; fail);
    (exfalso; assert (Hs : check (p ++ q) max = check p max)
       by (apply check_stable; [rewrite <- E; exact Hb'|reflexivity|rewrite Ep; discriminate]);
     rewrite <- E, Hfull, Ep in Hs; discriminate).
  - exfalso. assert (Hbp : bytes_ok p) by (rewrite E in Hb'; apply bytes_ok_app in Hb'; tauto).
    exact (proj1 (check_no_panic p max Hbp) Ep).
  - exfalso. assert (Hbp : bytes_ok p) by (rewrite E in Hb'; apply bytes_ok_app in Hb'; tauto).
    exact (proj2 (check_no_panic p max Hbp) Ep).
Qed.
Example C50_case :
  new_fixed_header 0x32 1 10 = Ok (mkFixedHeader 0x32 2 10) /\
  packet_type (mkFixedHeader 0x32 2 10) = Ok PT_Publish /\
  packet_type (mkFixedHeader 0xF0 2 10) = Err (InvalidPacketType 15) /\
  frame_length (mkFixedHeader 0x32 2 (2 ^ 64 - 2)) = Panic /\
  check [0x30; 1; 7; 9] 10 = Ok (mkFixedHeader 0x30 2 1).
Proof. repeat split; vm_compute; reflexivity. Qed.
Print Assumptions C50_new.
Print Assumptions C50_frame_length.

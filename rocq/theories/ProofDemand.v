(** ProofDemand.v -- lemmas on the receiver of SpecDemand.v. *)
From Verif Require Import ProofBase Lib SpecFrame SpecStream SpecDemand ProofLib ProofCheck ProofStream.

Lemma lenfield_cont f n : lenfield f n -> forall p q, f = p ++ q -> q <> [] -> Forall has_cont p.
Proof.
  induction 1 as [b Hb|b l n Hb Hl IH]; intros p q E Hq.
  - destruct p as [|x p]; [constructor|]. exfalso. injection E as _ E. symmetry in E. apply app_eq_nil in E as [_ E]. contradiction.
  - destruct p as [|x p]; [constructor|]. injection E as <- E. constructor; [unfold has_cont; lia|eauto].
Qed.
Lemma lenfield_stop f n p q x : lenfield f n -> f = p ++ x :: q -> q = [] \/ has_cont x.
Proof.
  intros Hf E. destruct q as [|y q]; [left; reflexivity|right].
  assert (H := lenfield_cont f n Hf (p ++ [x]) (y :: q)). rewrite <- app_assoc in H. specialize (H E ltac:(discriminate)).
  apply Forall_app in H as [_ H]. apply Forall_inv in H. exact H.
Qed.

Lemma prefix_of {A} : forall (a r b c : list A), a ++ r = b ++ c -> (List.length a <= List.length b)%nat -> exists p, b = a ++ p.
Proof.
  induction a as [|x a IH]; intros r b c E H; [exists b; reflexivity|].
  destruct b as [|y b]; [inversion H|]. injection E as <- E. destruct (IH _ _ _ E ltac:(cbn [List.length] in H; lia)) as [p ->].
  exists p. reflexivity.
Qed.

Section Generic.
  Context {P : Type}.
  Variable rf : FixedHeader -> bytes -> outcome P.
  Variable max : N.
  Notation rd := (gread rf).
  Notation pull := (pull rd max).

  Lemma rd_ask s n : check s max = Err (InsufficientBytes n) -> rd s max = (Err (InsufficientBytes n), s).
  Proof. apply g_no_frame. Qed.

  (** *** the exact receiver *)
  Lemma pull_ask k buf src n : check buf max = Err (InsufficientBytes n) ->
    pull (S k) buf src = if blen src <? n then Blocks n buf src
      else pull k (buf ++ firstn (N.to_nat n) src) (skipn (N.to_nat n) src).
  Proof. intros H. cbn [SpecDemand.pull]. rewrite (rd_ask _ _ H). reflexivity. Qed.
  Lemma pull_stop k buf src r buf' : rd buf max = (r, buf') -> (forall n, r <> Err (InsufficientBytes n)) ->
    pull (S k) buf src = Got r buf' src.
  Proof.
    intros H Hn. cbn [SpecDemand.pull]. rewrite H. destruct r as [p|e| |]; try reflexivity. destruct e; try reflexivity.
    exfalso. eapply Hn. reflexivity.
  Qed.
  Lemma pull_take k buf src n a tl : check buf max = Err (InsufficientBytes n) -> src = a ++ tl -> blen a = n ->
    pull (S k) buf src = pull k (buf ++ a) tl.
  Proof.
    intros H -> <-. rewrite (pull_ask k _ _ _ H). replace (blen (a ++ tl) <? blen a) with false by (autorewrite with blen; lia).
    unfold blen. rewrite Nat2N.id, firstn_app, Nat.sub_diag, firstn_all, firstn_O, app_nil_r.
    rewrite skipn_app, Nat.sub_diag, skipn_all, skipn_O. reflexivity.
  Qed.
  Lemma check_tiny s : bytes_ok s -> blen s < 2 -> check s max = Err (InsufficientBytes (2 - blen s)).
  Proof. intros Hb H. apply check_iff; [exact Hb|]. apply v_tiny, H. Qed.
  Lemma check_open b1 p : bytes_ok (b1 :: p) -> 1 <= blen p -> blen p < 4 -> Forall has_cont p ->
    check (b1 :: p) max = Err (InsufficientBytes 1).
  Proof. intros Hb H1 H2 H3. apply check_iff; [exact Hb|]. eapply v_open; eauto. Qed.
  (** [lia] treats [bytes] and [list N] lengths alike only after this *)
  Lemma pull_length : forall q p b1 f n tl k, bytes_ok (b1 :: f) -> lenfield f n -> blen f <= 4 -> f = p ++ q -> 1 <= blen p ->
    pull (List.length q + k) (b1 :: p) (q ++ tl) = pull k (b1 :: f) tl.
  Proof.
    induction q as [|x q IH]; intros p b1 f n tl k Hb Hf Hl E Hp.
    - rewrite app_nil_r in E. subst p. reflexivity.
    - cbn [List.length Nat.add]. assert (Hbp : bytes_ok (b1 :: p)).
      { rewrite E in Hb. change (b1 :: p ++ x :: q) with ((b1 :: p) ++ x :: q) in Hb. apply bytes_ok_app in Hb. apply Hb. }
      rewrite (pull_take _ (b1 :: p) ((x :: q) ++ tl) 1 [x] (q ++ tl)); [|apply check_open; [exact Hbp|exact Hp| |]|reflexivity|reflexivity].
      + change ((b1 :: p) ++ [x]) with (b1 :: (p ++ [x])). apply IH with (n := n); try assumption.
        * rewrite <- app_assoc. exact E.
        * autorewrite with blen. lia.
      + rewrite E in Hl. autorewrite with blen in Hl. lia.
      + eapply lenfield_cont; [exact Hf|exact E|discriminate].
  Qed.
  Lemma pull_header b1 f n tl k : bytes_ok (b1 :: f) -> lenfield f n -> blen f <= 4 ->
    pull (List.length f + k) [] (b1 :: f ++ tl) = pull k (b1 :: f) tl.
  Proof.
    intros Hb Hf Hl. destruct f as [|y q]; [apply lenfield_nonempty in Hf; change (@blen N []) with 0 in Hf; lia|].
    cbn [List.length Nat.add]. rewrite (pull_take _ [] (b1 :: (y :: q) ++ tl) 2 [b1; y] (q ++ tl)); [|reflexivity|reflexivity|reflexivity].
    cbn [app]. apply (pull_length q [y] b1 (y :: q) n tl k Hb Hf Hl); [reflexivity|]. change (blen [y]) with 1. lia.
  Qed.

  (** what the receiver does is determined by the whole source *)
  Inductive wanted (s : bytes) : demand (P := P) -> Prop :=
  | w_tiny : blen s < 2 -> wanted s (Blocks 2 [] s)
  | w_open b1 r : s = b1 :: r -> 1 <= blen r -> blen r < 4 -> Forall has_cont r -> wanted s (Blocks 1 s [])
  | w_malformed b1 a b c d r : s = b1 :: a :: b :: c :: d :: r -> Forall has_cont [a; b; c; d] ->
      wanted s (Got (Err MalformedRemainingLength) [b1; a; b; c; d] r)
  | w_limit b1 f n r : s = b1 :: f ++ r -> lenfield f n -> blen f <= 4 -> max < n ->
      wanted s (Got (Err (PayloadSizeLimitExceeded n)) (b1 :: f) r)
  | w_partial b1 f n r : s = b1 :: f ++ r -> lenfield f n -> blen f <= 4 -> n <= max -> blen r < n ->
      wanted s (Blocks n (b1 :: f) r)
  | w_frame b1 f bd r : s = b1 :: f ++ bd ++ r -> lenfield f (blen bd) -> blen f <= 4 -> blen bd <= max ->
      (forall n, rframe rf b1 f bd <> Err (InsufficientBytes n)) ->
      wanted s (Got (rframe rf b1 f bd) [] r)
  | w_confused b1 f bd r n d : s = b1 :: f ++ bd ++ r -> lenfield f (blen bd) -> blen f <= 4 -> blen bd <= max ->
      rframe rf b1 f bd = Err (InsufficientBytes n) -> wanted s d.

  Lemma pull_wanted s calls : bytes_ok s -> (6 <= calls)%nat -> wanted s (pull calls [] s).
  Proof.
    intros Hb Hc. destruct (check_verdict s max Hb) as [H|b1 r Hs H1 H2 H3|b1 a b c d r Hs H|b1 f n r Hs Hf Hl Hm|b1 f n r Hs Hf Hl Hm Hr|b1 f n r Hs Hf Hl Hm Hr].
    - destruct calls as [|k]; [lia|]. rewrite (pull_ask _ _ _ 2) by reflexivity. replace (blen s <? 2) with true by lia. apply w_tiny, H.
    - (* the length field is still open at the end of the source *)
      assert (G : forall q p k, r = p ++ q -> 1 <= blen p -> (List.length q < k)%nat -> pull k (b1 :: p) q = Blocks 1 s []).
      { induction q as [|x q IH]; intros p k E Hp Hk; (destruct k as [|k]; [inversion Hk|]).
        - rewrite app_nil_r in E. subst p. rewrite (pull_ask _ _ _ 1) by (apply check_open; try assumption; rewrite <- Hs; exact Hb).
          change (blen [] <? 1) with true. cbv iota. rewrite <- Hs. reflexivity.
        - rewrite (pull_take _ _ (x :: q) 1 [x] q); [|apply check_open; try assumption| reflexivity|reflexivity].
          + change ((b1 :: p) ++ [x]) with (b1 :: (p ++ [x])). apply IH; [rewrite <- app_assoc; exact E|autorewrite with blen; lia|cbn [List.length] in Hk; lia].
          + rewrite Hs, E in Hb. change (b1 :: p ++ x :: q) with ((b1 :: p) ++ x :: q) in Hb. apply bytes_ok_app in Hb. apply Hb.
          + rewrite E in H2. autorewrite with blen in H2. lia.
          + rewrite E in H3. apply Forall_app in H3. apply H3. }
      destruct r as [|y q]; [change (@blen N []) with 0 in H1; lia|]. destruct calls as [|k]; [lia|].
      rewrite (pull_take _ [] s 2 [b1; y] q); [|reflexivity|exact Hs|reflexivity]. cbn [app].
      rewrite (G q [y] k); [|reflexivity|change (blen [y]) with 1; lia|]. { eapply w_open; eauto. }
      assert (E4 : (List.length (y :: q) < 4)%nat) by (unfold blen in H2; lia). cbn [List.length] in E4. lia.
    - destruct calls as [|[|[|[|[|k]]]]]; [lia|lia|lia|lia|lia|].
      assert (Ha : has_cont a /\ has_cont b /\ has_cont c /\ has_cont d).
      { repeat (apply Forall_cons_iff in H as [? H]). auto. }
      destruct Ha as (Ha & Hb' & Hc' & Hd).
      assert (Hx : bytes_ok [b1; a; b; c; d]) by (rewrite Hs in Hb; change (b1 :: a :: b :: c :: d :: r) with ([b1; a; b; c; d] ++ r) in Hb; apply bytes_ok_app in Hb; apply Hb).
      repeat (apply bytes_ok_cons in Hx as [? Hx]).
      rewrite (pull_take _ [] s 2 [b1; a] (b :: c :: d :: r)); [|reflexivity|exact Hs|reflexivity].
      cbn [app]. rewrite (pull_take _ [b1; a] _ 1 [b] (c :: d :: r)); [|apply check_open; [repeat constructor; assumption|change (blen [a]) with 1; lia|change (blen [a]) with 1; lia|repeat constructor; assumption]|reflexivity|reflexivity].
      cbn [app]. rewrite (pull_take _ [b1; a; b] _ 1 [c] (d :: r)); [|apply check_open; [repeat constructor; assumption|change (blen [a; b]) with 2; lia|change (blen [a; b]) with 2; lia|repeat constructor; assumption]|reflexivity|reflexivity].
      cbn [app]. rewrite (pull_take _ [b1; a; b; c] _ 1 [d] r); [|apply check_open; [repeat constructor; assumption|change (blen [a; b; c]) with 3; lia|change (blen [a; b; c]) with 3; lia|repeat constructor; assumption]|reflexivity|reflexivity].
      cbn [app]. rewrite (pull_stop _ _ _ (Err MalformedRemainingLength) [b1; a; b; c; d]).
      + eapply w_malformed; [exact Hs|repeat constructor; assumption].
      + apply g_no_frame, check_iff; [repeat constructor; assumption|]. eapply v_malformed; [reflexivity|repeat constructor; assumption].
      + discriminate.
    - assert (Hbf : bytes_ok (b1 :: f)) by (rewrite Hs in Hb; change (b1 :: f ++ r) with ((b1 :: f) ++ r) in Hb; apply bytes_ok_app in Hb; apply Hb).
      assert (Hk : exists k, calls = (List.length f + S k)%nat) by (exists (calls - List.length f - 1)%nat; unfold blen in Hl; lia).
      destruct Hk as [k ->]. rewrite Hs at 2. rewrite (pull_header b1 f n r (S k) Hbf Hf Hl).
      rewrite (pull_stop _ _ _ (Err (PayloadSizeLimitExceeded n)) (b1 :: f)); [eapply w_limit; eauto| |discriminate].
      apply g_no_frame, check_iff; [exact Hbf|]. eapply (v_limit (b1 :: f) max b1 f n []); [rewrite app_nil_r; reflexivity|exact Hf|exact Hl|exact Hm].
    - assert (Hbf : bytes_ok (b1 :: f)) by (rewrite Hs in Hb; change (b1 :: f ++ r) with ((b1 :: f) ++ r) in Hb; apply bytes_ok_app in Hb; apply Hb).
      assert (Hk : exists k, calls = (List.length f + S k)%nat) by (exists (calls - List.length f - 1)%nat; unfold blen in Hl; lia).
      destruct Hk as [k ->]. rewrite Hs at 2. rewrite (pull_header b1 f n r (S k) Hbf Hf Hl).
      rewrite (pull_ask _ _ _ n).
      + replace (blen r <? n) with true by lia. eapply w_partial; eauto.
      + apply check_iff; [exact Hbf|]. assert (V := v_partial (b1 :: f) max b1 f n []). rewrite app_nil_r in V.
        change (@blen N []) with 0 in V. rewrite N.sub_0_r in V. apply V; [reflexivity|exact Hf|exact Hl|exact Hm|lia].
    - assert (E : r = firstn (N.to_nat n) r ++ skipn (N.to_nat n) r) by (symmetry; apply firstn_skipn).
      set (bd := firstn (N.to_nat n) r) in *. set (tl := skipn (N.to_nat n) r) in *.
      assert (Hn : n = blen bd) by (unfold bd, blen; rewrite firstn_length; unfold blen in Hr; lia).
      clearbody bd tl. subst n r. clear Hr.
      assert (Hbf : bytes_ok (b1 :: f)) by (rewrite Hs in Hb; change (b1 :: f ++ bd ++ tl) with ((b1 :: f) ++ bd ++ tl) in Hb; apply bytes_ok_app in Hb; apply Hb).
      assert (Hbb : bytes_ok (b1 :: f ++ bd ++ [])).
      { rewrite app_nil_r, Hs in *. replace (b1 :: f ++ bd ++ tl) with ((b1 :: f ++ bd) ++ tl) in Hb by (cbn [app]; rewrite <- app_assoc; reflexivity).
        apply bytes_ok_app in Hb. apply Hb. }
      assert (G := g_frame rf b1 f bd [] max Hbb Hf Hl Hm). rewrite app_nil_r in G.
      assert (Hd : (exists m, rframe rf b1 f bd = Err (InsufficientBytes m)) \/ (forall m, rframe rf b1 f bd <> Err (InsufficientBytes m))).
      { destruct (rframe rf b1 f bd) as [p|e| |]; try (right; discriminate). destruct e; try (right; discriminate). left; eauto. }
      destruct Hd as [[m Er]|Hne]; [eapply w_confused; eauto|].
      assert (W := w_frame s b1 f bd tl Hs Hf Hl Hm Hne).
      assert (Hk : exists k, calls = (List.length f + S (S k))%nat) by (exists (calls - List.length f - 2)%nat; unfold blen in Hl; lia).
      destruct Hk as [k ->]. rewrite Hs at 2. rewrite (pull_header b1 f (blen bd) (bd ++ tl) (S (S k)) Hbf Hf Hl).
      destruct bd as [|x bd].
      + rewrite app_nil_r in G. cbn [app]. rewrite (pull_stop _ _ _ _ _ G Hne). exact W.
      + rewrite (pull_take _ (b1 :: f) ((x :: bd) ++ tl) (blen (x :: bd)) (x :: bd) tl); [| |reflexivity|reflexivity].
        * change ((b1 :: f) ++ x :: bd) with (b1 :: f ++ x :: bd). rewrite (pull_stop _ _ _ _ _ G Hne). exact W.
        * apply check_iff; [exact Hbf|]. assert (V := v_partial (b1 :: f) max b1 f (blen (x :: bd)) []). rewrite app_nil_r in V.
          change (@blen N []) with 0 in V. rewrite N.sub_0_r in V. apply V; [reflexivity|exact Hf|exact Hl|exact Hm|autorewrite with blen; lia].
  Qed.

  (** *** the receiver that may take more *)
  Inductive frame_at (s : bytes) (b1 : N) (f bd r : bytes) : Prop :=
  | frame_at_intro : s = b1 :: f ++ bd ++ r -> lenfield f (blen bd) -> blen f <= 4 -> blen bd <= max ->
      (forall n, rframe rf b1 f bd <> Err (InsufficientBytes n)) -> frame_at s b1 f bd r.
  (** calls still to be made with [buf] received of the frame *)
  Definition left_of (f bd buf : bytes) : nat :=
    if blen buf <? 2 then 6
    else if blen buf <? 1 + blen f then N.to_nat (3 + blen f - blen buf)
    else if blen buf <? 1 + blen f + blen bd then 2 else 1.
  Lemma fetch_steps s b1 f bd r : bytes_ok s -> frame_at s b1 f bd r ->
    forall buf src v buf' src' calls, fetches rd max buf src v buf' src' calls -> s = buf ++ src ->
    v = rframe rf b1 f bd /\ r = buf' ++ src' /\ (calls <= left_of f bd buf)%nat.
  Proof.
    intros Hb [Hs Hf Hl Hm Hne] buf src v buf' src' calls H.
    assert (Hf1 := lenfield_nonempty f _ Hf).
    assert (Hfull : check s max = Ok (mkFixedHeader b1 (1 + blen f) (blen bd))).
    { rewrite Hs. apply check_frame; [rewrite <- Hs; exact Hb|exact Hf|exact Hl|exact Hm|autorewrite with blen; lia]. }
    induction H as [buf src v buf' Hr Hv|buf src n buf1 more src1 v buf' src' calls Hr Hsrc Hmore HF IH]; intros E.
    - assert (Hbb : bytes_ok buf) by (rewrite E in Hb; apply bytes_ok_app in Hb; apply Hb).
      destruct (check buf max) as [h|e| |] eqn:Ec.
      + assert (Hst := check_stable buf max src (Ok h)). rewrite <- E in Hst. specialize (Hst Hb Ec ltac:(discriminate)).
        rewrite Hfull in Hst. injection Hst as <-.
        destruct (check_ok_inv _ _ _ Hbb Ec) as (b1' & f' & bd' & rest' & -> & Hf' & Hl' & Hm' & Eh).
        assert (Eb : b1' = b1 /\ f' = f /\ bd' = bd /\ rest' ++ src = r).
        { rewrite Hs in E. cbn [app] in E. injection E as <- E. rewrite <- !app_assoc in E.
          destruct (lenfield_det _ _ _ _ _ _ Hf Hf' E) as (-> & Ebd & E').
          assert (bd' = bd). { assert (Hx : List.length bd = List.length bd') by (unfold blen in Ebd; lia).
            apply (f_equal (firstn (List.length bd))) in E'. rewrite firstn_app, Nat.sub_diag, firstn_O, app_nil_r, firstn_all in E'.
            rewrite Hx, firstn_app, Nat.sub_diag, firstn_O, app_nil_r, firstn_all in E'. symmetry. exact E'. }
          subst bd'. apply app_inv_head in E'. auto. }
        destruct Eb as (-> & -> & -> & Er).
        rewrite (g_frame rf b1 f bd rest' max Hbb Hf Hl Hm) in Hr. injection Hr as <- <-.
        split; [reflexivity|]. split; [symmetry; exact Er|]. unfold left_of. autorewrite with blen.
        repeat match goal with |- context [if ?c then _ else _] => destruct c eqn:? end; lia.
      + rewrite (g_no_frame rf _ _ _ Ec) in Hr. injection Hr as <- <-.
        assert (Hst := check_stable buf max src (Err e)). rewrite <- E in Hst.
        assert (Hne' : forall n, @Err FixedHeader e <> Err (InsufficientBytes n)) by (intros n Hn; injection Hn as ->; eapply Hv; reflexivity).
        specialize (Hst Hb Ec Hne'). rewrite Hfull in Hst. discriminate.
      + exfalso. exact (proj1 (check_no_panic _ _ Hbb) Ec).
      + exfalso. exact (proj2 (check_no_panic _ _ Hbb) Ec).
    - assert (Hbb : bytes_ok buf) by (rewrite E in Hb; apply bytes_ok_app in Hb; apply Hb).
      destruct (g_cases rf buf max Hbb) as [e Ec Hg|b1' f' bd' rest' -> Hf' Hl' Hm' _ _ _ _ Ec Hg].
      + rewrite Hg in Hr. injection Hr as -> <-.
        destruct (check_need buf max n Hbb Ec) as [Hn1 _].
        destruct IH as (H1 & H2 & H3); [rewrite <- app_assoc, <- Hsrc; exact E|].
        split; [exact H1|]. split; [exact H2|].
        assert (Hv : verdict buf max (Err (InsufficientBytes n))) by (rewrite <- Ec; apply check_verdict, Hbb).
        (* what was asked brings the frame nearer *)
        assert (Hnew : (left_of f bd (buf ++ more) < left_of f bd buf)%nat); [|lia].
        assert (Hlen : blen buf < 1 + blen f + blen bd).
        { destruct (N.lt_ge_cases (blen buf) (1 + blen f + blen bd)) as [H|H]; [exact H|exfalso].
          assert (E2 : (b1 :: f ++ bd) ++ r = buf ++ src) by (rewrite <- E, Hs; cbn [app]; rewrite <- app_assoc; reflexivity).
          destruct (prefix_of _ _ _ _ E2) as [p Hp]; [cbn [List.length]; rewrite app_length; unfold blen in H; lia|].
          assert (Hpre : buf = b1 :: f ++ bd ++ p) by (rewrite Hp; cbn [app]; rewrite <- app_assoc; reflexivity).
          rewrite Hpre in Ec, Hbb. assert (Ec2 := check_frame b1 f (blen bd) (bd ++ p) max Hbb Hf Hl Hm ltac:(autorewrite with blen; lia)). rewrite Ec2 in Ec. discriminate. }
        (* the number asked for, by where the buffer ends *)
        assert (Hask : blen buf < 2 /\ 2 <= blen buf + n \/ blen f + 1 <= blen buf /\ blen buf + n = 1 + blen f + blen bd \/ 2 <= blen buf /\ blen buf < 1 + blen f).
        { destruct (N.lt_ge_cases (blen buf) 2) as [H|H].
          - left. split; [exact H|]. assert (Et := check_tiny buf Hbb H). rewrite Ec in Et. injection Et as ->. lia.
          - destruct (N.lt_ge_cases (blen buf) (1 + blen f)) as [H'|H']; [right; right; auto|right; left].
            split; [lia|].
            assert (E2 : (b1 :: f) ++ (bd ++ r) = buf ++ src) by (rewrite <- E, Hs; reflexivity).
            assert (Hpre : exists p, buf = (b1 :: f) ++ p) by (apply (prefix_of _ _ _ _ E2); cbn [List.length]; unfold blen in H'; lia).
            cbn [app] in Hpre.
            destruct Hpre as [p Hp]. subst buf. autorewrite with blen in Hlen |- *.
            assert (Hvp : verdict (b1 :: f ++ p) max (Err (InsufficientBytes (blen bd - blen p)))) by (eapply v_partial; [reflexivity|exact Hf|exact Hl|exact Hm|lia]).
            assert (Ev := verdict_det _ _ _ _ Hv Hvp). injection Ev as ->. lia. }
        unfold left_of. autorewrite with blen.
        repeat match goal with |- context [if ?c then _ else _] => destruct c eqn:? end; lia.
      + exfalso. assert (Hst := check_stable (b1' :: f' ++ bd' ++ rest') max src (Ok (mkFixedHeader b1' (1 + blen f') (blen bd')))).
        rewrite <- E in Hst. specialize (Hst Hb Ec ltac:(discriminate)). rewrite Hfull in Hst. injection Hst as Eb Ef Ebd.
        assert (f' = f /\ bd' = bd).
        { rewrite Hs in E. cbn [app] in E. injection E as _ E. rewrite <- !app_assoc in E.
          destruct (lenfield_det _ _ _ _ _ _ Hf Hf' E) as (-> & Ebd' & E').
          split; [reflexivity|]. assert (Hx : List.length bd = List.length bd') by (unfold blen in Ebd'; lia).
          apply (f_equal (firstn (List.length bd))) in E'. rewrite firstn_app, Nat.sub_diag, firstn_O, app_nil_r, firstn_all in E'.
          rewrite Hx, firstn_app, Nat.sub_diag, firstn_O, app_nil_r, firstn_all in E'. symmetry. exact E'. }
        destruct H as [-> ->]. subst b1'. rewrite Hg in Hr. injection Hr as Er _. eapply Hne. exact Er.
  Qed.
  Lemma left_of_six f bd buf : blen f <= 4 -> (left_of f bd buf <= 6)%nat.
  Proof. intros H. unfold left_of. repeat match goal with |- context [if ?c then _ else _] => destruct c eqn:? end; lia. Qed.
End Generic.

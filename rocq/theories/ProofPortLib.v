(** ProofPortLib.v -- src/lib.rs for an arbitrary target. *)
From Verif Require Import ProofBase Lib ProofLib ProofRelBase SrcBase ProofWrapBase ProofPortBase.
From Verif Require ProofSrcBase ProofSrcTacW SrcLib SrcV5Property PortBase PortLib PortV5Property.

Lemma pLib_qos {T : Target} n : osim (SrcLib.qos n) (PortLib.qos n).
Proof. apply osim_refl. Qed.
Lemma pLib_len_len {T : Target} n : osim (SrcLib.len_len n) (PortLib.len_len n).
Proof. apply osim_refl. Qed.
Lemma pLib_packet_type {T : Target} h : osim (SrcLib.FixedHeader_packet_type h) (PortLib.FixedHeader_packet_type h).
Proof. unfold SrcLib.FixedHeader_packet_type, PortLib.FixedHeader_packet_type. plain. Qed.
Lemma pLib_read_u16 {T : Target} : wsim SrcLib.read_u16 PortLib.read_u16.
Proof. apply wsim_refl. Qed.
Lemma pLib_read_u8 {T : Target} : wsim SrcLib.read_u8 PortLib.read_u8.
Proof. apply wsim_refl. Qed.
Lemma pLib_read_u32 {T : Target} : wsim SrcLib.read_u32 PortLib.read_u32.
Proof. apply wsim_refl. Qed.
Lemma pLib_read_mqtt_bytes {T : Target} : wsim SrcLib.read_mqtt_bytes PortLib.read_mqtt_bytes.
Proof. apply wsim_refl. Qed.
Lemma pLib_read_mqtt_string {T : Target} : wsim SrcLib.read_mqtt_string PortLib.read_mqtt_string.
Proof. apply wsim_refl. Qed.
Lemma pLib_write_mqtt_bytes {T : Target} v : wsim (SrcLib.write_mqtt_bytes v) (PortLib.write_mqtt_bytes v).
Proof. apply wsim_refl. Qed.
Lemma pLib_write_mqtt_string {T : Target} v : wsim (SrcLib.write_mqtt_string v) (PortLib.write_mqtt_string v).
Proof. apply wsim_refl. Qed.
Lemma pV5_property {T : Target} n : osim (SrcV5Property.property n) (PortV5Property.property n).
Proof. apply osim_refl. Qed.

Lemma psim_add {T : Target} {B} a b (k k' : N -> writer B) Q s : a + b < 2 ^ bits ->
  psim (k (a + b)) (k' (a + b)) Q s -> psim (wbind (lift (usize_add a b)) k) (wbind (lift (PortBase.usize_add a b)) k') Q s.
Proof.
  intros H Hk. apply psim_lift; [apply osim_add, H|]. intros c Hc. apply add_value in Hc. subst c. exact Hk.
Qed.
Lemma psim_sub {T : Target} {B} a b (k k' : N -> writer B) Q s :
  (b <= a -> psim (k (a - b)) (k' (a - b)) Q s) ->
  psim (wbind (lift (usize_sub a b)) k) (wbind (lift (PortBase.usize_sub a b)) k') Q s.
Proof.
  intros Hk. apply psim_lift; [apply osim_sub|]. intros c. unfold usize_sub. destruct (N.leb_spec b a) as [L|L]; [|discriminate].
  intros H. injection H as <-. apply Hk, L.
Qed.

Lemma pLib_length {T : Target} {WT : Wide} s : osim (SrcLib.length s) (PortLib.length s).
Proof.
  pose proof word_big as W. unfold SrcLib.length, PortLib.length.
  eapply psim_run with (Q := fun _ _ => True). cbv zeta. eapply psim_bind.
  - eapply (psim_for_ctl _ _ (fun '(k, n, _, sh) => sh <= 21 /\ n <= sh * 67108864 /\ k <= sh)).
    + intros x [[[k n] d] sh] (H1 & H2 & H3).
      pose proof (shl_bound (N.land x 127) sh (land127 x) H1).
      apply psim_add; [lia|].
      apply psim_lift; [apply osim_shl; [apply land127|exact H1]|]. intros c Hc.
      assert (Ec : c <= 266338304).
      { revert Hc. unfold usize_shl, shl. destruct (sh <? 64); [|discriminate]. intros E. injection E as <-.
        eapply N.le_trans; [apply N.mod_le; discriminate|exact H]. }
      apply psim_add; [lia|]. cbv zeta. destruct (N.land x 128 =? 0).
      * apply psim_ret. split; [reflexivity|exact I].
      * apply psim_lift; [apply osim_i32|]. intros sh' Hs.
        assert (E : sh' = sh + 7). { revert Hs. unfold i32_add. destruct (_ <? _); congruence. } subst sh'.
        destruct (21 <? sh + 7) eqn:E; [apply psim_werr|]. apply psim_wret. apply psim_ret.
        split; [reflexivity|]. apply N.ltb_ge in E. lia.
    + lia.
  - intros [[[[k n] d] sh]|r] s' ->; [|apply psim_ret; exact I].
    destruct d; cbn [negb]; [apply psim_wret, psim_ret; exact I|apply psim_werr].
Qed.

Lemma length_small s : forall len k sh a n, sh <= 21 -> len <= sh * 67108864 -> length_loop s len k sh = Ok (a, n) -> n <= 1675624448.
Proof.
  induction s as [|b s IH]; intros len k sh a n Hs Hl; cbn [length_loop]; [discriminate|].
  pose proof (shl_bound (N.land b 127) sh (land127 b) Hs).
  destruct (N.land b 128 =? 0); [intros H'; injection H'; intros; lia|].
  destruct (21 <? sh + 7) eqn:E; [discriminate|]. apply IH; lia.
Qed.
Lemma length_within s : forall len k sh a n, length_loop s len k sh = Ok (a, n) -> a <= k + blen s.
Proof.
  induction s as [|b s IH]; intros len k sh a n; cbn [length_loop]; [discriminate|]. rewrite blen_cons.
  destruct (N.land b 128 =? 0); [intros H'; injection H'; intros; lia|].
  destruct (21 <? sh + 7) eqn:E; [discriminate|]. intros H. apply IH in H. lia.
Qed.
Lemma length_value s a n : SrcLib.length s = Ok (a, n) -> a <= 4 /\ n <= 1675624448.
Proof.
  rewrite ProofSrcBase.length_eq. intros H. split; [exact (length_bound _ _ _ H)|exact (length_small s 0 0 0 a n ltac:(lia) ltac:(lia) H)].
Qed.
Lemma pLib_new {T : Target} b k n : k + 1 < 2 ^ bits -> osim (SrcLib.FixedHeader_new b k n) (PortLib.FixedHeader_new b k n).
Proof.
  intros H. unfold SrcLib.FixedHeader_new, PortLib.FixedHeader_new.
  eapply psim_run with (Q := fun _ _ => True). apply psim_add; [exact H|]. apply psim_ret. exact I.
Qed.
Lemma pLib_frame_length {T : Target} h : fixed_header_len h + remaining_len h < 2 ^ bits ->
  osim (SrcLib.FixedHeader_frame_length h) (PortLib.FixedHeader_frame_length h).
Proof.
  intros H. unfold SrcLib.FixedHeader_frame_length, PortLib.FixedHeader_frame_length.
  eapply psim_run with (Q := fun _ _ => True). apply psim_add; [exact H|]. apply psim_ret. exact I.
Qed.
Lemma new_value b k n h : SrcLib.FixedHeader_new b k n = Ok h -> h = mkFixedHeader b (k + 1) n.
Proof.
  rewrite ProofSrcBase.fixed_header_new_eq. unfold new_fixed_header, usize_add. destruct (k + 1 <=? usize_max); cbn [obind]; congruence.
Qed.
Lemma pLib_parse {T : Target} {WT : Wide} s : osim (SrcLib.parse_fixed_header s) (PortLib.parse_fixed_header s).
Proof.
  pose proof word_big as W. unfold SrcLib.parse_fixed_header, PortLib.parse_fixed_header.
  eapply psim_run with (Q := fun _ _ => True). cbv zeta. destruct (blen s <? 2) eqn:E.
  - apply psim_assoc. apply psim_sub. intros _. apply psim_werr.
  - apply psim_wret. destruct s as [|x s]; cbn [iter_next].
    + apply psim_lift; [apply osim_refl|]. discriminate.
    + apply psim_lift; [apply osim_refl|]. intros b _. apply psim_lift; [apply pLib_length|].
      intros [k n] Hk. apply length_value in Hk as [Hk Hn]. apply psim_lift; [apply pLib_new; lia|]. intros h _. apply psim_ret. exact I.
Qed.
Lemma parse_value s h : SrcLib.parse_fixed_header s = Ok h -> fixed_header_len h <= 5 /\ remaining_len h <= 1675624448.
Proof.
  unfold SrcLib.parse_fixed_header, run, wbind, wret, werr, lift. cbv zeta. destruct (blen s <? 2).
  - destruct (usize_sub 2 (blen s)); discriminate.
  - cbn [fst]. destruct s as [|x s]; cbn [iter_next unwrap]; [discriminate|].
    destruct (SrcLib.length s) as [[k n]|e| |] eqn:El; try discriminate. apply length_value in El as [Hk Hn].
    destruct (SrcLib.FixedHeader_new x k n) as [h'|e| |] eqn:Eh; try discriminate. apply new_value in Eh. subst h'.
    intros H. injection H as <-. cbn [fixed_header_len remaining_len]. lia.
Qed.
Lemma pLib_check {T : Target} {WT : Wide} s max : osim (SrcLib.check s max) (PortLib.check s max).
Proof.
  pose proof word_big as W. unfold SrcLib.check, PortLib.check.
  eapply psim_run with (Q := fun _ _ => True). cbv zeta. apply psim_lift; [apply pLib_parse|]. intros h Hh.
  apply parse_value in Hh as [H1 H2]. destruct (max <? remaining_len h); [apply psim_werr|]. apply psim_wret.
  apply psim_lift; [apply pLib_frame_length; lia|]. intros n _. destruct (blen s <? n).
  - apply psim_assoc. apply psim_sub. intros _. apply psim_werr.
  - apply psim_wret, psim_ret. exact I.
Qed.
Lemma check_value s max h : SrcLib.check s max = Ok h -> fixed_header_len h <= 5 /\ remaining_len h <= 1675624448.
Proof.
  unfold SrcLib.check, run, wbind, wret, werr, lift. cbv zeta.
  destruct (SrcLib.parse_fixed_header s) as [h'|e| |] eqn:E; try discriminate. apply parse_value in E.
  destruct (max <? remaining_len h'); [discriminate|]. cbn [fst].
  destruct (SrcLib.FixedHeader_frame_length h') as [n|e| |]; try discriminate. destruct (blen s <? n).
  - destruct (usize_sub _ _); discriminate.
  - cbn [fst]. intros H. injection H as <-. exact E.
Qed.
Lemma pLib_write_remaining_length {T : Target} {WT : Wide} fuel n : wsim (SrcLib.write_remaining_length fuel n) (PortLib.write_remaining_length fuel n).
Proof.
  pose proof word_big as W. unfold SrcLib.write_remaining_length, PortLib.write_remaining_length.
  apply wsim_psim with (Q := fun _ _ _ => True). intros s. destruct (268435455 <? n) eqn:E; [apply psim_werr|].
  apply psim_wret. cbv zeta. eapply psim_bind.
  - apply psim_while_if with
      (I := fun '(x, count, done) _ => (done = true \/ (x < 128 ^ (4 - count) /\ (count = 0 \/ 0 < x))) /\ count <= 4)
      (J := fun '(x, count, done) _ => x < 128 ^ (4 - count) /\ count < 4).
    + intros [[x c] d] s0 [H1 H2]. apply psim_ret. split; [reflexivity|]. intros Hd.
      destruct H1 as [->|[H1 H3]]; [discriminate|]. split; [exact H1|].
      destruct (N.eq_dec c 4) as [->|Hc]; [|lia]. change (128 ^ (4 - 4)) with 1 in H1. lia.
    + intros [[x c] d] s0 [H1 H2]. cbv zeta. assert (D : x / 128 < 128 ^ (4 - (c + 1))).
      { apply N.div_lt_upper_bound; [discriminate|]. rewrite <- N.pow_succ_r'. replace (N.succ (4 - (c + 1))) with (4 - c) by lia. exact H1. }
      assert (G : forall y, psim (put_u8 y ;;w count <-w lift (usize_add c 1) ;; wret (x / 128, count, x / 128 =? 0))
        (put_u8 y ;;w count <-w lift (PortBase.usize_add c 1) ;; wret (x / 128, count, x / 128 =? 0))
        (fun '(x, count, done) _ => (done = true \/ (x < 128 ^ (4 - count) /\ (count = 0 \/ 0 < x))) /\ count <= 4) s0).
      { intros y. eapply psim_bind; [apply psim_wsim, wsim_refl|]. intros _ s1 _. apply psim_add; [lia|]. apply psim_ret.
        split; [|lia]. destruct (N.eqb_spec (x / 128) 0) as [Z|Z]; [left; reflexivity|right]. split; [exact D|lia]. }
      destruct (0 <? x / 128); apply psim_wret; apply G.
    + split; [right|lia]. split; [|left; reflexivity]. change (128 ^ (4 - 0)) with 268435456. apply N.ltb_ge in E. lia.
  - intros [[x c] d] s' H. apply psim_ret. exact I.
Qed.
Global Hint Resolve pLib_qos pLib_len_len pLib_packet_type pLib_read_u16 pLib_read_u8 pLib_read_u32 pLib_read_mqtt_bytes
  pLib_read_mqtt_string pLib_write_mqtt_bytes pLib_write_mqtt_string pV5_property pLib_length pLib_parse pLib_check
  pLib_write_remaining_length : port.

(** what the reads take from the buffer *)
Lemma src_len {A} (w : outcome A * bytes) (r : outcome (A * bytes)) (Q : A -> bytes -> Prop) a s' :
  ProofSrcBase.sim w r (fun a b s' => a = b /\ Q a s') -> w = (Ok a, s') -> Q a s'.
Proof.
  intros H ->. unfold ProofSrcBase.sim in H. cbn [fst snd] in H. destruct r as [[b s]| | |]; try contradiction.
  destruct H as (-> & _ & H). exact H.
Qed.
Lemma ps_u8 {T : Target} {WT : Wide} s : psim SrcLib.read_u8 PortLib.read_u8 (fun _ s' => blen s = 1 + blen s') s.
Proof. eapply psim_conseq; [apply psim_wsim, pLib_read_u8|]. intros a s' H. exact (src_len _ _ _ _ _ (ProofSrcBase.sim_u8 s) H). Qed.
Lemma ps_u16 {T : Target} {WT : Wide} s : psim SrcLib.read_u16 PortLib.read_u16 (fun _ s' => blen s = 2 + blen s') s.
Proof. eapply psim_conseq; [apply psim_wsim, pLib_read_u16|]. intros a s' H. exact (src_len _ _ _ _ _ (ProofSrcBase.sim_u16 s) H). Qed.
Lemma ps_u32 {T : Target} {WT : Wide} s : psim SrcLib.read_u32 PortLib.read_u32 (fun _ s' => blen s = 4 + blen s') s.
Proof. eapply psim_conseq; [apply psim_wsim, pLib_read_u32|]. intros a s' H. exact (src_len _ _ _ _ _ (ProofSrcBase.sim_u32 s) H). Qed.
Lemma ps_bytes {T : Target} {WT : Wide} s : psim SrcLib.read_mqtt_bytes PortLib.read_mqtt_bytes (fun a s' => blen s = 2 + blen a + blen s') s.
Proof. eapply psim_conseq; [apply psim_wsim, pLib_read_mqtt_bytes|]. intros a s' H. exact (src_len _ _ (fun a s' => blen s = 2 + blen a + blen s') _ _ (ProofSrcBase.sim_bytes s) H). Qed.
Lemma ps_string {T : Target} {WT : Wide} s : psim SrcLib.read_mqtt_string PortLib.read_mqtt_string (fun a s' => blen s = 2 + blen a + blen s') s.
Proof. eapply psim_conseq; [apply psim_wsim, pLib_read_mqtt_string|]. intros a s' H. exact (src_len _ _ (fun a s' => blen s = 2 + blen a + blen s') _ _ (ProofSrcBase.sim_string s) H). Qed.
Lemma ps_advance n s : psim (keep (advance n)) (keep (advance n)) (fun _ s' => n + blen s' = blen s) s.
Proof.
  intros _. split; [reflexivity|]. unfold keep, advance. destruct (N.leb_spec n (blen s)) as [L|L]; cbn; [|exact I].
  unfold blen in *. rewrite skipn_length. lia.
Qed.
Lemma ps_length {T : Target} {WT : Wide} {B} t (k k' : N * N -> writer B) Q s :
  (forall a n, a <= 4 -> a <= blen t -> psim (k (a, n)) (k' (a, n)) Q s) ->
  psim (wbind (lift (SrcLib.length t)) k) (wbind (lift (PortLib.length t)) k') Q s.
Proof.
  intros H. apply psim_lift; [apply pLib_length|]. intros [a n] E. apply H.
  - apply (length_value t a n E).
  - rewrite ProofSrcBase.length_eq in E. apply (length_within t 0 0 0 a n E).
Qed.

(** ProofSrcBase.v -- the mechanical translation (Src*.v) against the model:
    the relation between the two, its rules, and src/lib.rs. *)
From Verif Require Import ProofBase Lib ProofLib ProofRelBase SrcBase.
From Verif Require SrcLib.

(** ** Reading: the translation keeps the buffer on failure, the model does not.
    [sim w r Q]: the same outcome, the same buffer on success, related values. *)
Definition sim {A B} (w : outcome A * bytes) (r : outcome (B * bytes)) (Q : A -> B -> bytes -> Prop) : Prop :=
  match fst w, r with
  | Ok a, Ok (b, s) => snd w = s /\ Q a b s
  | Err e, Err e' => e = e'
  | Panic, Panic => True
  | Diverge, Diverge => True
  | _, _ => False
  end.

Lemma sim_bind {A A' B B'} (m : writer A) (r : reader A') (k : A -> writer B) (k' : A' -> reader B')
    (P : A -> A' -> bytes -> Prop) Q s :
  sim (m s) (r s) P ->
  (forall a a' s', P a a' s' -> sim (k a s') (k' a' s') Q) ->
  sim (wbind m k s) (rbind r k' s) Q.
Proof.
  unfold sim, wbind, rbind. destruct (m s) as [[a| | |] s1], (r s) as [[a' s2]| | |]; cbn; auto; try contradiction.
  intros [-> HP] H. apply H, HP.
Qed.
Lemma sim_ret {A B} (a : A) (b : B) s (Q : A -> B -> bytes -> Prop) : Q a b s -> sim (wret a s) (rret b s) Q.
Proof. cbn. auto. Qed.
Lemma sim_err {A B} e s (Q : A -> B -> bytes -> Prop) : sim (werr e s) (rerr e s) Q.
Proof. cbn. auto. Qed.
(** steps of the translation that have no counterpart *)
Lemma sim_ok {A A' B} (a : A) (k : A -> writer A') (r : outcome (B * bytes)) s Q :
  sim (k a s) r Q -> sim (wbind (lift (Ok a)) k s) r Q.
Proof. auto. Qed.
Lemma sim_wret {A A' B} (a : A) (k : A -> writer A') (r : outcome (B * bytes)) s Q :
  sim (k a s) r Q -> sim (wbind (wret a) k s) r Q.
Proof. auto. Qed.
Lemma sim_get {A' B} (k : bytes -> writer A') (r : outcome (B * bytes)) s Q :
  sim (k s s) r Q -> sim (wbind get k s) r Q.
Proof. auto. Qed.
Lemma sim_assoc {A B C D} (m : writer A) (k : A -> writer B) (l : B -> writer C) (r : outcome (D * bytes)) s Q :
  sim (wbind m (fun a => wbind (k a) l) s) r Q -> sim (wbind (wbind m k) l s) r Q.
Proof. unfold wbind. destruct (m s) as [[a| | |] s1]; auto. Qed.
Lemma sim_add {A' B} a b (k : N -> writer A') (r : outcome (B * bytes)) s Q :
  a + b <= usize_max -> sim (k (a + b) s) r Q -> sim (wbind (lift (usize_add a b)) k s) r Q.
Proof. intros H. unfold usize_add. replace (a + b <=? usize_max) with true by lia. auto. Qed.
Lemma sim_sub {A' B} a b (k : N -> writer A') (r : outcome (B * bytes)) s Q :
  b <= a -> sim (k (a - b) s) r Q -> sim (wbind (lift (usize_sub a b)) k s) r Q.
Proof. intros H. unfold usize_sub. replace (b <=? a) with true by lia. auto. Qed.
(** a step of both *)
Lemma sim_lift {A A' B} (o : outcome A) (k : A -> writer A') (k' : A -> reader B) s Q :
  (forall a, o = Ok a -> sim (k a s) (k' a s) Q) -> sim (wbind (lift o) k s) (rbind (rlift o) k' s) Q.
Proof. intros H. unfold wbind, rbind, lift, rlift. destruct o; cbn; auto. Qed.
Lemma sim_keep {A} (m : reader A) s (Q : A -> A -> bytes -> Prop) :
  (forall a s', m s = Ok (a, s') -> Q a a s') -> sim (keep m s) (m s) Q.
Proof. unfold sim, keep. intros H. destruct (m s) as [[a s']| | |]; cbn; auto. Qed.
Lemma sim_conseq {A B} w r (P Q : A -> B -> bytes -> Prop) :
  sim w r P -> (forall a b s, P a b s -> Q a b s) -> sim w r Q.
Proof. unfold sim. destruct (fst w), r as [[b s]| | |]; auto. intros [E H] I. auto. Qed.

(** what [sim] says about a whole function *)
Definition value {A B} (o : outcome (A * B)) : outcome A :=
  match o with Ok (a, _) => Ok a | Err e => Err e | Panic => Panic | Diverge => Diverge end.
Definition forget {A} (w : outcome A * bytes) : outcome (A * bytes) :=
  match fst w with Ok a => Ok (a, snd w) | Err e => Err e | Panic => Panic | Diverge => Diverge end.
Lemma sim_run {A} (m : writer A) (r : outcome (A * bytes)) s Q :
  sim (m s) r Q -> (forall a b s', Q a b s' -> a = b) -> run m s = value r.
Proof.
  unfold sim, run, value. destruct (fst (m s)), r as [[b s']| | |]; try contradiction; try (intros; congruence).
  intros [_ H] I. f_equal. eapply I, H.
Qed.
Lemma sim_forget {A} (w : outcome A * bytes) (r : outcome (A * bytes)) Q :
  sim w r Q -> (forall a b s', Q a b s' -> a = b) -> forget w = r.
Proof.
  unfold sim, forget. destruct (fst w), r as [[b s']| | |]; try contradiction; try (intros; congruence).
  intros [<- H] I. f_equal. f_equal. eapply I, H.
Qed.

(** ** src/lib.rs *)
Lemma usize_add_ok a b : a + b <= usize_max -> usize_add a b = Ok (a + b).
Proof. intros H. unfold usize_add. replace (a + b <=? usize_max) with true by lia. reflexivity. Qed.
Lemma usize_sub_ok a b : b <= a -> usize_sub a b = Ok (a - b).
Proof. intros H. unfold usize_sub. replace (b <=? a) with true by lia. reflexivity. Qed.
Lemma lift_bind {A B} (a : A) (k : A -> writer B) b : wbind (lift (Ok a)) k b = k a b.
Proof. reflexivity. Qed.
Lemma wret_bind {A B} (a : A) (k : A -> writer B) b : wbind (wret a) k b = k a b.
Proof. reflexivity. Qed.

Lemma qos_eq n : SrcLib.qos n = qos n.
Proof. unfold SrcLib.qos, qos, run. destruct n as [|p]; [reflexivity|]. do 3 (destruct p as [p|p|]; try reflexivity). Qed.
Lemma len_len_eq n : SrcLib.len_len n = Ok (len_len n).
Proof.
  unfold SrcLib.len_len, len_len, run.
  destruct (2097152 <=? n); [reflexivity|]. destruct (16384 <=? n); [reflexivity|].
  destruct (128 <=? n); reflexivity.
Qed.
Lemma packet_type_eq h : SrcLib.FixedHeader_packet_type h = packet_type h.
Proof.
  unfold SrcLib.FixedHeader_packet_type, packet_type, run.
  change (u8_shr (byte1 h) 4) with (@Ok N (N.shiftr (byte1 h) 4)).
  rewrite lift_bind. set (n := N.shiftr (byte1 h) 4). clearbody n.
  destruct n as [|p]; [reflexivity|].
  do 4 (destruct p as [p|p|]; try reflexivity).
Qed.
Lemma frame_length_eq h : SrcLib.FixedHeader_frame_length h = frame_length h.
Proof. unfold SrcLib.FixedHeader_frame_length, frame_length, run, lift, wbind. destruct usize_add; reflexivity. Qed.
Lemma fixed_header_new_eq a b c : SrcLib.FixedHeader_new a b c = new_fixed_header a b c.
Proof. unfold SrcLib.FixedHeader_new, new_fixed_header, run, lift, wbind. destruct usize_add; reflexivity. Qed.

Lemma usize_shl_ok a n : n <= 21 -> a <= 127 -> usize_shl a n = Ok (N.shiftl a n).
Proof.
  intros Hn Ha. unfold usize_shl, shl. replace (n <? 64) with true by lia. f_equal. apply N.mod_small.
  rewrite N.shiftl_mul_pow2. apply N.le_lt_trans with (127 * 2 ^ 21).
  - apply N.mul_le_mono; [exact Ha|]. apply N.pow_le_mono_r; lia.
  - reflexivity.
Qed.
Lemma length_eq s : SrcLib.length s = length s.
Proof.
  unfold SrcLib.length, length, run. cbv zeta.
  set (body := fun byte _ => _).
  enough (H : forall s len k sh, sh <= 21 -> len <= sh * 67108864 -> k <= sh ->
    fst ((t2 <-w for_ctl body s (k, len, false, sh) ;;
     match t2 with
     | inl (len_len, len, done, shift) =>
        (if negb done then werr (InsufficientBytes 1) else wret tt) ;;w wret (len_len, len)
     | inr t3 => wret t3
     end) []) = length_loop s len k sh).
  { apply (H s 0 0 0); lia. }
  clear s. pose proof usize_big as U.
  induction s as [|b s IH]; intros len k sh Hs Hl Hk; cbn [length_loop for_ctl]; [reflexivity|].
  assert (B : N.shiftl (N.land b 127) sh <= 127 * 2097152).
  { rewrite N.shiftl_mul_pow2. apply N.mul_le_mono; [apply land127|].
    change 2097152 with (2 ^ 21). apply N.pow_le_mono_r; lia. }
  unfold body at 1. rewrite usize_add_ok by lia.
  assert (K : i32_add sh 7 = Ok (sh + 7)).
  { unfold i32_add. replace (sh + 7 <? 2 ^ 31) with true by (symmetry; apply N.ltb_lt; change (2 ^ 31) with 2147483648; lia). reflexivity. }
  rewrite usize_shl_ok by (try apply land127; lia).
  unfold wbind at 2 3 4 5. unfold lift. rewrite usize_add_ok by lia. rewrite K.
  destruct (N.land b 128 =? 0); [reflexivity|]. unfold lift, wbind at 2 3.
  destruct (21 <? sh + 7) eqn:E; [reflexivity|]. unfold wret. apply IH; lia.
Qed.

Lemma parse_fixed_header_eq s : SrcLib.parse_fixed_header s = parse_fixed_header s.
Proof.
  unfold SrcLib.parse_fixed_header, parse_fixed_header, run. cbv zeta.
  destruct (blen s <? 2) eqn:E.
  { unfold wbind, lift. destruct (usize_sub 2 (blen s)); reflexivity. }
  destruct s as [|b s]; [reflexivity|]. cbn [iter_next unwrap]. rewrite length_eq.
  unfold wbind, lift, wret, obind. destruct (length s) as [[a n]| | |]; try reflexivity.
  cbn [fst snd]. rewrite fixed_header_new_eq. destruct new_fixed_header; reflexivity.
Qed.
Lemma check_eq s m : SrcLib.check s m = check s m.
Proof.
  unfold SrcLib.check, check, run. cbv zeta. rewrite parse_fixed_header_eq.
  unfold wbind, lift, obind. destruct (parse_fixed_header s) as [h| | |]; try reflexivity.
  destruct (m <? remaining_len h); [reflexivity|]. unfold wret. rewrite frame_length_eq.
  destruct (frame_length h) as [n| | |]; try reflexivity.
  destruct (blen s <? n); [|reflexivity]. destruct (usize_sub n (blen s)); reflexivity.
Qed.

(** reads *)
Lemma get_u16_len s n r : get_u16 s = Ok (n, r) -> blen s = 2 + blen r.
Proof. destruct s as [|a [|b s]]; cbn [get_u16]; try discriminate. intros H. injection H as _ <-. rewrite !blen_cons. lia. Qed.
Lemma get_u8_len s n r : get_u8 s = Ok (n, r) -> blen s = 1 + blen r.
Proof. destruct s as [|a s]; cbn [get_u8]; try discriminate. intros H. injection H as _ <-. rewrite !blen_cons. lia. Qed.
Lemma read_u32_len s n r : read_u32 s = Ok (n, r) -> blen s = 4 + blen r.
Proof.
  unfold read_u32. destruct (blen s <? 4) eqn:E; [discriminate|].
  destruct s as [|a [|b [|c [|d s]]]]; cbn [get_u32]; try discriminate. intros H. injection H as _ <-.
  rewrite !blen_cons. lia.
Qed.

Lemma sim_u16 s : sim (SrcLib.read_u16 s) (read_u16 s) (fun a b s' => a = b /\ blen s = 2 + blen s').
Proof.
  unfold SrcLib.read_u16. apply sim_get. destruct (blen s <? 2) eqn:E.
  - unfold read_u16. rewrite E. cbn. reflexivity.
  - unfold wbind at 1. unfold wret at 1. pose proof (read_u16_len s) as L. revert L.
    unfold read_u16. rewrite E. unfold wbind, keep, wret, sim. intros L.
    destruct (get_u16 s) as [[n r]| | |]; cbn; auto. repeat split. apply (L n r eq_refl).
Qed.
Lemma sim_u8 s : sim (SrcLib.read_u8 s) (read_u8 s) (fun a b s' => a = b /\ blen s = 1 + blen s').
Proof.
  unfold SrcLib.read_u8. apply sim_get. destruct (is_empty s) eqn:E.
  - unfold read_u8. rewrite E. cbn. reflexivity.
  - unfold wbind at 1. unfold wret at 1. pose proof (read_u8_len s) as L. revert L.
    unfold read_u8. rewrite E. unfold wbind, keep, wret, sim. intros L.
    destruct (get_u8 s) as [[n r]| | |]; cbn; auto. repeat split. apply (L n r eq_refl).
Qed.
Lemma sim_u32 s : sim (SrcLib.read_u32 s) (read_u32 s) (fun a b s' => a = b /\ blen s = 4 + blen s').
Proof.
  unfold SrcLib.read_u32. apply sim_get. destruct (blen s <? 4) eqn:E.
  - unfold read_u32. rewrite E. cbn. reflexivity.
  - unfold wbind at 1. unfold wret at 1. pose proof (read_u32_len s) as L. revert L.
    unfold read_u32. rewrite E. unfold wbind, keep, wret, sim. intros L.
    destruct (get_u32 s) as [[n r]| | |]; cbn; auto. repeat split. apply (L n r eq_refl).
Qed.
Lemma sim_bytes s : sim (SrcLib.read_mqtt_bytes s) (read_mqtt_bytes s)
  (fun a b s' => a = b /\ blen s = 2 + blen a + blen s').
Proof.
  unfold SrcLib.read_mqtt_bytes, read_mqtt_bytes. eapply sim_bind; [apply sim_u16|].
  intros n n' s1 [<- L]. cbv zeta. apply sim_get. destruct (blen s1 <? n) eqn:E; [cbn; reflexivity|].
  unfold wbind at 1. unfold wret at 1. pose proof (split_to_len n s1) as D.
  unfold wbind, keep, wret, sim. destruct (split_to n s1) as [[v r]| | |]; cbn; auto. repeat split.
  specialize (D v r eq_refl). lia.
Qed.
Lemma sim_string s : sim (SrcLib.read_mqtt_string s) (read_mqtt_string s)
  (fun a b s' => a = b /\ blen s = 2 + blen a + blen s').
Proof.
  unfold SrcLib.read_mqtt_string, read_mqtt_string. eapply sim_bind; [apply sim_bytes|].
  intros v v' s1 [<- L]. unfold from_utf8. destruct (Utf8.utf8_ok v); cbn; auto.
Qed.
Lemma sim_advance n s : sim (keep (advance n) s) (advance n s) (fun _ _ s' => blen s' <= blen s).
Proof. apply sim_keep. intros [] s' H. apply advance_len in H. exact H. Qed.

(** writes *)
Lemma write_mqtt_bytes_eq v b : SrcLib.write_mqtt_bytes v b = write_mqtt_bytes v b.
Proof. reflexivity. Qed.
Lemma write_mqtt_string_eq v b : SrcLib.write_mqtt_string v b = write_mqtt_string v b.
Proof. reflexivity. Qed.

Lemma size_nat_bound n : n < 2 ^ N.of_nat (S (N.size_nat n)).
Proof.
  assert (H : n < 2 ^ N.of_nat (N.size_nat n)).
  { destruct n as [|p]; [reflexivity|]. cbn [N.size_nat].
    induction p as [p IH|p IH|]; cbn [Pos.size_nat]; [| |reflexivity];
      rewrite Nat2N.inj_succ, N.pow_succ_r'; lia. }
  rewrite Nat2N.inj_succ, N.pow_succ_r'. lia.
Qed.

Lemma while_len (body : N * N * bool -> writer (N * N * bool)) :
  (forall x count b, count <= 100 -> body (x, count, false) b =
    (Ok (x / 128, count + 1, x / 128 =? 0),
     b ++ [if 0 <? x / 128 then N.lor (x mod 128) 128 else x mod 128])) ->
  forall n f1 f2 x count b, (n < f1)%nat -> x < 128 ^ N.of_nat n -> (1 <= n)%nat -> (1 <= f2)%nat ->
  x < 2 ^ N.of_nat f2 -> count + N.of_nat n <= 100 ->
  while_ f1 (fun '(x, count, done) => wret (negb done)) body (x, count, false) b =
  match write_len_loop f2 x count b with
  | (Ok c, b') => (Ok (0, c, true), b')
  | (Err e, b') => (Err e, b')
  | (Panic, b') => (Panic, b')
  | (Diverge, b') => (Diverge, b')
  end.
Proof.
  intros E. induction n as [|n IH]; intros f1 f2 x count b Hf Hx Hn Hf2 Hx2 Hc; [lia|].
  destruct f1 as [|f1]; [lia|]. destruct f2 as [|f2]; [lia|].
  cbn [while_ write_len_loop]. rewrite wret_bind. cbn [negb].
  assert (D : x / 128 < 128 ^ N.of_nat n).
  { apply N.div_lt_upper_bound; [discriminate|]. rewrite Nat2N.inj_succ, N.pow_succ_r' in Hx. exact Hx. }
  assert (D2 : x / 128 < 2 ^ N.of_nat f2).
  { apply N.div_lt_upper_bound; [discriminate|]. rewrite Nat2N.inj_succ, N.pow_succ_r' in Hx2. lia. }
  unfold put_u8, extend_from_slice. unfold wbind, wret. rewrite E by lia.
  destruct (x / 128 =? 0) eqn:Z.
  - destruct f1 as [|f1]; [lia|]. cbn [while_]. apply N.eqb_eq in Z. rewrite Z. reflexivity.
  - destruct n as [|n]; [exfalso; apply N.eqb_neq in Z; change (128 ^ N.of_nat 0) with 1 in D; lia|].
    destruct f2 as [|f2]; [exfalso; apply N.eqb_neq in Z; change (2 ^ N.of_nat 0) with 1 in D2; lia|].
    apply IH; try assumption; lia.
Qed.

Lemma write_remaining_length_eq fuel len b : (5 <= fuel)%nat ->
  SrcLib.write_remaining_length fuel len b = write_remaining_length len b.
Proof.
  intros Hf. pose proof usize_big as U. unfold SrcLib.write_remaining_length, write_remaining_length.
  destruct (268435455 <? len) eqn:E; [reflexivity|]. rewrite wret_bind. cbv zeta.
  unfold wbind at 1. rewrite while_len with (n := 4%nat) (f2 := S (N.size_nat len)).
  - destruct (write_len_loop _ _ _ _) as [[c| | |] b']; reflexivity.
  - intros x count b0 Hc. rewrite usize_add_ok by lia.
    rewrite (N.mod_small (x mod 128) 256) by (pose proof (N.mod_lt x 128 ltac:(discriminate)); lia).
    destruct (0 <? x / 128); reflexivity.
  - lia.
  - change (128 ^ N.of_nat 4) with 268435456. lia.
  - lia.
  - lia.
  - apply size_nat_bound.
  - lia.
Qed.

(** ** the loop of a property block *)
From Verif Require Import V5Property.
From Verif Require SrcV5Property.

Lemma property_eq n : SrcV5Property.property n = property n.
Proof.
  unfold SrcV5Property.property, property, run. destruct n as [|p]; [reflexivity|].
  do 6 (destruct p as [p|p|]; try reflexivity).
Qed.

Definition props_body {A} (step : PropertyType -> N -> A -> reader (A * N)) (cursor : N) (acc : A) : reader (N * A) :=
  prop <-r read_u8 ;;
  cursor <-r rlift (usize_add cursor 1) ;;
  ty <-r rlift (property prop) ;;
  r <-r step ty prop acc ;;
  cursor <-r rlift (usize_add cursor (snd r)) ;;
  rret (cursor, fst r).

Lemma props_loop_unroll {A} (step : PropertyType -> N -> A -> reader (A * N)) fuel plen cursor acc s :
  props_loop_fuel step (S fuel) plen cursor acc s =
  if cursor <? plen then (c <-r props_body step cursor acc ;; props_loop_fuel step fuel plen (fst c) (snd c)) s
  else Ok (acc, s).
Proof.
  cbn [props_loop_fuel]. destruct (cursor <? plen); [|reflexivity].
  unfold props_body, rbind, rlift, rret.
  destruct (read_u8 s) as [[p s1]| | |]; try reflexivity.
  destruct (usize_add cursor 1); try reflexivity. destruct (property p); try reflexivity.
  destruct (step _ _ _ _) as [[r s2]| | |]; try reflexivity. destruct (usize_add _ _); reflexivity.
Qed.

Lemma sim_props {A St} (abs : St -> N * A) (cond : St -> writer bool) (body : St -> writer St)
    (step : PropertyType -> N -> A -> reader (A * N)) plen :
  (forall st b, cond st b = (Ok (fst (abs st) <? plen), b)) ->
  (forall st s, blen s <= half -> sim (body st s) (props_body step (fst (abs st)) (snd (abs st)) s)
    (fun st' ca s' => abs st' = ca /\ blen s' < blen s)) ->
  forall f1 f2 st s, (List.length s < f1)%nat -> (List.length s < f2)%nat -> blen s <= half ->
  sim (while_ f1 cond body st s) (props_loop_fuel step f2 plen (fst (abs st)) (snd (abs st)) s)
    (fun st' acc s' => snd (abs st') = acc /\ blen s' <= blen s).
Proof.
  intros C B. induction f1 as [|f1 IH]; intros f2 st s H1 H2 Hs; [lia|].
  destruct f2 as [|f2]; [lia|]. rewrite props_loop_unroll. cbn [while_].
  unfold wbind at 1. rewrite C. destruct (fst (abs st) <? plen).
  - eapply sim_bind; [apply B; exact Hs|]. intros st' ca s' [<- L].
    eapply sim_conseq; [apply IH; unfold blen in *; lia|].
    cbn. intros ? ? ? [? ?]. split; [assumption|lia].
  - cbn. split; [reflexivity|]. split; [reflexivity|lia].
Qed.

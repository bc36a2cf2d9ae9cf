(** ProofRelBase.v -- machine arithmetic against exact arithmetic; congruence lemmas. *)
From Verif Require Import ProofBase Lib ProofLib.
From Verif Require Release RelLib RelV5Property.

Lemma usize_big : 4294967295 <= usize_max. Proof. vm_compute. discriminate. Qed.
(** the largest size of anything in memory; with any few additions it is still a `usize` *)
Definition half : N := 2 ^ 63.
Lemma half_val : half = 2 ^ 63. Proof. reflexivity. Qed.
Lemma usize_half : half + 4294967296 <= usize_max. Proof. vm_compute. discriminate. Qed.
Global Opaque half.
Lemma usize_val : usize_max + 1 = 2 ^ 64. Proof. reflexivity. Qed.
Global Opaque usize_max.

Section WithBuild.
Context {build : Release.Build}.

Lemma wadd_small a b : a + b <= usize_max -> Release.wadd a b = a + b.
Proof. intros H. unfold Release.wadd. replace (a + b <=? usize_max) with true by lia. reflexivity. Qed.
Lemma wsub_small a b : b <= a -> Release.wsub a b = a - b.
Proof. intros H. unfold Release.wsub. replace (b <=? a) with true by lia. reflexivity. Qed.

(** [x'] is what machine arithmetic makes of the exact value [x] *)
Definition wraps (x' x : N) : Prop := x <= usize_max -> x' = x.
Lemma wraps_refl x : wraps x x. Proof. intros _; reflexivity. Qed.
Lemma wraps_add x' x k' k : wraps x' x -> wraps k' k -> wraps (Release.wadd x' k') (x + k).
Proof. intros H1 H2 H. rewrite H1, H2 by lia. apply wadd_small, H. Qed.
Lemma wraps_fold {A} (f' f : N -> A -> N) l : forall i' i, wraps i' i ->
  (forall a' a e, wraps a' a -> wraps (f' a' e) (f a e)) -> wraps (fold_left f' l i') (fold_left f l i).
Proof. induction l as [|e l IH]; intros i' i Hi Hf; cbn; [exact Hi|]. apply IH; [apply Hf, Hi|exact Hf]. Qed.
Lemma wraps_eq x' x : wraps x' x -> x <= usize_max -> x' = x.
Proof. auto. Qed.
Lemma wraps_let (A' A : N) (B' B : N -> N) : wraps A' A ->
  (forall x' x, wraps x' x -> wraps (B' x') (B x)) -> wraps (let x := A' in B' x) (let x := A in B x).
Proof. cbv zeta. auto. Qed.

(** ** readers and writers *)
Lemma rbind_eq {A B} (m1 m2 : reader A) (k1 k2 : A -> reader B) s :
  m1 s = m2 s -> (forall a s', m2 s = Ok (a, s') -> k1 a s' = k2 a s') -> rbind m1 k1 s = rbind m2 k2 s.
Proof. intros H1 H2. unfold rbind. rewrite H1. destruct (m2 s) as [[a s']| | |]; auto. Qed.
(** the same unless the checked computation panics *)
Definition same {A} (o1 o2 : outcome A) : Prop := o2 = Panic \/ o1 = o2.
Lemma same_refl {A} (o : outcome A) : same o o. Proof. right; reflexivity. Qed.
Lemma same_bind {A B} (m1 m2 : reader A) (k1 k2 : A -> reader B) s :
  same (m1 s) (m2 s) -> (forall a s', m2 s = Ok (a, s') -> same (k1 a s') (k2 a s')) ->
  same (rbind m1 k1 s) (rbind m2 k2 s).
Proof.
  intros H1 H2. unfold rbind. destruct H1 as [-> | ->]; [left; reflexivity|].
  destruct (m2 s) as [[a s']| | |]; try (right; reflexivity). apply H2; reflexivity.
Qed.
Lemma same_obind {A B} (m1 m2 : outcome A) (k1 k2 : A -> outcome B) :
  same m1 m2 -> (forall a, m2 = Ok a -> same (k1 a) (k2 a)) -> same (obind m1 k1) (obind m2 k2).
Proof.
  intros [-> | ->] H2; [left; reflexivity|]. destruct m2; try (right; reflexivity). apply H2; reflexivity.
Qed.
Lemma wbind_eq {A B} (m1 m2 : writer A) (k1 k2 : A -> writer B) b :
  m1 b = m2 b -> (forall a b', m2 b = (Ok a, b') -> k1 a b' = k2 a b') -> wbind m1 k1 b = wbind m2 k2 b.
Proof. intros H1 H2. unfold wbind. rewrite H1. destruct (m2 b) as [[a| | |] b']; auto. Qed.
Lemma when_some_eq {A} (o : option A) f g b : (forall v b, o = Some v -> f v b = g v b) ->
  when_some o f b = when_some o g b.
Proof. intros H. destruct o; cbn; auto. Qed.
Lemma for_each_eq {A} (l : list A) f g : (forall v b, f v b = g v b) -> forall b, for_each l f b = for_each l g b.
Proof.
  intros H. induction l as [|x l IH]; intros b; cbn; [reflexivity|]. apply wbind_eq; auto.
Qed.

(** what the readers take from the buffer *)
Lemma read_u16_len s n r : read_u16 s = Ok (n, r) -> blen s = 2 + blen r.
Proof.
  unfold read_u16. destruct (blen s <? 2) eqn:E; [discriminate|].
  destruct s as [|a [|b s]]; cbn [get_u16]; try discriminate. intros H. injection H as _ <-.
  rewrite !blen_cons. lia.
Qed.
Lemma read_u8_len s n r : read_u8 s = Ok (n, r) -> blen s = 1 + blen r.
Proof.
  unfold read_u8. destruct s as [|a s]; cbn [is_empty get_u8]; try discriminate. intros H. injection H as _ <-.
  rewrite !blen_cons. lia.
Qed.
Lemma split_to_len n s v r : split_to n s = Ok (v, r) -> blen s = blen v + blen r.
Proof.
  unfold split_to. destruct (n <=? blen s); [|discriminate]. intros H. injection H as <- <-.
  rewrite <- blen_app, firstn_skipn. reflexivity.
Qed.
Lemma read_bytes_len s v r : read_mqtt_bytes s = Ok (v, r) -> blen s = 2 + blen v + blen r.
Proof.
  unfold read_mqtt_bytes, rbind. destruct (read_u16 s) as [[n s']| | |] eqn:E; try discriminate.
  apply read_u16_len in E. destruct (blen s' <? n); [discriminate|]. intros H. apply split_to_len in H. lia.
Qed.
Lemma read_string_len s v r : read_mqtt_string s = Ok (v, r) -> blen s = 2 + blen v + blen r.
Proof.
  unfold read_mqtt_string, rbind. destruct (read_mqtt_bytes s) as [[n s']| | |] eqn:E; try discriminate.
  apply read_bytes_len in E. destruct (Utf8.utf8_ok n); [|discriminate]. intros H. injection H as <- <-. exact E.
Qed.
Lemma advance_len n s r : advance n s = Ok (tt, r) -> blen r <= blen s.
Proof.
  unfold advance. destruct (n <=? blen s); [|discriminate]. intros H. injection H as <-.
  unfold blen. rewrite skipn_length. lia.
Qed.

(** ** src/lib.rs *)
Lemma land127 b : N.land b 0x7F <= 127.
Proof.
  rewrite (N.land_ones b 7 : N.land b 127 = b mod 2 ^ 7).
  assert (H := N.mod_lt b (2 ^ 7) ltac:(discriminate)). change (2 ^ 7) with 128 in H |- *. lia.
Qed.
Lemma length_loop_eq s : forall len k sh, sh <= 21 -> len <= sh * 67108864 -> k <= sh ->
  RelLib.length_loop s len k sh = length_loop s len k sh.
Proof.
  pose proof usize_big as U.
  induction s as [|b s IH]; intros len k sh Hs Hl Hk; cbn [RelLib.length_loop length_loop]; [reflexivity|].
  assert (B : N.shiftl (N.land b 127) sh <= 127 * 2097152).
  { rewrite N.shiftl_mul_pow2. apply N.mul_le_mono; [apply land127|].
    change 2097152 with (2 ^ 21). apply N.pow_le_mono_r; lia. }
  rewrite !wadd_small by lia.
  destruct (N.land b 128 =? 0); [reflexivity|].
  destruct (21 <? sh + 7) eqn:E; [reflexivity|]. apply IH; lia.
Qed.
Lemma length_eq s : RelLib.length s = length s.
Proof. apply length_loop_eq; lia. Qed.
Lemma length_loop_bound s : forall len k sh a n, k * 7 <= sh -> sh <= 21 -> length_loop s len k sh = Ok (a, n) -> a <= 4.
Proof.
  induction s as [|b s IH]; intros len k sh a n Hk Hs; cbn [length_loop]; [discriminate|].
  destruct (N.land b 128 =? 0); [intros H; injection H; intros; lia|].
  destruct (21 <? sh + 7) eqn:E; [discriminate|]. apply IH; lia.
Qed.
Lemma length_bound s a n : length s = Ok (a, n) -> a <= 4.
Proof. apply length_loop_bound; lia. Qed.
Lemma write_len_loop_eq fuel : forall x c b, c + N.of_nat fuel <= usize_max ->
  RelLib.write_len_loop fuel x c b = write_len_loop fuel x c b.
Proof.
  induction fuel as [|f IH]; intros x c b H; cbn [RelLib.write_len_loop write_len_loop]; [reflexivity|].
  apply wbind_eq; [reflexivity|]. intros _ b' _. rewrite wadd_small by lia.
  destruct (x / 128 =? 0); [reflexivity|]. apply IH. lia.
Qed.
Lemma write_rem_eq n b : RelLib.write_remaining_length n b = write_remaining_length n b.
Proof.
  unfold RelLib.write_remaining_length, write_remaining_length. destruct (268435455 <? n) eqn:E; [reflexivity|].
  apply write_len_loop_eq. pose proof usize_big.
  assert ((N.size_nat n <= 28)%nat); [|lia].
  destruct (Nat.le_gt_cases (N.size_nat n) 28) as [H1|H1]; [exact H1|exfalso].
  assert (N.log2 n < 28) by (destruct n; [cbn; lia|apply N.log2_lt_pow2; [lia|change (2 ^ 28) with 268435456; lia]]).
  destruct n as [|q]; [cbn in H1; lia|].
  assert (N.size (N.pos q) = N.of_nat (N.size_nat (N.pos q))).
  { cbn [N.size N.size_nat]. clear. induction q; cbn [Pos.size Pos.size_nat]; lia. }
  rewrite N.size_log2 in H2 by discriminate. lia.
Qed.
Lemma write_rem_bound n b c b' : write_remaining_length n b = (Ok c, b') -> c <= 4 /\ n <= max_len.
Proof.
  destruct (N.le_gt_cases n max_len) as [H|H].
  - rewrite (writes_remaining_length n H b). intros E. injection E as <- _.
    pose proof (varint_len_bound n). split; [lia|exact H].
  - rewrite (writes_remaining_length_err n H b). discriminate.
Qed.

Lemma new_header_same b k n : same (RelLib.new_fixed_header b k n) (new_fixed_header b k n).
Proof.
  unfold RelLib.new_fixed_header, new_fixed_header, Release.usize_add, usize_add.
  destruct (k + 1 <=? usize_max) eqn:E; [|left; reflexivity]. right. cbn. rewrite wadd_small by lia. reflexivity.
Qed.
Lemma frame_length_same h : same (RelLib.frame_length h) (frame_length h).
Proof.
  unfold RelLib.frame_length, frame_length, Release.usize_add, usize_add.
  destruct (_ <=? usize_max) eqn:E; [|left; reflexivity]. right. rewrite wadd_small by lia. reflexivity.
Qed.
Lemma usize_sub_same a b : same (Release.usize_sub a b) (usize_sub a b).
Proof.
  unfold Release.usize_sub, usize_sub. destruct (b <=? a) eqn:E; [|left; reflexivity].
  right. rewrite wsub_small by lia. reflexivity.
Qed.
Lemma usize_add_same a b : same (Release.usize_add a b) (usize_add a b).
Proof.
  unfold Release.usize_add, usize_add. destruct (a + b <=? usize_max) eqn:E; [|left; reflexivity].
  right. rewrite wadd_small by lia. reflexivity.
Qed.
Lemma rlift_same {A} (o1 o2 : outcome A) s : same o1 o2 -> same (rlift o1 s) (rlift o2 s).
Proof. intros [-> | ->]; [left|right]; reflexivity. Qed.
Lemma parse_same s : blen s <= usize_max -> same (RelLib.parse_fixed_header s) (parse_fixed_header s).
Proof.
  intros Hs. unfold RelLib.parse_fixed_header, parse_fixed_header. destruct (blen s <? 2) eqn:E.
  - apply same_obind; [|intros; apply same_refl]. apply usize_sub_same.
  - destruct s as [|b s]; [apply same_refl|]. rewrite length_eq.
    apply same_obind; [apply same_refl|]. intros; apply new_header_same.
Qed.
Lemma check_same s max : blen s <= usize_max -> same (RelLib.check s max) (check s max).
Proof.
  intros Hs. unfold RelLib.check, check. apply same_obind; [apply parse_same, Hs|]. intros h _.
  destruct (max <? remaining_len h); [apply same_refl|].
  apply same_obind; [apply frame_length_same|]. intros n Hn. destruct (blen s <? n) eqn:E; [|apply same_refl].
  apply same_obind; [|intros; apply same_refl]. apply usize_sub_same.
Qed.

(** ** property sections *)
Lemma peek_eq s : RelV5Property.peek_length s = V5Property.peek_length s.
Proof. unfold RelV5Property.peek_length, V5Property.peek_length. rewrite length_eq. reflexivity. Qed.
Lemma peek_bound s a n s' : V5Property.peek_length s = Ok ((a, n), s') -> a <= 4 /\ s' = s.
Proof.
  unfold V5Property.peek_length, rlift. destruct (length s) as [[a' n']| | |] eqn:E; try discriminate.
  intros H. injection H as <- <- <-. split; [eapply length_bound, E|reflexivity].
Qed.
Lemma length_loop_value s : forall len k sh a n, sh <= 21 -> len <= sh * 67108864 ->
  length_loop s len k sh = Ok (a, n) -> n <= 2147483648.
Proof.
  induction s as [|b s IH]; intros len k sh a n Hs Hl; cbn [length_loop]; [discriminate|].
  assert (B : N.shiftl (N.land b 127) sh <= 127 * 2097152).
  { rewrite N.shiftl_mul_pow2. apply N.mul_le_mono; [apply land127|].
    change 2097152 with (2 ^ 21). apply N.pow_le_mono_r; lia. }
  destruct (N.land b 128 =? 0); [intros H; injection H; intros; lia|].
  destruct (21 <? sh + 7) eqn:E; [discriminate|]. apply IH; lia.
Qed.
Lemma peek_value s a n s' : V5Property.peek_length s = Ok ((a, n), s') -> n <= 2147483648.
Proof.
  unfold V5Property.peek_length, rlift. destruct (length s) as [[a' n']| | |] eqn:E; try discriminate.
  intros H. injection H as <- <- <-. unfold length in E. apply length_loop_value in E; lia.
Qed.
(** the cursor is below the length of the section when a property starts, and a property is
    no longer than the buffer: the cursor does not overflow *)
Lemma props_fuel_eq {A} (step1 step2 : V5Property.PropertyType -> N -> A -> reader (A * N)) :
  (forall ty prop a s, blen s <= usize_max -> step1 ty prop a s = step2 ty prop a s) ->
  (forall ty prop a s r s', step2 ty prop a s = Ok (r, s') -> blen s' <= blen s /\ snd r <= blen s + 5) ->
  forall fuel n c a s, n <= 2147483648 -> blen s <= half ->
  RelV5Property.props_loop_fuel step1 fuel n c a s = V5Property.props_loop_fuel step2 fuel n c a s.
Proof.
  pose proof usize_half as U. intros H1 H2. induction fuel as [|f IH]; intros n c a s Hn Hs;
    cbn [RelV5Property.props_loop_fuel V5Property.props_loop_fuel]; [reflexivity|].
  destruct (c <? n) eqn:Ec; [|reflexivity].
  apply rbind_eq; [reflexivity|]. intros p s1 E1. apply read_u8_len in E1.
  apply rbind_eq. { unfold rlift, Release.usize_add, usize_add. replace (c + 1 <=? usize_max) with true by lia. rewrite wadd_small by lia. reflexivity. }
  intros c1 s2 E2.
  assert (s2 = s1 /\ c1 = c + 1) as [-> ->].
  { unfold rlift, usize_add in E2. destruct (c + 1 <=? usize_max); try discriminate. injection E2; auto. }
  apply rbind_eq; [reflexivity|]. intros ty s3 E3.
  assert (s3 = s1) as ->. { unfold rlift in E3. destruct (V5Property.property p); try discriminate. injection E3; auto. }
  apply rbind_eq; [apply H1; lia|]. intros r s4 E4. apply H2 in E4 as [E4 E4'].
  apply rbind_eq. { unfold rlift, Release.usize_add, usize_add. replace (c + 1 + snd r <=? usize_max) with true by lia. rewrite wadd_small by lia. reflexivity. }
  intros c2 s5 E5.
  assert (s5 = s4) as ->. { unfold rlift in E5. destruct (usize_add (c + 1) (snd r)); try discriminate. injection E5; auto. }
  apply IH; lia.
Qed.
(** the shape of every `extract` *)
Lemma section_eq {A} (step1 step2 : V5Property.PropertyType -> N -> A -> reader (A * N)) a0 s :
  (forall ty prop a s, blen s <= usize_max -> step1 ty prop a s = step2 ty prop a s) ->
  (forall ty prop a s r s', step2 ty prop a s = Ok (r, s') -> blen s' <= blen s /\ snd r <= blen s + 5) ->
  blen s <= half ->
  (ll <-r RelV5Property.peek_length ;; advance (fst ll) ;;r
         if snd ll =? 0 then rret None
         else p <-r RelV5Property.props_loop step1 (snd ll) a0 ;; rret (Some p)) s
  = (ll <-r V5Property.peek_length ;; advance (fst ll) ;;r
         if snd ll =? 0 then rret None
         else p <-r V5Property.props_loop step2 (snd ll) a0 ;; rret (Some p)) s.
Proof.
  intros H1 H2 Hs. apply rbind_eq; [apply peek_eq|]. intros [k n] s1 E1. pose proof (peek_value _ _ _ _ E1) as Hn.
  apply peek_bound in E1 as [_ ->]. apply rbind_eq; [reflexivity|]. intros [] s2 E2. apply advance_len in E2.
  cbn [snd]. destruct (n =? 0); [reflexivity|].
  apply rbind_eq; [|reflexivity]. apply props_fuel_eq; auto. lia.
Qed.

End WithBuild.

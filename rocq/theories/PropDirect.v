(** PropDirect.v -- property theorems about the decoders of the packet structs called
    directly: C51. *)
From Verif Require Import ProofBase Lib ProofLib SpecFrame ProofCheck ProofRead ProofBits SpecErrors ProofErrors
  SpecCodes SpecDirect.
From Verif Require ProofProps.
From Verif Require ProofV4Read ProofV5Read V4Mod V5Mod.

Ltac each_reader H := cbn [In v4_readers v5_readers v5_acks] in H;
  repeat match type of H with _ \/ _ => destruct H as [H|H] end; try contradiction;
  injection H; clear H; intros; subst.

Lemma land_low b m : N.land b (N.land 15 m) = N.land (b mod 16) (N.land 15 m).
Proof.
  replace (b mod 16) with (N.land b 15) by (change 15 with (N.ones 4); rewrite N.land_ones; reflexivity).
  rewrite <- !N.land_assoc. f_equal. rewrite N.land_assoc. f_equal. 
Qed.
Lemma low_eq b b' : b mod 16 = b' mod 16 ->
  N.land b 6 = N.land b' 6 /\ N.land b 8 = N.land b' 8 /\ N.land b 1 = N.land b' 1.
Proof.
  intros H. change 6 with (N.land 15 6). change 8 with (N.land 15 8). change 1 with (N.land 15 1).
  rewrite (land_low b), (land_low b'), (land_low b), (land_low b'), (land_low b), (land_low b'), H.
  auto.
Qed.
Lemma rbind_advance {A} (k : unit -> reader A) n hdr bd : n = blen hdr ->
  rbind (advance n) k (hdr ++ bd) = k tt bd.
Proof. intros ->. apply ProofV4Read.rbind_ok. apply advance_app. reflexivity. Qed.
Lemma rlift_first {A B} (o : outcome A) (k : A -> reader B) s :
  rbind (rlift o) k s = match o with Ok a => k a s | Err e => Err e | Panic => Panic | Diverge => Diverge end.
Proof. unfold rbind, rlift. destruct o; reflexivity. Qed.

(** the decoders look at the body and the low nibble only *)
Lemma v4_header_irrelevant t rd b b' hdr hdr' rl bd : In (t, rd) v4_readers -> b mod 16 = b' mod 16 ->
  rd (mkFixedHeader b (blen hdr) rl) (hdr ++ bd) = rd (mkFixedHeader b' (blen hdr') rl) (hdr' ++ bd).
Proof.
  intros Hin Hb. destruct (low_eq _ _ Hb) as (H6 & H8 & H1).
  each_reader Hin; f_equal.
  1: unfold V4Connect.read. 2: unfold V4ConnAck.read. 3: unfold V4Publish.read. 4: unfold V4PubAck.read.
  5: unfold V4PubRec.read. 6: unfold V4PubRel.read. 7: unfold V4PubComp.read. 8: unfold V4Subscribe.read.
  9: unfold V4SubAck.read. 10: unfold V4Unsubscribe.read. 11: unfold V4UnsubAck.read.
  all: cbn [byte1 fixed_header_len remaining_len]; rewrite ?H6, ?H8, ?H1.
  3: rewrite !rlift_first; destruct (qos _); try reflexivity.
  11: destruct (negb (rl =? 2)); try reflexivity.
  all: rewrite !rbind_advance by reflexivity; reflexivity.
Qed.
Lemma v5_header_irrelevant t rd b b' hdr hdr' rl bd : In (t, rd) v5_readers -> t <> PT_Disconnect ->
  b mod 16 = b' mod 16 ->
  rd (mkFixedHeader b (blen hdr) rl) (hdr ++ bd) = rd (mkFixedHeader b' (blen hdr') rl) (hdr' ++ bd).
Proof.
  intros Hin Hd Hb. destruct (low_eq _ _ Hb) as (H6 & H8 & H1).
  each_reader Hin; try congruence; f_equal.
  1: unfold V5Connect.read. 2: unfold V5ConnAck.read. 3: unfold V5Publish.read. 4: unfold V5PubAck.read.
  5: unfold V5PubRec.read. 6: unfold V5PubRel.read. 7: unfold V5PubComp.read. 8: unfold V5Subscribe.read.
  9: unfold V5SubAck.read. 10: unfold V5Unsubscribe.read. 11: unfold V5UnsubAck.read.
  all: cbn [byte1 fixed_header_len remaining_len]; rewrite ?H6, ?H8, ?H1.
  3: rewrite !rlift_first; destruct (qos _); try reflexivity.
  all: rewrite !rbind_advance by reflexivity; reflexivity.
Qed.
Lemma disconnect_header_irrelevant b b' hdr hdr' rl bd : b / 16 = 14 -> b' / 16 = 14 -> b < 256 -> b' < 256 ->
  b mod 16 = b' mod 16 ->
  V5Disconnect.read (mkFixedHeader b (blen hdr) rl) (hdr ++ bd)
  = V5Disconnect.read (mkFixedHeader b' (blen hdr') rl) (hdr' ++ bd).
Proof.
  intros H H' Hb Hb' E. replace b' with b by lia. unfold V5Disconnect.read. cbn [byte1 fixed_header_len remaining_len].
  rewrite !rbind_advance by reflexivity. reflexivity.
Qed.

Lemma type_of t m : m < 16 -> (16 * type_code t + m) < 256 /\ (16 * type_code t + m) / 16 = type_code t /\
  (16 * type_code t + m) mod 16 = m.
Proof. intros H. destruct t; cbn [type_code]; lia. Qed.

(** *** through the stream: `read` on the frame of that type calls that decoder *)
Lemma v4_frame t rd b hdr bd : In (t, rd) v4_readers -> b < 256 -> b / 16 = type_code t -> bd <> [] ->
  V4Mod.read_frame (ProofV4Read.hd b hdr bd) (hdr ++ bd) = rd (ProofV4Read.hd b hdr bd) (hdr ++ bd).
Proof.
  intros Hin Hb Ht Hbd. unfold V4Mod.read_frame, packet_type. cbn [ProofV4Read.hd byte1 remaining_len].
  rewrite shiftr4, Ht by assumption.
  replace (blen bd =? 0) with false by (destruct bd; [contradiction|autorewrite with blen; lia]).
  each_reader Hin; reflexivity.
Qed.
Lemma v5_frame t rd b hdr bd : In (t, rd) v5_readers -> b < 256 -> b / 16 = type_code t -> bd <> [] ->
  V5Mod.read_frame (ProofV4Read.hd b hdr bd) (hdr ++ bd) = rd (ProofV4Read.hd b hdr bd) (hdr ++ bd).
Proof.
  intros Hin Hb Ht Hbd. unfold V5Mod.read_frame, packet_type. cbn [ProofV4Read.hd byte1 remaining_len].
  rewrite shiftr4, Ht by assumption.
  replace (blen bd =? 0) with false by (destruct bd; [contradiction|autorewrite with blen; lia]).
  each_reader Hin; reflexivity.
Qed.

(** ** C51: called with a header that fits the bytes, a decoder answers what `read` answers
    for the frame of that type, flags and body -- the type in the header is not looked at
    (except by v5 DISCONNECT), nor is the content of the header bytes *)
Theorem C51_v4_agrees : forall t rd, In (t, rd) v4_readers -> forall b hdr bd max,
  b < 256 -> bytes_ok bd -> bd <> [] -> blen bd <= max_len -> blen bd <= max ->
  V4Mod.read (frame_with t (b mod 16) bd) max
  = (rd (mkFixedHeader b (blen hdr) (blen bd)) (hdr ++ bd), []).
Proof.
  intros t rd Hin b hdr bd max Hb Hok Hne Hm Hmax. unfold frame_with.
  destruct (type_of t (b mod 16)) as (H1 & H2 & H3); [clear; lia|].
  assert (Hv := lenfield_varint _ Hm).
  rewrite <- (app_nil_r bd) at 2. rewrite ProofV4Read.read_complete_frame;
    [|apply Forall_cons; [exact H1|apply Forall_app; split; [exact (lenfield_bytes _ _ Hv)|rewrite app_nil_r; exact Hok]]
     |exact Hv|apply varint_len_bound|exact Hmax].
  rewrite (v4_frame t rd) by assumption. f_equal. apply (v4_header_irrelevant t); [exact Hin|].
  rewrite H3. clear. lia.
Qed.
Theorem C51_v5_agrees : forall t rd, In (t, rd) v5_readers -> forall b hdr bd max,
  b < 256 -> bytes_ok bd -> bd <> [] -> blen bd <= max_len -> blen bd <= max ->
  (t = PT_Disconnect -> b / 16 = 14) ->
  V5Mod.read (frame_with t (b mod 16) bd) max
  = (rd (mkFixedHeader b (blen hdr) (blen bd)) (hdr ++ bd), []).
Proof.
  intros t rd Hin b hdr bd max Hb Hok Hne Hm Hmax Hdis. unfold frame_with.
  destruct (type_of t (b mod 16)) as (H1 & H2 & H3); [clear; lia|].
  assert (Hv := lenfield_varint _ Hm).
  rewrite <- (app_nil_r bd) at 2. rewrite ProofV5Read.read_complete_frame;
    [|apply Forall_cons; [exact H1|apply Forall_app; split; [exact (lenfield_bytes _ _ Hv)|rewrite app_nil_r; exact Hok]]
     |exact Hv|apply varint_len_bound|exact Hmax].
  rewrite (v5_frame t rd) by assumption. f_equal.
  assert (Hd : t = PT_Disconnect \/ t <> PT_Disconnect) by (destruct t; auto; right; discriminate).
  destruct Hd as [->|Hd].
  - each_reader Hin; try discriminate. unfold ProofV4Read.hd. f_equal. apply disconnect_header_irrelevant; auto.
  - apply (v5_header_irrelevant t); [exact Hin|exact Hd|]. rewrite H3. clear. lia.
Qed.

(** an MQTT 5 DISCONNECT header of another type is refused *)
Theorem C51_v5_disconnect_type : forall b l rl bs, b < 256 -> l <= blen bs -> b / 16 <> 14 ->
  V5Disconnect.read (mkFixedHeader b l rl) bs = Err (InvalidPacketType (b / 16)).
Proof.
  intros b l rl bs Hb Hl Ht. unfold V5Disconnect.read. cbn [byte1 fixed_header_len].
  rewrite shiftr4 by assumption. unfold rbind at 1, advance.
  replace (l <=? blen bs) with true by lia.
  replace (b / 16 =? packet_type_u8 PT_Disconnect) with false by (cbn [packet_type_u8]; lia).
  reflexivity.
Qed.
(** and, called directly, the two-byte DISCONNECT is understood, while `read` refuses it *)
Theorem C51_v5_disconnect_bare : forall l bs, l <= blen bs ->
  V5Disconnect.read (mkFixedHeader 0xE0 l 0) bs = Ok (V5Disconnect.new, skipn (N.to_nat l) bs) /\
  forall rest max, bytes_ok rest -> V5Mod.read (0xE0 :: 0 :: rest) max = (Err PayloadRequired, rest).
Proof.
  intros l bs Hl. split.
  - unfold V5Disconnect.read. cbn [byte1 fixed_header_len remaining_len]. unfold rbind at 1, advance.
    replace (l <=? blen bs) with true by lia. reflexivity.
  - intros rest max Hr. assert (F : lenfield [0] (blen (@nil N))) by (apply (lf_last 0); lia).
    change (0xE0 :: 0 :: rest) with (0xE0 :: [0] ++ [] ++ rest).
    rewrite (ProofV5Read.read_complete_frame 0xE0 [0] [] rest max); [reflexivity| |exact F|cbv; discriminate|].
    + repeat (apply Forall_cons; [cbv; reflexivity|]). exact Hr.
    + change (blen []) with 0. lia.
Qed.

(** *** fewer bytes than the header says it takes: the decoder panics, unless the header
    alone is already refused *)
Lemma rbind_short {A} (k : unit -> reader A) n bs : blen bs < n -> rbind (advance n) k bs = Panic.
Proof. intros H. unfold rbind, advance. replace (n <=? blen bs) with false by lia. reflexivity. Qed.
Lemma publish_qos b : b < 256 -> N.shiftr (N.land b 6) 1 = qos_bits b.
Proof.
  intros H. unfold qos_bits.
  assert (S := byte_sweep (fun b => N.shiftr (N.land b 6) 1 =? b / 2 mod 4) eq_refl b H).
  cbv beta in S. apply N.eqb_eq in S. exact S.
Qed.
Lemma qos_bits_cases b : (qos_bits b = 3 /\ qos (qos_bits b) = Err (InvalidQoS 3)) \/
  (qos_bits b <> 3 /\ exists q, qos (qos_bits b) = Ok q).
Proof.
  assert (H : qos_bits b < 4) by (unfold qos_bits; lia).
  destruct (qos_cases _ H) as [(q & Hq & E)|[Hq E]]; [right|left].
  - split; [destruct q; cbn in E; lia|eauto].
  - rewrite Hq, E. auto.
Qed.
Theorem C51_v4_short : forall t rd, In (t, rd) v4_readers -> forall b l rl bs, b < 256 -> blen bs < l ->
  rd (mkFixedHeader b l rl) bs =
    match t with
    | PT_Publish => if qos_bits b =? 3 then Err (InvalidQoS 3) else Panic
    | PT_UnsubAck => if rl =? 2 then Panic else Err PayloadSizeIncorrect
    | _ => Panic
    end.
Proof.
  intros t rd Hin b l rl bs Hb Hl.
  assert (P : forall A (k : unit -> reader A), rbind (advance l) k bs = Panic) by (intros; apply rbind_short, Hl).
  each_reader Hin.
  1: unfold V4Connect.read. 2: unfold V4ConnAck.read. 3: unfold V4Publish.read. 4: unfold V4PubAck.read.
  5: unfold V4PubRec.read. 6: unfold V4PubRel.read. 7: unfold V4PubComp.read. 8: unfold V4Subscribe.read.
  9: unfold V4SubAck.read. 10: unfold V4Unsubscribe.read. 11: unfold V4UnsubAck.read.
  all: cbn [byte1 fixed_header_len remaining_len].
  3: { rewrite publish_qos, rlift_first by assumption.
       destruct (qos_bits_cases b) as [[H3 Hq]|[H3 [q Hq]]]; rewrite Hq.
       - rewrite H3. reflexivity.
       - replace (qos_bits b =? 3) with false by lia. rewrite P. reflexivity. }
  10: { destruct (rl =? 2); cbn [negb]; [rewrite P|]; reflexivity. }
  all: rewrite P; reflexivity.
Qed.
Theorem C51_v5_short : forall t rd, In (t, rd) v5_readers -> forall b l rl bs, b < 256 -> blen bs < l ->
  rd (mkFixedHeader b l rl) bs =
    match t with
    | PT_Publish => if qos_bits b =? 3 then Err (InvalidQoS 3) else Panic
    | _ => Panic
    end.
Proof.
  intros t rd Hin b l rl bs Hb Hl.
  assert (P : forall A (k : unit -> reader A), rbind (advance l) k bs = Panic) by (intros; apply rbind_short, Hl).
  each_reader Hin.
  1: unfold V5Connect.read. 2: unfold V5ConnAck.read. 3: unfold V5Publish.read. 4: unfold V5PubAck.read.
  5: unfold V5PubRec.read. 6: unfold V5PubRel.read. 7: unfold V5PubComp.read. 8: unfold V5Subscribe.read.
  9: unfold V5SubAck.read. 10: unfold V5Unsubscribe.read. 11: unfold V5UnsubAck.read. 12: unfold V5Disconnect.read.
  all: cbn [byte1 fixed_header_len remaining_len].
  3: { rewrite publish_qos, rlift_first by assumption.
       destruct (qos_bits_cases b) as [[H3 Hq]|[H3 [q Hq]]]; rewrite Hq.
       - rewrite H3. reflexivity.
       - replace (qos_bits b =? 3) with false by lia. rewrite P. reflexivity. }
  all: rewrite P; reflexivity.
Qed.

(** *** the announced length is not used, except where listed *)
Theorem C51_v4_announced_unused : forall t rd, In (t, rd) v4_readers -> t <> PT_UnsubAck -> t <> PT_Unsubscribe ->
  forall b l rl rl' bs, rd (mkFixedHeader b l rl) bs = rd (mkFixedHeader b l rl') bs.
Proof.
  intros t rd Hin H1 H2 b l rl rl' bs. each_reader Hin; try congruence; try reflexivity; f_equal.
  1: unfold V4PubAck.read. 2: unfold V4PubRec.read. 3: unfold V4PubRel.read. 4: unfold V4PubComp.read.
  all: cbn [byte1 fixed_header_len remaining_len];
    destruct (rl =? 2), (rl <? 4), (rl' =? 2), (rl' <? 4); reflexivity.
Qed.
Theorem C51_v5_announced_unused : forall t rd, In (t, rd) v5_readers ->
  t <> PT_PubAck -> t <> PT_PubRec -> t <> PT_PubRel -> t <> PT_PubComp -> t <> PT_Disconnect ->
  forall b l rl rl' bs, rd (mkFixedHeader b l rl) bs = rd (mkFixedHeader b l rl') bs.
Proof.
  intros t rd Hin H1 H2 H3 H4 H5 b l rl rl' bs. each_reader Hin; try congruence; reflexivity.
Qed.
(** DISCONNECT: only whether it is zero *)
Theorem C51_v5_disconnect_announced : forall b l rl rl' bs, rl <> 0 -> rl' <> 0 ->
  V5Disconnect.read (mkFixedHeader b l rl) bs = V5Disconnect.read (mkFixedHeader b l rl') bs.
Proof.
  intros b l rl rl' bs H H'. unfold V5Disconnect.read. cbn [byte1 fixed_header_len remaining_len].
  replace (rl =? 0) with false by lia. replace (rl' =? 0) with false by lia. reflexivity.
Qed.

(** v4 UNSUBACK: two bytes must be announced, and the first two are used *)
Theorem C51_v4_unsuback : forall b hdr rl bd, bytes_ok bd ->
  (rl <> 2 -> V4UnsubAck.read (mkFixedHeader b (blen hdr) rl) (hdr ++ bd) = Err PayloadSizeIncorrect) /\
  (rl = 2 -> blen bd < 2 -> V4UnsubAck.read (mkFixedHeader b (blen hdr) rl) (hdr ++ bd) = Err MalformedPacket) /\
  (forall id r, rl = 2 -> id < 65536 -> bd = be16 id ++ r ->
     V4UnsubAck.read (mkFixedHeader b (blen hdr) rl) (hdr ++ bd) = Ok (V4UnsubAck.mkUnsubAck id, r)).
Proof.
  intros b hdr rl bd Hb. unfold V4UnsubAck.read. cbn [byte1 fixed_header_len remaining_len].
  split; [|split].
  - intros H. replace (rl =? 2) with false by lia. reflexivity.
  - intros -> H. change (negb (2 =? 2)) with false; cbv iota. rewrite rbind_advance by reflexivity.
    unfold rbind, read_u16. replace (blen bd <? 2) with true by lia. reflexivity.
  - intros id r -> Hid ->. change (negb (2 =? 2)) with false; cbv iota. rewrite rbind_advance by reflexivity.
    rewrite (ProofV4Read.rbind_ok _ _ _ _ _ (read_u16_be16 _ _ Hid)). reflexivity.
Qed.

(** v4 UNSUBSCRIBE *)
Lemma topics_loop_answer fuel : forall n acc s, bytes_ok s -> (List.length s < fuel)%nat ->
  match V4Unsubscribe.topics_loop fuel n acc s with
  | Ok (ts, r) => exists new, ts = acc ++ new /\ Forall (fun t => is_utf8 t /\ short t) new /\
      s = flat_map field new ++ r /\ n = blen (flat_map field new)
  | Err e => exists new s', Forall (fun t => is_utf8 t /\ short t) new /\ s = flat_map field new ++ s' /\
      blen (flat_map field new) < n /\ lacks WString s' e
  | Panic => exists new t r, Forall (fun t => is_utf8 t /\ short t) (new ++ [t]) /\
      s = flat_map field (new ++ [t]) ++ r /\
      blen (flat_map field new) < n /\ n < blen (flat_map field (new ++ [t]))
  | Diverge => False
  end.
Proof.
  induction fuel as [|fuel IH]; intros n acc s Hs Hl; [lia|].
  cbn [V4Unsubscribe.topics_loop]. destruct (0 <? n) eqn:E0.
  2: { exists []. rewrite app_nil_r. cbn [flat_map app]. autorewrite with blen. repeat split; auto. lia. }
  assert (W := wp_want_string (lacks WString s) s (fun v r => s = field v ++ r /\ is_utf8 v /\ short v /\ bytes_ok r) Hs).
  unfold rbind at 1. destruct (read_mqtt_string s) as [[t r]|e| |] eqn:Er.
  - assert (W' : s = field t ++ r /\ is_utf8 t /\ short t /\ bytes_ok r).
    { apply W; auto. } destruct W' as (-> & Hu & Hsh & Hr).
    unfold rbind at 1, rlift, usize_sub. destruct (blen t + 2 <=? n) eqn:En.
    + specialize (IH (n - (blen t + 2)) (acc ++ [t]) r Hr).
      rewrite app_length in Hl.
      assert (Hf : (2 <= List.length (field t))%nat) by (unfold field, be16; cbn; lia).
      specialize (IH ltac:(lia)).
      destruct (V4Unsubscribe.topics_loop fuel (n - (blen t + 2)) (acc ++ [t]) r) as [[ts r']|e| |].
      * destruct IH as (new & -> & HF & -> & Hn). exists (t :: new). rewrite <- app_assoc. cbn [app flat_map].
        repeat split; auto. rewrite app_assoc. reflexivity. autorewrite with blen. lia.
      * destruct IH as (new & s' & HF & -> & Hn & HL). exists (t :: new), s'. cbn [flat_map].
        repeat split; auto. rewrite app_assoc. reflexivity. autorewrite with blen. lia.
      * destruct IH as (new & t' & r' & HF & -> & Hn & Hn'). exists (t :: new), t', r'. cbn [flat_map app].
        repeat split; auto. rewrite app_assoc. reflexivity. autorewrite with blen. lia. autorewrite with blen. lia.
      * exact IH.
    + exists [], t, r. cbn [app flat_map]. rewrite app_nil_r. repeat split; auto; autorewrite with blen; try lia.
  - exists [], s. cbn [flat_map app]. autorewrite with blen. repeat split; auto. lia.
    assert (W' : lacks WString s e) by (apply W; auto; intros; repeat split; auto). exact W'.
  - exfalso. exact (W (fun e H => H) (fun v r E H1 H2 H3 => conj E (conj H2 (conj H1 H3)))).
  - exfalso. exact (W (fun e H => H) (fun v r E H1 H2 H3 => conj E (conj H2 (conj H1 H3)))).
Qed.

Lemma topics_loop_eval : forall ts fuel n acc u, Forall (fun t => is_utf8 t /\ short t) ts ->
  (List.length (flat_map field ts ++ u) < fuel)%nat -> blen (flat_map field ts) <= n ->
  exists fuel', (List.length u < fuel')%nat /\
    V4Unsubscribe.topics_loop fuel n acc (flat_map field ts ++ u)
    = V4Unsubscribe.topics_loop fuel' (n - blen (flat_map field ts)) (acc ++ ts) u.
Proof.
  induction ts as [|t ts IH]; intros fuel n acc u HF Hl Hn.
  - exists fuel. cbn [flat_map app] in *. rewrite app_nil_r. autorewrite with blen. rewrite N.sub_0_r. auto.
  - apply Forall_cons_iff in HF as [[Hu Hs] HF]. cbn [flat_map] in *. autorewrite with blen in Hn.
    destruct fuel as [|fuel]; [lia|]. cbn [V4Unsubscribe.topics_loop].
    replace (0 <? n) with true by lia. rewrite <- app_assoc.
    rewrite (ProofV4Read.rbind_ok _ _ _ _ _ (read_string_field _ _ Hs Hu)).
    rewrite rlift_first. unfold usize_sub. replace (blen t + 2 <=? n) with true by lia.
    rewrite <- app_assoc, app_length in Hl.
    assert (Hf : (2 <= List.length (field t))%nat) by (unfold field, be16; cbn; lia).
    destruct (IH fuel (n - (blen t + 2)) (acc ++ [t]) u HF) as (fuel' & Hf' & E); [lia|lia|].
    exists fuel'. split; [exact Hf'|]. rewrite E, <- app_assoc. cbn [app].
    f_equal. autorewrite with blen. lia.
Qed.
Theorem C51_v4_unsubscribe : forall b hdr rl bd r, bytes_ok bd ->
  unsubscribe_answer rl bd r <->
  V4Mod.wrap V4Mod.Unsubscribe (V4Unsubscribe.read (mkFixedHeader b (blen hdr) rl) (hdr ++ bd)) = r.
Proof.
  intros b hdr rl bd r Hb. unfold V4Unsubscribe.read. cbn [byte1 fixed_header_len remaining_len].
  rewrite rbind_advance by reflexivity. split.
  - intros H. destruct H as [bd Hl|id u Hid Hr|id ts u Hid HF Hr|id ts s e Hid HF Hr Hlk|id ts t u Hid HF Hr Hr'].
    { unfold rbind, read_u16. replace (blen bd <? 2) with true by lia. reflexivity. }
    all: rewrite (ProofV4Read.rbind_ok _ _ _ _ _ (read_u16_be16 _ _ Hid)), rlift_first; unfold usize_sub.
    { replace (2 <=? rl) with false by lia. reflexivity. }
    + replace (2 <=? rl) with true by lia. unfold rbind.
      destruct (topics_loop_eval ts (S (List.length (flat_map field ts ++ u))) (rl - 2) [] u HF) as (fuel & Hf & ->);
        [lia|lia|]. destruct fuel as [|fuel]; [lia|]. cbn [V4Unsubscribe.topics_loop].
      replace (0 <? rl - 2 - blen (flat_map field ts)) with false by lia. reflexivity.
    + replace (2 <=? rl) with true by lia. unfold rbind.
      destruct (topics_loop_eval ts (S (List.length (flat_map field ts ++ s))) (rl - 2) [] s HF) as (fuel & Hf & ->);
        [lia|lia|]. destruct fuel as [|fuel]; [lia|]. cbn [V4Unsubscribe.topics_loop].
      replace (0 <? rl - 2 - blen (flat_map field ts)) with true by lia.
      rewrite (rbind_err _ _ _ _ (lacks_read_string _ _ Hlk)). reflexivity.
    + replace (2 <=? rl) with true by lia. unfold rbind.
      apply Forall_app in HF as [HF Ht]. apply Forall_cons_iff in Ht as [[Hu Hs] _].
      rewrite flat_map_app in *. cbn [flat_map] in *. rewrite app_nil_r in *. rewrite <- app_assoc.
      autorewrite with blen in Hr'.
      destruct (topics_loop_eval ts (S (List.length (flat_map field ts ++ field t ++ u))) (rl - 2) [] (field t ++ u) HF)
        as (fuel & Hf & ->); [lia|lia|]. destruct fuel as [|fuel]; [lia|]. cbn [V4Unsubscribe.topics_loop].
      replace (0 <? rl - 2 - blen (flat_map field ts)) with true by lia.
      rewrite (ProofV4Read.rbind_ok _ _ _ _ _ (read_string_field _ _ Hs Hu)).
      rewrite rlift_first. unfold usize_sub.
      replace (blen t + 2 <=? rl - 2 - blen (flat_map field ts)) with false by lia. reflexivity.
  - intros <-. destruct (N.lt_ge_cases (blen bd) 2) as [Hl|Hl].
    { unfold rbind at 1, read_u16. replace (blen bd <? 2) with true by lia. constructor. exact Hl. }
    destruct bd as [|x [|y u]]; autorewrite with blen in Hl; try lia.
    apply bytes_ok_cons in Hb as [Hx Hb]. apply bytes_ok_cons in Hb as [Hy Hu].
    assert (Es : x :: y :: u = be16 (x * 256 + y) ++ u) by (rewrite be16_bytes by assumption; reflexivity).
    rewrite Es. set (id := x * 256 + y). assert (Hid : id < 65536) by (unfold id; clear - Hx Hy; lia).
    rewrite (ProofV4Read.rbind_ok _ _ _ _ _ (read_u16_be16 _ _ Hid)), rlift_first. unfold usize_sub.
    destruct (2 <=? rl) eqn:E2; [|constructor; [exact Hid|lia]].
    assert (A := topics_loop_answer (S (List.length u)) (rl - 2) [] u Hu ltac:(lia)). unfold rbind.
    destruct (V4Unsubscribe.topics_loop (S (List.length u)) (rl - 2) [] u) as [[ts r]|e| |]; cbn [V4Mod.wrap rret].
    + destruct A as (new & -> & HF & -> & Hn). cbn [app]. constructor; auto. lia.
    + destruct A as (new & s' & HF & -> & Hn & HL). constructor; auto. lia.
    + destruct A as (new & t & r & HF & -> & Hn & Hn'). constructor; auto; lia.
    + contradiction.
Qed.

(** *** no bytes behind the header *)
Ltac empty_body := cbn [byte1 fixed_header_len remaining_len].
Theorem C51_v4_empty : forall t rd, In (t, rd) v4_readers -> forall b hdr rl, b < 256 ->
  rd (mkFixedHeader b (blen hdr) rl) hdr =
    match t with
    | PT_Publish => if qos_bits b =? 3 then Err (InvalidQoS 3) else Err MalformedPacket
    | PT_UnsubAck => if rl =? 2 then Err MalformedPacket else Err PayloadSizeIncorrect
    | _ => Err MalformedPacket
    end.
Proof.
  intros t rd Hin b hdr rl Hb.
  assert (P : forall A (k : unit -> reader A), rbind (advance (blen hdr)) k hdr = k tt []).
  { intros A k. rewrite <- (app_nil_r hdr) at 2. apply rbind_advance. reflexivity. }
  each_reader Hin.
  1: unfold V4Connect.read. 2: unfold V4ConnAck.read. 3: unfold V4Publish.read. 4: unfold V4PubAck.read.
  5: unfold V4PubRec.read. 6: unfold V4PubRel.read. 7: unfold V4PubComp.read. 8: unfold V4Subscribe.read.
  9: unfold V4SubAck.read. 10: unfold V4Unsubscribe.read. 11: unfold V4UnsubAck.read.
  all: cbn [byte1 fixed_header_len remaining_len].
  3: { rewrite publish_qos, rlift_first by assumption.
       destruct (qos_bits_cases b) as [[H3 Hq]|[H3 [q Hq]]]; rewrite Hq.
       - rewrite H3. reflexivity.
       - replace (qos_bits b =? 3) with false by lia. rewrite P. reflexivity. }
  10: { destruct (rl =? 2); cbn [negb]; [rewrite P|]; reflexivity. }
  all: rewrite P; reflexivity.
Qed.
Theorem C51_v5_empty : forall t rd, In (t, rd) v5_readers -> forall b hdr rl, b < 256 ->
  rd (mkFixedHeader b (blen hdr) rl) hdr =
    match t with
    | PT_Publish => if qos_bits b =? 3 then Err (InvalidQoS 3) else Err MalformedPacket
    | PT_Disconnect =>
        if negb (b / 16 =? 14) then Err (InvalidPacketType (b / 16))
        else if negb (b mod 16 =? 0) then Err MalformedPacket
        else if rl =? 0 then Ok (V5Mod.Disconnect V5Disconnect.new) else Err MalformedPacket
    | _ => Err MalformedPacket
    end.
Proof.
  intros t rd Hin b hdr rl Hb.
  assert (P : forall A (k : unit -> reader A), rbind (advance (blen hdr)) k hdr = k tt []).
  { intros A k. rewrite <- (app_nil_r hdr) at 2. apply rbind_advance. reflexivity. }
  each_reader Hin.
  1: unfold V5Connect.read. 2: unfold V5ConnAck.read. 3: unfold V5Publish.read. 4: unfold V5PubAck.read.
  5: unfold V5PubRec.read. 6: unfold V5PubRel.read. 7: unfold V5PubComp.read. 8: unfold V5Subscribe.read.
  9: unfold V5SubAck.read. 10: unfold V5Unsubscribe.read. 11: unfold V5UnsubAck.read. 12: unfold V5Disconnect.read.
  all: cbn [byte1 fixed_header_len remaining_len].
  3: { rewrite publish_qos, rlift_first by assumption.
       destruct (qos_bits_cases b) as [[H3 Hq]|[H3 [q Hq]]]; rewrite Hq.
       - rewrite H3. reflexivity.
       - replace (qos_bits b =? 3) with false by lia. rewrite P. reflexivity. }
  11: { rewrite P, shiftr4 by assumption. change (packet_type_u8 PT_Disconnect) with 14.
        replace (N.land b 15) with (b mod 16) by (change 15 with (N.ones 4); rewrite N.land_ones; reflexivity).
        destruct (b / 16 =? 14), (b mod 16 =? 0), (rl =? 0); reflexivity. }
  all: rewrite P; reflexivity.
Qed.

(** *** MQTT 5 acknowledgements: what the announced length [rl] decides, whatever follows *)
Theorem C51_v5_ack_announced : forall t rd short_form, In (t, rd) v5_readers -> In (t, short_form) v5_acks ->
  forall b hdr rl id, id < 65536 ->
  (* two announced: the short form; what follows is not looked at *)
  (forall r, rl = 2 -> rd (mkFixedHeader b (blen hdr) rl) (hdr ++ be16 id ++ r) = Ok (short_form id)) /\
  (* other than two, but nothing behind the identifier *)
  (rl <> 2 -> rd (mkFixedHeader b (blen hdr) rl) (hdr ++ be16 id) = Err MalformedPacket) /\
  (* zero, one or three: identifier and reason, nothing more *)
  (forall c r, rl <> 2 -> rl < 4 ->
     rd (mkFixedHeader b (blen hdr) rl) (hdr ++ be16 id ++ c :: r)
     = rd (mkFixedHeader b (blen hdr) 3) (hdr ++ be16 id ++ [c])) /\
  (* four or more: the same for each such value *)
  (forall bd rl', 4 <= rl -> 4 <= rl' ->
     rd (mkFixedHeader b (blen hdr) rl) (hdr ++ bd) = rd (mkFixedHeader b (blen hdr) rl') (hdr ++ bd)) /\
  (* four or more, but only a reason: *)
  (forall c, 4 <= rl ->
     rd (mkFixedHeader b (blen hdr) rl) (hdr ++ be16 id ++ [c])
     = match rd (mkFixedHeader b (blen hdr) 3) (hdr ++ be16 id ++ [c]) with
       | Ok _ => Err (InsufficientBytes 1)
       | e => e
       end).
Proof.
  intros t rd sf Hin Hack b hdr rl id Hid.
  each_reader Hack; each_reader Hin; try discriminate.
  1: unfold V5PubAck.read. 2: unfold V5PubRec.read. 3: unfold V5PubRel.read. 4: unfold V5PubComp.read.
  all: cbn [byte1 fixed_header_len remaining_len].
  all: split; [|split; [|split; [|split]]].
  all: try (intros r ->; rewrite rbind_advance by reflexivity;
       rewrite (ProofV4Read.rbind_ok _ _ _ _ _ (read_u16_be16 _ _ Hid)); reflexivity).
  all: try (intros H; rewrite rbind_advance by reflexivity; rewrite <- (app_nil_r (be16 id));
       rewrite (ProofV4Read.rbind_ok _ _ _ _ _ (read_u16_be16 _ _ Hid));
       replace (rl =? 2) with false by lia; reflexivity).
  all: try (intros c r H H4; rewrite !rbind_advance by reflexivity;
       rewrite !(ProofV4Read.rbind_ok _ _ _ _ _ (read_u16_be16 _ _ Hid));
       replace (rl =? 2) with false by lia; replace (3 =? 2) with false by reflexivity;
       rewrite !(ProofV4Read.rbind_ok _ _ _ _ _ (read_u8_cons _ _));
       replace (rl <? 4) with true by lia; replace (3 <? 4) with true by reflexivity;
       rewrite !rlift_first;
       match goal with |- context [match ?o with Ok _ => _ | _ => _ end] => destruct o end; reflexivity).
  all: try (intros bd rl' H H'; rewrite !rbind_advance by reflexivity;
       replace (rl =? 2) with false by lia; replace (rl' =? 2) with false by lia;
       replace (rl <? 4) with false by lia; replace (rl' <? 4) with false by lia; reflexivity).
  all: intros c H; rewrite !rbind_advance by reflexivity;
       rewrite !(ProofV4Read.rbind_ok _ _ _ _ _ (read_u16_be16 _ _ Hid));
       replace (rl =? 2) with false by lia; replace (3 =? 2) with false by reflexivity;
       rewrite !(ProofV4Read.rbind_ok _ _ _ _ _ (read_u8_cons _ _));
       replace (rl <? 4) with false by lia; replace (3 <? 4) with true by reflexivity;
       rewrite !rlift_first;
       match goal with |- context [match ?o with Ok _ => _ | _ => _ end] => destruct o end; reflexivity.
Qed.

(** *** no panic and no endless loop, whatever the header announces: only v4 UNSUBSCRIBE
    can panic (exactly as listed above) *)
Lemma split_bytes l (bs : bytes) : l <= blen bs -> exists hdr bd, bs = hdr ++ bd /\ l = blen hdr.
Proof.
  intros H. exists (firstn (N.to_nat l) bs), (skipn (N.to_nat l) bs). rewrite firstn_skipn.
  split; [reflexivity|]. unfold blen in *. rewrite firstn_length. lia.
Qed.
Lemma v4_frame_total t rd b hdr bd : In (t, rd) v4_readers -> b < 256 -> bytes_ok bd -> bd <> [] ->
  match rd (mkFixedHeader b (blen hdr) (blen bd)) (hdr ++ bd) with Panic | Diverge => False | _ => True end.
Proof.
  intros Hin Hb Hok Hne. destruct (type_of t (b mod 16)) as (H1 & H2 & H3); [clear; lia|].
  rewrite (v4_header_irrelevant t rd b (16 * type_code t + b mod 16) hdr hdr) by (auto; rewrite H3; clear; lia).
  assert (S := ProofV4Read.frame_sound _ hdr bd H1 Hok). rewrite (v4_frame t rd) in S by assumption.
  unfold ProofV4Read.hd in S. destruct (rd _ _); auto.
Qed.
Lemma v5_frame_total t rd b hdr bd : In (t, rd) v5_readers -> b < 256 -> bytes_ok bd -> blen bd <= ProofProps.huge -> bd <> [] ->
  (t = PT_Disconnect -> b / 16 = 14) ->
  match rd (mkFixedHeader b (blen hdr) (blen bd)) (hdr ++ bd) with Panic | Diverge => False | _ => True end.
Proof.
  intros Hin Hb Hok Hm Hne Hd. destruct (type_of t (b mod 16)) as (H1 & H2 & H3); [clear; lia|].
  assert (E : rd (mkFixedHeader b (blen hdr) (blen bd)) (hdr ++ bd)
    = rd (mkFixedHeader (16 * type_code t + b mod 16) (blen hdr) (blen bd)) (hdr ++ bd)).
  { assert (D : t = PT_Disconnect \/ t <> PT_Disconnect) by (destruct t; auto; right; discriminate).
    destruct D as [->|D].
    - replace (16 * type_code PT_Disconnect + b mod 16) with b; [reflexivity|].
      specialize (Hd eq_refl). cbn [type_code]. clear - Hd. lia.
    - apply (v5_header_irrelevant t); auto. }
  rewrite E. assert (S := ProofV5Read.frame_sound _ hdr bd H1 Hok Hm). rewrite (v5_frame t rd) in S by assumption.
  unfold ProofV4Read.hd in S. clear E. revert S. destruct (rd _ _); auto.
Qed.
Theorem C51_v4_total : forall t rd, In (t, rd) v4_readers -> t <> PT_Unsubscribe ->
  forall b l rl bs, b < 256 -> bytes_ok bs -> l <= blen bs ->
  match rd (mkFixedHeader b l rl) bs with Panic | Diverge => False | _ => True end.
Proof.
  intros t rd Hin Hu b l rl bs Hb Hok Hl.
  destruct (split_bytes l bs Hl) as (hdr & bd & -> & ->). apply bytes_ok_app in Hok as [_ Hok].
  assert (Hne : bd = [] \/ bd <> []) by (destruct bd; auto; right; discriminate).
  destruct Hne as [->|Hne].
  { rewrite app_nil_r, (C51_v4_empty t rd Hin) by assumption.
    destruct t; auto; [destruct (qos_bits b =? 3)|destruct (rl =? 2)]; auto. }
  assert (D : t = PT_UnsubAck \/ t <> PT_UnsubAck) by (destruct t; auto; right; discriminate).
  destruct D as [->|D].
  - each_reader Hin; try discriminate.
    unfold V4UnsubAck.read. cbn [byte1 fixed_header_len remaining_len].
    destruct (rl =? 2); cbn [negb]; [|exact I]. rewrite rbind_advance by reflexivity.
    unfold rbind, read_u16, get_u16. destruct bd as [|x [|y u]]; try exact I.
    autorewrite with blen. replace (1 + (1 + blen u) <? 2) with false by lia. exact I.
  - rewrite (C51_v4_announced_unused t rd Hin D Hu b (blen hdr) rl (blen bd)).
    apply (v4_frame_total t); assumption.
Qed.
Theorem C51_v5_total : forall t rd, In (t, rd) v5_readers ->
  forall b l rl bs, b < 256 -> bytes_ok bs -> blen bs < 2 ^ 62 -> l <= blen bs ->
  match rd (mkFixedHeader b l rl) bs with Panic | Diverge => False | _ => True end.
Proof.
  intros t rd Hin b l rl bs Hb Hok Hmx Hl.
  destruct (split_bytes l bs Hl) as (hdr & bd & -> & ->). apply bytes_ok_app in Hok as [_ Hok].
  assert (Hm : blen bd <= ProofProps.huge) by (autorewrite with blen in Hmx; unfold ProofProps.huge; lia). clear Hmx Hl.
  assert (Hne : bd = [] \/ bd <> []) by (destruct bd; auto; right; discriminate).
  destruct Hne as [->|Hne].
  { rewrite app_nil_r, (C51_v5_empty t rd Hin) by assumption.
    destruct t; auto; [destruct (qos_bits b =? 3)|destruct (b / 16 =? 14), (b mod 16 =? 0), (rl =? 0)]; cbn; auto. }
  assert (Hfull : (t = PT_Disconnect -> b / 16 = 14) ->
    match rd (mkFixedHeader b (blen hdr) (blen bd)) (hdr ++ bd) with Panic | Diverge => False | _ => True end)
    by (intros; apply (v5_frame_total t); assumption).
  assert (D : t = PT_Disconnect \/ t <> PT_Disconnect) by (destruct t; auto; right; discriminate).
  destruct D as [->|D].
  { destruct (N.eq_dec (b / 16) 14) as [E|E].
    - each_reader Hin; try discriminate. destruct (N.eq_dec rl 0) as [->|Hr].
      + unfold V5Disconnect.read. cbn [byte1 fixed_header_len remaining_len]. rewrite rbind_advance by reflexivity.
        change (0 =? 0) with true.
        repeat match goal with |- context [if negb ?c then _ else _] => destruct c; cbn [negb] end; exact I.
      + rewrite (C51_v5_disconnect_announced b (blen hdr) rl (blen bd)).
        * apply Hfull. auto.
        * exact Hr.
        * destruct bd; [contradiction|autorewrite with blen; lia].
    - each_reader Hin; try discriminate. rewrite C51_v5_disconnect_type by (auto; autorewrite with blen; lia). exact I. }
  assert (F := Hfull ltac:(intros; contradiction)). clear Hfull.
  assert (K : In t [PT_PubAck; PT_PubRec; PT_PubRel; PT_PubComp] \/
    (t <> PT_PubAck /\ t <> PT_PubRec /\ t <> PT_PubRel /\ t <> PT_PubComp))
    by (destruct t; cbn; auto 8; right; repeat split; discriminate).
  destruct K as [K|(K1 & K2 & K3 & K4)].
  2: { rewrite (C51_v5_announced_unused t rd Hin K1 K2 K3 K4 D b (blen hdr) rl (blen bd)). exact F. }
  assert (A : exists sf, In (t, sf) v5_acks).
  { cbn in K. destruct K as [<-|[<-|[<-|[<-|[]]]]]; eexists; unfold v5_acks; cbn [In]; eauto 8. }
  destruct A as [sf A].
  destruct bd as [|x [|y u]]; [contradiction| |].
  { each_reader A; each_reader Hin; try discriminate;
    [unfold V5PubAck.read|unfold V5PubRec.read|unfold V5PubRel.read|unfold V5PubComp.read];
    cbn [byte1 fixed_header_len]; rewrite rbind_advance by reflexivity; exact I. }
  apply bytes_ok_cons in Hok as [Hx Hok]. apply bytes_ok_cons in Hok as [Hy Hu].
  assert (Es : x :: y :: u = be16 (x * 256 + y) ++ u) by (rewrite be16_bytes by assumption; reflexivity).
  rewrite Es in *. set (id := x * 256 + y) in *. assert (Hid : id < 65536) by (unfold id; clear - Hx Hy; lia).
  destruct (C51_v5_ack_announced t rd sf Hin A b hdr rl id Hid) as (T1 & T2 & T3 & T4 & T5).
  destruct (N.eq_dec rl 2) as [E2|E2]. { rewrite T1 by exact E2. exact I. }
  destruct u as [|c u]. { rewrite app_nil_r in *. rewrite T2 by exact E2. exact I. }
  apply bytes_ok_cons in Hu as [Hc Hu].
  assert (F3 : match rd (mkFixedHeader b (blen hdr) 3) (hdr ++ be16 id ++ [c]) with Panic | Diverge => False | _ => True end).
  { change 3 with (blen (be16 id ++ [c])). apply (v5_frame_total t); auto.
    - apply bytes_ok_app. split; [apply bytes_ok_be16|repeat constructor; exact Hc].
    - autorewrite with blen. unfold ProofProps.huge. lia.
    - discriminate.
    - intros; contradiction. }
  destruct (N.lt_ge_cases rl 4) as [H4|H4].
  { rewrite T3 by assumption. exact F3. }
  destruct u as [|d u].
  { rewrite T5 by exact H4. destruct (rd _ _); auto. }
  rewrite (T4 _ (blen (be16 id ++ c :: d :: u))) by (try exact H4; autorewrite with blen; lia). exact F.
Qed.

(** concrete: a PUBACK decoder given a PUBCOMP header; a header that announces too much or
    too little for UNSUBSCRIBE; a header longer than the bytes *)
Example C51_case :
  V4PubAck.read (mkFixedHeader 0x70 2 2) [0x70; 2; 0; 7] = Ok (V4PubAck.mkPubAck 7, []) /\
  V4Mod.read (frame_with PT_PubAck 0 [0; 7]) 10 = (Ok (V4Mod.PubAck (V4PubAck.mkPubAck 7)), []) /\
  V4Unsubscribe.read (mkFixedHeader 0xA2 2 4) [0xA2; 5; 0; 7; 0; 1; 97] = Panic /\
  unsubscribe_answer 4 [0; 7; 0; 1; 97] Panic /\
  V5PubAck.read (mkFixedHeader 0x40 2 2) [0x40; 2; 0; 7; 0x10; 99] = Ok (V5PubAck.new 7, [0x10; 99]) /\
  V4PubAck.read (mkFixedHeader 0x40 5 2) [0x40; 2; 0; 7] = Panic.
Proof.
  repeat split; try reflexivity.
  apply (ua_over 4 7 [] [97] []); try (cbv; reflexivity).
  constructor; [|constructor]. split; [apply ProofUtf8.utf8_ok_spec; reflexivity|cbv; discriminate].
Qed.
Print Assumptions C51_v4_agrees.
Print Assumptions C51_v5_agrees.
Print Assumptions C51_v5_disconnect_type.
Print Assumptions C51_v5_disconnect_bare.
Print Assumptions C51_v4_short.
Print Assumptions C51_v5_short.
Print Assumptions C51_v4_announced_unused.
Print Assumptions C51_v5_announced_unused.
Print Assumptions C51_v5_disconnect_announced.
Print Assumptions C51_v4_unsuback.
Print Assumptions C51_v4_unsubscribe.
Print Assumptions C51_v4_empty.
Print Assumptions C51_v5_empty.
Print Assumptions C51_v5_ack_announced.
Print Assumptions C51_v4_total.
Print Assumptions C51_v5_total.

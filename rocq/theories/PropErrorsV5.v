(** PropErrorsV5.v -- property theorems about what `v5::read` refuses.  `fails` is the table
    of SpecErrorsV5. *)
From Verif Require Import ProofBase Lib ProofLib SpecFrame ProofCheck ProofRead SpecProps SpecPropSets
  SpecV5 SpecPlaces ProofV5Read SpecErrors SpecErrorsV5 ProofErrorsV5.
From Verif Require ProofV4Read.

(** ** C49: which error a malformed frame gets *)
Theorem C49_v5_errors_exact : forall s max e rest, bytes_ok s ->
  (exists b1 bd, starts_with_frame s b1 bd rest /\ blen bd <= max /\ fails b1 bd e) <->
  (read s max = (Err e, rest) /\ rest <> s).
Proof. intros. apply read_fails_iff. assumption. Qed.

(** every body is either the body of exactly one packet or gets exactly one error *)
Theorem C49_v5_one_verdict : forall b1 bd, b1 < 256 -> bytes_ok bd -> blen bd < 2 ^ 62 ->
  (exists p, decodes_body b1 bd p /\ (forall q, decodes_body b1 bd q -> q = p) /\ (forall e, ~ fails b1 bd e))
  \/
  (exists e, fails b1 bd e /\ (forall e', fails b1 bd e' -> e' = e) /\ (forall p, ~ decodes_body b1 bd p)).
Proof.
  intros b1 bd Hb1 Hb Hm'. assert (Hm : blen bd <= ProofProps.huge) by (unfold ProofProps.huge; lia). clear Hm'. assert (S := frame_sound b1 [] bd Hb1 Hb Hm).
  destruct (read_frame (ProofV4Read.hd b1 [] bd) ([] ++ bd)) as [p|e| |] eqn:E; try contradiction.
  - left. exists p. split; [exact S|]. split.
    + intros q Hq. apply (frame_complete b1 [] bd q Hb1 Hb Hm) in Hq. congruence.
    + intros e He. apply (frame_fails b1 [] bd e Hb1 Hb Hm) in He. congruence.
  - right. exists e. split; [exact (frame_errs _ _ _ _ Hb1 Hb Hm E)|]. split.
    + intros e' He. apply (frame_fails b1 [] bd e' Hb1 Hb Hm) in He. congruence.
    + intros q Hq. apply (frame_complete b1 [] bd q Hb1 Hb Hm) in Hq. congruence.
Qed.
(** a PUBLISH whose second property (a user property) has a key that is not UTF-8 *)
Example C49_v5_case :
  fails 0x30 [0; 1; 97; 8; 1; 0; 38; 0; 1; 0xFF; 0; 0] TopicNotUtf8 /\
  read [0x30; 12; 0; 1; 97; 8; 1; 0; 38; 0; 1; 0xFF; 0; 0; 0xC0; 0] 100 = (Err TopicNotUtf8, [0xC0; 0]).
Proof.
  split; [|reflexivity].
  apply (f_section _ _ _ InPublish (field [97]) [8; 1; 0; 38; 0; 1; 0xFF; 0; 0]); [reflexivity| |discriminate|].
  - split; [reflexivity|]. exists AtMostOnce, [97], 1. repeat split; try reflexivity.
    + apply ProofUtf8.utf8_ok_spec. reflexivity.
    + cbv. discriminate.
  - apply (sf_value _ [8] 8 [(1, VByte 0)] [1; 0] 2 38 TPair [0; 1; 0xFF; 0; 0]); try reflexivity.
    + constructor. reflexivity.
    + cbv. discriminate.
    + change [1; 0] with (1 :: [0] ++ []). change 2 with (0 + counted 1 (1 + blen [0])).
      constructor; try reflexivity.
      * cbv. auto.
      * repeat split.
      * constructor.
    + cbn. tauto.
    + apply vl_key. apply (lacks_utf8 [0xFF] [0; 0]); [cbv; discriminate|].
      intros H. apply ProofUtf8.utf8_ok_spec in H. discriminate H.
Qed.

(** ** C11: the frames that are consumed with InsufficientBytes *)
(** the body ends inside a property length, or inside a subscription identifier *)
Definition unfinished (s : bytes) : Prop := blen s < 4 /\ Forall has_cont s.
Definition ends_in_length (b1 : N) (bd : bytes) : Prop :=
  exists pl pre, leads_to pl b1 pre /\
  ((* property length; the acknowledgements may end before it *)
   (exists s, bd = pre ++ s /\ unfinished s /\ (optional_section pl = true -> s <> []))
   \/
   (* subscription identifier (property 11), behind any number of properties *)
   (exists f plen its ps c s, bd = pre ++ f ++ ps ++ 11 :: s /\ unfinished s /\
      lenfield f plen /\ blen f <= 4 /\ reads (allowed_at pl) plen 0 its ps c /\ c < plen /\
      In 11 (allowed_at pl))).
Theorem C11_v5_consumed_exact : forall s max rest, bytes_ok s ->
  (exists n, read s max = (Err (InsufficientBytes n), rest)) /\ rest <> s <->
  exists b1 bd, starts_with_frame s b1 bd rest /\ blen bd <= max /\ ends_in_length b1 bd.
Proof.
  intros s max rest Hb. split.
  - intros [[n H] Hr]. destruct (proj2 (read_fails_iff s max _ rest Hb) (conj H Hr)) as (b1 & bd & Hs & Hm & Hf).
    exists b1, bd. split; [exact Hs|]. split; [exact Hm|]. clear - Hf.
    destruct Hf as [pre s w Hne -> He Hl|pre s w -> Hs He Hl|pl pre s -> Hl Ho Hs|pre s Hne -> He|He].
    + exfalso. inversion Hl; subst; try discriminate; inversion He.
    + exfalso. inversion Hl; subst; inversion He.
    + exists pl, pre. split; [exact Hl|]. inversion Hs as [s' e H E1 E2| |f plen its bs c id s' H1 H2 H3 H4 H5 E1 E2|f plen its bs c id t s' e H1 H2 H3 H4 H5 H6 H7 E1 E2]; subst.
      * left. exists s. inversion H; subst. repeat split; assumption.
      * right. 
        assert (id = 11 /\ unfinished s') as [-> Hu].
        { inversion H7; subst; try (match goal with X : lacks _ _ _ |- _ => inversion X; subst; fail end).
          - inversion H; subst. split; [|split; assumption].
            clear - H6. unfold ptype_of in H6.
            destruct id as [|p]; [discriminate|]. do 6 (try destruct p as [p|p|]); first [discriminate|reflexivity]. }
        exists f, plen, its, bs, c, s'. repeat (split; [assumption||reflexivity|]). assumption.
    + exfalso. inversion He.
    + exfalso. inversion He.
  - intros (b1 & bd & Hs & Hm & pl & pre & Hl & H).
    assert (Hf : fails b1 bd (InsufficientBytes 1)).
    { destruct H as [(s' & -> & [H1 H2] & Ho)|(f & plen & its & ps & c & s' & -> & [H1 H2] & Hf & Hf4 & Hr & Hc & Hin)].
      - eapply (f_section _ _ _ pl pre s'); [reflexivity|exact Hl|exact Ho|]. apply sf_len. constructor; assumption.
      - eapply (f_section _ _ _ pl pre (f ++ ps ++ 11 :: s')); [reflexivity|exact Hl| |].
        + intros _ E. apply (f_equal (@blen N)) in E. revert E. autorewrite with blen. lia.
        + eapply (sf_value _ f plen its ps c 11 TVar); eauto. apply vl_var. constructor; assumption. }
    destruct (proj1 (read_fails_iff s max _ rest Hb) (ex_intro _ b1 (ex_intro _ bd (conj Hs (conj Hm Hf))))) as [E Er].
    split; [exists 1; exact E|exact Er].
Qed.
(** CONNACK without property length; PUBLISH cut inside a subscription identifier *)
Example C11_v5_consumed_case :
  read [0x20; 2; 0; 0; 0xD0; 0] 100 = (Err (InsufficientBytes 1), [0xD0; 0]) /\
  ends_in_length 0x20 [0; 0] /\
  read [0x30; 6; 0; 1; 97; 2; 11; 0x80; 0xD0; 0] 100 = (Err (InsufficientBytes 1), [0xD0; 0]) /\
  ends_in_length 0x30 [0; 1; 97; 2; 11; 0x80].
Proof.
  split; [reflexivity|]. split; [|split; [reflexivity|]].
  - exists InConnAck, [0; 0]. split.
    + split; [reflexivity|]. exists 0, V5ConnAck.Success. split; reflexivity.
    + left. exists []. split; [reflexivity|]. split; [split; [reflexivity|constructor]|discriminate].
  - exists InPublish, (field [97]). split.
    + split; [reflexivity|]. exists AtMostOnce, [97], 1. repeat split; try reflexivity.
      * apply ProofUtf8.utf8_ok_spec. reflexivity.
      * cbv. discriminate.
    + right. exists [2], 2, [], [], 0, [0x80]. split; [reflexivity|]. split.
      { split; [reflexivity|]. constructor; [|constructor]. cbv; repeat split; discriminate. }
      split; [constructor; reflexivity|]. split; [cbv; discriminate|]. split; [constructor|]. split; [reflexivity|].
      cbn. tauto.
Qed.

Print Assumptions C49_v5_errors_exact.
Print Assumptions C49_v5_one_verdict.
Print Assumptions C11_v5_consumed_exact.

(** PropErrorsV4.v -- property theorems about what `v4::read` refuses.  `fails` is the table
    of SpecErrorsV4. *)
From Verif Require Import ProofBase Lib ProofLib SpecFrame ProofCheck ProofRead SpecV4 ProofV4Read
  SpecErrors SpecErrorsV4 ProofErrorsV4.

(** ** C49: which error a malformed frame gets *)
Theorem C49_v4_errors_exact : forall s max e rest, bytes_ok s ->
  (exists b1 bd, starts_with_frame s b1 bd rest /\ blen bd <= max /\ fails b1 bd e) <->
  (read s max = (Err e, rest) /\ rest <> s).
Proof. intros. apply read_fails_iff. assumption. Qed.

(** every body is either the body of exactly one packet or gets exactly one error *)
Theorem C49_v4_one_verdict : forall b1 bd, b1 < 256 -> bytes_ok bd ->
  (exists p, decodes_body b1 bd p /\ (forall q, decodes_body b1 bd q -> q = p) /\ (forall e, ~ fails b1 bd e))
  \/
  (exists e, fails b1 bd e /\ (forall e', fails b1 bd e' -> e' = e) /\ (forall p, ~ decodes_body b1 bd p)).
Proof.
  intros b1 bd Hb1 Hb. assert (S := frame_sound b1 [] bd Hb1 Hb).
  destruct (read_frame (hd b1 [] bd) ([] ++ bd)) as [p|e| |] eqn:E; try contradiction.
  - left. exists p. split; [exact S|]. split.
    + intros q Hq. apply (frame_complete b1 [] bd q Hb1 Hb) in Hq. congruence.
    + intros e He. apply (frame_fails b1 [] bd e Hb1 Hb) in He. congruence.
  - right. exists e. split; [exact (frame_errs _ _ _ _ Hb1 Hb E)|]. split.
    + intros e' He. apply (frame_fails b1 [] bd e' Hb1 Hb) in He. congruence.
    + intros q Hq. apply (frame_complete b1 [] bd q Hb1 Hb) in Hq. congruence.
Qed.
(** a SUBSCRIBE whose second filter is cut off; a CONNECT that fails both in its protocol
    name and, later, in its will flags: the first failure counts *)
Example C49_v4_case :
  fails 0x82 [0; 7; 0; 1; 97; 1; 0; 5; 98] (BoundaryCrossed 5) /\
  read [0x82; 9; 0; 7; 0; 1; 97; 1; 0; 5; 98; 0xC0; 0] 100 = (Err (BoundaryCrossed 5), [0xC0; 0]) /\
  fails 0x10 (field [77; 81] ++ [4; 0x3A; 0; 10; 0; 0]) InvalidProtocol.
Proof.
  split; [|split].
  - apply (f_more _ _ _ (be16 7 ++ filters_bytes [([97], 1)]) [0; 5; 98] WString); [reflexivity|discriminate| |].
    + constructor; [reflexivity..|]. constructor; [|constructor]. split; [split|].
      * apply ProofUtf8.utf8_ok_spec. reflexivity.
      * cbv. discriminate.
      * cbv. discriminate.
    + apply (lacks_content WString 5 [98]); [auto|reflexivity..].
  - reflexivity.
  - apply (f_value _ _ _ (field [77; 81] ++ [4]) [0x3A; 0; 10; 0; 0]); [discriminate|reflexivity|].
    constructor; [reflexivity| |discriminate]. split; [apply ProofUtf8.utf8_ok_spec; reflexivity|cbv; discriminate].
Qed.

Print Assumptions C49_v4_errors_exact.
Print Assumptions C49_v4_one_verdict.

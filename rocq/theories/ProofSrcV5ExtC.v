(** ProofSrcV5ExtC.v -- the property blocks of CONNECT and CONNACK: the mechanical
    translation of `extract`/`read` against the model. *)
From Verif Require Import ProofSrcTac.
From Verif Require V5Connect SrcV5Connect V5ConnAck SrcV5ConnAck.

Lemma v5_connack_extract fuel s : (List.length s < fuel)%nat -> blen s <= half ->
  sim (SrcV5ConnAck.ConnAckProperties_extract fuel s) (V5ConnAck.extract s) (fun a b s' => a = b /\ blen s' <= blen s).
Proof.
  intros Hf Hs. unfold SrcV5ConnAck.ConnAckProperties_extract, V5ConnAck.extract, V5ConnAck.props_step, props_loop.
  extract_tac (fun '(z, a, b, c, d, f, e, g, h, i, j, k, l, m, n, o, p, q) => (z : N, V5ConnAck.mkConnAckProperties a b c d e f g h i j k l m n o p q)).
Qed.
Lemma v5_connectprops_read fuel s : (List.length s < fuel)%nat -> blen s <= half ->
  sim (SrcV5Connect.ConnectProperties_read fuel s) (V5Connect.cp_extract s) (fun a b s' => a = b /\ blen s' <= blen s).
Proof.
  intros Hf Hs. unfold SrcV5Connect.ConnectProperties_read, V5Connect.cp_extract, V5Connect.cp_props_step, props_loop.
  extract_tac (fun '(z, a, b, c, d, e, f, g, h, i) => (z : N, V5Connect.mkConnectProperties a b c d e f g h i)).
Qed.
Lemma v5_willprops_read fuel s : (List.length s < fuel)%nat -> blen s <= half ->
  sim (SrcV5Connect.WillProperties_read fuel s) (V5Connect.wp_extract s) (fun a b s' => a = b /\ blen s' <= blen s).
Proof.
  intros Hf Hs. unfold SrcV5Connect.WillProperties_read, V5Connect.wp_extract, V5Connect.wp_props_step, props_loop.
  extract_tac (fun '(z, a, b, c, d, e, f, g) => (z : N, V5Connect.mkWillProperties a b c d e f g)).
Qed.

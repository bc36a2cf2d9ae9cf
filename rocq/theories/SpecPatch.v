(** SpecPatch.v -- sending one PUBLISH to many receivers (or again): the same message with another packet identifier, DUP and
    RETAIN flag, and the bytes of the one patched into the bytes of the other.  (Not part of the crate.) *)
From Verif Require Import Base SpecWire.
From Verif Require V4Publish V5Publish.

(** the same message for another receiver *)
Definition readdress4 (dup retain : bool) (pkid : N) (p : V4Publish.Publish) : V4Publish.Publish :=
  V4Publish.mkPublish dup (V4Publish.qos p) retain (V4Publish.topic p) pkid (V4Publish.payload p).
Definition readdress5 (dup retain : bool) (pkid : N) (p : V5Publish.Publish) : V5Publish.Publish :=
  V5Publish.mkPublish dup (V5Publish.qos p) retain (V5Publish.topic p) pkid (V5Publish.properties p) (V5Publish.payload p).

(** one byte of a buffer overwritten *)
Definition poke (i : N) (b : N) (buf : bytes) : bytes :=
  firstn (N.to_nat i) buf ++ match skipn (N.to_nat i) buf with [] => [] | _ :: rest => b :: rest end.
(** the first byte of a PUBLISH with the two flags set anew: bit 3 and bit 0 *)
Definition flags_set (dup retain : bool) (b1 : N) : N :=
  (b1 / 16 * 16) + 8 * (if dup then 1 else 0) + 2 * (b1 / 2 mod 4) + (if retain then 1 else 0).
(** where the packet identifier is in the encoding of a message with this topic and this remaining length *)
Definition id_place (remaining topic : N) : N := 1 + blen (varint remaining) + 2 + topic.
(** the encoding patched: flags, and the two bytes of the identifier (QoS 1 and 2) *)
Definition patched (dup retain : bool) (place : option (N * N)) (buf : bytes) : bytes :=
  let buf := match buf with [] => [] | b1 :: rest => flags_set dup retain b1 :: rest end in
  match place with
  | Some (i, pkid) => poke (i + 1) (pkid mod 256) (poke i (pkid / 256) buf)
  | None => buf
  end.

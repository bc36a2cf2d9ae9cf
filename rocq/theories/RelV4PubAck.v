(** RelV4PubAck.v -- generated by tools/gen_release.py from V4PubAck.v: its definitions that use
    machine integers, without overflow checks (Release.v).  No proofs in this file. *)
From Verif Require Import Base Utf8 Lib V4PubAck Release RelLib.

Section WithBuild.
Context {build : Build}.

(** src/v4/puback.rs:40-46 `PubAck::write` *)
Definition write (self : PubAck) : writer N :=
  let len := len self in
  put_u8 0x40 ;;w
  count <-w write_remaining_length len ;;
  put_u16 (pkid self) ;;w
  wret (1 + count + len).

End WithBuild.

(** RelV4ConnAck.v -- generated by tools/gen_release.py from V4ConnAck.v: its definitions that use
    machine integers, without overflow checks (Release.v).  No proofs in this file. *)
From Verif Require Import Base Utf8 Lib V4ConnAck Release RelLib.

Section WithBuild.
Context {build : Build}.

(** src/v4/connack.rs:31-35 `ConnAck::len` *)
Definition len (self : ConnAck) : N := 1 + 1.

(** src/v4/connack.rs:54-63 `ConnAck::write` *)
Definition write (self : ConnAck) : writer N :=
  let len := len self in
  put_u8 0x20 ;;w
  count <-w write_remaining_length len ;;
  put_u8 (bool_u8 (session_present self)) ;;w
  put_u8 (code_u8 (code self)) ;;w
  wret (1 + count + len).

End WithBuild.

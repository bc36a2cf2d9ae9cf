(** RelV4PubComp.v -- generated by tools/gen_release.py from V4PubComp.v: its definitions that use
    machine integers, without overflow checks (Release.v).  No proofs in this file. *)
From Verif Require Import Base Utf8 Lib V4PubComp Release RelLib.

Section WithBuild.
Context {build : Build}.

(** src/v4/pubcomp.rs:38-44 `PubComp::write` *)
Definition write (self : PubComp) : writer N :=
  let len := len self in
  put_u8 0x70 ;;w
  count <-w write_remaining_length len ;;
  put_u16 (pkid self) ;;w
  wret (1 + count + len).

End WithBuild.

(** RelV4PubRec.v -- generated by tools/gen_release.py from V4PubRec.v: its definitions that use
    machine integers, without overflow checks (Release.v).  No proofs in this file. *)
From Verif Require Import Base Utf8 Lib V4PubRec Release RelLib.

Section WithBuild.
Context {build : Build}.

(** src/v4/pubrec.rs:37-43 `PubRec::write` *)
Definition write (self : PubRec) : writer N :=
  let len := len self in
  put_u8 0x50 ;;w
  count <-w write_remaining_length len ;;
  put_u16 (pkid self) ;;w
  wret (1 + count + len).

End WithBuild.

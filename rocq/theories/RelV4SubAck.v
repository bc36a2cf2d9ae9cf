(** RelV4SubAck.v -- generated by tools/gen_release.py from V4SubAck.v: its definitions that use
    machine integers, without overflow checks (Release.v).  No proofs in this file. *)
From Verif Require Import Base Utf8 Lib V4SubAck Release RelLib.

Section WithBuild.
Context {build : Build}.

(** src/v4/suback.rs:18-21 `SubAck::len` *)
Definition len (self : SubAck) : N := 2 + blen (return_codes self).

(** src/v4/suback.rs:42-58 `SubAck::write` *)
Definition write (self : SubAck) : writer N :=
  put_u8 0x90 ;;w
  let remaining_len := len self in
  remaining_len_bytes <-w write_remaining_length remaining_len ;;
  put_u16 (pkid self) ;;w
  let p := map code_u8 (return_codes self) in
  extend_from_slice p ;;w
  wret (1 + remaining_len_bytes + remaining_len).

End WithBuild.

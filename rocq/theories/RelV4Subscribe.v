(** RelV4Subscribe.v -- generated by tools/gen_release.py from V4Subscribe.v: its definitions that use
    machine integers, without overflow checks (Release.v).  No proofs in this file. *)
From Verif Require Import Base Utf8 Lib V4Subscribe Release RelLib.

Section WithBuild.
Context {build : Build}.

(** src/v4/subscribe.rs:109-112 `SubscribeFilter::len` *)
Definition filter_len (self : SubscribeFilter) : N := 2 + blen (path self) + 1.

(** src/v4/subscribe.rs:46-49 `Subscribe::len` *)
Definition len (self : Subscribe) : N :=
  2 + fold_left (fun s t => s + filter_len t) (filters self) 0.

(** src/v4/subscribe.rs:77-94 `Subscribe::write` *)
Definition write (self : Subscribe) : writer N :=
  put_u8 0x82 ;;w
  let remaining_len := len self in
  remaining_len_bytes <-w write_remaining_length remaining_len ;;
  put_u16 (pkid self) ;;w
  for_each (filters self) filter_write ;;w
  wret (1 + remaining_len_bytes + remaining_len).

End WithBuild.

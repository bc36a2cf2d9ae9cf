(** RelV4Publish.v -- generated by tools/gen_release.py from V4Publish.v: its definitions that use
    machine integers, without overflow checks (Release.v).  No proofs in this file. *)
From Verif Require Import Base Utf8 Lib V4Publish Release RelLib.

Section WithBuild.
Context {build : Build}.

(** src/v4/publish.rs:41-49 `Publish::len` *)
Definition len (self : Publish) : N :=
  let len := 2 + blen (topic self) in
  let len := if negb (qos_eqb (qos self) AtMostOnce) && negb (pkid self =? 0)
             then len + 2 else len in
  len + blen (payload self).

(** src/v4/publish.rs:82-106 `Publish::write` *)
Definition write (self : Publish) : writer N :=
  let len := len self in
  let dup := bool_u8 (dup self) in
  let qos_n := qos_u8 (qos self) in
  let retain := bool_u8 (retain self) in
  put_u8 (N.lor (N.lor (N.lor 48 retain) (N.shiftl qos_n 1)) (N.shiftl dup 3)) ;;w
  count <-w write_remaining_length len ;;
  write_mqtt_string (topic self) ;;w
  (if negb (qos_eqb (qos self) AtMostOnce) then
     if pkid self =? 0 then werr PacketIdZero
     else put_u16 (pkid self)
   else wret tt) ;;w
  extend_from_slice (payload self) ;;w
  wret (1 + count + len).

End WithBuild.

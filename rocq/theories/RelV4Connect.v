(** RelV4Connect.v -- generated by tools/gen_release.py from V4Connect.v: its definitions that use
    machine integers, without overflow checks (Release.v).  No proofs in this file. *)
From Verif Require Import Base Utf8 Lib V4Connect Release RelLib.

Section WithBuild.
Context {build : Build}.

(** src/v4/connect.rs:163-167 `LastWill::len` *)
Definition lw_len (self : LastWill) : N :=
  0 + (2 + blen (lw_topic self) + 2 + blen (lw_message self)).

(** src/v4/connect.rs:237-249 `Login::len` *)
Definition login_len (self : Login) : N :=
  let len := 0 in
  let len := if negb (is_empty (username self)) then len + (2 + blen (username self)) else len in
  let len := if negb (is_empty (password self)) then len + (2 + blen (password self)) else len in
  len.

(** src/v4/connect.rs:45-64 `Connect::len` *)
Definition len (self : Connect) : N :=
  let len := 2 + blen mqtt_name + 1 + 1 + 2 in
  let len := len + (2 + blen (client_id self)) in
  let len := match last_will self with Some last_will => len + lw_len last_will | None => len end in
  let len := match login self with Some login => len + login_len login | None => len end in
  len.

(** src/v4/connect.rs:103-136 `Connect::write`.  [set_index] is
    `buffer[flags_index] = connect_flags`, an index from the start of the
    caller's buffer. *)
Definition write (self : Connect) : writer N :=
  let len := len self in
  put_u8 16 ;;w
  count <-w write_remaining_length len ;;
  write_mqtt_string mqtt_name ;;w
  (match protocol self with V4 => put_u8 4 | V5 => put_u8 5 end) ;;w
  let flags_index := 1 + count + 2 + 4 + 1 in
  let connect_flags := 0 in
  let connect_flags := if clean_session self then N.lor connect_flags 2 else connect_flags in
  put_u8 connect_flags ;;w
  put_u16 (keep_alive self) ;;w
  write_mqtt_string (client_id self) ;;w
  connect_flags <-w
    (match last_will self with
     | Some last_will => f <-w lw_write last_will ;; wret (N.lor connect_flags f)
     | None => wret connect_flags
     end) ;;
  connect_flags <-w
    (match login self with
     | Some login => f <-w login_write login ;; wret (N.lor connect_flags f)
     | None => wret connect_flags
     end) ;;
  set_index flags_index connect_flags ;;w
  wret len.

End WithBuild.

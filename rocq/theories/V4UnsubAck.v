(** V4UnsubAck.v -- model of src/v4/unsuback.rs.  No proofs in this file. *)
From Verif Require Import Base Utf8 Lib.

(** src/v4/unsuback.rs:5-8 `UnsubAck` *)
Record UnsubAck := mkUnsubAck { pkid : N }.

(** src/v4/unsuback.rs:11-13 `UnsubAck::new` *)
Definition new (pkid : N) : UnsubAck := mkUnsubAck pkid.

(** src/v4/unsuback.rs:15-26 `UnsubAck::read` *)
Definition read (fixed_header : FixedHeader) : reader UnsubAck :=
  if negb (remaining_len fixed_header =? 2) then rerr PayloadSizeIncorrect
  else
    advance (fixed_header_len fixed_header) ;;r
    pkid <-r read_u16 ;;
    rret (mkUnsubAck pkid).

(** src/v4/unsuback.rs:28-32 `UnsubAck::write` *)
Definition write (self : UnsubAck) : writer N :=
  put_slice [0xB0; 0x02] ;;w
  put_u16 (pkid self) ;;w
  wret 4.

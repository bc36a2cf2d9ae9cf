(** V5Ping.v -- model of src/v5/ping.rs.  No proofs in this file. *)
From Verif Require Import Base Utf8 Lib.

(** src/v5/ping.rs:7-10 `PingReq::write` *)
Definition pingreq_write : writer N := put_slice [0xC0; 0x00] ;;w wret 2.
(** src/v5/ping.rs:16-19 `PingResp::write` *)
Definition pingresp_write : writer N := put_slice [0xD0; 0x00] ;;w wret 2.

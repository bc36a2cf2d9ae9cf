(** V4Ping.v -- model of src/v4/ping.rs and src/v4/disconnect.rs (unit structs).
    No proofs in this file. *)
From Verif Require Import Base Utf8 Lib.

(** src/v4/ping.rs:7-10 `PingReq::write` *)
Definition pingreq_write : writer N := put_slice [0xC0; 0x00] ;;w wret 2.
(** src/v4/ping.rs:16-19 `PingResp::write` *)
Definition pingresp_write : writer N := put_slice [0xD0; 0x00] ;;w wret 2.
(** src/v4/disconnect.rs:7-10 `Disconnect::write` *)
Definition disconnect_write : writer N := put_slice [0xE0; 0x00] ;;w wret 2.

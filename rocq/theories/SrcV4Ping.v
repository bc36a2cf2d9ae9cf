(** SrcV4Ping.v -- GENERATED by tools/rust2coq.py from src/v4/ping.rs; do not edit.
    No proofs in this file. *)
From Verif Require Import Base Lib SrcBase.

(** src/v4/ping.rs:7-10 `PingReq::write` *)
Definition PingReq_write : writer N :=
  put_slice [192; 0] ;;w
  wret 2.

(** src/v4/ping.rs:16-19 `PingResp::write` *)
Definition PingResp_write : writer N :=
  put_slice [208; 0] ;;w
  wret 2.

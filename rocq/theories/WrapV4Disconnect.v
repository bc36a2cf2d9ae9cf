(** WrapV4Disconnect.v -- GENERATED by tools/rust2coq.py from src/v4/disconnect.rs; do not edit.
    No proofs in this file. *)
From Verif Require Import Base Lib SrcBase WrapBase.

(** src/v4/disconnect.rs:7-10 `Disconnect::write` *)
Definition Disconnect_write : writer N :=
  put_slice [224; 0] ;;w
  wret 2.

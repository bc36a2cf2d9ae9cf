(** WrapV4PubRel.v -- GENERATED by tools/rust2coq.py from src/v4/pubrel.rs; do not edit.
    No proofs in this file. *)
From Verif Require Import Base Lib SrcBase WrapBase.
From Verif Require V4PubRel.
From Verif Require WrapLib.

(** src/v4/pubrel.rs:11-13 `PubRel::new` *)
Definition PubRel_new (pkid : N) : outcome V4PubRel.PubRel :=
  run (
    wret (V4PubRel.mkPubRel pkid)) [].

(** src/v4/pubrel.rs:15-18 `PubRel::len` *)
Definition PubRel_len (self : V4PubRel.PubRel) : outcome N :=
  run (
    let len := 2 in
    wret len) [].

(** src/v4/pubrel.rs:20-35 `PubRel::read` *)
Definition PubRel_read (fixed_header : Lib.FixedHeader) (bytes : list N) : outcome V4PubRel.PubRel :=
  run (
    let variable_header_index := (Lib.fixed_header_len fixed_header) in
    keep (advance variable_header_index) ;;w
    pkid <-w WrapLib.read_u16 ;;
    if ((Lib.remaining_len fixed_header) =? 2) then (
      wret (V4PubRel.mkPubRel pkid))
    else (
      if ((Lib.remaining_len fixed_header) <? 4) then (
        wret (V4PubRel.mkPubRel pkid))
      else (
        let puback := (V4PubRel.mkPubRel pkid) in
        wret puback))) bytes.

(** src/v4/pubrel.rs:37-43 `PubRel::write` *)
Definition PubRel_write (fuel : nat) (self : V4PubRel.PubRel) : writer N :=
  len <-w lift (PubRel_len self) ;;
  put_u8 98 ;;w
  count <-w WrapLib.write_remaining_length fuel len ;;
  put_u16 (V4PubRel.pkid self) ;;w
  t1 <-w lift (usize_add 1 count) ;;
  t2 <-w lift (usize_add t1 len) ;;
  wret t2.

(** PortV4PubRec.v -- GENERATED by tools/rust2coq.py from src/v4/pubrec.rs; do not edit.
    No proofs in this file. *)
From Verif Require Import Base Lib SrcBase PortBase.
From Verif Require V4PubRec.
From Verif Require PortLib.

Section Port.
Context {target : Target}.

(** src/v4/pubrec.rs:11-13 `PubRec::new` *)
Definition PubRec_new (pkid : N) : outcome V4PubRec.PubRec :=
  run (
    wret (V4PubRec.mkPubRec pkid)) [].

(** src/v4/pubrec.rs:15-18 `PubRec::len` *)
Definition PubRec_len (self : V4PubRec.PubRec) : outcome N :=
  run (
    let len := 2 in
    wret len) [].

(** src/v4/pubrec.rs:20-35 `PubRec::read` *)
Definition PubRec_read (fixed_header : Lib.FixedHeader) (bytes : list N) : outcome V4PubRec.PubRec :=
  run (
    let variable_header_index := (Lib.fixed_header_len fixed_header) in
    keep (advance variable_header_index) ;;w
    pkid <-w PortLib.read_u16 ;;
    if ((Lib.remaining_len fixed_header) =? 2) then (
      wret (V4PubRec.mkPubRec pkid))
    else (
      if ((Lib.remaining_len fixed_header) <? 4) then (
        wret (V4PubRec.mkPubRec pkid))
      else (
        let puback := (V4PubRec.mkPubRec pkid) in
        wret puback))) bytes.

(** src/v4/pubrec.rs:37-43 `PubRec::write` *)
Definition PubRec_write (fuel : nat) (self : V4PubRec.PubRec) : writer N :=
  len <-w lift (PubRec_len self) ;;
  put_u8 80 ;;w
  count <-w PortLib.write_remaining_length fuel len ;;
  put_u16 (V4PubRec.pkid self) ;;w
  t1 <-w lift (usize_add 1 count) ;;
  t2 <-w lift (usize_add t1 len) ;;
  wret t2.

End Port.

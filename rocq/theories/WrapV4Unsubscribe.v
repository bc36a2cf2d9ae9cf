(** WrapV4Unsubscribe.v -- GENERATED by tools/rust2coq.py from src/v4/unsubscribe.rs; do not edit.
    No proofs in this file. *)
From Verif Require Import Base Lib SrcBase WrapBase.
From Verif Require V4Unsubscribe.
From Verif Require WrapLib.

(** src/v4/unsubscribe.rs:14-19 `Unsubscribe::new` *)
Definition Unsubscribe_new (topic : list N) : outcome V4Unsubscribe.Unsubscribe :=
  run (
    wret (V4Unsubscribe.mkUnsubscribe 0 [topic])) [].

(** src/v4/unsubscribe.rs:21-37 `Unsubscribe::read` *)
Definition Unsubscribe_read (fuel : nat) (fixed_header : Lib.FixedHeader) (bytes : list N) : outcome V4Unsubscribe.Unsubscribe :=
  run (
    let variable_header_index := (Lib.fixed_header_len fixed_header) in
    keep (advance variable_header_index) ;;w
    pkid <-w WrapLib.read_u16 ;;
    payload_bytes <-w lift (usize_sub (Lib.remaining_len fixed_header) 2) ;;
    let topics : list (list N) := [] in
    '(payload_bytes, topics) <-w while_ fuel
      (fun '(payload_bytes, topics) =>
        wret (0 <? payload_bytes))
      (fun '(payload_bytes, topics) =>
        topic_filter <-w WrapLib.read_mqtt_string ;;
        t1 <-w lift (usize_add (blen topic_filter) 2) ;;
        payload_bytes <-w lift (usize_sub payload_bytes t1) ;;
        let topics := (topics ++ [topic_filter]) in
        wret (payload_bytes, topics))
      (payload_bytes, topics) ;;
    let unsubscribe := (V4Unsubscribe.mkUnsubscribe pkid topics) in
    wret unsubscribe) bytes.

(** src/v4/unsubscribe.rs:39-53 `Unsubscribe::write` *)
Definition Unsubscribe_write (fuel : nat) (self : V4Unsubscribe.Unsubscribe) : writer N :=
  t3 <-w (
    fold_ (fun s topic =>
      t1 <-w lift (usize_add s (blen topic)) ;;
      t2 <-w lift (usize_add t1 2) ;;
      wret t2) (V4Unsubscribe.topics self) 0) ;;
  remaining_len <-w lift (usize_add 2 t3) ;;
  put_u8 162 ;;w
  remaining_len_bytes <-w WrapLib.write_remaining_length fuel remaining_len ;;
  put_u16 (V4Unsubscribe.pkid self) ;;w
  for_ (fun topic (_ : unit) =>
      WrapLib.write_mqtt_string topic ;;w
      wret tt)
    (V4Unsubscribe.topics self) tt ;;w
  t4 <-w lift (usize_add 1 remaining_len_bytes) ;;
  t5 <-w lift (usize_add t4 remaining_len) ;;
  wret t5.

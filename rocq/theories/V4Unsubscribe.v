(** V4Unsubscribe.v -- model of src/v4/unsubscribe.rs.  No proofs in this file. *)
From Verif Require Import Base Utf8 Lib.

(** src/v4/unsubscribe.rs:7-11 `Unsubscribe` *)
Record Unsubscribe := mkUnsubscribe { pkid : N; topics : list bytes }.

(** src/v4/unsubscribe.rs:14-19 `Unsubscribe::new` *)
Definition new (topic : bytes) : Unsubscribe := mkUnsubscribe 0 [topic].

(** src/v4/unsubscribe.rs:29-33: the `while payload_bytes > 0` loop; both
    subtractions of the function are checked (`usize`). *)
Fixpoint topics_loop (fuel : nat) (payload_bytes : N) (topics : list bytes)
  : reader (list bytes) :=
  fun s =>
    match fuel with
    | O => Diverge
    | S fuel =>
        if 0 <? payload_bytes then
          (topic_filter <-r read_mqtt_string ;;
           payload_bytes <-r rlift (usize_sub payload_bytes (blen topic_filter + 2)) ;;
           topics_loop fuel payload_bytes (topics ++ [topic_filter])) s
        else Ok (topics, s)
    end.

(** src/v4/unsubscribe.rs:21-37 `Unsubscribe::read` *)
Definition read (fixed_header : FixedHeader) : reader Unsubscribe :=
  advance (fixed_header_len fixed_header) ;;r
  pkid <-r read_u16 ;;
  payload_bytes <-r rlift (usize_sub (remaining_len fixed_header) 2) ;;
  topics <-r (fun bytes => topics_loop (S (List.length bytes)) payload_bytes [] bytes) ;;
  rret (mkUnsubscribe pkid topics).

(** src/v4/unsubscribe.rs:39-53 `Unsubscribe::write` *)
Definition write (self : Unsubscribe) : writer N :=
  let remaining_len := 2 + fold_left (fun s topic => s + blen topic + 2) (topics self) 0 in
  put_u8 0xA2 ;;w
  remaining_len_bytes <-w write_remaining_length remaining_len ;;
  put_u16 (pkid self) ;;w
  for_each (topics self) write_mqtt_string ;;w
  wret (1 + remaining_len_bytes + remaining_len).

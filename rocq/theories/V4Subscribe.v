(** V4Subscribe.v -- model of src/v4/subscribe.rs.  No proofs in this file. *)
From Verif Require Import Base Utf8 Lib.

(** src/v4/subscribe.rs:98-102 `SubscribeFilter` *)
Record SubscribeFilter := mkSubscribeFilter { path : bytes; qos : QoS }.

(** src/v4/subscribe.rs:8-12 `Subscribe` *)
Record Subscribe := mkSubscribe { pkid : N; filters : list SubscribeFilter }.

(** src/v4/subscribe.rs:105-107 `SubscribeFilter::new` *)
Definition filter_new (path : bytes) (qos : QoS) : SubscribeFilter := mkSubscribeFilter path qos.

(** src/v4/subscribe.rs:15-25 `Subscribe::new` *)
Definition new (path : bytes) (qos : QoS) : Subscribe :=
  mkSubscribe 0 [mkSubscribeFilter path qos].

(** src/v4/subscribe.rs:27-37 `Subscribe::new_many` *)
Definition new_many (topics : list SubscribeFilter) : outcome Subscribe :=
  match blen topics with
  | 0 => Err EmptySubscription
  | _ => Ok (mkSubscribe 0 topics)
  end.

(** src/v4/subscribe.rs:39-44 `Subscribe::add` *)
Definition add (self : Subscribe) (path : bytes) (qos : QoS) : Subscribe :=
  mkSubscribe (pkid self) (filters self ++ [mkSubscribeFilter path qos]).

(** src/v4/subscribe.rs:109-112 `SubscribeFilter::len` *)
Definition filter_len (self : SubscribeFilter) : N := 2 + blen (path self) + 1.

(** src/v4/subscribe.rs:46-49 `Subscribe::len` *)
Definition len (self : Subscribe) : N :=
  2 + fold_left (fun s t => s + filter_len t) (filters self) 0.

(** src/v4/subscribe.rs:60-69: the `while bytes.has_remaining()` loop *)
Fixpoint filters_loop (fuel : nat) (filters : list SubscribeFilter)
  : reader (list SubscribeFilter) :=
  fun bytes =>
    match fuel with
    | O => Diverge
    | S fuel =>
        if has_remaining bytes then
          (path <-r read_mqtt_string ;;
           options <-r read_u8 ;;
           let requested_qos := N.land options 3 in
           qos <-r rlift (Lib.qos requested_qos) ;;
           filters_loop fuel (filters ++ [mkSubscribeFilter path qos])) bytes
        else Ok (filters, bytes)
    end.

(** src/v4/subscribe.rs:51-75 `Subscribe::read` *)
Definition read (fixed_header : FixedHeader) : reader Subscribe :=
  advance (fixed_header_len fixed_header) ;;r
  pkid <-r read_u16 ;;
  filters <-r (fun bytes => filters_loop (S (List.length bytes)) [] bytes) ;;
  match blen filters with
  | 0 => rerr EmptySubscription
  | _ => rret (mkSubscribe pkid filters)
  end.

(** src/v4/subscribe.rs:114-120 `SubscribeFilter::write` *)
Definition filter_write (self : SubscribeFilter) : writer unit :=
  let options := N.lor 0 (qos_u8 (qos self)) in
  write_mqtt_string (path self) ;;w
  put_u8 options.

(** src/v4/subscribe.rs:77-94 `Subscribe::write` *)
Definition write (self : Subscribe) : writer N :=
  put_u8 0x82 ;;w
  let remaining_len := len self in
  remaining_len_bytes <-w write_remaining_length remaining_len ;;
  put_u16 (pkid self) ;;w
  for_each (filters self) filter_write ;;w
  wret (1 + remaining_len_bytes + remaining_len).

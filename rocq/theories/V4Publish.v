(** V4Publish.v -- model of src/v4/publish.rs.  No proofs in this file. *)
From Verif Require Import Base Utf8 Lib.

(** src/v4/publish.rs:8-16 `Publish` *)
Record Publish := mkPublish {
  dup : bool;
  qos : QoS;
  retain : bool;
  topic : bytes;
  pkid : N;
  payload : bytes
}.

(** src/v4/publish.rs:19-28 `Publish::new` *)
Definition new (topic : bytes) (qos : QoS) (payload : bytes) : Publish :=
  mkPublish false qos false topic 0 payload.
(** src/v4/publish.rs:30-39 `Publish::from_bytes` *)
Definition from_bytes (topic : bytes) (qos : QoS) (payload : bytes) : Publish :=
  mkPublish false qos false topic 0 payload.

(** src/v4/publish.rs:41-49 `Publish::len` *)
Definition len (self : Publish) : N :=
  let len := 2 + blen (topic self) in
  let len := if negb (qos_eqb (qos self) AtMostOnce) && negb (pkid self =? 0)
             then len + 2 else len in
  len + blen (payload self).

(** src/v4/publish.rs:51-80 `Publish::read` *)
Definition read (fixed_header : FixedHeader) : reader Publish :=
  qos <-r rlift (Lib.qos (N.shiftr (N.land (byte1 fixed_header) 6) 1)) ;;
  let dup := negb (N.land (byte1 fixed_header) 8 =? 0) in
  let retain := negb (N.land (byte1 fixed_header) 1 =? 0) in
  advance (fixed_header_len fixed_header) ;;r
  topic <-r read_mqtt_string ;;
  pkid <-r (match qos with
            | AtMostOnce => rret 0
            | AtLeastOnce | ExactlyOnce => read_u16
            end) ;;
  if negb (qos_eqb qos AtMostOnce) && (pkid =? 0) then rerr PacketIdZero
  else fun bytes => Ok (mkPublish dup qos retain topic pkid bytes, []).
    (* `payload: bytes`: the rest of the frame moves into the packet *)

(** src/v4/publish.rs:82-106 `Publish::write` *)
Definition write (self : Publish) : writer N :=
  let len := len self in
  let dup := bool_u8 (dup self) in
  let qos_n := qos_u8 (qos self) in
  let retain := bool_u8 (retain self) in
  put_u8 (N.lor (N.lor (N.lor 48 retain) (N.shiftl qos_n 1)) (N.shiftl dup 3)) ;;w
  count <-w write_remaining_length len ;;
  write_mqtt_string (topic self) ;;w
  (if negb (qos_eqb (qos self) AtMostOnce) then
     if pkid self =? 0 then werr PacketIdZero
     else put_u16 (pkid self)
   else wret tt) ;;w
  extend_from_slice (payload self) ;;w
  wret (1 + count + len).

(** Lib.v -- model of src/lib.rs.  No proofs in this file. *)
From Verif Require Import Base Utf8.

(** src/lib.rs:73-79: `qos as u8`. *)
Definition qos_u8 (q : QoS) : N :=
  match q with AtMostOnce => 0 | AtLeastOnce => 1 | ExactlyOnce => 2 end.
(** `==` on QoS (derived PartialEq) (src/lib.rs:72-79). *)
Definition qos_eqb (a b : QoS) : bool :=
  match a, b with
  | AtMostOnce, AtMostOnce | AtLeastOnce, AtLeastOnce | ExactlyOnce, ExactlyOnce => true
  | _, _ => false
  end.

(** src/lib.rs:46-63: `packet_type as u8`. *)
Definition packet_type_u8 (t : PacketType) : N :=
  match t with
  | PT_Connect => 1 | PT_ConnAck => 2 | PT_Publish => 3 | PT_PubAck => 4
  | PT_PubRec => 5 | PT_PubRel => 6 | PT_PubComp => 7 | PT_Subscribe => 8
  | PT_SubAck => 9 | PT_Unsubscribe => 10 | PT_UnsubAck => 11 | PT_PingReq => 12
  | PT_PingResp => 13 | PT_Disconnect => 14
  end.

(** src/lib.rs:94-105 `FixedHeader`. *)
Record FixedHeader := mkFixedHeader {
  byte1 : N;
  fixed_header_len : N;
  remaining_len : N
}.

(** src/lib.rs:108-114 `FixedHeader::new`. *)
Definition new_fixed_header (byte1 remaining_len_len remaining_len : N) : outcome FixedHeader :=
  fixed_header_len <-? usize_add remaining_len_len 1 ;;
  Ok (mkFixedHeader byte1 fixed_header_len remaining_len).

(** src/lib.rs:116-135 `FixedHeader::packet_type`. *)
Definition packet_type (h : FixedHeader) : outcome PacketType :=
  let num := N.shiftr (byte1 h) 4 in
  match num with
  | 1 => Ok PT_Connect
  | 2 => Ok PT_ConnAck
  | 3 => Ok PT_Publish
  | 4 => Ok PT_PubAck
  | 5 => Ok PT_PubRec
  | 6 => Ok PT_PubRel
  | 7 => Ok PT_PubComp
  | 8 => Ok PT_Subscribe
  | 9 => Ok PT_SubAck
  | 10 => Ok PT_Unsubscribe
  | 11 => Ok PT_UnsubAck
  | 12 => Ok PT_PingReq
  | 13 => Ok PT_PingResp
  | 14 => Ok PT_Disconnect
  | _ => Err (InvalidPacketType num)
  end.

(** src/lib.rs:139-141 `FixedHeader::frame_length`. *)
Definition frame_length (h : FixedHeader) : outcome N :=
  usize_add (fixed_header_len h) (remaining_len h).

(** src/lib.rs:188-225 `length`: the `for byte in stream` loop; the arguments are
    the local variables of the Rust function.  Returns (len_len, len).
    (`len` stays below 2^28 because `shift` is at most 21, so its addition is
    not range-checked.) *)
Fixpoint length_loop (stream : bytes) (len len_len shift : N) : outcome (N * N) :=
  match stream with
  | [] => Err (InsufficientBytes 1)            (* lines 220-222: loop ended, !done *)
  | byte :: rest =>
      let len_len := len_len + 1 in
      let len := len + N.shiftl (N.land byte 0x7F) shift in
      if N.land byte 0x80 =? 0 then Ok (len_len, len)
      else
        let shift := shift + 7 in
        if 21 <? shift then Err MalformedRemainingLength
        else length_loop rest len len_len shift
  end.
(** src/lib.rs:188-225: the call with the initial values of lines 189-192 *)
Definition length (stream : bytes) : outcome (N * N) := length_loop stream 0 0 0.

(** src/lib.rs:172-183 `parse_fixed_header`. *)
Definition parse_fixed_header (stream : bytes) : outcome FixedHeader :=
  let stream_len := blen stream in
  if stream_len <? 2 then
    d <-? usize_sub 2 stream_len ;; Err (InsufficientBytes d)
  else
    match stream with
    | [] => Panic                               (* stream.next().unwrap() *)
    | byte1 :: rest =>
        ll <-? length rest ;;
        new_fixed_header byte1 (fst ll) (snd ll)
    end.

(** src/lib.rs:149-169 `check`. *)
Definition check (stream : bytes) (max_packet_size : N) : outcome FixedHeader :=
  let stream_len := blen stream in
  fixed_header <-? parse_fixed_header stream ;;
  if max_packet_size <? remaining_len fixed_header then
    Err (PayloadSizeLimitExceeded (remaining_len fixed_header))
  else
    frame_length <-? frame_length fixed_header ;;
    if stream_len <? frame_length then
      d <-? usize_sub frame_length stream_len ;; Err (InsufficientBytes d)
    else Ok fixed_header.

(** src/lib.rs:315-321 `read_u16`. *)
Definition read_u16 : reader N :=
  fun s => if blen s <? 2 then Err MalformedPacket else get_u16 s.
(** src/lib.rs:323-329 `read_u8`. *)
Definition read_u8 : reader N :=
  fun s => if is_empty s then Err MalformedPacket else get_u8 s.
(** src/lib.rs:331-337 `read_u32`. *)
Definition read_u32 : reader N :=
  fun s => if blen s <? 4 then Err MalformedPacket else get_u32 s.

(** src/lib.rs:228-240 `read_mqtt_bytes`. *)
Definition read_mqtt_bytes : reader bytes :=
  len <-r read_u16 ;;
  fun s => if blen s <? len then Err (BoundaryCrossed len) else split_to len s.

(** src/lib.rs:243-249 `read_mqtt_string`. *)
Definition read_mqtt_string : reader bytes :=
  s <-r read_mqtt_bytes ;;
  if utf8_ok s then rret s else rerr TopicNotUtf8.

(** src/lib.rs:252-255 `write_mqtt_bytes`. *)
Definition write_mqtt_bytes (b : bytes) : writer unit :=
  put_u16 (as_u16 (blen b)) ;;w extend_from_slice b.
(** src/lib.rs:258-260 `write_mqtt_string`. *)
Definition write_mqtt_string (s : bytes) : writer unit := write_mqtt_bytes s.

(** src/lib.rs:272-282: the `while !done` loop of `write_remaining_length`;
    returns `count`. *)
Fixpoint write_len_loop (fuel : nat) (x count : N) : writer N :=
  match fuel with
  | O => fun b => (Diverge, b)
  | S fuel =>
      let byte := x mod 128 in
      let x := x / 128 in
      let byte := if 0 <? x then N.lor byte 128 else byte in
      put_u8 byte ;;w
      let count := count + 1 in
      if x =? 0 then wret count else write_len_loop fuel x count
  end.
(** src/lib.rs:263-285 `write_remaining_length`.  The fuel is the bit size of
    the length plus one, more than enough iterations of a division by 128. *)
Definition write_remaining_length (len : N) : writer N :=
  if 268435455 <? len then werr PayloadTooLong
  else write_len_loop (S (N.size_nat len)) len 0.

(** src/lib.rs:288-298 `len_len`. *)
Definition len_len (len : N) : N :=
  if 2097152 <=? len then 4
  else if 16384 <=? len then 3
  else if 128 <=? len then 2
  else 1.

(** src/lib.rs:301-308 `qos`. *)
Definition qos (num : N) : outcome QoS :=
  match num with
  | 0 => Ok AtMostOnce
  | 1 => Ok AtLeastOnce
  | 2 => Ok ExactlyOnce
  | qos => Err (InvalidQoS qos)
  end.

(** WrapLib.v -- GENERATED by tools/rust2coq.py from src/lib.rs; do not edit.
    No proofs in this file. *)
From Verif Require Import Base Lib SrcBase WrapBase.

(** src/lib.rs:46 `PacketType as u8` (the discriminants of the declaration; also decides the derived `==`) *)
Definition PacketType_as_u8 (x : Base.PacketType) : N :=
  match x with
  | Base.PT_Connect => 1
  | Base.PT_ConnAck => 2
  | Base.PT_Publish => 3
  | Base.PT_PubAck => 4
  | Base.PT_PubRec => 5
  | Base.PT_PubRel => 6
  | Base.PT_PubComp => 7
  | Base.PT_Subscribe => 8
  | Base.PT_SubAck => 9
  | Base.PT_Unsubscribe => 10
  | Base.PT_UnsubAck => 11
  | Base.PT_PingReq => 12
  | Base.PT_PingResp => 13
  | Base.PT_Disconnect => 14
  end.

(** src/lib.rs:66 `Protocol as u8` (the discriminants of the declaration; also decides the derived `==`) *)
Definition Protocol_as_u8 (x : Base.Protocol) : N :=
  match x with
  | Base.V4 => 0
  | Base.V5 => 1
  end.

(** src/lib.rs:73 `QoS as u8` (the discriminants of the declaration; also decides the derived `==`) *)
Definition QoS_as_u8 (x : Base.QoS) : N :=
  match x with
  | Base.AtMostOnce => 0
  | Base.AtLeastOnce => 1
  | Base.ExactlyOnce => 2
  end.

(** src/lib.rs:108-114 `FixedHeader::new` *)
Definition FixedHeader_new (byte1 : N) (remaining_len_len : N) (remaining_len : N) : outcome Lib.FixedHeader :=
  run (
    t1 <-w lift (usize_add remaining_len_len 1) ;;
    wret (Lib.mkFixedHeader byte1 t1 remaining_len)) [].

(** src/lib.rs:116-135 `FixedHeader::packet_type` *)
Definition FixedHeader_packet_type (self : Lib.FixedHeader) : outcome Base.PacketType :=
  run (
    num <-w lift (u8_shr (Lib.byte1 self) 4) ;;
    match num with
    | 1 =>
        wret Base.PT_Connect
    | 2 =>
        wret Base.PT_ConnAck
    | 3 =>
        wret Base.PT_Publish
    | 4 =>
        wret Base.PT_PubAck
    | 5 =>
        wret Base.PT_PubRec
    | 6 =>
        wret Base.PT_PubRel
    | 7 =>
        wret Base.PT_PubComp
    | 8 =>
        wret Base.PT_Subscribe
    | 9 =>
        wret Base.PT_SubAck
    | 10 =>
        wret Base.PT_Unsubscribe
    | 11 =>
        wret Base.PT_UnsubAck
    | 12 =>
        wret Base.PT_PingReq
    | 13 =>
        wret Base.PT_PingResp
    | 14 =>
        wret Base.PT_Disconnect
    | _ =>
        werr (Base.InvalidPacketType num)
    end) [].

(** src/lib.rs:139-141 `FixedHeader::frame_length` *)
Definition FixedHeader_frame_length (self : Lib.FixedHeader) : outcome N :=
  run (
    t1 <-w lift (usize_add (Lib.fixed_header_len self) (Lib.remaining_len self)) ;;
    wret t1) [].

(** src/lib.rs:188-225 `length` *)
Definition length (stream : list N) : outcome (N * N) :=
  run (
    let len := 0 in
    let len_len := 0 in
    let done := false in
    let shift := 0 in
    t2 <-w for_ctl (fun byte '(len_len, len, done, shift) =>
        len_len <-w lift (usize_add len_len 1) ;;
        t1 <-w lift (usize_shl (N.land byte 127) shift) ;;
        len <-w lift (usize_add len t1) ;;
        let done := ((N.land byte 128) =? 0) in
        if done then (
          wret (Break (len_len, len, done, shift)))
        else (
          shift <-w lift (i32_add shift 7) ;;
          (
            if (21 <? shift) then (
              werr Base.MalformedRemainingLength)
            else (
              wret tt)) ;;w
          wret (Next (len_len, len, done, shift))))
      stream (len_len, len, done, shift) ;;
    match t2 with
    | inr t3 => wret t3
    | inl (len_len, len, done, shift) =>
        (
          if (negb done) then (
            werr (Base.InsufficientBytes 1))
          else (
            wret tt)) ;;w
        wret (len_len, len)
    end) [].

(** src/lib.rs:172-183 `parse_fixed_header` *)
Definition parse_fixed_header (stream : list N) : outcome Lib.FixedHeader :=
  run (
    let stream_len := (blen stream) in
    (
      if (stream_len <? 2) then (
        t1 <-w lift (usize_sub 2 stream_len) ;;
        werr (Base.InsufficientBytes t1))
      else (
        wret tt)) ;;w
    let '(t2, stream) := iter_next stream in
    byte1 <-w lift (unwrap t2) ;;
    t3 <-w lift (length stream) ;;
    let '(len_len, len) := t3 in
    t4 <-w lift (FixedHeader_new byte1 len_len len) ;;
    wret t4) [].

(** src/lib.rs:149-169 `check` *)
Definition check (stream : list N) (max_packet_size : N) : outcome Lib.FixedHeader :=
  run (
    let stream_len := (blen stream) in
    fixed_header <-w lift (parse_fixed_header stream) ;;
    (
      if (max_packet_size <? (Lib.remaining_len fixed_header)) then (
        werr (Base.PayloadSizeLimitExceeded (Lib.remaining_len fixed_header)))
      else (
        wret tt)) ;;w
    frame_length <-w lift (FixedHeader_frame_length fixed_header) ;;
    (
      if (stream_len <? frame_length) then (
        t1 <-w lift (usize_sub frame_length stream_len) ;;
        werr (Base.InsufficientBytes t1))
      else (
        wret tt)) ;;w
    wret fixed_header) [].

(** src/lib.rs:315-321 `read_u16` *)
Definition read_u16 : writer N :=
  t1 <-w get ;;
  (
    if ((blen t1) <? 2) then (
      werr Base.MalformedPacket)
    else (
      wret tt)) ;;w
  t2 <-w keep get_u16 ;;
  wret t2.

(** src/lib.rs:228-240 `read_mqtt_bytes` *)
Definition read_mqtt_bytes : writer (list N) :=
  t1 <-w read_u16 ;;
  let len := t1 in
  t2 <-w get ;;
  (
    if ((blen t2) <? len) then (
      werr (Base.BoundaryCrossed len))
    else (
      wret tt)) ;;w
  t3 <-w keep (split_to len) ;;
  wret t3.

(** src/lib.rs:243-249 `read_mqtt_string` *)
Definition read_mqtt_string : writer (list N) :=
  s <-w read_mqtt_bytes ;;
  match (from_utf8 s) with
  | inl v =>
      wret v
  | inr _e =>
      werr Base.TopicNotUtf8
  end.

(** src/lib.rs:252-255 `write_mqtt_bytes` *)
Definition write_mqtt_bytes (bytes : list N) : writer unit :=
  put_u16 ((blen bytes) mod 65536) ;;w
  extend_from_slice bytes ;;w
  wret tt.

(** src/lib.rs:258-260 `write_mqtt_string` *)
Definition write_mqtt_string (string : list N) : writer unit :=
  write_mqtt_bytes string ;;w
  wret tt.

(** src/lib.rs:263-285 `write_remaining_length` *)
Definition write_remaining_length (fuel : nat) (len : N) : writer N :=
  (
    if (268435455 <? len) then (
      werr Base.PayloadTooLong)
    else (
      wret tt)) ;;w
  let done := false in
  let x := len in
  let count := 0 in
  '(x, count, done) <-w while_ fuel
    (fun '(x, count, done) =>
      wret (negb done))
    (fun '(x, count, done) =>
      let byte := ((x mod 128) mod 256) in
      let x := (x / 128) in
      byte <-w (
        if (0 <? x) then (
          let byte := (N.lor byte 128) in
          wret byte)
        else (
          wret byte)) ;;
      put_u8 byte ;;w
      count <-w lift (usize_add count 1) ;;
      let done := (x =? 0) in
      wret (x, count, done))
    (x, count, done) ;;
  wret count.

(** src/lib.rs:288-298 `len_len` *)
Definition len_len (len : N) : outcome N :=
  run (
    if (2097152 <=? len) then (
      wret 4)
    else (
      if (16384 <=? len) then (
        wret 3)
      else (
        if (128 <=? len) then (
          wret 2)
        else (
          wret 1)))) [].

(** src/lib.rs:301-308 `qos` *)
Definition qos (num : N) : outcome Base.QoS :=
  run (
    match num with
    | 0 =>
        wret Base.AtMostOnce
    | 1 =>
        wret Base.AtLeastOnce
    | 2 =>
        wret Base.ExactlyOnce
    | qos =>
        werr (Base.InvalidQoS qos)
    end) [].

(** src/lib.rs:323-329 `read_u8` *)
Definition read_u8 : writer N :=
  t1 <-w get ;;
  (
    if (is_empty t1) then (
      werr Base.MalformedPacket)
    else (
      wret tt)) ;;w
  t2 <-w keep get_u8 ;;
  wret t2.

(** src/lib.rs:331-337 `read_u32` *)
Definition read_u32 : writer N :=
  t1 <-w get ;;
  (
    if ((blen t1) <? 4) then (
      werr Base.MalformedPacket)
    else (
      wret tt)) ;;w
  t2 <-w keep get_u32 ;;
  wret t2.

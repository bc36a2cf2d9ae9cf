(** PortV4Publish.v -- GENERATED by tools/rust2coq.py from src/v4/publish.rs; do not edit.
    Not translated:
     src/v4/publish.rs:123 conditional item #[cfg(test)]
    No proofs in this file. *)
From Verif Require Import Base Lib SrcBase PortBase.
From Verif Require V4Publish.
From Verif Require PortLib.

Section Port.
Context {target : Target}.

(** src/v4/publish.rs:19-28 `Publish::new` *)
Definition Publish_new (topic : list N) (qos : Base.QoS) (payload : list N) : outcome V4Publish.Publish :=
  run (
    wret (V4Publish.mkPublish false qos false topic 0 payload)) [].

(** src/v4/publish.rs:30-39 `Publish::from_bytes` *)
Definition Publish_from_bytes (topic : list N) (qos : Base.QoS) (payload : list N) : outcome V4Publish.Publish :=
  run (
    wret (V4Publish.mkPublish false qos false topic 0 payload)) [].

(** src/v4/publish.rs:41-49 `Publish::len` *)
Definition Publish_len (self : V4Publish.Publish) : outcome N :=
  run (
    len <-w lift (usize_add 2 (blen (V4Publish.topic self))) ;;
    len <-w (
      if ((negb (PortLib.QoS_as_u8 (V4Publish.qos self) =? PortLib.QoS_as_u8 Base.AtMostOnce)) && (negb ((V4Publish.pkid self) =? 0))) then (
        len <-w lift (usize_add len 2) ;;
        wret len)
      else (
        wret len)) ;;
    len <-w lift (usize_add len (blen (V4Publish.payload self))) ;;
    wret len) [].

(** src/v4/publish.rs:51-80 `Publish::read` *)
Definition Publish_read (fixed_header : Lib.FixedHeader) (bytes : list N) : outcome V4Publish.Publish :=
  run (
    t1 <-w lift (u8_shr (N.land (Lib.byte1 fixed_header) 6) 1) ;;
    qos <-w lift (PortLib.qos t1) ;;
    let dup := (negb ((N.land (Lib.byte1 fixed_header) 8) =? 0)) in
    let retain := (negb ((N.land (Lib.byte1 fixed_header) 1) =? 0)) in
    let variable_header_index := (Lib.fixed_header_len fixed_header) in
    keep (advance variable_header_index) ;;w
    topic <-w PortLib.read_mqtt_string ;;
    pkid <-w (
      match qos with
      | Base.AtMostOnce =>
          wret 0
      | Base.AtLeastOnce | Base.ExactlyOnce =>
          t2 <-w PortLib.read_u16 ;;
          wret t2
      end) ;;
    (
      if ((negb (PortLib.QoS_as_u8 qos =? PortLib.QoS_as_u8 Base.AtMostOnce)) && (pkid =? 0)) then (
        werr Base.PacketIdZero)
      else (
        wret tt)) ;;w
    t3 <-w get ;;
    let publish := (V4Publish.mkPublish dup qos retain topic pkid t3) in
    wret publish) bytes.

(** src/v4/publish.rs:82-106 `Publish::write` *)
Definition Publish_write (fuel : nat) (self : V4Publish.Publish) : writer N :=
  len <-w lift (Publish_len self) ;;
  let dup := (bool_u8 (V4Publish.dup self)) in
  let qos := (PortLib.QoS_as_u8 (V4Publish.qos self)) in
  let retain := (bool_u8 (V4Publish.retain self)) in
  t1 <-w lift (u8_shl qos 1) ;;
  t2 <-w lift (u8_shl dup 3) ;;
  put_u8 (N.lor (N.lor (N.lor 48 retain) t1) t2) ;;w
  count <-w PortLib.write_remaining_length fuel len ;;
  PortLib.write_mqtt_string (V4Publish.topic self) ;;w
  (
    if (negb (PortLib.QoS_as_u8 (V4Publish.qos self) =? PortLib.QoS_as_u8 Base.AtMostOnce)) then (
      let pkid := (V4Publish.pkid self) in
      (
        if (pkid =? 0) then (
          werr Base.PacketIdZero)
        else (
          wret tt)) ;;w
      put_u16 pkid ;;w
      wret tt)
    else (
      wret tt)) ;;w
  extend_from_slice (V4Publish.payload self) ;;w
  t3 <-w lift (usize_add 1 count) ;;
  t4 <-w lift (usize_add t3 len) ;;
  wret t4.

End Port.

(** TraceV5PubAck.v -- GENERATED by tools/rust2coq.py from src/v5/puback.rs; do not edit.
    Not translated:
     src/v5/puback.rs:205 conditional item #[cfg(v5)] #[cfg(test)]
    No proofs in this file. *)
From Verif Require Import Base Lib SrcBase TraceBase.
From Verif Require V5Property V5PubAck.
From Verif Require TraceLib TraceV5Property.

(** src/v5/puback.rs:5 `PubAckReason as u8` (the discriminants of the declaration; also decides the derived `==`) *)
Definition PubAckReason_as_u8 (x : V5PubAck.PubAckReason) : N :=
  match x with
  | V5PubAck.Success => 0
  | V5PubAck.NoMatchingSubscribers => 16
  | V5PubAck.UnspecifiedError => 128
  | V5PubAck.ImplementationSpecificError => 131
  | V5PubAck.NotAuthorized => 135
  | V5PubAck.TopicNameInvalid => 144
  | V5PubAck.PacketIdentifierInUse => 145
  | V5PubAck.QuotaExceeded => 151
  | V5PubAck.PayloadFormatInvalid => 153
  end.

(** src/v5/puback.rs:28-34 `PubAck::new` *)
Definition PubAck_new (pkid : N) : outcome V5PubAck.PubAck :=
  run (
    wret (V5PubAck.mkPubAck pkid V5PubAck.Success None)) [].

(** src/v5/puback.rs:117-129 `PubAckProperties::len` *)
Definition PubAckProperties_len (self : V5PubAck.PubAckProperties) : outcome N :=
  run (
    let len := 0 in
    len <-w (
      match (V5PubAck.reason_string self) with
      | Some reason =>
          t1 <-w lift (usize_add 1 2) ;;
          t2 <-w lift (usize_add t1 (blen reason)) ;;
          len <-w lift (usize_add len t2) ;;
          wret len
      | _ =>
          wret len
      end) ;;
    len <-w for_ (fun '(key, value) len =>
        t3 <-w lift (usize_add 1 2) ;;
        t4 <-w lift (usize_add t3 (blen key)) ;;
        t5 <-w lift (usize_add t4 2) ;;
        t6 <-w lift (usize_add t5 (blen value)) ;;
        len <-w lift (usize_add len t6) ;;
        wret len)
      (V5PubAck.user_properties self) len ;;
    wret len) [].

(** src/v5/puback.rs:36-54 `PubAck::len` *)
Definition PubAck_len (self : V5PubAck.PubAck) : outcome N :=
  run (
    len <-w lift (usize_add 2 1) ;;
    if ((PubAckReason_as_u8 (V5PubAck.reason self) =? PubAckReason_as_u8 V5PubAck.Success) && (is_none (V5PubAck.properties self))) then (
      wret 2)
    else (
      len <-w (
        match (V5PubAck.properties self) with
        | Some properties =>
            properties_len <-w lift (PubAckProperties_len properties) ;;
            properties_len_len <-w lift (TraceLib.len_len properties_len) ;;
            t1 <-w lift (usize_add properties_len_len properties_len) ;;
            len <-w lift (usize_add len t1) ;;
            wret len
        | _ =>
            wret len
        end) ;;
      wret len)) [].

(** src/v5/puback.rs:188-203 `reason` *)
Definition reason (num : N) : outcome V5PubAck.PubAckReason :=
  run (
    code <-w (
      match num with
      | 0 =>
          wret V5PubAck.Success
      | 16 =>
          wret V5PubAck.NoMatchingSubscribers
      | 128 =>
          wret V5PubAck.UnspecifiedError
      | 131 =>
          wret V5PubAck.ImplementationSpecificError
      | 135 =>
          wret V5PubAck.NotAuthorized
      | 144 =>
          wret V5PubAck.TopicNameInvalid
      | 145 =>
          wret V5PubAck.PacketIdentifierInUse
      | 151 =>
          wret V5PubAck.QuotaExceeded
      | 153 =>
          wret V5PubAck.PayloadFormatInvalid
      | num =>
          werr (Base.InvalidConnectReturnCode num)
      end) ;;
    wret code) [].

(** src/v5/puback.rs:131-167 `PubAckProperties::extract` *)
Definition PubAckProperties_extract (fuel : nat) : writer (option V5PubAck.PubAckProperties) :=
  let reason_string : option (list N) := None in
  let user_properties : list ((list N) * (list N)) := [] in
  t1 <-w get ;;
  t2 <-w lift (TraceLib.length t1) ;;
  let '(properties_len_len, properties_len) := t2 in
  keep (advance properties_len_len) ;;w
  if (properties_len =? 0) then (
    wret None)
  else (
    let cursor := 0 in
    '(cursor, reason_string, user_properties) <-w while_ fuel
      (fun '(cursor, reason_string, user_properties) =>
        wret (cursor <? properties_len))
      (fun '(cursor, reason_string, user_properties) =>
        prop <-w TraceLib.read_u8 ;;
        cursor <-w lift (usize_add cursor 1) ;;
        t3 <-w lift (TraceV5Property.property prop) ;;
        '(cursor, reason_string, user_properties) <-w (
          match t3 with
          | V5Property.ReasonString =>
              reason <-w TraceLib.read_mqtt_string ;;
              t4 <-w lift (usize_add 2 (blen reason)) ;;
              cursor <-w lift (usize_add cursor t4) ;;
              let reason_string := (Some reason) in
              wret (cursor, reason_string, user_properties)
          | V5Property.UserProperty =>
              key <-w TraceLib.read_mqtt_string ;;
              value <-w TraceLib.read_mqtt_string ;;
              t5 <-w lift (usize_add 2 (blen key)) ;;
              t6 <-w lift (usize_add t5 2) ;;
              t7 <-w lift (usize_add t6 (blen value)) ;;
              cursor <-w lift (usize_add cursor t7) ;;
              let user_properties := (user_properties ++ [(key, value)]) in
              wret (cursor, reason_string, user_properties)
          | _ =>
              werr (Base.InvalidPropertyType prop)
          end) ;;
        wret (cursor, reason_string, user_properties))
      (cursor, reason_string, user_properties) ;;
    wret (Some (V5PubAck.mkPubAckProperties reason_string user_properties))).

(** src/v5/puback.rs:56-87 `PubAck::read` *)
Definition PubAck_read (fuel : nat) (fixed_header : Lib.FixedHeader) (bytes : list N) : outcome V5PubAck.PubAck :=
  run (
    let variable_header_index := (Lib.fixed_header_len fixed_header) in
    keep (advance variable_header_index) ;;w
    pkid <-w TraceLib.read_u16 ;;
    if ((Lib.remaining_len fixed_header) =? 2) then (
      wret (V5PubAck.mkPubAck pkid V5PubAck.Success None))
    else (
      ack_reason <-w TraceLib.read_u8 ;;
      if ((Lib.remaining_len fixed_header) <? 4) then (
        t1 <-w lift (reason ack_reason) ;;
        wret (V5PubAck.mkPubAck pkid t1 None))
      else (
        t2 <-w lift (reason ack_reason) ;;
        t3 <-w PubAckProperties_extract fuel ;;
        let puback := (V5PubAck.mkPubAck pkid t2 t3) in
        wret puback))) bytes.

(** src/v5/puback.rs:169-185 `PubAckProperties::write` *)
Definition PubAckProperties_write (fuel : nat) (self : V5PubAck.PubAckProperties) : writer unit :=
  len <-w lift (PubAckProperties_len self) ;;
  t1 <-w TraceLib.write_remaining_length fuel len ;;
  (
    match (V5PubAck.reason_string self) with
    | Some reason =>
        put_u8 (TraceV5Property.PropertyType_as_u8 V5Property.ReasonString) ;;w
        TraceLib.write_mqtt_string reason ;;w
        wret tt
    | _ =>
        wret tt
    end) ;;w
  for_ (fun '(key, value) (_ : unit) =>
      put_u8 (TraceV5Property.PropertyType_as_u8 V5Property.UserProperty) ;;w
      TraceLib.write_mqtt_string key ;;w
      TraceLib.write_mqtt_string value ;;w
      wret tt)
    (V5PubAck.user_properties self) tt ;;w
  wret tt.

(** src/v5/puback.rs:89-107 `PubAck::write` *)
Definition PubAck_write (fuel : nat) (self : V5PubAck.PubAck) : writer N :=
  len <-w lift (PubAck_len self) ;;
  put_u8 64 ;;w
  count <-w TraceLib.write_remaining_length fuel len ;;
  put_u16 (V5PubAck.pkid self) ;;w
  if ((PubAckReason_as_u8 (V5PubAck.reason self) =? PubAckReason_as_u8 V5PubAck.Success) && (is_none (V5PubAck.properties self))) then (
    wret 4)
  else (
    put_u8 (PubAckReason_as_u8 (V5PubAck.reason self)) ;;w
    (
      match (V5PubAck.properties self) with
      | Some properties =>
          PubAckProperties_write fuel properties ;;w
          wret tt
      | _ =>
          wret tt
      end) ;;w
    t1 <-w lift (usize_add 1 count) ;;
    t2 <-w lift (usize_add t1 len) ;;
    wret t2).

(** PortV5SubAck.v -- GENERATED by tools/rust2coq.py from src/v5/suback.rs; do not edit.
    Not translated:
     src/v5/suback.rs:206 conditional item #[cfg(test)]
    No proofs in this file. *)
From Verif Require Import Base Lib SrcBase PortBase.
From Verif Require V5Property V5SubAck.
From Verif Require PortLib PortV5Property.

Section Port.
Context {target : Target}.

(** src/v5/suback.rs:165 `SubscribeReasonCode as u8` (the discriminants of the declaration; also decides the derived `==`) *)
Definition SubscribeReasonCode_as_u8 (x : V5SubAck.SubscribeReasonCode) : N :=
  match x with
  | V5SubAck.QoS0 => 0
  | V5SubAck.QoS1 => 1
  | V5SubAck.QoS2 => 2
  | V5SubAck.Unspecified => 128
  | V5SubAck.ImplementationSpecific => 131
  | V5SubAck.NotAuthorized => 135
  | V5SubAck.TopicFilterInvalid => 143
  | V5SubAck.PkidInUse => 145
  | V5SubAck.QuotaExceeded => 151
  | V5SubAck.SharedSubscriptionsNotSupported => 158
  | V5SubAck.SubscriptionIdNotSupported => 161
  | V5SubAck.WildcardSubscriptionsNotSupported => 162
  end.

(** src/v5/suback.rs:15-21 `SubAck::new` *)
Definition SubAck_new (pkid : N) (return_codes : list V5SubAck.SubscribeReasonCode) : outcome V5SubAck.SubAck :=
  run (
    wret (V5SubAck.mkSubAck pkid return_codes None)) [].

(** src/v5/suback.rs:94-106 `SubAckProperties::len` *)
Definition SubAckProperties_len (self : V5SubAck.SubAckProperties) : outcome N :=
  run (
    let len := 0 in
    len <-w (
      match (V5SubAck.reason_string self) with
      | Some reason =>
          t1 <-w lift (usize_add 1 2) ;;
          t2 <-w lift (usize_add t1 (blen reason)) ;;
          len <-w lift (usize_add len t2) ;;
          wret len
      | _ =>
          wret len
      end) ;;
    len <-w for_ (fun '(key, value) len =>
        t3 <-w lift (usize_add 1 2) ;;
        t4 <-w lift (usize_add t3 (blen key)) ;;
        t5 <-w lift (usize_add t4 2) ;;
        t6 <-w lift (usize_add t5 (blen value)) ;;
        len <-w lift (usize_add len t6) ;;
        wret len)
      (V5SubAck.user_properties self) len ;;
    wret len) [].

(** src/v5/suback.rs:23-39 `SubAck::len` *)
Definition SubAck_len (self : V5SubAck.SubAck) : outcome N :=
  run (
    len <-w lift (usize_add 2 (blen (V5SubAck.return_codes self))) ;;
    len <-w (
      match (V5SubAck.properties self) with
      | Some properties =>
          properties_len <-w lift (SubAckProperties_len properties) ;;
          properties_len_len <-w lift (PortLib.len_len properties_len) ;;
          t1 <-w lift (usize_add properties_len_len properties_len) ;;
          len <-w lift (usize_add len t1) ;;
          wret len
      | None =>
          len <-w lift (usize_add len 1) ;;
          wret len
      end) ;;
    wret len) [].

(** src/v5/suback.rs:108-144 `SubAckProperties::extract` *)
Definition SubAckProperties_extract (fuel : nat) : writer (option V5SubAck.SubAckProperties) :=
  let reason_string : option (list N) := None in
  let user_properties : list ((list N) * (list N)) := [] in
  t1 <-w get ;;
  t2 <-w lift (PortLib.length t1) ;;
  let '(properties_len_len, properties_len) := t2 in
  keep (advance properties_len_len) ;;w
  if (properties_len =? 0) then (
    wret None)
  else (
    let cursor := 0 in
    '(cursor, reason_string, user_properties) <-w while_ fuel
      (fun '(cursor, reason_string, user_properties) =>
        wret (cursor <? properties_len))
      (fun '(cursor, reason_string, user_properties) =>
        prop <-w PortLib.read_u8 ;;
        cursor <-w lift (usize_add cursor 1) ;;
        t3 <-w lift (PortV5Property.property prop) ;;
        '(cursor, reason_string, user_properties) <-w (
          match t3 with
          | V5Property.ReasonString =>
              reason <-w PortLib.read_mqtt_string ;;
              t4 <-w lift (usize_add 2 (blen reason)) ;;
              cursor <-w lift (usize_add cursor t4) ;;
              let reason_string := (Some reason) in
              wret (cursor, reason_string, user_properties)
          | V5Property.UserProperty =>
              key <-w PortLib.read_mqtt_string ;;
              value <-w PortLib.read_mqtt_string ;;
              t5 <-w lift (usize_add 2 (blen key)) ;;
              t6 <-w lift (usize_add t5 2) ;;
              t7 <-w lift (usize_add t6 (blen value)) ;;
              cursor <-w lift (usize_add cursor t7) ;;
              let user_properties := (user_properties ++ [(key, value)]) in
              wret (cursor, reason_string, user_properties)
          | _ =>
              werr (Base.InvalidPropertyType prop)
          end) ;;
        wret (cursor, reason_string, user_properties))
      (cursor, reason_string, user_properties) ;;
    wret (Some (V5SubAck.mkSubAckProperties reason_string user_properties))).

(** src/v5/suback.rs:185-203 `SubscribeReasonCode::try_from` *)
Definition SubscribeReasonCode_try_from (value : N) : outcome V5SubAck.SubscribeReasonCode :=
  run (
    v <-w (
      match value with
      | 0 =>
          wret V5SubAck.QoS0
      | 1 =>
          wret V5SubAck.QoS1
      | 2 =>
          wret V5SubAck.QoS2
      | 128 =>
          wret V5SubAck.Unspecified
      | 131 =>
          wret V5SubAck.ImplementationSpecific
      | 135 =>
          wret V5SubAck.NotAuthorized
      | 143 =>
          wret V5SubAck.TopicFilterInvalid
      | 145 =>
          wret V5SubAck.PkidInUse
      | 151 =>
          wret V5SubAck.QuotaExceeded
      | 158 =>
          wret V5SubAck.SharedSubscriptionsNotSupported
      | 161 =>
          wret V5SubAck.SubscriptionIdNotSupported
      | 162 =>
          wret V5SubAck.WildcardSubscriptionsNotSupported
      | v =>
          werr (Base.InvalidSubscribeReasonCode v)
      end) ;;
    wret v) [].

(** src/v5/suback.rs:41-65 `SubAck::read` *)
Definition SubAck_read (fuel : nat) (fixed_header : Lib.FixedHeader) (bytes : list N) : outcome V5SubAck.SubAck :=
  run (
    let variable_header_index := (Lib.fixed_header_len fixed_header) in
    keep (advance variable_header_index) ;;w
    pkid <-w PortLib.read_u16 ;;
    properties <-w SubAckProperties_extract fuel ;;
    t1 <-w get ;;
    (
      if (negb (has_remaining t1)) then (
        werr Base.MalformedPacket)
      else (
        wret tt)) ;;w
    let return_codes : list V5SubAck.SubscribeReasonCode := [] in
    return_codes <-w while_ fuel
      (fun return_codes =>
        t2 <-w get ;;
        wret (has_remaining t2))
      (fun return_codes =>
        return_code <-w PortLib.read_u8 ;;
        t3 <-w lift (SubscribeReasonCode_try_from return_code) ;;
        let return_codes := (return_codes ++ [t3]) in
        wret return_codes)
      return_codes ;;
    let suback := (V5SubAck.mkSubAck pkid return_codes properties) in
    wret suback) bytes.

(** src/v5/suback.rs:146-162 `SubAckProperties::write` *)
Definition SubAckProperties_write (fuel : nat) (self : V5SubAck.SubAckProperties) : writer unit :=
  len <-w lift (SubAckProperties_len self) ;;
  t1 <-w PortLib.write_remaining_length fuel len ;;
  (
    match (V5SubAck.reason_string self) with
    | Some reason =>
        put_u8 (PortV5Property.PropertyType_as_u8 V5Property.ReasonString) ;;w
        PortLib.write_mqtt_string reason ;;w
        wret tt
    | _ =>
        wret tt
    end) ;;w
  for_ (fun '(key, value) (_ : unit) =>
      put_u8 (PortV5Property.PropertyType_as_u8 V5Property.UserProperty) ;;w
      PortLib.write_mqtt_string key ;;w
      PortLib.write_mqtt_string value ;;w
      wret tt)
    (V5SubAck.user_properties self) tt ;;w
  wret tt.

(** src/v5/suback.rs:67-84 `SubAck::write` *)
Definition SubAck_write (fuel : nat) (self : V5SubAck.SubAck) : writer N :=
  put_u8 144 ;;w
  remaining_len <-w lift (SubAck_len self) ;;
  remaining_len_bytes <-w PortLib.write_remaining_length fuel remaining_len ;;
  put_u16 (V5SubAck.pkid self) ;;w
  (
    match (V5SubAck.properties self) with
    | Some properties =>
        SubAckProperties_write fuel properties ;;w
        wret tt
    | None =>
        t1 <-w PortLib.write_remaining_length fuel 0 ;;
        wret tt
    end) ;;w
  p <-w (
    map_ (fun code =>
      wret (SubscribeReasonCode_as_u8 code)) (V5SubAck.return_codes self)) ;;
  extend_from_slice p ;;w
  t2 <-w lift (usize_add 1 remaining_len_bytes) ;;
  t3 <-w lift (usize_add t2 remaining_len) ;;
  wret t3.

End Port.

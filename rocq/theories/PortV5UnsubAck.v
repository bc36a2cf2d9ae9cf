(** PortV5UnsubAck.v -- GENERATED by tools/rust2coq.py from src/v5/unsuback.rs; do not edit.
    Not translated:
     src/v5/unsuback.rs:192 conditional item #[cfg(test)]
    No proofs in this file. *)
From Verif Require Import Base Lib SrcBase PortBase.
From Verif Require V5Property V5UnsubAck.
From Verif Require PortLib PortV5Property.

Section Port.
Context {target : Target}.

(** src/v5/unsuback.rs:5 `UnsubAckReason as u8` (the discriminants of the declaration; also decides the derived `==`) *)
Definition UnsubAckReason_as_u8 (x : V5UnsubAck.UnsubAckReason) : N :=
  match x with
  | V5UnsubAck.Success => 0
  | V5UnsubAck.NoSubscriptionExisted => 17
  | V5UnsubAck.UnspecifiedError => 128
  | V5UnsubAck.ImplementationSpecificError => 131
  | V5UnsubAck.NotAuthorized => 135
  | V5UnsubAck.TopicFilterInvalid => 143
  | V5UnsubAck.PacketIdentifierInUse => 145
  end.

(** src/v5/unsuback.rs:26-32 `UnsubAck::new` *)
Definition UnsubAck_new (pkid : N) : outcome V5UnsubAck.UnsubAck :=
  run (
    wret (V5UnsubAck.mkUnsubAck pkid [] None)) [].

(** src/v5/unsuback.rs:105-117 `UnsubAckProperties::len` *)
Definition UnsubAckProperties_len (self : V5UnsubAck.UnsubAckProperties) : outcome N :=
  run (
    let len := 0 in
    len <-w (
      match (V5UnsubAck.reason_string self) with
      | Some reason =>
          t1 <-w lift (usize_add 1 2) ;;
          t2 <-w lift (usize_add t1 (blen reason)) ;;
          len <-w lift (usize_add len t2) ;;
          wret len
      | _ =>
          wret len
      end) ;;
    len <-w for_ (fun '(key, value) len =>
        t3 <-w lift (usize_add 1 2) ;;
        t4 <-w lift (usize_add t3 (blen key)) ;;
        t5 <-w lift (usize_add t4 2) ;;
        t6 <-w lift (usize_add t5 (blen value)) ;;
        len <-w lift (usize_add len t6) ;;
        wret len)
      (V5UnsubAck.user_properties self) len ;;
    wret len) [].

(** src/v5/unsuback.rs:34-50 `UnsubAck::len` *)
Definition UnsubAck_len (self : V5UnsubAck.UnsubAck) : outcome N :=
  run (
    len <-w lift (usize_add 2 (blen (V5UnsubAck.reasons self))) ;;
    len <-w (
      match (V5UnsubAck.properties self) with
      | Some properties =>
          properties_len <-w lift (UnsubAckProperties_len properties) ;;
          properties_len_len <-w lift (PortLib.len_len properties_len) ;;
          t1 <-w lift (usize_add properties_len_len properties_len) ;;
          len <-w lift (usize_add len t1) ;;
          wret len
      | None =>
          len <-w lift (usize_add len 1) ;;
          wret len
      end) ;;
    wret len) [].

(** src/v5/unsuback.rs:119-155 `UnsubAckProperties::extract` *)
Definition UnsubAckProperties_extract (fuel : nat) : writer (option V5UnsubAck.UnsubAckProperties) :=
  let reason_string : option (list N) := None in
  let user_properties : list ((list N) * (list N)) := [] in
  t1 <-w get ;;
  t2 <-w lift (PortLib.length t1) ;;
  let '(properties_len_len, properties_len) := t2 in
  keep (advance properties_len_len) ;;w
  if (properties_len =? 0) then (
    wret None)
  else (
    let cursor := 0 in
    '(cursor, reason_string, user_properties) <-w while_ fuel
      (fun '(cursor, reason_string, user_properties) =>
        wret (cursor <? properties_len))
      (fun '(cursor, reason_string, user_properties) =>
        prop <-w PortLib.read_u8 ;;
        cursor <-w lift (usize_add cursor 1) ;;
        t3 <-w lift (PortV5Property.property prop) ;;
        '(cursor, reason_string, user_properties) <-w (
          match t3 with
          | V5Property.ReasonString =>
              reason <-w PortLib.read_mqtt_string ;;
              t4 <-w lift (usize_add 2 (blen reason)) ;;
              cursor <-w lift (usize_add cursor t4) ;;
              let reason_string := (Some reason) in
              wret (cursor, reason_string, user_properties)
          | V5Property.UserProperty =>
              key <-w PortLib.read_mqtt_string ;;
              value <-w PortLib.read_mqtt_string ;;
              t5 <-w lift (usize_add 2 (blen key)) ;;
              t6 <-w lift (usize_add t5 2) ;;
              t7 <-w lift (usize_add t6 (blen value)) ;;
              cursor <-w lift (usize_add cursor t7) ;;
              let user_properties := (user_properties ++ [(key, value)]) in
              wret (cursor, reason_string, user_properties)
          | _ =>
              werr (Base.InvalidPropertyType prop)
          end) ;;
        wret (cursor, reason_string, user_properties))
      (cursor, reason_string, user_properties) ;;
    wret (Some (V5UnsubAck.mkUnsubAckProperties reason_string user_properties))).

(** src/v5/unsuback.rs:177-190 `reason` *)
Definition reason (num : N) : outcome V5UnsubAck.UnsubAckReason :=
  run (
    code <-w (
      match num with
      | 0 =>
          wret V5UnsubAck.Success
      | 17 =>
          wret V5UnsubAck.NoSubscriptionExisted
      | 128 =>
          wret V5UnsubAck.UnspecifiedError
      | 131 =>
          wret V5UnsubAck.ImplementationSpecificError
      | 135 =>
          wret V5UnsubAck.NotAuthorized
      | 143 =>
          wret V5UnsubAck.TopicFilterInvalid
      | 145 =>
          wret V5UnsubAck.PacketIdentifierInUse
      | num =>
          werr (Base.InvalidSubscribeReasonCode num)
      end) ;;
    wret code) [].

(** src/v5/unsuback.rs:52-76 `UnsubAck::read` *)
Definition UnsubAck_read (fuel : nat) (fixed_header : Lib.FixedHeader) (bytes : list N) : outcome V5UnsubAck.UnsubAck :=
  run (
    let variable_header_index := (Lib.fixed_header_len fixed_header) in
    keep (advance variable_header_index) ;;w
    pkid <-w PortLib.read_u16 ;;
    properties <-w UnsubAckProperties_extract fuel ;;
    t1 <-w get ;;
    (
      if (negb (has_remaining t1)) then (
        werr Base.MalformedPacket)
      else (
        wret tt)) ;;w
    let reasons : list V5UnsubAck.UnsubAckReason := [] in
    reasons <-w while_ fuel
      (fun reasons =>
        t2 <-w get ;;
        wret (has_remaining t2))
      (fun reasons =>
        r <-w PortLib.read_u8 ;;
        t3 <-w lift (reason r) ;;
        let reasons := (reasons ++ [t3]) in
        wret reasons)
      reasons ;;
    let unsuback := (V5UnsubAck.mkUnsubAck pkid reasons properties) in
    wret unsuback) bytes.

(** src/v5/unsuback.rs:157-173 `UnsubAckProperties::write` *)
Definition UnsubAckProperties_write (fuel : nat) (self : V5UnsubAck.UnsubAckProperties) : writer unit :=
  len <-w lift (UnsubAckProperties_len self) ;;
  t1 <-w PortLib.write_remaining_length fuel len ;;
  (
    match (V5UnsubAck.reason_string self) with
    | Some reason =>
        put_u8 (PortV5Property.PropertyType_as_u8 V5Property.ReasonString) ;;w
        PortLib.write_mqtt_string reason ;;w
        wret tt
    | _ =>
        wret tt
    end) ;;w
  for_ (fun '(key, value) (_ : unit) =>
      put_u8 (PortV5Property.PropertyType_as_u8 V5Property.UserProperty) ;;w
      PortLib.write_mqtt_string key ;;w
      PortLib.write_mqtt_string value ;;w
      wret tt)
    (V5UnsubAck.user_properties self) tt ;;w
  wret tt.

(** src/v5/unsuback.rs:78-95 `UnsubAck::write` *)
Definition UnsubAck_write (fuel : nat) (self : V5UnsubAck.UnsubAck) : writer N :=
  put_u8 176 ;;w
  remaining_len <-w lift (UnsubAck_len self) ;;
  remaining_len_bytes <-w PortLib.write_remaining_length fuel remaining_len ;;
  put_u16 (V5UnsubAck.pkid self) ;;w
  (
    match (V5UnsubAck.properties self) with
    | Some properties =>
        UnsubAckProperties_write fuel properties ;;w
        wret tt
    | None =>
        t1 <-w PortLib.write_remaining_length fuel 0 ;;
        wret tt
    end) ;;w
  p <-w (
    map_ (fun code =>
      wret (UnsubAckReason_as_u8 code)) (V5UnsubAck.reasons self)) ;;
  extend_from_slice p ;;w
  t2 <-w lift (usize_add 1 remaining_len_bytes) ;;
  t3 <-w lift (usize_add t2 remaining_len) ;;
  wret t3.

End Port.

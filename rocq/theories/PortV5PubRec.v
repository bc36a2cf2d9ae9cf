(** PortV5PubRec.v -- GENERATED by tools/rust2coq.py from src/v5/pubrec.rs; do not edit.
    Not translated:
     src/v5/pubrec.rs:201 conditional item #[cfg(test)]
    No proofs in this file. *)
From Verif Require Import Base Lib SrcBase PortBase.
From Verif Require V5Property V5PubRec.
From Verif Require PortLib PortV5Property.

Section Port.
Context {target : Target}.

(** src/v5/pubrec.rs:5 `PubRecReason as u8` (the discriminants of the declaration; also decides the derived `==`) *)
Definition PubRecReason_as_u8 (x : V5PubRec.PubRecReason) : N :=
  match x with
  | V5PubRec.Success => 0
  | V5PubRec.NoMatchingSubscribers => 16
  | V5PubRec.UnspecifiedError => 128
  | V5PubRec.ImplementationSpecificError => 131
  | V5PubRec.NotAuthorized => 135
  | V5PubRec.TopicNameInvalid => 144
  | V5PubRec.PacketIdentifierInUse => 145
  | V5PubRec.QuotaExceeded => 151
  | V5PubRec.PayloadFormatInvalid => 153
  end.

(** src/v5/pubrec.rs:28-34 `PubRec::new` *)
Definition PubRec_new (pkid : N) : outcome V5PubRec.PubRec :=
  run (
    wret (V5PubRec.mkPubRec pkid V5PubRec.Success None)) [].

(** src/v5/pubrec.rs:113-125 `PubRecProperties::len` *)
Definition PubRecProperties_len (self : V5PubRec.PubRecProperties) : outcome N :=
  run (
    let len := 0 in
    len <-w (
      match (V5PubRec.reason_string self) with
      | Some reason =>
          t1 <-w lift (usize_add 1 2) ;;
          t2 <-w lift (usize_add t1 (blen reason)) ;;
          len <-w lift (usize_add len t2) ;;
          wret len
      | _ =>
          wret len
      end) ;;
    len <-w for_ (fun '(key, value) len =>
        t3 <-w lift (usize_add 1 2) ;;
        t4 <-w lift (usize_add t3 (blen key)) ;;
        t5 <-w lift (usize_add t4 2) ;;
        t6 <-w lift (usize_add t5 (blen value)) ;;
        len <-w lift (usize_add len t6) ;;
        wret len)
      (V5PubRec.user_properties self) len ;;
    wret len) [].

(** src/v5/pubrec.rs:36-53 `PubRec::len` *)
Definition PubRec_len (self : V5PubRec.PubRec) : outcome N :=
  run (
    len <-w lift (usize_add 2 1) ;;
    if ((PubRecReason_as_u8 (V5PubRec.reason self) =? PubRecReason_as_u8 V5PubRec.Success) && (is_none (V5PubRec.properties self))) then (
      wret 2)
    else (
      len <-w (
        match (V5PubRec.properties self) with
        | Some properties =>
            properties_len <-w lift (PubRecProperties_len properties) ;;
            properties_len_len <-w lift (PortLib.len_len properties_len) ;;
            t1 <-w lift (usize_add properties_len_len properties_len) ;;
            len <-w lift (usize_add len t1) ;;
            wret len
        | _ =>
            wret len
        end) ;;
      wret len)) [].

(** src/v5/pubrec.rs:184-199 `reason` *)
Definition reason (num : N) : outcome V5PubRec.PubRecReason :=
  run (
    code <-w (
      match num with
      | 0 =>
          wret V5PubRec.Success
      | 16 =>
          wret V5PubRec.NoMatchingSubscribers
      | 128 =>
          wret V5PubRec.UnspecifiedError
      | 131 =>
          wret V5PubRec.ImplementationSpecificError
      | 135 =>
          wret V5PubRec.NotAuthorized
      | 144 =>
          wret V5PubRec.TopicNameInvalid
      | 145 =>
          wret V5PubRec.PacketIdentifierInUse
      | 151 =>
          wret V5PubRec.QuotaExceeded
      | 153 =>
          wret V5PubRec.PayloadFormatInvalid
      | num =>
          werr (Base.InvalidConnectReturnCode num)
      end) ;;
    wret code) [].

(** src/v5/pubrec.rs:127-163 `PubRecProperties::extract` *)
Definition PubRecProperties_extract (fuel : nat) : writer (option V5PubRec.PubRecProperties) :=
  let reason_string : option (list N) := None in
  let user_properties : list ((list N) * (list N)) := [] in
  t1 <-w get ;;
  t2 <-w lift (PortLib.length t1) ;;
  let '(properties_len_len, properties_len) := t2 in
  keep (advance properties_len_len) ;;w
  if (properties_len =? 0) then (
    wret None)
  else (
    let cursor := 0 in
    '(cursor, reason_string, user_properties) <-w while_ fuel
      (fun '(cursor, reason_string, user_properties) =>
        wret (cursor <? properties_len))
      (fun '(cursor, reason_string, user_properties) =>
        prop <-w PortLib.read_u8 ;;
        cursor <-w lift (usize_add cursor 1) ;;
        t3 <-w lift (PortV5Property.property prop) ;;
        '(cursor, reason_string, user_properties) <-w (
          match t3 with
          | V5Property.ReasonString =>
              reason <-w PortLib.read_mqtt_string ;;
              t4 <-w lift (usize_add 2 (blen reason)) ;;
              cursor <-w lift (usize_add cursor t4) ;;
              let reason_string := (Some reason) in
              wret (cursor, reason_string, user_properties)
          | V5Property.UserProperty =>
              key <-w PortLib.read_mqtt_string ;;
              value <-w PortLib.read_mqtt_string ;;
              t5 <-w lift (usize_add 2 (blen key)) ;;
              t6 <-w lift (usize_add t5 2) ;;
              t7 <-w lift (usize_add t6 (blen value)) ;;
              cursor <-w lift (usize_add cursor t7) ;;
              let user_properties := (user_properties ++ [(key, value)]) in
              wret (cursor, reason_string, user_properties)
          | _ =>
              werr (Base.InvalidPropertyType prop)
          end) ;;
        wret (cursor, reason_string, user_properties))
      (cursor, reason_string, user_properties) ;;
    wret (Some (V5PubRec.mkPubRecProperties reason_string user_properties))).

(** src/v5/pubrec.rs:55-83 `PubRec::read` *)
Definition PubRec_read (fuel : nat) (fixed_header : Lib.FixedHeader) (bytes : list N) : outcome V5PubRec.PubRec :=
  run (
    let variable_header_index := (Lib.fixed_header_len fixed_header) in
    keep (advance variable_header_index) ;;w
    pkid <-w PortLib.read_u16 ;;
    if ((Lib.remaining_len fixed_header) =? 2) then (
      wret (V5PubRec.mkPubRec pkid V5PubRec.Success None))
    else (
      ack_reason <-w PortLib.read_u8 ;;
      if ((Lib.remaining_len fixed_header) <? 4) then (
        t1 <-w lift (reason ack_reason) ;;
        wret (V5PubRec.mkPubRec pkid t1 None))
      else (
        t2 <-w lift (reason ack_reason) ;;
        t3 <-w PubRecProperties_extract fuel ;;
        let puback := (V5PubRec.mkPubRec pkid t2 t3) in
        wret puback))) bytes.

(** src/v5/pubrec.rs:165-181 `PubRecProperties::write` *)
Definition PubRecProperties_write (fuel : nat) (self : V5PubRec.PubRecProperties) : writer unit :=
  len <-w lift (PubRecProperties_len self) ;;
  t1 <-w PortLib.write_remaining_length fuel len ;;
  (
    match (V5PubRec.reason_string self) with
    | Some reason =>
        put_u8 (PortV5Property.PropertyType_as_u8 V5Property.ReasonString) ;;w
        PortLib.write_mqtt_string reason ;;w
        wret tt
    | _ =>
        wret tt
    end) ;;w
  for_ (fun '(key, value) (_ : unit) =>
      put_u8 (PortV5Property.PropertyType_as_u8 V5Property.UserProperty) ;;w
      PortLib.write_mqtt_string key ;;w
      PortLib.write_mqtt_string value ;;w
      wret tt)
    (V5PubRec.user_properties self) tt ;;w
  wret tt.

(** src/v5/pubrec.rs:85-103 `PubRec::write` *)
Definition PubRec_write (fuel : nat) (self : V5PubRec.PubRec) : writer N :=
  len <-w lift (PubRec_len self) ;;
  put_u8 80 ;;w
  count <-w PortLib.write_remaining_length fuel len ;;
  put_u16 (V5PubRec.pkid self) ;;w
  if ((PubRecReason_as_u8 (V5PubRec.reason self) =? PubRecReason_as_u8 V5PubRec.Success) && (is_none (V5PubRec.properties self))) then (
    wret 4)
  else (
    put_u8 (PubRecReason_as_u8 (V5PubRec.reason self)) ;;w
    (
      match (V5PubRec.properties self) with
      | Some properties =>
          PubRecProperties_write fuel properties ;;w
          wret tt
      | _ =>
          wret tt
      end) ;;w
    t1 <-w lift (usize_add 1 count) ;;
    t2 <-w lift (usize_add t1 len) ;;
    wret t2).

End Port.

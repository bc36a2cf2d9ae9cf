(** PortV5PubRel.v -- GENERATED by tools/rust2coq.py from src/v5/pubrel.rs; do not edit.
    Not translated:
     src/v5/pubrel.rs:185 conditional item #[cfg(test)]
    No proofs in this file. *)
From Verif Require Import Base Lib SrcBase PortBase.
From Verif Require V5Property V5PubRel.
From Verif Require PortLib PortV5Property.

Section Port.
Context {target : Target}.

(** src/v5/pubrel.rs:5 `PubRelReason as u8` (the discriminants of the declaration; also decides the derived `==`) *)
Definition PubRelReason_as_u8 (x : V5PubRel.PubRelReason) : N :=
  match x with
  | V5PubRel.Success => 0
  | V5PubRel.PacketIdentifierNotFound => 146
  end.

(** src/v5/pubrel.rs:21-27 `PubRel::new` *)
Definition PubRel_new (pkid : N) : outcome V5PubRel.PubRel :=
  run (
    wret (V5PubRel.mkPubRel pkid V5PubRel.Success None)) [].

(** src/v5/pubrel.rs:104-116 `PubRelProperties::len` *)
Definition PubRelProperties_len (self : V5PubRel.PubRelProperties) : outcome N :=
  run (
    let len := 0 in
    len <-w (
      match (V5PubRel.reason_string self) with
      | Some reason =>
          t1 <-w lift (usize_add 1 2) ;;
          t2 <-w lift (usize_add t1 (blen reason)) ;;
          len <-w lift (usize_add len t2) ;;
          wret len
      | _ =>
          wret len
      end) ;;
    len <-w for_ (fun '(key, value) len =>
        t3 <-w lift (usize_add 1 2) ;;
        t4 <-w lift (usize_add t3 (blen key)) ;;
        t5 <-w lift (usize_add t4 2) ;;
        t6 <-w lift (usize_add t5 (blen value)) ;;
        len <-w lift (usize_add len t6) ;;
        wret len)
      (V5PubRel.user_properties self) len ;;
    wret len) [].

(** src/v5/pubrel.rs:29-44 `PubRel::len` *)
Definition PubRel_len (self : V5PubRel.PubRel) : outcome N :=
  run (
    len <-w lift (usize_add 2 1) ;;
    if ((PubRelReason_as_u8 (V5PubRel.reason self) =? PubRelReason_as_u8 V5PubRel.Success) && (is_none (V5PubRel.properties self))) then (
      wret 2)
    else (
      len <-w (
        match (V5PubRel.properties self) with
        | Some properties =>
            properties_len <-w lift (PubRelProperties_len properties) ;;
            properties_len_len <-w lift (PortLib.len_len properties_len) ;;
            t1 <-w lift (usize_add properties_len_len properties_len) ;;
            len <-w lift (usize_add len t1) ;;
            wret len
        | _ =>
            wret len
        end) ;;
      wret len)) [].

(** src/v5/pubrel.rs:175-183 `reason` *)
Definition reason (num : N) : outcome V5PubRel.PubRelReason :=
  run (
    code <-w (
      match num with
      | 0 =>
          wret V5PubRel.Success
      | 146 =>
          wret V5PubRel.PacketIdentifierNotFound
      | num =>
          werr (Base.InvalidConnectReturnCode num)
      end) ;;
    wret code) [].

(** src/v5/pubrel.rs:118-154 `PubRelProperties::extract` *)
Definition PubRelProperties_extract (fuel : nat) : writer (option V5PubRel.PubRelProperties) :=
  let reason_string : option (list N) := None in
  let user_properties : list ((list N) * (list N)) := [] in
  t1 <-w get ;;
  t2 <-w lift (PortLib.length t1) ;;
  let '(properties_len_len, properties_len) := t2 in
  keep (advance properties_len_len) ;;w
  if (properties_len =? 0) then (
    wret None)
  else (
    let cursor := 0 in
    '(cursor, reason_string, user_properties) <-w while_ fuel
      (fun '(cursor, reason_string, user_properties) =>
        wret (cursor <? properties_len))
      (fun '(cursor, reason_string, user_properties) =>
        prop <-w PortLib.read_u8 ;;
        cursor <-w lift (usize_add cursor 1) ;;
        t3 <-w lift (PortV5Property.property prop) ;;
        '(cursor, reason_string, user_properties) <-w (
          match t3 with
          | V5Property.ReasonString =>
              reason <-w PortLib.read_mqtt_string ;;
              t4 <-w lift (usize_add 2 (blen reason)) ;;
              cursor <-w lift (usize_add cursor t4) ;;
              let reason_string := (Some reason) in
              wret (cursor, reason_string, user_properties)
          | V5Property.UserProperty =>
              key <-w PortLib.read_mqtt_string ;;
              value <-w PortLib.read_mqtt_string ;;
              t5 <-w lift (usize_add 2 (blen key)) ;;
              t6 <-w lift (usize_add t5 2) ;;
              t7 <-w lift (usize_add t6 (blen value)) ;;
              cursor <-w lift (usize_add cursor t7) ;;
              let user_properties := (user_properties ++ [(key, value)]) in
              wret (cursor, reason_string, user_properties)
          | _ =>
              werr (Base.InvalidPropertyType prop)
          end) ;;
        wret (cursor, reason_string, user_properties))
      (cursor, reason_string, user_properties) ;;
    wret (Some (V5PubRel.mkPubRelProperties reason_string user_properties))).

(** src/v5/pubrel.rs:46-74 `PubRel::read` *)
Definition PubRel_read (fuel : nat) (fixed_header : Lib.FixedHeader) (bytes : list N) : outcome V5PubRel.PubRel :=
  run (
    let variable_header_index := (Lib.fixed_header_len fixed_header) in
    keep (advance variable_header_index) ;;w
    pkid <-w PortLib.read_u16 ;;
    if ((Lib.remaining_len fixed_header) =? 2) then (
      wret (V5PubRel.mkPubRel pkid V5PubRel.Success None))
    else (
      ack_reason <-w PortLib.read_u8 ;;
      if ((Lib.remaining_len fixed_header) <? 4) then (
        t1 <-w lift (reason ack_reason) ;;
        wret (V5PubRel.mkPubRel pkid t1 None))
      else (
        t2 <-w lift (reason ack_reason) ;;
        t3 <-w PubRelProperties_extract fuel ;;
        let puback := (V5PubRel.mkPubRel pkid t2 t3) in
        wret puback))) bytes.

(** src/v5/pubrel.rs:156-172 `PubRelProperties::write` *)
Definition PubRelProperties_write (fuel : nat) (self : V5PubRel.PubRelProperties) : writer unit :=
  len <-w lift (PubRelProperties_len self) ;;
  t1 <-w PortLib.write_remaining_length fuel len ;;
  (
    match (V5PubRel.reason_string self) with
    | Some reason =>
        put_u8 (PortV5Property.PropertyType_as_u8 V5Property.ReasonString) ;;w
        PortLib.write_mqtt_string reason ;;w
        wret tt
    | _ =>
        wret tt
    end) ;;w
  for_ (fun '(key, value) (_ : unit) =>
      put_u8 (PortV5Property.PropertyType_as_u8 V5Property.UserProperty) ;;w
      PortLib.write_mqtt_string key ;;w
      PortLib.write_mqtt_string value ;;w
      wret tt)
    (V5PubRel.user_properties self) tt ;;w
  wret tt.

(** src/v5/pubrel.rs:76-94 `PubRel::write` *)
Definition PubRel_write (fuel : nat) (self : V5PubRel.PubRel) : writer N :=
  len <-w lift (PubRel_len self) ;;
  put_u8 98 ;;w
  count <-w PortLib.write_remaining_length fuel len ;;
  put_u16 (V5PubRel.pkid self) ;;w
  if ((PubRelReason_as_u8 (V5PubRel.reason self) =? PubRelReason_as_u8 V5PubRel.Success) && (is_none (V5PubRel.properties self))) then (
    wret 4)
  else (
    put_u8 (PubRelReason_as_u8 (V5PubRel.reason self)) ;;w
    (
      match (V5PubRel.properties self) with
      | Some properties =>
          PubRelProperties_write fuel properties ;;w
          wret tt
      | _ =>
          wret tt
      end) ;;w
    t1 <-w lift (usize_add 1 count) ;;
    t2 <-w lift (usize_add t1 len) ;;
    wret t2).

End Port.

(** WrapV5PubComp.v -- GENERATED by tools/rust2coq.py from src/v5/pubcomp.rs; do not edit.
    Not translated:
     src/v5/pubcomp.rs:186 conditional item #[cfg(test)]
    No proofs in this file. *)
From Verif Require Import Base Lib SrcBase WrapBase.
From Verif Require V5Property V5PubComp.
From Verif Require WrapLib WrapV5Property.

(** src/v5/pubcomp.rs:5 `PubCompReason as u8` (the discriminants of the declaration; also decides the derived `==`) *)
Definition PubCompReason_as_u8 (x : V5PubComp.PubCompReason) : N :=
  match x with
  | V5PubComp.Success => 0
  | V5PubComp.PacketIdentifierNotFound => 146
  end.

(** src/v5/pubcomp.rs:21-27 `PubComp::new` *)
Definition PubComp_new (pkid : N) : outcome V5PubComp.PubComp :=
  run (
    wret (V5PubComp.mkPubComp pkid V5PubComp.Success None)) [].

(** src/v5/pubcomp.rs:105-117 `PubCompProperties::len` *)
Definition PubCompProperties_len (self : V5PubComp.PubCompProperties) : outcome N :=
  run (
    let len := 0 in
    len <-w (
      match (V5PubComp.reason_string self) with
      | Some reason =>
          t1 <-w lift (usize_add 1 2) ;;
          t2 <-w lift (usize_add t1 (blen reason)) ;;
          len <-w lift (usize_add len t2) ;;
          wret len
      | _ =>
          wret len
      end) ;;
    len <-w for_ (fun '(key, value) len =>
        t3 <-w lift (usize_add 1 2) ;;
        t4 <-w lift (usize_add t3 (blen key)) ;;
        t5 <-w lift (usize_add t4 2) ;;
        t6 <-w lift (usize_add t5 (blen value)) ;;
        len <-w lift (usize_add len t6) ;;
        wret len)
      (V5PubComp.user_properties self) len ;;
    wret len) [].

(** src/v5/pubcomp.rs:29-44 `PubComp::len` *)
Definition PubComp_len (self : V5PubComp.PubComp) : outcome N :=
  run (
    len <-w lift (usize_add 2 1) ;;
    if ((PubCompReason_as_u8 (V5PubComp.reason self) =? PubCompReason_as_u8 V5PubComp.Success) && (is_none (V5PubComp.properties self))) then (
      wret 2)
    else (
      len <-w (
        match (V5PubComp.properties self) with
        | Some properties =>
            properties_len <-w lift (PubCompProperties_len properties) ;;
            properties_len_len <-w lift (WrapLib.len_len properties_len) ;;
            t1 <-w lift (usize_add properties_len_len properties_len) ;;
            len <-w lift (usize_add len t1) ;;
            wret len
        | _ =>
            wret len
        end) ;;
      wret len)) [].

(** src/v5/pubcomp.rs:176-184 `reason` *)
Definition reason (num : N) : outcome V5PubComp.PubCompReason :=
  run (
    code <-w (
      match num with
      | 0 =>
          wret V5PubComp.Success
      | 146 =>
          wret V5PubComp.PacketIdentifierNotFound
      | num =>
          werr (Base.InvalidConnectReturnCode num)
      end) ;;
    wret code) [].

(** src/v5/pubcomp.rs:119-155 `PubCompProperties::extract` *)
Definition PubCompProperties_extract (fuel : nat) : writer (option V5PubComp.PubCompProperties) :=
  let reason_string : option (list N) := None in
  let user_properties : list ((list N) * (list N)) := [] in
  t1 <-w get ;;
  t2 <-w lift (WrapLib.length t1) ;;
  let '(properties_len_len, properties_len) := t2 in
  keep (advance properties_len_len) ;;w
  if (properties_len =? 0) then (
    wret None)
  else (
    let cursor := 0 in
    '(cursor, reason_string, user_properties) <-w while_ fuel
      (fun '(cursor, reason_string, user_properties) =>
        wret (cursor <? properties_len))
      (fun '(cursor, reason_string, user_properties) =>
        prop <-w WrapLib.read_u8 ;;
        cursor <-w lift (usize_add cursor 1) ;;
        t3 <-w lift (WrapV5Property.property prop) ;;
        '(cursor, reason_string, user_properties) <-w (
          match t3 with
          | V5Property.ReasonString =>
              reason <-w WrapLib.read_mqtt_string ;;
              t4 <-w lift (usize_add 2 (blen reason)) ;;
              cursor <-w lift (usize_add cursor t4) ;;
              let reason_string := (Some reason) in
              wret (cursor, reason_string, user_properties)
          | V5Property.UserProperty =>
              key <-w WrapLib.read_mqtt_string ;;
              value <-w WrapLib.read_mqtt_string ;;
              t5 <-w lift (usize_add 2 (blen key)) ;;
              t6 <-w lift (usize_add t5 2) ;;
              t7 <-w lift (usize_add t6 (blen value)) ;;
              cursor <-w lift (usize_add cursor t7) ;;
              let user_properties := (user_properties ++ [(key, value)]) in
              wret (cursor, reason_string, user_properties)
          | _ =>
              werr (Base.InvalidPropertyType prop)
          end) ;;
        wret (cursor, reason_string, user_properties))
      (cursor, reason_string, user_properties) ;;
    wret (Some (V5PubComp.mkPubCompProperties reason_string user_properties))).

(** src/v5/pubcomp.rs:46-75 `PubComp::read` *)
Definition PubComp_read (fuel : nat) (fixed_header : Lib.FixedHeader) (bytes : list N) : outcome V5PubComp.PubComp :=
  run (
    let variable_header_index := (Lib.fixed_header_len fixed_header) in
    keep (advance variable_header_index) ;;w
    pkid <-w WrapLib.read_u16 ;;
    if ((Lib.remaining_len fixed_header) =? 2) then (
      wret (V5PubComp.mkPubComp pkid V5PubComp.Success None))
    else (
      ack_reason <-w WrapLib.read_u8 ;;
      if ((Lib.remaining_len fixed_header) <? 4) then (
        t1 <-w lift (reason ack_reason) ;;
        wret (V5PubComp.mkPubComp pkid t1 None))
      else (
        t2 <-w lift (reason ack_reason) ;;
        t3 <-w PubCompProperties_extract fuel ;;
        let puback := (V5PubComp.mkPubComp pkid t2 t3) in
        wret puback))) bytes.

(** src/v5/pubcomp.rs:157-173 `PubCompProperties::write` *)
Definition PubCompProperties_write (fuel : nat) (self : V5PubComp.PubCompProperties) : writer unit :=
  len <-w lift (PubCompProperties_len self) ;;
  t1 <-w WrapLib.write_remaining_length fuel len ;;
  (
    match (V5PubComp.reason_string self) with
    | Some reason =>
        put_u8 (WrapV5Property.PropertyType_as_u8 V5Property.ReasonString) ;;w
        WrapLib.write_mqtt_string reason ;;w
        wret tt
    | _ =>
        wret tt
    end) ;;w
  for_ (fun '(key, value) (_ : unit) =>
      put_u8 (WrapV5Property.PropertyType_as_u8 V5Property.UserProperty) ;;w
      WrapLib.write_mqtt_string key ;;w
      WrapLib.write_mqtt_string value ;;w
      wret tt)
    (V5PubComp.user_properties self) tt ;;w
  wret tt.

(** src/v5/pubcomp.rs:77-95 `PubComp::write` *)
Definition PubComp_write (fuel : nat) (self : V5PubComp.PubComp) : writer N :=
  len <-w lift (PubComp_len self) ;;
  put_u8 112 ;;w
  count <-w WrapLib.write_remaining_length fuel len ;;
  put_u16 (V5PubComp.pkid self) ;;w
  if ((PubCompReason_as_u8 (V5PubComp.reason self) =? PubCompReason_as_u8 V5PubComp.Success) && (is_none (V5PubComp.properties self))) then (
    wret 4)
  else (
    put_u8 (PubCompReason_as_u8 (V5PubComp.reason self)) ;;w
    (
      match (V5PubComp.properties self) with
      | Some properties =>
          PubCompProperties_write fuel properties ;;w
          wret tt
      | _ =>
          wret tt
      end) ;;w
    t1 <-w lift (usize_add 1 count) ;;
    t2 <-w lift (usize_add t1 len) ;;
    wret t2).

(** TraceV5Unsubscribe.v -- GENERATED by tools/rust2coq.py from src/v5/unsubscribe.rs; do not edit.
    Not translated:
     src/v5/unsubscribe.rs:148 conditional item #[cfg(test)]
    No proofs in this file. *)
From Verif Require Import Base Lib SrcBase TraceBase.
From Verif Require V5Property V5Unsubscribe.
From Verif Require TraceLib TraceV5Property.

(** src/v5/unsubscribe.rs:15-21 `Unsubscribe::new` *)
Definition Unsubscribe_new (topic : list N) : outcome V5Unsubscribe.Unsubscribe :=
  run (
    wret (V5Unsubscribe.mkUnsubscribe 0 [topic] None)) [].

(** src/v5/unsubscribe.rs:94-102 `UnsubscribeProperties::len` *)
Definition UnsubscribeProperties_len (self : V5Unsubscribe.UnsubscribeProperties) : outcome N :=
  run (
    let len := 0 in
    len <-w for_ (fun '(key, value) len =>
        t1 <-w lift (usize_add 1 2) ;;
        t2 <-w lift (usize_add t1 (blen key)) ;;
        t3 <-w lift (usize_add t2 2) ;;
        t4 <-w lift (usize_add t3 (blen value)) ;;
        len <-w lift (usize_add len t4) ;;
        wret len)
      (V5Unsubscribe.user_properties self) len ;;
    wret len) [].

(** src/v5/unsubscribe.rs:23-38 `Unsubscribe::len` *)
Definition Unsubscribe_len (self : V5Unsubscribe.Unsubscribe) : outcome N :=
  run (
    t3 <-w (
      fold_ (fun s t =>
        t1 <-w lift (usize_add 2 s) ;;
        t2 <-w lift (usize_add t1 (blen t)) ;;
        wret t2) (V5Unsubscribe.filters self) 0) ;;
    len <-w lift (usize_add 2 t3) ;;
    len <-w (
      match (V5Unsubscribe.properties self) with
      | Some properties =>
          properties_len <-w lift (UnsubscribeProperties_len properties) ;;
          properties_len_len <-w lift (TraceLib.len_len properties_len) ;;
          t4 <-w lift (usize_add properties_len_len properties_len) ;;
          len <-w lift (usize_add len t4) ;;
          wret len
      | _ =>
          len <-w lift (usize_add len 1) ;;
          wret len
      end) ;;
    wret len) [].

(** src/v5/unsubscribe.rs:104-132 `UnsubscribeProperties::extract` *)
Definition UnsubscribeProperties_extract (fuel : nat) : writer (option V5Unsubscribe.UnsubscribeProperties) :=
  let user_properties : list ((list N) * (list N)) := [] in
  t1 <-w get ;;
  t2 <-w lift (TraceLib.length t1) ;;
  let '(properties_len_len, properties_len) := t2 in
  keep (advance properties_len_len) ;;w
  if (properties_len =? 0) then (
    wret None)
  else (
    let cursor := 0 in
    '(cursor, user_properties) <-w while_ fuel
      (fun '(cursor, user_properties) =>
        wret (cursor <? properties_len))
      (fun '(cursor, user_properties) =>
        prop <-w TraceLib.read_u8 ;;
        cursor <-w lift (usize_add cursor 1) ;;
        t3 <-w lift (TraceV5Property.property prop) ;;
        '(cursor, user_properties) <-w (
          match t3 with
          | V5Property.UserProperty =>
              key <-w TraceLib.read_mqtt_string ;;
              value <-w TraceLib.read_mqtt_string ;;
              t4 <-w lift (usize_add 2 (blen key)) ;;
              t5 <-w lift (usize_add t4 2) ;;
              t6 <-w lift (usize_add t5 (blen value)) ;;
              cursor <-w lift (usize_add cursor t6) ;;
              let user_properties := (user_properties ++ [(key, value)]) in
              wret (cursor, user_properties)
          | _ =>
              werr (Base.InvalidPropertyType prop)
          end) ;;
        wret (cursor, user_properties))
      (cursor, user_properties) ;;
    wret (Some (V5Unsubscribe.mkUnsubscribeProperties user_properties))).

(** src/v5/unsubscribe.rs:40-60 `Unsubscribe::read` *)
Definition Unsubscribe_read (fuel : nat) (fixed_header : Lib.FixedHeader) (bytes : list N) : outcome V5Unsubscribe.Unsubscribe :=
  run (
    let variable_header_index := (Lib.fixed_header_len fixed_header) in
    keep (advance variable_header_index) ;;w
    pkid <-w TraceLib.read_u16 ;;
    dbg pkid ;;w
    properties <-w UnsubscribeProperties_extract fuel ;;
    let filters : list (list N) := [] in
    filters <-w while_ fuel
      (fun filters =>
        t1 <-w get ;;
        wret (has_remaining t1))
      (fun filters =>
        filter <-w TraceLib.read_mqtt_string ;;
        let filters := (filters ++ [filter]) in
        wret filters)
      filters ;;
    let unsubscribe := (V5Unsubscribe.mkUnsubscribe pkid filters properties) in
    wret unsubscribe) bytes.

(** src/v5/unsubscribe.rs:134-145 `UnsubscribeProperties::write` *)
Definition UnsubscribeProperties_write (fuel : nat) (self : V5Unsubscribe.UnsubscribeProperties) : writer unit :=
  len <-w lift (UnsubscribeProperties_len self) ;;
  t1 <-w TraceLib.write_remaining_length fuel len ;;
  for_ (fun '(key, value) (_ : unit) =>
      put_u8 (TraceV5Property.PropertyType_as_u8 V5Property.UserProperty) ;;w
      TraceLib.write_mqtt_string key ;;w
      TraceLib.write_mqtt_string value ;;w
      wret tt)
    (V5Unsubscribe.user_properties self) tt ;;w
  wret tt.

(** src/v5/unsubscribe.rs:62-85 `Unsubscribe::write` *)
Definition Unsubscribe_write (fuel : nat) (self : V5Unsubscribe.Unsubscribe) : writer N :=
  put_u8 162 ;;w
  remaining_len <-w lift (Unsubscribe_len self) ;;
  remaining_len_bytes <-w TraceLib.write_remaining_length fuel remaining_len ;;
  put_u16 (V5Unsubscribe.pkid self) ;;w
  (
    match (V5Unsubscribe.properties self) with
    | Some properties =>
        UnsubscribeProperties_write fuel properties ;;w
        wret tt
    | None =>
        t1 <-w TraceLib.write_remaining_length fuel 0 ;;
        wret tt
    end) ;;w
  for_ (fun filter (_ : unit) =>
      TraceLib.write_mqtt_string filter ;;w
      wret tt)
    (V5Unsubscribe.filters self) tt ;;w
  t2 <-w lift (usize_add 1 remaining_len_bytes) ;;
  t3 <-w lift (usize_add t2 remaining_len) ;;
  wret t3.

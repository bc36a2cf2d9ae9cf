(** RelV5SubAck.v -- generated by tools/gen_release.py from V5SubAck.v: its definitions that use
    machine integers, without overflow checks (Release.v).  No proofs in this file. *)
From Verif Require Import Base Utf8 Lib V5Property V5SubAck Release RelLib RelV5Property.

Section WithBuild.
Context {build : Build}.

(** src/v5/suback.rs:94-106 `SubAckProperties::len` *)
Definition props_len (self : SubAckProperties) : N :=
  let len := 0 in
  let len := match reason_string self with Some v => len + (1 + 2 + blen v) | None => len end in
  let len := fold_left (fun len kv => len + (1 + 2 + blen (fst kv) + 2 + blen (snd kv))) (user_properties self) len in
  len.

(** src/v5/suback.rs:120-138: the `match property(prop)?` of the loop body.  Returns the
    updated variables and what is added to `cursor`. *)
Definition props_step (ty : PropertyType) (prop : N) (self : SubAckProperties)
  : reader (SubAckProperties * N) :=
  match ty with
  | ReasonString =>
      v <-r read_mqtt_string ;; rret (set_reason_string self v, 2 + blen v)
  | UserProperty =>
      key <-r read_mqtt_string ;;
      value <-r read_mqtt_string ;;
      rret (push_user_properties self (key, value), 2 + blen key + 2 + blen value)
  | _ => rerr (InvalidPropertyType prop)
  end.

(** src/v5/suback.rs:108-144 `SubAckProperties::extract` *)
Definition extract : reader (option SubAckProperties) :=
  ll <-r peek_length ;;
  advance (fst ll) ;;r
  if snd ll =? 0 then rret None
  else
    p <-r props_loop props_step (snd ll) props_new ;;
    rret (Some p).

(** src/v5/suback.rs:146-162 `SubAckProperties::write` *)
Definition props_write (self : SubAckProperties) : writer unit :=
  let len := props_len self in
  write_remaining_length len ;;w
  when_some (reason_string self) (fun v => put_u8 (property_u8 ReasonString) ;;w write_mqtt_string v) ;;w
  for_each (user_properties self) (fun kv =>
    put_u8 (property_u8 UserProperty) ;;w
    write_mqtt_string (fst kv) ;;w write_mqtt_string (snd kv)) ;;w
  wret tt.

(** src/v5/suback.rs:23-39 `SubAck::len` *)
Definition len (self : SubAck) : N :=
  let len := 2 + blen (return_codes self) in
  match properties self with
  | Some properties => add_props_len len (props_len properties)
  | None => len + 1
  end.

(** src/v5/suback.rs:41-65 `SubAck::read` *)
Definition read (fixed_header : FixedHeader) : reader SubAck :=
  advance (fixed_header_len fixed_header) ;;r
  pkid <-r read_u16 ;;
  properties <-r extract ;;
  fun bytes =>
    if negb (has_remaining bytes) then Err MalformedPacket
    else
      (return_codes <-r codes_loop (S (List.length bytes)) [] ;;
       rret (mkSubAck pkid return_codes properties)) bytes.

(** src/v5/suback.rs:67-84 `SubAck::write` *)
Definition write (self : SubAck) : writer N :=
  put_u8 0x90 ;;w
  let remaining_len := len self in
  remaining_len_bytes <-w write_remaining_length remaining_len ;;
  put_u16 (pkid self) ;;w
  (match properties self with
   | Some properties => props_write properties
   | None => write_remaining_length 0 ;;w wret tt
   end) ;;w
  let p := map code_u8 (return_codes self) in
  extend_from_slice p ;;w
  wret (1 + remaining_len_bytes + remaining_len).

End WithBuild.

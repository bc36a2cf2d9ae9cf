(** RelV5UnsubAck.v -- generated by tools/gen_release.py from V5UnsubAck.v: its definitions that use
    machine integers, without overflow checks (Release.v).  No proofs in this file. *)
From Verif Require Import Base Utf8 Lib V5Property V5UnsubAck Release RelLib RelV5Property.

Section WithBuild.
Context {build : Build}.

(** src/v5/unsuback.rs:105-117 `UnsubAckProperties::len` *)
Definition props_len (self : UnsubAckProperties) : N :=
  let len := 0 in
  let len := match reason_string self with Some v => len + (1 + 2 + blen v) | None => len end in
  let len := fold_left (fun len kv => len + (1 + 2 + blen (fst kv) + 2 + blen (snd kv))) (user_properties self) len in
  len.

(** src/v5/unsuback.rs:131-149: the `match property(prop)?` of the loop body.  Returns the
    updated variables and what is added to `cursor`. *)
Definition props_step (ty : PropertyType) (prop : N) (self : UnsubAckProperties)
  : reader (UnsubAckProperties * N) :=
  match ty with
  | ReasonString =>
      v <-r read_mqtt_string ;; rret (set_reason_string self v, 2 + blen v)
  | UserProperty =>
      key <-r read_mqtt_string ;;
      value <-r read_mqtt_string ;;
      rret (push_user_properties self (key, value), 2 + blen key + 2 + blen value)
  | _ => rerr (InvalidPropertyType prop)
  end.

(** src/v5/unsuback.rs:119-155 `UnsubAckProperties::extract` *)
Definition extract : reader (option UnsubAckProperties) :=
  ll <-r peek_length ;;
  advance (fst ll) ;;r
  if snd ll =? 0 then rret None
  else
    p <-r props_loop props_step (snd ll) props_new ;;
    rret (Some p).

(** src/v5/unsuback.rs:157-173 `UnsubAckProperties::write` *)
Definition props_write (self : UnsubAckProperties) : writer unit :=
  let len := props_len self in
  write_remaining_length len ;;w
  when_some (reason_string self) (fun v => put_u8 (property_u8 ReasonString) ;;w write_mqtt_string v) ;;w
  for_each (user_properties self) (fun kv =>
    put_u8 (property_u8 UserProperty) ;;w
    write_mqtt_string (fst kv) ;;w write_mqtt_string (snd kv)) ;;w
  wret tt.

(** src/v5/unsuback.rs:34-50 `UnsubAck::len` *)
Definition len (self : UnsubAck) : N :=
  let len := 2 + blen (reasons self) in
  match properties self with
  | Some properties => add_props_len len (props_len properties)
  | None => len + 1
  end.

(** src/v5/unsuback.rs:52-76 `UnsubAck::read` *)
Definition read (fixed_header : FixedHeader) : reader UnsubAck :=
  advance (fixed_header_len fixed_header) ;;r
  pkid <-r read_u16 ;;
  properties <-r extract ;;
  fun bytes =>
    if negb (has_remaining bytes) then Err MalformedPacket
    else
      (reasons <-r codes_loop (S (List.length bytes)) [] ;;
       rret (mkUnsubAck pkid reasons properties)) bytes.

(** src/v5/unsuback.rs:78-95 `UnsubAck::write` *)
Definition write (self : UnsubAck) : writer N :=
  put_u8 0xB0 ;;w
  let remaining_len := len self in
  remaining_len_bytes <-w write_remaining_length remaining_len ;;
  put_u16 (pkid self) ;;w
  (match properties self with
   | Some properties => props_write properties
   | None => write_remaining_length 0 ;;w wret tt
   end) ;;w
  let p := map code_u8 (reasons self) in
  extend_from_slice p ;;w
  wret (1 + remaining_len_bytes + remaining_len).

End WithBuild.

(** RelV5Disconnect.v -- generated by tools/gen_release.py from V5Disconnect.v: its definitions that use
    machine integers, without overflow checks (Release.v).  No proofs in this file. *)
From Verif Require Import Base Utf8 Lib V5Property V5Disconnect Release RelLib RelV5Property.

Section WithBuild.
Context {build : Build}.

(** src/v5/disconnect.rs:147-167 `DisconnectProperties::len` *)
Definition props_len (self : DisconnectProperties) : N :=
  let len := 0 in
  let len := if is_some (session_expiry_interval self) then len + (1 + 4) else len in
  let len := match reason_string self with Some v => len + (1 + 2 + blen v) | None => len end in
  let len := fold_left (fun len kv => len + (1 + 2 + blen (fst kv) + 2 + blen (snd kv))) (user_properties self) len in
  let len := match server_reference self with Some v => len + (1 + 2 + blen v) | None => len end in
  len.

(** src/v5/disconnect.rs:186-213: the `match property(prop)?` of the loop body.  Returns the
    updated variables and what is added to `cursor`. *)
Definition props_step (ty : PropertyType) (prop : N) (self : DisconnectProperties)
  : reader (DisconnectProperties * N) :=
  match ty with
  | SessionExpiryInterval =>
      v <-r read_u32 ;; rret (set_session_expiry_interval self v, 4)
  | ReasonString =>
      v <-r read_mqtt_string ;; rret (set_reason_string self v, 2 + blen v)
  | UserProperty =>
      key <-r read_mqtt_string ;;
      value <-r read_mqtt_string ;;
      rret (push_user_properties self (key, value), 2 + blen key + 2 + blen value)
  | ServerReference =>
      v <-r read_mqtt_string ;; rret (set_server_reference self v, 2 + blen v)
  | _ => rerr (InvalidPropertyType prop)
  end.

(** src/v5/disconnect.rs:169-223 `DisconnectProperties::extract` *)
Definition extract : reader (option DisconnectProperties) :=
  ll <-r peek_length ;;
  advance (fst ll) ;;r
  if snd ll =? 0 then rret None
  else
    p <-r props_loop props_step (snd ll) props_new ;;
    rret (Some p).

(** src/v5/disconnect.rs:225-251 `DisconnectProperties::write` *)
Definition props_write (self : DisconnectProperties) : writer unit :=
  let len := props_len self in
  write_remaining_length len ;;w
  when_some (session_expiry_interval self) (fun v => put_u8 (property_u8 SessionExpiryInterval) ;;w put_u32 v) ;;w
  when_some (reason_string self) (fun v => put_u8 (property_u8 ReasonString) ;;w write_mqtt_string v) ;;w
  for_each (user_properties self) (fun kv =>
    put_u8 (property_u8 UserProperty) ;;w
    write_mqtt_string (fst kv) ;;w write_mqtt_string (snd kv)) ;;w
  when_some (server_reference self) (fun v => put_u8 (property_u8 ServerReference) ;;w write_mqtt_string v) ;;w
  wret tt.

(** src/v5/disconnect.rs:262-286 `Disconnect::len` *)
Definition len (self : Disconnect) : N :=
  if reason_eqb (reason_code self) NormalDisconnection && is_none (properties self) then 2
  else
    let length := 0 in
    match properties self with
    | Some properties =>
        let length := length + 1 in
        add_props_len length (props_len properties)
    | None =>
        if reason_eqb (reason_code self) NormalDisconnection then length
        else length + 1
    end.

(** src/v5/disconnect.rs:288-314 `Disconnect::read` *)
Definition read (fixed_header : FixedHeader) : reader Disconnect :=
  let packet_type := N.shiftr (byte1 fixed_header) 4 in
  let flags := N.land (byte1 fixed_header) 15 in
  advance (fixed_header_len fixed_header) ;;r
  if negb (packet_type =? packet_type_u8 PT_Disconnect) then rerr (InvalidPacketType packet_type)
  else if negb (flags =? 0x00) then rerr Base.MalformedPacket
  else if remaining_len fixed_header =? 0 then rret new
  else
    reason_code <-r read_u8 ;;
    reason_code <-r rlift (try_from reason_code) ;;
    properties <-r extract ;;
    rret (mkDisconnect reason_code properties).

(** src/v5/disconnect.rs:316-336 `Disconnect::write` *)
Definition write (self : Disconnect) : writer N :=
  put_u8 0xE0 ;;w
  let length := len self in
  if length =? 2 then put_u8 0x00 ;;w wret length
  else
    len_len <-w write_remaining_length length ;;
    put_u8 (code_u8 (reason_code self)) ;;w
    when_some (properties self) props_write ;;w
    wret (1 + len_len + length).

End WithBuild.

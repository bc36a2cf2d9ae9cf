(** RelV5Connect.v -- generated by tools/gen_release.py from V5Connect.v: its definitions that use
    machine integers, without overflow checks (Release.v).  No proofs in this file. *)
From Verif Require Import Base Utf8 Lib V5Property V5Connect Release RelLib RelV5Property.

Section WithBuild.
Context {build : Build}.

(** src/v5/connect.rs:273-305 `WillProperties::len` *)
Definition wp_props_len (self : WillProperties) : N :=
  let len := 0 in
  let len := if is_some (wp_delay_interval self) then len + (1 + 4) else len in
  let len := if is_some (wp_payload_format_indicator self) then len + (1 + 1) else len in
  let len := if is_some (wp_message_expiry_interval self) then len + (1 + 4) else len in
  let len := match wp_content_type self with Some v => len + (1 + 2 + blen v) | None => len end in
  let len := match wp_response_topic self with Some v => len + (1 + 2 + blen v) | None => len end in
  let len := match wp_correlation_data self with Some v => len + (1 + 2 + blen v) | None => len end in
  let len := fold_left (fun len kv => len + (1 + 2 + blen (fst kv) + 2 + blen (snd kv))) (wp_user_properties self) len in
  len.

(** src/v5/connect.rs:324-364: the `match property(prop)?` of the loop body.  Returns the
    updated variables and what is added to `cursor`. *)
Definition wp_props_step (ty : PropertyType) (prop : N) (self : WillProperties)
  : reader (WillProperties * N) :=
  match ty with
  | WillDelayInterval =>
      v <-r read_u32 ;; rret (set_wp_delay_interval self v, 4)
  | PayloadFormatIndicator =>
      v <-r read_u8 ;; rret (set_wp_payload_format_indicator self v, 1)
  | MessageExpiryInterval =>
      v <-r read_u32 ;; rret (set_wp_message_expiry_interval self v, 4)
  | ContentType =>
      v <-r read_mqtt_string ;; rret (set_wp_content_type self v, 2 + blen v)
  | ResponseTopic =>
      v <-r read_mqtt_string ;; rret (set_wp_response_topic self v, 2 + blen v)
  | CorrelationData =>
      v <-r read_mqtt_bytes ;; rret (set_wp_correlation_data self v, 2 + blen v)
  | UserProperty =>
      key <-r read_mqtt_string ;;
      value <-r read_mqtt_string ;;
      rret (push_wp_user_properties self (key, value), 2 + blen key + 2 + blen value)
  | _ => rerr (InvalidPropertyType prop)
  end.

(** src/v5/connect.rs:307-375 `WillProperties::read` *)
Definition wp_extract : reader (option WillProperties) :=
  ll <-r peek_length ;;
  advance (fst ll) ;;r
  if snd ll =? 0 then rret None
  else
    p <-r props_loop wp_props_step (snd ll) wp_props_new ;;
    rret (Some p).

(** src/v5/connect.rs:377-418 `WillProperties::write` *)
Definition wp_props_write (self : WillProperties) : writer unit :=
  let len := wp_props_len self in
  write_remaining_length len ;;w
  when_some (wp_delay_interval self) (fun v => put_u8 (property_u8 WillDelayInterval) ;;w put_u32 v) ;;w
  when_some (wp_payload_format_indicator self) (fun v => put_u8 (property_u8 PayloadFormatIndicator) ;;w put_u8 v) ;;w
  when_some (wp_message_expiry_interval self) (fun v => put_u8 (property_u8 MessageExpiryInterval) ;;w put_u32 v) ;;w
  when_some (wp_content_type self) (fun v => put_u8 (property_u8 ContentType) ;;w write_mqtt_string v) ;;w
  when_some (wp_response_topic self) (fun v => put_u8 (property_u8 ResponseTopic) ;;w write_mqtt_string v) ;;w
  when_some (wp_correlation_data self) (fun v => put_u8 (property_u8 CorrelationData) ;;w write_mqtt_bytes v) ;;w
  for_each (wp_user_properties self) (fun kv =>
    put_u8 (property_u8 UserProperty) ;;w
    write_mqtt_string (fst kv) ;;w write_mqtt_string (snd kv)) ;;w
  wret tt.

(** src/v5/connect.rs:598-638 `ConnectProperties::len` *)
Definition cp_props_len (self : ConnectProperties) : N :=
  let len := 0 in
  let len := if is_some (cp_session_expiry_interval self) then len + (1 + 4) else len in
  let len := if is_some (cp_receive_maximum self) then len + (1 + 2) else len in
  let len := if is_some (cp_max_packet_size self) then len + (1 + 4) else len in
  let len := if is_some (cp_topic_alias_max self) then len + (1 + 2) else len in
  let len := if is_some (cp_request_response_info self) then len + (1 + 1) else len in
  let len := if is_some (cp_request_problem_info self) then len + (1 + 1) else len in
  let len := fold_left (fun len kv => len + (1 + 2 + blen (fst kv) + 2 + blen (snd kv))) (cp_user_properties self) len in
  let len := match cp_authentication_method self with Some v => len + (1 + 2 + blen v) | None => len end in
  let len := match cp_authentication_data self with Some v => len + (1 + 2 + blen v) | None => len end in
  len.

(** src/v5/connect.rs:537-583: the `match property(prop)?` of the loop body.  Returns the
    updated variables and what is added to `cursor`. *)
Definition cp_props_step (ty : PropertyType) (prop : N) (self : ConnectProperties)
  : reader (ConnectProperties * N) :=
  match ty with
  | SessionExpiryInterval =>
      v <-r read_u32 ;; rret (set_cp_session_expiry_interval self v, 4)
  | ReceiveMaximum =>
      v <-r read_u16 ;; rret (set_cp_receive_maximum self v, 2)
  | MaximumPacketSize =>
      v <-r read_u32 ;; rret (set_cp_max_packet_size self v, 4)
  | TopicAliasMaximum =>
      v <-r read_u16 ;; rret (set_cp_topic_alias_max self v, 2)
  | RequestResponseInformation =>
      v <-r read_u8 ;; rret (set_cp_request_response_info self v, 1)
  | RequestProblemInformation =>
      v <-r read_u8 ;; rret (set_cp_request_problem_info self v, 1)
  | UserProperty =>
      key <-r read_mqtt_string ;;
      value <-r read_mqtt_string ;;
      rret (push_cp_user_properties self (key, value), 2 + blen key + 2 + blen value)
  | AuthenticationMethod =>
      v <-r read_mqtt_string ;; rret (set_cp_authentication_method self v, 2 + blen v)
  | AuthenticationData =>
      v <-r read_mqtt_bytes ;; rret (set_cp_authentication_data self v, 2 + blen v)
  | _ => rerr (InvalidPropertyType prop)
  end.

(** src/v5/connect.rs:518-596 `ConnectProperties::read` *)
Definition cp_extract : reader (option ConnectProperties) :=
  ll <-r peek_length ;;
  advance (fst ll) ;;r
  if snd ll =? 0 then rret None
  else
    p <-r props_loop cp_props_step (snd ll) cp_props_new ;;
    rret (Some p).

(** src/v5/connect.rs:640-691 `ConnectProperties::write` *)
Definition cp_props_write (self : ConnectProperties) : writer unit :=
  let len := cp_props_len self in
  write_remaining_length len ;;w
  when_some (cp_session_expiry_interval self) (fun v => put_u8 (property_u8 SessionExpiryInterval) ;;w put_u32 v) ;;w
  when_some (cp_receive_maximum self) (fun v => put_u8 (property_u8 ReceiveMaximum) ;;w put_u16 v) ;;w
  when_some (cp_max_packet_size self) (fun v => put_u8 (property_u8 MaximumPacketSize) ;;w put_u32 v) ;;w
  when_some (cp_topic_alias_max self) (fun v => put_u8 (property_u8 TopicAliasMaximum) ;;w put_u16 v) ;;w
  when_some (cp_request_response_info self) (fun v => put_u8 (property_u8 RequestResponseInformation) ;;w put_u8 v) ;;w
  when_some (cp_request_problem_info self) (fun v => put_u8 (property_u8 RequestProblemInformation) ;;w put_u8 v) ;;w
  for_each (cp_user_properties self) (fun kv =>
    put_u8 (property_u8 UserProperty) ;;w
    write_mqtt_string (fst kv) ;;w write_mqtt_string (snd kv)) ;;w
  when_some (cp_authentication_method self) (fun v => put_u8 (property_u8 AuthenticationMethod) ;;w write_mqtt_string v) ;;w
  when_some (cp_authentication_data self) (fun v => put_u8 (property_u8 AuthenticationData) ;;w write_mqtt_bytes v) ;;w
  wret tt.

(** src/v5/connect.rs:195-212 `LastWill::len` *)
Definition lw_len (self : LastWill) : N :=
  let len := 0 in
  let len := match lw_properties self with
             | Some properties => add_props_len len (wp_props_len properties)
             | None => len + 1
             end in
  len + (2 + blen (lw_topic self) + 2 + blen (lw_message self)).

(** src/v5/connect.rs:453-465 `Login::len` *)
Definition login_len (self : Login) : N :=
  let len := 0 in
  let len := if negb (is_empty (username self)) then len + (2 + blen (username self)) else len in
  let len := if negb (is_empty (password self)) then len + (2 + blen (password self)) else len in
  len.

(** src/v5/connect.rs:48-79 `Connect::len` *)
Definition len (self : Connect) : N :=
  let len := 2 + blen mqtt_name + 1 + 1 + 2 in
  let len := match properties self with
             | Some properties => add_props_len len (cp_props_len properties)
             | None => len + 1
             end in
  let len := len + (2 + blen (client_id self)) in
  let len := match last_will self with Some last_will => len + lw_len last_will | None => len end in
  let len := match login self with Some login => len + login_len login | None => len end in
  len.

(** src/v5/connect.rs:214-238 `LastWill::read` *)
Definition lw_read (connect_flags : N) : reader (option LastWill) :=
  if N.land connect_flags 4 =? 0 then
    if negb (N.land connect_flags 56 =? 0) then rerr IncorrectPacketFormat
    else rret None
  else
    properties <-r wp_extract ;;
    will_topic <-r read_mqtt_string ;;
    will_message <-r read_mqtt_bytes ;;
    will_qos <-r rlift (qos (N.shiftr (N.land connect_flags 24) 3)) ;;
    rret (Some (mkLastWill will_topic will_message will_qos
                  (negb (N.land connect_flags 32 =? 0)) properties)).

(** src/v5/connect.rs:81-123 `Connect::read` *)
Definition read (fixed_header : FixedHeader) : reader Connect :=
  advance (fixed_header_len fixed_header) ;;r
  protocol_name <-r read_mqtt_string ;;
  protocol_level <-r read_u8 ;;
  if negb (bytes_eqb protocol_name mqtt_name) then rerr InvalidProtocol
  else
    protocol <-r (match protocol_level with
                  | 4 => rret V4
                  | 5 => rret V5
                  | num => rerr (InvalidProtocolLevel num)
                  end) ;;
    connect_flags <-r read_u8 ;;
    let clean_session := negb (N.land connect_flags 2 =? 0) in
    keep_alive <-r read_u16 ;;
    properties <-r (match protocol with
                    | V5 => cp_extract
                    | V4 => rret None
                    end) ;;
    client_id <-r read_mqtt_string ;;
    last_will <-r lw_read connect_flags ;;
    login <-r login_read connect_flags ;;
    rret (mkConnect protocol keep_alive client_id clean_session last_will login properties).

(** src/v5/connect.rs:240-258 `LastWill::write` (returns the flag bits) *)
Definition lw_write (self : LastWill) : writer N :=
  let connect_flags := N.lor 0 (N.lor 4 (N.shiftl (qos_u8 (lw_qos self)) 3)) in
  let connect_flags := if lw_retain self then N.lor connect_flags 0x20 else connect_flags in
  (match lw_properties self with
   | Some properties => wp_props_write properties
   | None => write_remaining_length 0 ;;w wret tt
   end) ;;w
  write_mqtt_string (lw_topic self) ;;w
  write_mqtt_bytes (lw_message self) ;;w
  wret connect_flags.

(** src/v5/connect.rs:125-166 `Connect::write`.  [set_index] is
    `buffer[flags_index] = connect_flags`, an index from the start of the
    caller's buffer. *)
Definition write (self : Connect) : writer N :=
  let len := len self in
  put_u8 16 ;;w
  count <-w write_remaining_length len ;;
  write_mqtt_string mqtt_name ;;w
  (match protocol self with V4 => put_u8 4 | V5 => put_u8 5 end) ;;w
  let flags_index := 1 + count + 2 + 4 + 1 in
  let connect_flags := 0 in
  let connect_flags := if clean_session self then N.lor connect_flags 2 else connect_flags in
  put_u8 connect_flags ;;w
  put_u16 (keep_alive self) ;;w
  (match properties self with
   | Some properties => cp_props_write properties
   | None => write_remaining_length 0 ;;w wret tt
   end) ;;w
  write_mqtt_string (client_id self) ;;w
  connect_flags <-w
    (match last_will self with
     | Some last_will => f <-w lw_write last_will ;; wret (N.lor connect_flags f)
     | None => wret connect_flags
     end) ;;
  connect_flags <-w
    (match login self with
     | Some login => f <-w login_write login ;; wret (N.lor connect_flags f)
     | None => wret connect_flags
     end) ;;
  set_index flags_index connect_flags ;;w
  wret len.

End WithBuild.

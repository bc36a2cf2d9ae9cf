(** V5Connect.v -- model of src/v5/connect.rs.  No proofs in this file. *)
From Verif Require Import Base Utf8 Lib V5Property.

(** src/v5/connect.rs:262-270 `WillProperties` *)
Record WillProperties := mkWillProperties {
  wp_delay_interval : option N;
  wp_payload_format_indicator : option N;
  wp_message_expiry_interval : option N;
  wp_content_type : option bytes;
  wp_response_topic : option bytes;
  wp_correlation_data : option bytes;
  wp_user_properties : list (bytes * bytes)
}.

(** src/v5/connect.rs:307-375: the local variables before the loop (the loop state is
    kept in the record it finally builds) *)
Definition wp_props_new : WillProperties := mkWillProperties None None None None None None [].

(** src/v5/connect.rs:307-375: assignment to the local variable for `wp_delay_interval` *)
Definition set_wp_delay_interval (self : WillProperties) (v : N) : WillProperties :=
  mkWillProperties (Some v) (wp_payload_format_indicator self) (wp_message_expiry_interval self) (wp_content_type self) (wp_response_topic self) (wp_correlation_data self) (wp_user_properties self).
(** src/v5/connect.rs:307-375: assignment to the local variable for `wp_payload_format_indicator` *)
Definition set_wp_payload_format_indicator (self : WillProperties) (v : N) : WillProperties :=
  mkWillProperties (wp_delay_interval self) (Some v) (wp_message_expiry_interval self) (wp_content_type self) (wp_response_topic self) (wp_correlation_data self) (wp_user_properties self).
(** src/v5/connect.rs:307-375: assignment to the local variable for `wp_message_expiry_interval` *)
Definition set_wp_message_expiry_interval (self : WillProperties) (v : N) : WillProperties :=
  mkWillProperties (wp_delay_interval self) (wp_payload_format_indicator self) (Some v) (wp_content_type self) (wp_response_topic self) (wp_correlation_data self) (wp_user_properties self).
(** src/v5/connect.rs:307-375: assignment to the local variable for `wp_content_type` *)
Definition set_wp_content_type (self : WillProperties) (v : bytes) : WillProperties :=
  mkWillProperties (wp_delay_interval self) (wp_payload_format_indicator self) (wp_message_expiry_interval self) (Some v) (wp_response_topic self) (wp_correlation_data self) (wp_user_properties self).
(** src/v5/connect.rs:307-375: assignment to the local variable for `wp_response_topic` *)
Definition set_wp_response_topic (self : WillProperties) (v : bytes) : WillProperties :=
  mkWillProperties (wp_delay_interval self) (wp_payload_format_indicator self) (wp_message_expiry_interval self) (wp_content_type self) (Some v) (wp_correlation_data self) (wp_user_properties self).
(** src/v5/connect.rs:307-375: assignment to the local variable for `wp_correlation_data` *)
Definition set_wp_correlation_data (self : WillProperties) (v : bytes) : WillProperties :=
  mkWillProperties (wp_delay_interval self) (wp_payload_format_indicator self) (wp_message_expiry_interval self) (wp_content_type self) (wp_response_topic self) (Some v) (wp_user_properties self).
(** src/v5/connect.rs:307-375: `push` onto the local vector for `wp_user_properties` *)
Definition push_wp_user_properties (self : WillProperties) (v : bytes * bytes) : WillProperties :=
  mkWillProperties (wp_delay_interval self) (wp_payload_format_indicator self) (wp_message_expiry_interval self) (wp_content_type self) (wp_response_topic self) (wp_correlation_data self) (wp_user_properties self ++ [v]).

(** src/v5/connect.rs:273-305 `WillProperties::len` *)
Definition wp_props_len (self : WillProperties) : N :=
  let len := 0 in
  let len := if is_some (wp_delay_interval self) then len + (1 + 4) else len in
  let len := if is_some (wp_payload_format_indicator self) then len + (1 + 1) else len in
  let len := if is_some (wp_message_expiry_interval self) then len + (1 + 4) else len in
  let len := match wp_content_type self with Some v => len + (1 + 2 + blen v) | None => len end in
  let len := match wp_response_topic self with Some v => len + (1 + 2 + blen v) | None => len end in
  let len := match wp_correlation_data self with Some v => len + (1 + 2 + blen v) | None => len end in
  let len := fold_left (fun len kv => len + (1 + 2 + blen (fst kv) + 2 + blen (snd kv))) (wp_user_properties self) len in
  len.

(** src/v5/connect.rs:324-364: the `match property(prop)?` of the loop body.  Returns the
    updated variables and what is added to `cursor`. *)
Definition wp_props_step (ty : PropertyType) (prop : N) (self : WillProperties)
  : reader (WillProperties * N) :=
  match ty with
  | WillDelayInterval =>
      v <-r read_u32 ;; rret (set_wp_delay_interval self v, 4)
  | PayloadFormatIndicator =>
      v <-r read_u8 ;; rret (set_wp_payload_format_indicator self v, 1)
  | MessageExpiryInterval =>
      v <-r read_u32 ;; rret (set_wp_message_expiry_interval self v, 4)
  | ContentType =>
      v <-r read_mqtt_string ;; rret (set_wp_content_type self v, 2 + blen v)
  | ResponseTopic =>
      v <-r read_mqtt_string ;; rret (set_wp_response_topic self v, 2 + blen v)
  | CorrelationData =>
      v <-r read_mqtt_bytes ;; rret (set_wp_correlation_data self v, 2 + blen v)
  | UserProperty =>
      key <-r read_mqtt_string ;;
      value <-r read_mqtt_string ;;
      rret (push_wp_user_properties self (key, value), 2 + blen key + 2 + blen value)
  | _ => rerr (InvalidPropertyType prop)
  end.

(** src/v5/connect.rs:307-375 `WillProperties::read` *)
Definition wp_extract : reader (option WillProperties) :=
  ll <-r peek_length ;;
  advance (fst ll) ;;r
  if snd ll =? 0 then rret None
  else
    p <-r props_loop wp_props_step (snd ll) wp_props_new ;;
    rret (Some p).

(** src/v5/connect.rs:377-418 `WillProperties::write` *)
Definition wp_props_write (self : WillProperties) : writer unit :=
  let len := wp_props_len self in
  write_remaining_length len ;;w
  when_some (wp_delay_interval self) (fun v => put_u8 (property_u8 WillDelayInterval) ;;w put_u32 v) ;;w
  when_some (wp_payload_format_indicator self) (fun v => put_u8 (property_u8 PayloadFormatIndicator) ;;w put_u8 v) ;;w
  when_some (wp_message_expiry_interval self) (fun v => put_u8 (property_u8 MessageExpiryInterval) ;;w put_u32 v) ;;w
  when_some (wp_content_type self) (fun v => put_u8 (property_u8 ContentType) ;;w write_mqtt_string v) ;;w
  when_some (wp_response_topic self) (fun v => put_u8 (property_u8 ResponseTopic) ;;w write_mqtt_string v) ;;w
  when_some (wp_correlation_data self) (fun v => put_u8 (property_u8 CorrelationData) ;;w write_mqtt_bytes v) ;;w
  for_each (wp_user_properties self) (fun kv =>
    put_u8 (property_u8 UserProperty) ;;w
    write_mqtt_string (fst kv) ;;w write_mqtt_string (snd kv)) ;;w
  wret tt.

(** src/v5/connect.rs:484-501 `ConnectProperties` *)
Record ConnectProperties := mkConnectProperties {
  cp_session_expiry_interval : option N;
  cp_receive_maximum : option N;
  cp_max_packet_size : option N;
  cp_topic_alias_max : option N;
  cp_request_response_info : option N;
  cp_request_problem_info : option N;
  cp_user_properties : list (bytes * bytes);
  cp_authentication_method : option bytes;
  cp_authentication_data : option bytes
}.

(** src/v5/connect.rs:518-596: the local variables before the loop (the loop state is
    kept in the record it finally builds) *)
Definition cp_props_new : ConnectProperties := mkConnectProperties None None None None None None [] None None.

(** src/v5/connect.rs:518-596: assignment to the local variable for `cp_session_expiry_interval` *)
Definition set_cp_session_expiry_interval (self : ConnectProperties) (v : N) : ConnectProperties :=
  mkConnectProperties (Some v) (cp_receive_maximum self) (cp_max_packet_size self) (cp_topic_alias_max self) (cp_request_response_info self) (cp_request_problem_info self) (cp_user_properties self) (cp_authentication_method self) (cp_authentication_data self).
(** src/v5/connect.rs:518-596: assignment to the local variable for `cp_receive_maximum` *)
Definition set_cp_receive_maximum (self : ConnectProperties) (v : N) : ConnectProperties :=
  mkConnectProperties (cp_session_expiry_interval self) (Some v) (cp_max_packet_size self) (cp_topic_alias_max self) (cp_request_response_info self) (cp_request_problem_info self) (cp_user_properties self) (cp_authentication_method self) (cp_authentication_data self).
(** src/v5/connect.rs:518-596: assignment to the local variable for `cp_max_packet_size` *)
Definition set_cp_max_packet_size (self : ConnectProperties) (v : N) : ConnectProperties :=
  mkConnectProperties (cp_session_expiry_interval self) (cp_receive_maximum self) (Some v) (cp_topic_alias_max self) (cp_request_response_info self) (cp_request_problem_info self) (cp_user_properties self) (cp_authentication_method self) (cp_authentication_data self).
(** src/v5/connect.rs:518-596: assignment to the local variable for `cp_topic_alias_max` *)
Definition set_cp_topic_alias_max (self : ConnectProperties) (v : N) : ConnectProperties :=
  mkConnectProperties (cp_session_expiry_interval self) (cp_receive_maximum self) (cp_max_packet_size self) (Some v) (cp_request_response_info self) (cp_request_problem_info self) (cp_user_properties self) (cp_authentication_method self) (cp_authentication_data self).
(** src/v5/connect.rs:518-596: assignment to the local variable for `cp_request_response_info` *)
Definition set_cp_request_response_info (self : ConnectProperties) (v : N) : ConnectProperties :=
  mkConnectProperties (cp_session_expiry_interval self) (cp_receive_maximum self) (cp_max_packet_size self) (cp_topic_alias_max self) (Some v) (cp_request_problem_info self) (cp_user_properties self) (cp_authentication_method self) (cp_authentication_data self).
(** src/v5/connect.rs:518-596: assignment to the local variable for `cp_request_problem_info` *)
Definition set_cp_request_problem_info (self : ConnectProperties) (v : N) : ConnectProperties :=
  mkConnectProperties (cp_session_expiry_interval self) (cp_receive_maximum self) (cp_max_packet_size self) (cp_topic_alias_max self) (cp_request_response_info self) (Some v) (cp_user_properties self) (cp_authentication_method self) (cp_authentication_data self).
(** src/v5/connect.rs:518-596: `push` onto the local vector for `cp_user_properties` *)
Definition push_cp_user_properties (self : ConnectProperties) (v : bytes * bytes) : ConnectProperties :=
  mkConnectProperties (cp_session_expiry_interval self) (cp_receive_maximum self) (cp_max_packet_size self) (cp_topic_alias_max self) (cp_request_response_info self) (cp_request_problem_info self) (cp_user_properties self ++ [v]) (cp_authentication_method self) (cp_authentication_data self).
(** src/v5/connect.rs:518-596: assignment to the local variable for `cp_authentication_method` *)
Definition set_cp_authentication_method (self : ConnectProperties) (v : bytes) : ConnectProperties :=
  mkConnectProperties (cp_session_expiry_interval self) (cp_receive_maximum self) (cp_max_packet_size self) (cp_topic_alias_max self) (cp_request_response_info self) (cp_request_problem_info self) (cp_user_properties self) (Some v) (cp_authentication_data self).
(** src/v5/connect.rs:518-596: assignment to the local variable for `cp_authentication_data` *)
Definition set_cp_authentication_data (self : ConnectProperties) (v : bytes) : ConnectProperties :=
  mkConnectProperties (cp_session_expiry_interval self) (cp_receive_maximum self) (cp_max_packet_size self) (cp_topic_alias_max self) (cp_request_response_info self) (cp_request_problem_info self) (cp_user_properties self) (cp_authentication_method self) (Some v).

(** src/v5/connect.rs:598-638 `ConnectProperties::len` *)
Definition cp_props_len (self : ConnectProperties) : N :=
  let len := 0 in
  let len := if is_some (cp_session_expiry_interval self) then len + (1 + 4) else len in
  let len := if is_some (cp_receive_maximum self) then len + (1 + 2) else len in
  let len := if is_some (cp_max_packet_size self) then len + (1 + 4) else len in
  let len := if is_some (cp_topic_alias_max self) then len + (1 + 2) else len in
  let len := if is_some (cp_request_response_info self) then len + (1 + 1) else len in
  let len := if is_some (cp_request_problem_info self) then len + (1 + 1) else len in
  let len := fold_left (fun len kv => len + (1 + 2 + blen (fst kv) + 2 + blen (snd kv))) (cp_user_properties self) len in
  let len := match cp_authentication_method self with Some v => len + (1 + 2 + blen v) | None => len end in
  let len := match cp_authentication_data self with Some v => len + (1 + 2 + blen v) | None => len end in
  len.

(** src/v5/connect.rs:537-583: the `match property(prop)?` of the loop body.  Returns the
    updated variables and what is added to `cursor`. *)
Definition cp_props_step (ty : PropertyType) (prop : N) (self : ConnectProperties)
  : reader (ConnectProperties * N) :=
  match ty with
  | SessionExpiryInterval =>
      v <-r read_u32 ;; rret (set_cp_session_expiry_interval self v, 4)
  | ReceiveMaximum =>
      v <-r read_u16 ;; rret (set_cp_receive_maximum self v, 2)
  | MaximumPacketSize =>
      v <-r read_u32 ;; rret (set_cp_max_packet_size self v, 4)
  | TopicAliasMaximum =>
      v <-r read_u16 ;; rret (set_cp_topic_alias_max self v, 2)
  | RequestResponseInformation =>
      v <-r read_u8 ;; rret (set_cp_request_response_info self v, 1)
  | RequestProblemInformation =>
      v <-r read_u8 ;; rret (set_cp_request_problem_info self v, 1)
  | UserProperty =>
      key <-r read_mqtt_string ;;
      value <-r read_mqtt_string ;;
      rret (push_cp_user_properties self (key, value), 2 + blen key + 2 + blen value)
  | AuthenticationMethod =>
      v <-r read_mqtt_string ;; rret (set_cp_authentication_method self v, 2 + blen v)
  | AuthenticationData =>
      v <-r read_mqtt_bytes ;; rret (set_cp_authentication_data self v, 2 + blen v)
  | _ => rerr (InvalidPropertyType prop)
  end.

(** src/v5/connect.rs:518-596 `ConnectProperties::read` *)
Definition cp_extract : reader (option ConnectProperties) :=
  ll <-r peek_length ;;
  advance (fst ll) ;;r
  if snd ll =? 0 then rret None
  else
    p <-r props_loop cp_props_step (snd ll) cp_props_new ;;
    rret (Some p).

(** src/v5/connect.rs:640-691 `ConnectProperties::write` *)
Definition cp_props_write (self : ConnectProperties) : writer unit :=
  let len := cp_props_len self in
  write_remaining_length len ;;w
  when_some (cp_session_expiry_interval self) (fun v => put_u8 (property_u8 SessionExpiryInterval) ;;w put_u32 v) ;;w
  when_some (cp_receive_maximum self) (fun v => put_u8 (property_u8 ReceiveMaximum) ;;w put_u16 v) ;;w
  when_some (cp_max_packet_size self) (fun v => put_u8 (property_u8 MaximumPacketSize) ;;w put_u32 v) ;;w
  when_some (cp_topic_alias_max self) (fun v => put_u8 (property_u8 TopicAliasMaximum) ;;w put_u16 v) ;;w
  when_some (cp_request_response_info self) (fun v => put_u8 (property_u8 RequestResponseInformation) ;;w put_u8 v) ;;w
  when_some (cp_request_problem_info self) (fun v => put_u8 (property_u8 RequestProblemInformation) ;;w put_u8 v) ;;w
  for_each (cp_user_properties self) (fun kv =>
    put_u8 (property_u8 UserProperty) ;;w
    write_mqtt_string (fst kv) ;;w write_mqtt_string (snd kv)) ;;w
  when_some (cp_authentication_method self) (fun v => put_u8 (property_u8 AuthenticationMethod) ;;w write_mqtt_string v) ;;w
  when_some (cp_authentication_data self) (fun v => put_u8 (property_u8 AuthenticationData) ;;w write_mqtt_bytes v) ;;w
  wret tt.

(** src/v5/connect.rs:171-177 `LastWill` *)
Record LastWill := mkLastWill {
  lw_topic : bytes;
  lw_message : bytes;
  lw_qos : QoS;
  lw_retain : bool;
  lw_properties : option WillProperties
}.

(** src/v5/connect.rs:422-425 `Login` *)
Record Login := mkLogin { username : bytes; password : bytes }.

(** src/v5/connect.rs:8-23 `Connect` *)
Record Connect := mkConnect {
  protocol : Protocol;
  keep_alive : N;
  client_id : bytes;
  clean_session : bool;
  last_will : option LastWill;
  login : option Login;
  properties : option ConnectProperties
}.

(** src/v5/connect.rs:26-36 `Connect::new` *)
Definition new (id : bytes) : Connect := mkConnect V5 10 id true None None None.

(** src/v5/connect.rs:38-46 `Connect::set_login` *)
Definition set_login (self : Connect) (u p : bytes) : Connect :=
  mkConnect (protocol self) (keep_alive self) (client_id self) (clean_session self)
    (last_will self) (Some (mkLogin u p)) (properties self).

(** src/v5/connect.rs:180-193 `LastWill::new` *)
Definition lw_new (topic payload : bytes) (qos : QoS) (retain : bool) : LastWill :=
  mkLastWill topic payload qos retain None.

(** src/v5/connect.rs:428-433 `Login::new` *)
Definition login_new (u p : bytes) : Login := mkLogin u p.

(** src/v5/connect.rs:195-212 `LastWill::len` *)
Definition lw_len (self : LastWill) : N :=
  let len := 0 in
  let len := match lw_properties self with
             | Some properties => add_props_len len (wp_props_len properties)
             | None => len + 1
             end in
  len + (2 + blen (lw_topic self) + 2 + blen (lw_message self)).

(** src/v5/connect.rs:453-465 `Login::len` *)
Definition login_len (self : Login) : N :=
  let len := 0 in
  let len := if negb (is_empty (username self)) then len + (2 + blen (username self)) else len in
  let len := if negb (is_empty (password self)) then len + (2 + blen (password self)) else len in
  len.

(** the literal "MQTT" (src/v5/connect.rs:49, 88, 129). *)
Definition mqtt_name : bytes := [77; 81; 84; 84].

(** src/v5/connect.rs:48-79 `Connect::len` *)
Definition len (self : Connect) : N :=
  let len := 2 + blen mqtt_name + 1 + 1 + 2 in
  let len := match properties self with
             | Some properties => add_props_len len (cp_props_len properties)
             | None => len + 1
             end in
  let len := len + (2 + blen (client_id self)) in
  let len := match last_will self with Some last_will => len + lw_len last_will | None => len end in
  let len := match login self with Some login => len + login_len login | None => len end in
  len.

(** src/v5/connect.rs:214-238 `LastWill::read` *)
Definition lw_read (connect_flags : N) : reader (option LastWill) :=
  if N.land connect_flags 4 =? 0 then
    if negb (N.land connect_flags 56 =? 0) then rerr IncorrectPacketFormat
    else rret None
  else
    properties <-r wp_extract ;;
    will_topic <-r read_mqtt_string ;;
    will_message <-r read_mqtt_bytes ;;
    will_qos <-r rlift (qos (N.shiftr (N.land connect_flags 24) 3)) ;;
    rret (Some (mkLastWill will_topic will_message will_qos
                  (negb (N.land connect_flags 32 =? 0)) properties)).

(** src/v5/connect.rs:435-451 `Login::read` *)
Definition login_read (connect_flags : N) : reader (option Login) :=
  username <-r (if N.land connect_flags 128 =? 0 then rret [] else read_mqtt_string) ;;
  password <-r (if N.land connect_flags 64 =? 0 then rret [] else read_mqtt_string) ;;
  if is_empty username && is_empty password then rret None
  else rret (Some (mkLogin username password)).

(** src/v5/connect.rs:81-123 `Connect::read` *)
Definition read (fixed_header : FixedHeader) : reader Connect :=
  advance (fixed_header_len fixed_header) ;;r
  protocol_name <-r read_mqtt_string ;;
  protocol_level <-r read_u8 ;;
  if negb (bytes_eqb protocol_name mqtt_name) then rerr InvalidProtocol
  else
    protocol <-r (match protocol_level with
                  | 4 => rret V4
                  | 5 => rret V5
                  | num => rerr (InvalidProtocolLevel num)
                  end) ;;
    connect_flags <-r read_u8 ;;
    let clean_session := negb (N.land connect_flags 2 =? 0) in
    keep_alive <-r read_u16 ;;
    properties <-r (match protocol with
                    | V5 => cp_extract
                    | V4 => rret None
                    end) ;;
    client_id <-r read_mqtt_string ;;
    last_will <-r lw_read connect_flags ;;
    login <-r login_read connect_flags ;;
    rret (mkConnect protocol keep_alive client_id clean_session last_will login properties).

(** src/v5/connect.rs:240-258 `LastWill::write` (returns the flag bits) *)
Definition lw_write (self : LastWill) : writer N :=
  let connect_flags := N.lor 0 (N.lor 4 (N.shiftl (qos_u8 (lw_qos self)) 3)) in
  let connect_flags := if lw_retain self then N.lor connect_flags 0x20 else connect_flags in
  (match lw_properties self with
   | Some properties => wp_props_write properties
   | None => write_remaining_length 0 ;;w wret tt
   end) ;;w
  write_mqtt_string (lw_topic self) ;;w
  write_mqtt_bytes (lw_message self) ;;w
  wret connect_flags.

(** src/v5/connect.rs:467-480 `Login::write` (returns the flag bits) *)
Definition login_write (self : Login) : writer N :=
  let connect_flags := 0 in
  connect_flags <-w
    (if negb (is_empty (username self))
     then write_mqtt_string (username self) ;;w wret (N.lor connect_flags 0x80)
     else wret connect_flags) ;;
  (if negb (is_empty (password self))
   then write_mqtt_string (password self) ;;w wret (N.lor connect_flags 0x40)
   else wret connect_flags).

(** src/v5/connect.rs:125-166 `Connect::write`.  [set_index] is
    `buffer[flags_index] = connect_flags`, an index from the start of the
    caller's buffer. *)
Definition write (self : Connect) : writer N :=
  let len := len self in
  put_u8 16 ;;w
  count <-w write_remaining_length len ;;
  write_mqtt_string mqtt_name ;;w
  (match protocol self with V4 => put_u8 4 | V5 => put_u8 5 end) ;;w
  let flags_index := 1 + count + 2 + 4 + 1 in
  let connect_flags := 0 in
  let connect_flags := if clean_session self then N.lor connect_flags 2 else connect_flags in
  put_u8 connect_flags ;;w
  put_u16 (keep_alive self) ;;w
  (match properties self with
   | Some properties => cp_props_write properties
   | None => write_remaining_length 0 ;;w wret tt
   end) ;;w
  write_mqtt_string (client_id self) ;;w
  connect_flags <-w
    (match last_will self with
     | Some last_will => f <-w lw_write last_will ;; wret (N.lor connect_flags f)
     | None => wret connect_flags
     end) ;;
  connect_flags <-w
    (match login self with
     | Some login => f <-w login_write login ;; wret (N.lor connect_flags f)
     | None => wret connect_flags
     end) ;;
  set_index flags_index connect_flags ;;w
  wret len.

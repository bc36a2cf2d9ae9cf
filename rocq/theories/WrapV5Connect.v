(** WrapV5Connect.v -- GENERATED by tools/rust2coq.py from src/v5/connect.rs; do not edit.
    Not translated:
     src/v5/connect.rs:694 conditional item #[cfg(test)]
    No proofs in this file. *)
From Verif Require Import Base Lib SrcBase WrapBase.
From Verif Require V5Connect V5Property.
From Verif Require WrapLib WrapV5Property.

(** src/v5/connect.rs:26-36 `Connect::new` *)
Definition Connect_new (id : list N) : outcome V5Connect.Connect :=
  run (
    wret (V5Connect.mkConnect Base.V5 10 id true None None None)) [].

(** src/v5/connect.rs:38-46 `Connect::set_login` *)
Definition Connect_set_login (self : V5Connect.Connect) (u : list N) (p : list N) : outcome V5Connect.Connect :=
  run (
    let login := (V5Connect.mkLogin u p) in
    let self := (V5Connect.mkConnect (V5Connect.protocol self) (V5Connect.keep_alive self) (V5Connect.client_id self) (V5Connect.clean_session self) (V5Connect.last_will self) (Some login) (V5Connect.properties self)) in
    wret self) [].

(** src/v5/connect.rs:598-638 `ConnectProperties::len` *)
Definition ConnectProperties_len (self : V5Connect.ConnectProperties) : outcome N :=
  run (
    let len := 0 in
    len <-w (
      if (is_some (V5Connect.cp_session_expiry_interval self)) then (
        t1 <-w lift (usize_add 1 4) ;;
        len <-w lift (usize_add len t1) ;;
        wret len)
      else (
        wret len)) ;;
    len <-w (
      if (is_some (V5Connect.cp_receive_maximum self)) then (
        t2 <-w lift (usize_add 1 2) ;;
        len <-w lift (usize_add len t2) ;;
        wret len)
      else (
        wret len)) ;;
    len <-w (
      if (is_some (V5Connect.cp_max_packet_size self)) then (
        t3 <-w lift (usize_add 1 4) ;;
        len <-w lift (usize_add len t3) ;;
        wret len)
      else (
        wret len)) ;;
    len <-w (
      if (is_some (V5Connect.cp_topic_alias_max self)) then (
        t4 <-w lift (usize_add 1 2) ;;
        len <-w lift (usize_add len t4) ;;
        wret len)
      else (
        wret len)) ;;
    len <-w (
      if (is_some (V5Connect.cp_request_response_info self)) then (
        t5 <-w lift (usize_add 1 1) ;;
        len <-w lift (usize_add len t5) ;;
        wret len)
      else (
        wret len)) ;;
    len <-w (
      if (is_some (V5Connect.cp_request_problem_info self)) then (
        t6 <-w lift (usize_add 1 1) ;;
        len <-w lift (usize_add len t6) ;;
        wret len)
      else (
        wret len)) ;;
    len <-w for_ (fun '(key, value) len =>
        t7 <-w lift (usize_add 1 2) ;;
        t8 <-w lift (usize_add t7 (blen key)) ;;
        t9 <-w lift (usize_add t8 2) ;;
        t10 <-w lift (usize_add t9 (blen value)) ;;
        len <-w lift (usize_add len t10) ;;
        wret len)
      (V5Connect.cp_user_properties self) len ;;
    len <-w (
      match (V5Connect.cp_authentication_method self) with
      | Some authentication_method =>
          t11 <-w lift (usize_add 1 2) ;;
          t12 <-w lift (usize_add t11 (blen authentication_method)) ;;
          len <-w lift (usize_add len t12) ;;
          wret len
      | _ =>
          wret len
      end) ;;
    len <-w (
      match (V5Connect.cp_authentication_data self) with
      | Some authentication_data =>
          t13 <-w lift (usize_add 1 2) ;;
          t14 <-w lift (usize_add t13 (blen authentication_data)) ;;
          len <-w lift (usize_add len t14) ;;
          wret len
      | _ =>
          wret len
      end) ;;
    wret len) [].

(** src/v5/connect.rs:273-305 `WillProperties::len` *)
Definition WillProperties_len (self : V5Connect.WillProperties) : outcome N :=
  run (
    let len := 0 in
    len <-w (
      if (is_some (V5Connect.wp_delay_interval self)) then (
        t1 <-w lift (usize_add 1 4) ;;
        len <-w lift (usize_add len t1) ;;
        wret len)
      else (
        wret len)) ;;
    len <-w (
      if (is_some (V5Connect.wp_payload_format_indicator self)) then (
        t2 <-w lift (usize_add 1 1) ;;
        len <-w lift (usize_add len t2) ;;
        wret len)
      else (
        wret len)) ;;
    len <-w (
      if (is_some (V5Connect.wp_message_expiry_interval self)) then (
        t3 <-w lift (usize_add 1 4) ;;
        len <-w lift (usize_add len t3) ;;
        wret len)
      else (
        wret len)) ;;
    len <-w (
      match (V5Connect.wp_content_type self) with
      | Some typ =>
          t4 <-w lift (usize_add 1 2) ;;
          t5 <-w lift (usize_add t4 (blen typ)) ;;
          len <-w lift (usize_add len t5) ;;
          wret len
      | _ =>
          wret len
      end) ;;
    len <-w (
      match (V5Connect.wp_response_topic self) with
      | Some topic =>
          t6 <-w lift (usize_add 1 2) ;;
          t7 <-w lift (usize_add t6 (blen topic)) ;;
          len <-w lift (usize_add len t7) ;;
          wret len
      | _ =>
          wret len
      end) ;;
    len <-w (
      match (V5Connect.wp_correlation_data self) with
      | Some data =>
          t8 <-w lift (usize_add 1 2) ;;
          t9 <-w lift (usize_add t8 (blen data)) ;;
          len <-w lift (usize_add len t9) ;;
          wret len
      | _ =>
          wret len
      end) ;;
    len <-w for_ (fun '(key, value) len =>
        t10 <-w lift (usize_add 1 2) ;;
        t11 <-w lift (usize_add t10 (blen key)) ;;
        t12 <-w lift (usize_add t11 2) ;;
        t13 <-w lift (usize_add t12 (blen value)) ;;
        len <-w lift (usize_add len t13) ;;
        wret len)
      (V5Connect.wp_user_properties self) len ;;
    wret len) [].

(** src/v5/connect.rs:195-212 `LastWill::len` *)
Definition LastWill_len (self : V5Connect.LastWill) : outcome N :=
  run (
    let len := 0 in
    len <-w (
      match (V5Connect.lw_properties self) with
      | Some properties =>
          properties_len <-w lift (WillProperties_len properties) ;;
          properties_len_len <-w lift (WrapLib.len_len properties_len) ;;
          t1 <-w lift (usize_add properties_len_len properties_len) ;;
          len <-w lift (usize_add len t1) ;;
          wret len
      | None =>
          len <-w lift (usize_add len 1) ;;
          wret len
      end) ;;
    t2 <-w lift (usize_add 2 (blen (V5Connect.lw_topic self))) ;;
    t3 <-w lift (usize_add t2 2) ;;
    t4 <-w lift (usize_add t3 (blen (V5Connect.lw_message self))) ;;
    len <-w lift (usize_add len t4) ;;
    wret len) [].

(** src/v5/connect.rs:453-465 `Login::len` *)
Definition Login_len (self : V5Connect.Login) : outcome N :=
  run (
    let len := 0 in
    len <-w (
      if (negb (is_empty (V5Connect.username self))) then (
        t1 <-w lift (usize_add 2 (blen (V5Connect.username self))) ;;
        len <-w lift (usize_add len t1) ;;
        wret len)
      else (
        wret len)) ;;
    len <-w (
      if (negb (is_empty (V5Connect.password self))) then (
        t2 <-w lift (usize_add 2 (blen (V5Connect.password self))) ;;
        len <-w lift (usize_add len t2) ;;
        wret len)
      else (
        wret len)) ;;
    wret len) [].

(** src/v5/connect.rs:48-79 `Connect::len` *)
Definition Connect_len (self : V5Connect.Connect) : outcome N :=
  run (
    t1 <-w lift (usize_add 2 (blen [77; 81; 84; 84])) ;;
    t2 <-w lift (usize_add t1 1) ;;
    t3 <-w lift (usize_add t2 1) ;;
    len <-w lift (usize_add t3 2) ;;
    len <-w (
      match (V5Connect.properties self) with
      | Some properties =>
          properties_len <-w lift (ConnectProperties_len properties) ;;
          properties_len_len <-w lift (WrapLib.len_len properties_len) ;;
          t4 <-w lift (usize_add properties_len_len properties_len) ;;
          len <-w lift (usize_add len t4) ;;
          wret len
      | None =>
          len <-w lift (usize_add len 1) ;;
          wret len
      end) ;;
    t5 <-w lift (usize_add 2 (blen (V5Connect.client_id self))) ;;
    len <-w lift (usize_add len t5) ;;
    len <-w (
      match (V5Connect.last_will self) with
      | Some last_will =>
          t6 <-w lift (LastWill_len last_will) ;;
          len <-w lift (usize_add len t6) ;;
          wret len
      | _ =>
          wret len
      end) ;;
    len <-w (
      match (V5Connect.login self) with
      | Some login =>
          t7 <-w lift (Login_len login) ;;
          len <-w lift (usize_add len t7) ;;
          wret len
      | _ =>
          wret len
      end) ;;
    wret len) [].

(** src/v5/connect.rs:518-596 `ConnectProperties::read` *)
Definition ConnectProperties_read (fuel : nat) : writer (option V5Connect.ConnectProperties) :=
  let session_expiry_interval : option N := None in
  let receive_maximum : option N := None in
  let max_packet_size : option N := None in
  let topic_alias_max : option N := None in
  let request_response_info : option N := None in
  let request_problem_info : option N := None in
  let user_properties : list ((list N) * (list N)) := [] in
  let authentication_method : option (list N) := None in
  let authentication_data : option (list N) := None in
  t1 <-w get ;;
  t2 <-w lift (WrapLib.length t1) ;;
  let '(properties_len_len, properties_len) := t2 in
  keep (advance properties_len_len) ;;w
  if (properties_len =? 0) then (
    wret None)
  else (
    let cursor := 0 in
    '(cursor, session_expiry_interval, receive_maximum, max_packet_size, topic_alias_max, request_response_info, request_problem_info, user_properties, authentication_method, authentication_data) <-w while_ fuel
      (fun '(cursor, session_expiry_interval, receive_maximum, max_packet_size, topic_alias_max, request_response_info, request_problem_info, user_properties, authentication_method, authentication_data) =>
        wret (cursor <? properties_len))
      (fun '(cursor, session_expiry_interval, receive_maximum, max_packet_size, topic_alias_max, request_response_info, request_problem_info, user_properties, authentication_method, authentication_data) =>
        prop <-w WrapLib.read_u8 ;;
        cursor <-w lift (usize_add cursor 1) ;;
        t3 <-w lift (WrapV5Property.property prop) ;;
        '(session_expiry_interval, cursor, receive_maximum, max_packet_size, topic_alias_max, request_response_info, request_problem_info, user_properties, authentication_method, authentication_data) <-w (
          match t3 with
          | V5Property.SessionExpiryInterval =>
              t4 <-w WrapLib.read_u32 ;;
              let session_expiry_interval := (Some t4) in
              cursor <-w lift (usize_add cursor 4) ;;
              wret (session_expiry_interval, cursor, receive_maximum, max_packet_size, topic_alias_max, request_response_info, request_problem_info, user_properties, authentication_method, authentication_data)
          | V5Property.ReceiveMaximum =>
              t5 <-w WrapLib.read_u16 ;;
              let receive_maximum := (Some t5) in
              cursor <-w lift (usize_add cursor 2) ;;
              wret (session_expiry_interval, cursor, receive_maximum, max_packet_size, topic_alias_max, request_response_info, request_problem_info, user_properties, authentication_method, authentication_data)
          | V5Property.MaximumPacketSize =>
              t6 <-w WrapLib.read_u32 ;;
              let max_packet_size := (Some t6) in
              cursor <-w lift (usize_add cursor 4) ;;
              wret (session_expiry_interval, cursor, receive_maximum, max_packet_size, topic_alias_max, request_response_info, request_problem_info, user_properties, authentication_method, authentication_data)
          | V5Property.TopicAliasMaximum =>
              t7 <-w WrapLib.read_u16 ;;
              let topic_alias_max := (Some t7) in
              cursor <-w lift (usize_add cursor 2) ;;
              wret (session_expiry_interval, cursor, receive_maximum, max_packet_size, topic_alias_max, request_response_info, request_problem_info, user_properties, authentication_method, authentication_data)
          | V5Property.RequestResponseInformation =>
              t8 <-w WrapLib.read_u8 ;;
              let request_response_info := (Some t8) in
              cursor <-w lift (usize_add cursor 1) ;;
              wret (session_expiry_interval, cursor, receive_maximum, max_packet_size, topic_alias_max, request_response_info, request_problem_info, user_properties, authentication_method, authentication_data)
          | V5Property.RequestProblemInformation =>
              t9 <-w WrapLib.read_u8 ;;
              let request_problem_info := (Some t9) in
              cursor <-w lift (usize_add cursor 1) ;;
              wret (session_expiry_interval, cursor, receive_maximum, max_packet_size, topic_alias_max, request_response_info, request_problem_info, user_properties, authentication_method, authentication_data)
          | V5Property.UserProperty =>
              key <-w WrapLib.read_mqtt_string ;;
              value <-w WrapLib.read_mqtt_string ;;
              t10 <-w lift (usize_add 2 (blen key)) ;;
              t11 <-w lift (usize_add t10 2) ;;
              t12 <-w lift (usize_add t11 (blen value)) ;;
              cursor <-w lift (usize_add cursor t12) ;;
              let user_properties := (user_properties ++ [(key, value)]) in
              wret (session_expiry_interval, cursor, receive_maximum, max_packet_size, topic_alias_max, request_response_info, request_problem_info, user_properties, authentication_method, authentication_data)
          | V5Property.AuthenticationMethod =>
              method <-w WrapLib.read_mqtt_string ;;
              t13 <-w lift (usize_add 2 (blen method)) ;;
              cursor <-w lift (usize_add cursor t13) ;;
              let authentication_method := (Some method) in
              wret (session_expiry_interval, cursor, receive_maximum, max_packet_size, topic_alias_max, request_response_info, request_problem_info, user_properties, authentication_method, authentication_data)
          | V5Property.AuthenticationData =>
              data <-w WrapLib.read_mqtt_bytes ;;
              t14 <-w lift (usize_add 2 (blen data)) ;;
              cursor <-w lift (usize_add cursor t14) ;;
              let authentication_data := (Some data) in
              wret (session_expiry_interval, cursor, receive_maximum, max_packet_size, topic_alias_max, request_response_info, request_problem_info, user_properties, authentication_method, authentication_data)
          | _ =>
              werr (Base.InvalidPropertyType prop)
          end) ;;
        wret (cursor, session_expiry_interval, receive_maximum, max_packet_size, topic_alias_max, request_response_info, request_problem_info, user_properties, authentication_method, authentication_data))
      (cursor, session_expiry_interval, receive_maximum, max_packet_size, topic_alias_max, request_response_info, request_problem_info, user_properties, authentication_method, authentication_data) ;;
    wret (Some (V5Connect.mkConnectProperties session_expiry_interval receive_maximum max_packet_size topic_alias_max request_response_info request_problem_info user_properties authentication_method authentication_data))).

(** src/v5/connect.rs:307-375 `WillProperties::read` *)
Definition WillProperties_read (fuel : nat) : writer (option V5Connect.WillProperties) :=
  let delay_interval : option N := None in
  let payload_format_indicator : option N := None in
  let message_expiry_interval : option N := None in
  let content_type : option (list N) := None in
  let response_topic : option (list N) := None in
  let correlation_data : option (list N) := None in
  let user_properties : list ((list N) * (list N)) := [] in
  t1 <-w get ;;
  t2 <-w lift (WrapLib.length t1) ;;
  let '(properties_len_len, properties_len) := t2 in
  keep (advance properties_len_len) ;;w
  if (properties_len =? 0) then (
    wret None)
  else (
    let cursor := 0 in
    '(cursor, delay_interval, payload_format_indicator, message_expiry_interval, content_type, response_topic, correlation_data, user_properties) <-w while_ fuel
      (fun '(cursor, delay_interval, payload_format_indicator, message_expiry_interval, content_type, response_topic, correlation_data, user_properties) =>
        wret (cursor <? properties_len))
      (fun '(cursor, delay_interval, payload_format_indicator, message_expiry_interval, content_type, response_topic, correlation_data, user_properties) =>
        prop <-w WrapLib.read_u8 ;;
        cursor <-w lift (usize_add cursor 1) ;;
        t3 <-w lift (WrapV5Property.property prop) ;;
        '(delay_interval, cursor, payload_format_indicator, message_expiry_interval, content_type, response_topic, correlation_data, user_properties) <-w (
          match t3 with
          | V5Property.WillDelayInterval =>
              t4 <-w WrapLib.read_u32 ;;
              let delay_interval := (Some t4) in
              cursor <-w lift (usize_add cursor 4) ;;
              wret (delay_interval, cursor, payload_format_indicator, message_expiry_interval, content_type, response_topic, correlation_data, user_properties)
          | V5Property.PayloadFormatIndicator =>
              t5 <-w WrapLib.read_u8 ;;
              let payload_format_indicator := (Some t5) in
              cursor <-w lift (usize_add cursor 1) ;;
              wret (delay_interval, cursor, payload_format_indicator, message_expiry_interval, content_type, response_topic, correlation_data, user_properties)
          | V5Property.MessageExpiryInterval =>
              t6 <-w WrapLib.read_u32 ;;
              let message_expiry_interval := (Some t6) in
              cursor <-w lift (usize_add cursor 4) ;;
              wret (delay_interval, cursor, payload_format_indicator, message_expiry_interval, content_type, response_topic, correlation_data, user_properties)
          | V5Property.ContentType =>
              typ <-w WrapLib.read_mqtt_string ;;
              t7 <-w lift (usize_add 2 (blen typ)) ;;
              cursor <-w lift (usize_add cursor t7) ;;
              let content_type := (Some typ) in
              wret (delay_interval, cursor, payload_format_indicator, message_expiry_interval, content_type, response_topic, correlation_data, user_properties)
          | V5Property.ResponseTopic =>
              topic <-w WrapLib.read_mqtt_string ;;
              t8 <-w lift (usize_add 2 (blen topic)) ;;
              cursor <-w lift (usize_add cursor t8) ;;
              let response_topic := (Some topic) in
              wret (delay_interval, cursor, payload_format_indicator, message_expiry_interval, content_type, response_topic, correlation_data, user_properties)
          | V5Property.CorrelationData =>
              data <-w WrapLib.read_mqtt_bytes ;;
              t9 <-w lift (usize_add 2 (blen data)) ;;
              cursor <-w lift (usize_add cursor t9) ;;
              let correlation_data := (Some data) in
              wret (delay_interval, cursor, payload_format_indicator, message_expiry_interval, content_type, response_topic, correlation_data, user_properties)
          | V5Property.UserProperty =>
              key <-w WrapLib.read_mqtt_string ;;
              value <-w WrapLib.read_mqtt_string ;;
              t10 <-w lift (usize_add 2 (blen key)) ;;
              t11 <-w lift (usize_add t10 2) ;;
              t12 <-w lift (usize_add t11 (blen value)) ;;
              cursor <-w lift (usize_add cursor t12) ;;
              let user_properties := (user_properties ++ [(key, value)]) in
              wret (delay_interval, cursor, payload_format_indicator, message_expiry_interval, content_type, response_topic, correlation_data, user_properties)
          | _ =>
              werr (Base.InvalidPropertyType prop)
          end) ;;
        wret (cursor, delay_interval, payload_format_indicator, message_expiry_interval, content_type, response_topic, correlation_data, user_properties))
      (cursor, delay_interval, payload_format_indicator, message_expiry_interval, content_type, response_topic, correlation_data, user_properties) ;;
    wret (Some (V5Connect.mkWillProperties delay_interval payload_format_indicator message_expiry_interval content_type response_topic correlation_data user_properties))).

(** src/v5/connect.rs:214-238 `LastWill::read` *)
Definition LastWill_read (fuel : nat) (connect_flags : N) : writer (option V5Connect.LastWill) :=
  last_will <-w (
    match (N.land connect_flags 4) with
    | 0 =>
        if (negb ((N.land connect_flags 56) =? 0)) then (
          werr Base.IncorrectPacketFormat)
        else (
          match (N.land connect_flags 4) with
          | 0 =>
              wret None
          | _ =>
              properties <-w WillProperties_read fuel ;;
              will_topic <-w WrapLib.read_mqtt_string ;;
              will_message <-w WrapLib.read_mqtt_bytes ;;
              t1 <-w lift (u8_shr (N.land connect_flags 24) 3) ;;
              will_qos <-w lift (WrapLib.qos t1) ;;
              wret (Some (V5Connect.mkLastWill will_topic will_message will_qos (negb ((N.land connect_flags 32) =? 0)) properties))
          end)
    | _ =>
        match (N.land connect_flags 4) with
        | 0 =>
            wret None
        | _ =>
            properties <-w WillProperties_read fuel ;;
            will_topic <-w WrapLib.read_mqtt_string ;;
            will_message <-w WrapLib.read_mqtt_bytes ;;
            t1 <-w lift (u8_shr (N.land connect_flags 24) 3) ;;
            will_qos <-w lift (WrapLib.qos t1) ;;
            wret (Some (V5Connect.mkLastWill will_topic will_message will_qos (negb ((N.land connect_flags 32) =? 0)) properties))
        end
    end) ;;
  wret last_will.

(** src/v5/connect.rs:435-451 `Login::read` *)
Definition Login_read (connect_flags : N) : writer (option V5Connect.Login) :=
  username <-w (
    match (N.land connect_flags 128) with
    | 0 =>
        wret []
    | _ =>
        t1 <-w WrapLib.read_mqtt_string ;;
        wret t1
    end) ;;
  password <-w (
    match (N.land connect_flags 64) with
    | 0 =>
        wret []
    | _ =>
        t2 <-w WrapLib.read_mqtt_string ;;
        wret t2
    end) ;;
  if ((is_empty username) && (is_empty password)) then (
    wret None)
  else (
    wret (Some (V5Connect.mkLogin username password))).

(** src/v5/connect.rs:81-123 `Connect::read` *)
Definition Connect_read (fuel : nat) (fixed_header : Lib.FixedHeader) (bytes : list N) : outcome V5Connect.Connect :=
  run (
    let variable_header_index := (Lib.fixed_header_len fixed_header) in
    keep (advance variable_header_index) ;;w
    protocol_name <-w WrapLib.read_mqtt_string ;;
    protocol_level <-w WrapLib.read_u8 ;;
    (
      if (negb (bytes_eqb protocol_name [77; 81; 84; 84])) then (
        werr Base.InvalidProtocol)
      else (
        wret tt)) ;;w
    protocol <-w (
      match protocol_level with
      | 4 =>
          wret Base.V4
      | 5 =>
          wret Base.V5
      | num =>
          werr (Base.InvalidProtocolLevel num)
      end) ;;
    connect_flags <-w WrapLib.read_u8 ;;
    let clean_session := (negb ((N.land connect_flags 2) =? 0)) in
    keep_alive <-w WrapLib.read_u16 ;;
    properties <-w (
      match protocol with
      | Base.V5 =>
          t1 <-w ConnectProperties_read fuel ;;
          wret t1
      | Base.V4 =>
          wret None
      end) ;;
    client_id <-w WrapLib.read_mqtt_string ;;
    last_will <-w LastWill_read fuel connect_flags ;;
    login <-w Login_read connect_flags ;;
    let connect := (V5Connect.mkConnect protocol keep_alive client_id clean_session last_will login properties) in
    wret connect) bytes.

(** src/v5/connect.rs:640-691 `ConnectProperties::write` *)
Definition ConnectProperties_write (fuel : nat) (self : V5Connect.ConnectProperties) : writer unit :=
  len <-w lift (ConnectProperties_len self) ;;
  t1 <-w WrapLib.write_remaining_length fuel len ;;
  (
    match (V5Connect.cp_session_expiry_interval self) with
    | Some session_expiry_interval =>
        put_u8 (WrapV5Property.PropertyType_as_u8 V5Property.SessionExpiryInterval) ;;w
        put_u32 session_expiry_interval ;;w
        wret tt
    | _ =>
        wret tt
    end) ;;w
  (
    match (V5Connect.cp_receive_maximum self) with
    | Some receive_maximum =>
        put_u8 (WrapV5Property.PropertyType_as_u8 V5Property.ReceiveMaximum) ;;w
        put_u16 receive_maximum ;;w
        wret tt
    | _ =>
        wret tt
    end) ;;w
  (
    match (V5Connect.cp_max_packet_size self) with
    | Some max_packet_size =>
        put_u8 (WrapV5Property.PropertyType_as_u8 V5Property.MaximumPacketSize) ;;w
        put_u32 max_packet_size ;;w
        wret tt
    | _ =>
        wret tt
    end) ;;w
  (
    match (V5Connect.cp_topic_alias_max self) with
    | Some topic_alias_max =>
        put_u8 (WrapV5Property.PropertyType_as_u8 V5Property.TopicAliasMaximum) ;;w
        put_u16 topic_alias_max ;;w
        wret tt
    | _ =>
        wret tt
    end) ;;w
  (
    match (V5Connect.cp_request_response_info self) with
    | Some request_response_info =>
        put_u8 (WrapV5Property.PropertyType_as_u8 V5Property.RequestResponseInformation) ;;w
        put_u8 request_response_info ;;w
        wret tt
    | _ =>
        wret tt
    end) ;;w
  (
    match (V5Connect.cp_request_problem_info self) with
    | Some request_problem_info =>
        put_u8 (WrapV5Property.PropertyType_as_u8 V5Property.RequestProblemInformation) ;;w
        put_u8 request_problem_info ;;w
        wret tt
    | _ =>
        wret tt
    end) ;;w
  for_ (fun '(key, value) (_ : unit) =>
      put_u8 (WrapV5Property.PropertyType_as_u8 V5Property.UserProperty) ;;w
      WrapLib.write_mqtt_string key ;;w
      WrapLib.write_mqtt_string value ;;w
      wret tt)
    (V5Connect.cp_user_properties self) tt ;;w
  (
    match (V5Connect.cp_authentication_method self) with
    | Some authentication_method =>
        put_u8 (WrapV5Property.PropertyType_as_u8 V5Property.AuthenticationMethod) ;;w
        WrapLib.write_mqtt_string authentication_method ;;w
        wret tt
    | _ =>
        wret tt
    end) ;;w
  (
    match (V5Connect.cp_authentication_data self) with
    | Some authentication_data =>
        put_u8 (WrapV5Property.PropertyType_as_u8 V5Property.AuthenticationData) ;;w
        WrapLib.write_mqtt_bytes authentication_data ;;w
        wret tt
    | _ =>
        wret tt
    end) ;;w
  wret tt.

(** src/v5/connect.rs:377-418 `WillProperties::write` *)
Definition WillProperties_write (fuel : nat) (self : V5Connect.WillProperties) : writer unit :=
  len <-w lift (WillProperties_len self) ;;
  t1 <-w WrapLib.write_remaining_length fuel len ;;
  (
    match (V5Connect.wp_delay_interval self) with
    | Some delay_interval =>
        put_u8 (WrapV5Property.PropertyType_as_u8 V5Property.WillDelayInterval) ;;w
        put_u32 delay_interval ;;w
        wret tt
    | _ =>
        wret tt
    end) ;;w
  (
    match (V5Connect.wp_payload_format_indicator self) with
    | Some payload_format_indicator =>
        put_u8 (WrapV5Property.PropertyType_as_u8 V5Property.PayloadFormatIndicator) ;;w
        put_u8 payload_format_indicator ;;w
        wret tt
    | _ =>
        wret tt
    end) ;;w
  (
    match (V5Connect.wp_message_expiry_interval self) with
    | Some message_expiry_interval =>
        put_u8 (WrapV5Property.PropertyType_as_u8 V5Property.MessageExpiryInterval) ;;w
        put_u32 message_expiry_interval ;;w
        wret tt
    | _ =>
        wret tt
    end) ;;w
  (
    match (V5Connect.wp_content_type self) with
    | Some typ =>
        put_u8 (WrapV5Property.PropertyType_as_u8 V5Property.ContentType) ;;w
        WrapLib.write_mqtt_string typ ;;w
        wret tt
    | _ =>
        wret tt
    end) ;;w
  (
    match (V5Connect.wp_response_topic self) with
    | Some topic =>
        put_u8 (WrapV5Property.PropertyType_as_u8 V5Property.ResponseTopic) ;;w
        WrapLib.write_mqtt_string topic ;;w
        wret tt
    | _ =>
        wret tt
    end) ;;w
  (
    match (V5Connect.wp_correlation_data self) with
    | Some data =>
        put_u8 (WrapV5Property.PropertyType_as_u8 V5Property.CorrelationData) ;;w
        WrapLib.write_mqtt_bytes data ;;w
        wret tt
    | _ =>
        wret tt
    end) ;;w
  for_ (fun '(key, value) (_ : unit) =>
      put_u8 (WrapV5Property.PropertyType_as_u8 V5Property.UserProperty) ;;w
      WrapLib.write_mqtt_string key ;;w
      WrapLib.write_mqtt_string value ;;w
      wret tt)
    (V5Connect.wp_user_properties self) tt ;;w
  wret tt.

(** src/v5/connect.rs:240-258 `LastWill::write` *)
Definition LastWill_write (fuel : nat) (self : V5Connect.LastWill) : writer N :=
  let connect_flags := 0 in
  t1 <-w lift (u8_shl (WrapLib.QoS_as_u8 (V5Connect.lw_qos self)) 3) ;;
  let connect_flags := (N.lor connect_flags (N.lor 4 t1)) in
  connect_flags <-w (
    if (V5Connect.lw_retain self) then (
      let connect_flags := (N.lor connect_flags 32) in
      wret connect_flags)
    else (
      wret connect_flags)) ;;
  (
    match (V5Connect.lw_properties self) with
    | Some properties =>
        WillProperties_write fuel properties ;;w
        wret tt
    | None =>
        t2 <-w WrapLib.write_remaining_length fuel 0 ;;
        wret tt
    end) ;;w
  WrapLib.write_mqtt_string (V5Connect.lw_topic self) ;;w
  WrapLib.write_mqtt_bytes (V5Connect.lw_message self) ;;w
  wret connect_flags.

(** src/v5/connect.rs:467-480 `Login::write` *)
Definition Login_write (self : V5Connect.Login) : writer N :=
  let connect_flags := 0 in
  connect_flags <-w (
    if (negb (is_empty (V5Connect.username self))) then (
      let connect_flags := (N.lor connect_flags 128) in
      WrapLib.write_mqtt_string (V5Connect.username self) ;;w
      wret connect_flags)
    else (
      wret connect_flags)) ;;
  connect_flags <-w (
    if (negb (is_empty (V5Connect.password self))) then (
      let connect_flags := (N.lor connect_flags 64) in
      WrapLib.write_mqtt_string (V5Connect.password self) ;;w
      wret connect_flags)
    else (
      wret connect_flags)) ;;
  wret connect_flags.

(** src/v5/connect.rs:125-166 `Connect::write` *)
Definition Connect_write (fuel : nat) (self : V5Connect.Connect) : writer N :=
  len <-w lift (Connect_len self) ;;
  put_u8 16 ;;w
  count <-w WrapLib.write_remaining_length fuel len ;;
  WrapLib.write_mqtt_string [77; 81; 84; 84] ;;w
  (
    match (V5Connect.protocol self) with
    | Base.V4 =>
        put_u8 4 ;;w
        wret tt
    | Base.V5 =>
        put_u8 5 ;;w
        wret tt
    end) ;;w
  t1 <-w lift (usize_add 1 count) ;;
  t2 <-w lift (usize_add t1 2) ;;
  t3 <-w lift (usize_add t2 4) ;;
  flags_index <-w lift (usize_add t3 1) ;;
  let connect_flags := 0 in
  connect_flags <-w (
    if (V5Connect.clean_session self) then (
      let connect_flags := (N.lor connect_flags 2) in
      wret connect_flags)
    else (
      wret connect_flags)) ;;
  put_u8 connect_flags ;;w
  put_u16 (V5Connect.keep_alive self) ;;w
  (
    match (V5Connect.properties self) with
    | Some properties =>
        ConnectProperties_write fuel properties ;;w
        wret tt
    | None =>
        t4 <-w WrapLib.write_remaining_length fuel 0 ;;
        wret tt
    end) ;;w
  WrapLib.write_mqtt_string (V5Connect.client_id self) ;;w
  connect_flags <-w (
    match (V5Connect.last_will self) with
    | Some last_will =>
        t5 <-w LastWill_write fuel last_will ;;
        let connect_flags := (N.lor connect_flags t5) in
        wret connect_flags
    | _ =>
        wret connect_flags
    end) ;;
  connect_flags <-w (
    match (V5Connect.login self) with
    | Some login =>
        t6 <-w Login_write login ;;
        let connect_flags := (N.lor connect_flags t6) in
        wret connect_flags
    | _ =>
        wret connect_flags
    end) ;;
  set_index flags_index connect_flags ;;w
  wret len.

(** src/v5/connect.rs:180-193 `LastWill::new` *)
Definition LastWill_new (topic : list N) (payload : list N) (qos : Base.QoS) (retain : bool) : outcome V5Connect.LastWill :=
  run (
    wret (V5Connect.mkLastWill topic payload qos retain None)) [].

(** src/v5/connect.rs:428-433 `Login::new` *)
Definition Login_new (u : list N) (p : list N) : outcome V5Connect.Login :=
  run (
    wret (V5Connect.mkLogin u p)) [].

(** src/v5/connect.rs:504-516 `ConnectProperties::_new` *)
Definition ConnectProperties__new : outcome V5Connect.ConnectProperties :=
  run (
    wret (V5Connect.mkConnectProperties None None None None None None [] None None)) [].

(** RelV5Publish.v -- generated by tools/gen_release.py from V5Publish.v: its definitions that use
    machine integers, without overflow checks (Release.v).  No proofs in this file. *)
From Verif Require Import Base Utf8 Lib V5Property V5Publish Release RelLib RelV5Property.

Section WithBuild.
Context {build : Build}.

(** src/v5/publish.rs:145-181 `PublishProperties::len` *)
Definition props_len (self : PublishProperties) : N :=
  let len := 0 in
  let len := if is_some (payload_format_indicator self) then len + (1 + 1) else len in
  let len := if is_some (message_expiry_interval self) then len + (1 + 4) else len in
  let len := if is_some (topic_alias self) then len + (1 + 2) else len in
  let len := match response_topic self with Some v => len + (1 + 2 + blen v) | None => len end in
  let len := match correlation_data self with Some v => len + (1 + 2 + blen v) | None => len end in
  let len := fold_left (fun len kv => len + (1 + 2 + blen (fst kv) + 2 + blen (snd kv))) (user_properties self) len in
  let len := fold_left (fun len id => len + (1 + len_len id)) (subscription_identifiers self) len in
  let len := match content_type self with Some v => len + (1 + 2 + blen v) | None => len end in
  len.

(** src/v5/publish.rs:201-247: the `match property(prop)?` of the loop body.  Returns the
    updated variables and what is added to `cursor`. *)
Definition props_step (ty : PropertyType) (prop : N) (self : PublishProperties)
  : reader (PublishProperties * N) :=
  match ty with
  | PayloadFormatIndicator =>
      v <-r read_u8 ;; rret (set_payload_format_indicator self v, 1)
  | MessageExpiryInterval =>
      v <-r read_u32 ;; rret (set_message_expiry_interval self v, 4)
  | TopicAlias =>
      v <-r read_u16 ;; rret (set_topic_alias self v, 2)
  | ResponseTopic =>
      v <-r read_mqtt_string ;; rret (set_response_topic self v, 2 + blen v)
  | CorrelationData =>
      v <-r read_mqtt_bytes ;; rret (set_correlation_data self v, 2 + blen v)
  | UserProperty =>
      key <-r read_mqtt_string ;;
      value <-r read_mqtt_string ;;
      rret (push_user_properties self (key, value), 2 + blen key + 2 + blen value)
  | SubscriptionIdentifier =>
      ll <-r peek_length ;;
      advance (fst ll) ;;r
      rret (push_subscription_identifiers self (snd ll), 1 + fst ll)
  | ContentType =>
      v <-r read_mqtt_string ;; rret (set_content_type self v, 2 + blen v)
  | _ => rerr (InvalidPropertyType prop)
  end.

(** src/v5/publish.rs:183-259 `PublishProperties::extract` *)
Definition extract : reader (option PublishProperties) :=
  ll <-r peek_length ;;
  advance (fst ll) ;;r
  if snd ll =? 0 then rret None
  else
    p <-r props_loop props_step (snd ll) props_new ;;
    rret (Some p).

(** src/v5/publish.rs:261-307 `PublishProperties::write` *)
Definition props_write (self : PublishProperties) : writer unit :=
  let len := props_len self in
  write_remaining_length len ;;w
  when_some (payload_format_indicator self) (fun v => put_u8 (property_u8 PayloadFormatIndicator) ;;w put_u8 v) ;;w
  when_some (message_expiry_interval self) (fun v => put_u8 (property_u8 MessageExpiryInterval) ;;w put_u32 v) ;;w
  when_some (topic_alias self) (fun v => put_u8 (property_u8 TopicAlias) ;;w put_u16 v) ;;w
  when_some (response_topic self) (fun v => put_u8 (property_u8 ResponseTopic) ;;w write_mqtt_string v) ;;w
  when_some (correlation_data self) (fun v => put_u8 (property_u8 CorrelationData) ;;w write_mqtt_bytes v) ;;w
  for_each (user_properties self) (fun kv =>
    put_u8 (property_u8 UserProperty) ;;w
    write_mqtt_string (fst kv) ;;w write_mqtt_string (snd kv)) ;;w
  for_each (subscription_identifiers self) (fun id =>
    put_u8 (property_u8 SubscriptionIdentifier) ;;w
    write_remaining_length id ;;w wret tt) ;;w
  when_some (content_type self) (fun v => put_u8 (property_u8 ContentType) ;;w write_mqtt_string v) ;;w
  wret tt.

(** src/v5/publish.rs:44-64 `Publish::len` *)
Definition len (self : Publish) : N :=
  let len := 2 + blen (topic self) in
  let len := if negb (qos_eqb (qos self) AtMostOnce) && negb (pkid self =? 0)
             then len + 2 else len in
  let len := match properties self with
             | Some properties => add_props_len len (props_len properties)
             | None => len + 1
             end in
  len + blen (payload self).

(** src/v5/publish.rs:66-96 `Publish::read` *)
Definition read (fixed_header : FixedHeader) : reader Publish :=
  qos <-r rlift (Lib.qos (N.shiftr (N.land (byte1 fixed_header) 6) 1)) ;;
  let dup := negb (N.land (byte1 fixed_header) 8 =? 0) in
  let retain := negb (N.land (byte1 fixed_header) 1 =? 0) in
  advance (fixed_header_len fixed_header) ;;r
  topic <-r read_mqtt_string ;;
  pkid <-r (match qos with
            | AtMostOnce => rret 0
            | AtLeastOnce | ExactlyOnce => read_u16
            end) ;;
  if negb (qos_eqb qos AtMostOnce) && (pkid =? 0) then rerr PacketIdZero
  else
    properties <-r extract ;;
    fun bytes => Ok (mkPublish dup qos retain topic pkid properties bytes, []).

(** src/v5/publish.rs:98-129 `Publish::write` *)
Definition write (self : Publish) : writer N :=
  let len := len self in
  let dup := bool_u8 (dup self) in
  let qos_n := qos_u8 (qos self) in
  let retain := bool_u8 (retain self) in
  put_u8 (N.lor (N.lor (N.lor 48 retain) (N.shiftl qos_n 1)) (N.shiftl dup 3)) ;;w
  count <-w write_remaining_length len ;;
  write_mqtt_string (topic self) ;;w
  (if negb (qos_eqb (qos self) AtMostOnce) then
     if pkid self =? 0 then werr PacketIdZero
     else put_u16 (pkid self)
   else wret tt) ;;w
  (match properties self with
   | Some properties => props_write properties
   | None => write_remaining_length 0 ;;w wret tt
   end) ;;w
  extend_from_slice (payload self) ;;w
  wret (1 + count + len).

End WithBuild.

(** TraceV5Publish.v -- GENERATED by tools/rust2coq.py from src/v5/publish.rs; do not edit.
    Not translated:
     src/v5/publish.rs:324 conditional item #[cfg(test)]
    No proofs in this file. *)
From Verif Require Import Base Lib SrcBase TraceBase.
From Verif Require V5Property V5Publish.
From Verif Require TraceLib TraceV5Property.

(** src/v5/publish.rs:20-30 `Publish::new` *)
Definition Publish_new (topic : list N) (qos : Base.QoS) (payload : list N) : outcome V5Publish.Publish :=
  run (
    wret (V5Publish.mkPublish false qos false topic 0 None payload)) [].

(** src/v5/publish.rs:32-42 `Publish::from_bytes` *)
Definition Publish_from_bytes (topic : list N) (qos : Base.QoS) (payload : list N) : outcome V5Publish.Publish :=
  run (
    wret (V5Publish.mkPublish false qos false topic 0 None payload)) [].

(** src/v5/publish.rs:145-181 `PublishProperties::len` *)
Definition PublishProperties_len (self : V5Publish.PublishProperties) : outcome N :=
  run (
    let len := 0 in
    len <-w (
      if (is_some (V5Publish.payload_format_indicator self)) then (
        t1 <-w lift (usize_add 1 1) ;;
        len <-w lift (usize_add len t1) ;;
        wret len)
      else (
        wret len)) ;;
    len <-w (
      if (is_some (V5Publish.message_expiry_interval self)) then (
        t2 <-w lift (usize_add 1 4) ;;
        len <-w lift (usize_add len t2) ;;
        wret len)
      else (
        wret len)) ;;
    len <-w (
      if (is_some (V5Publish.topic_alias self)) then (
        t3 <-w lift (usize_add 1 2) ;;
        len <-w lift (usize_add len t3) ;;
        wret len)
      else (
        wret len)) ;;
    len <-w (
      match (V5Publish.response_topic self) with
      | Some topic =>
          t4 <-w lift (usize_add 1 2) ;;
          t5 <-w lift (usize_add t4 (blen topic)) ;;
          len <-w lift (usize_add len t5) ;;
          wret len
      | _ =>
          wret len
      end) ;;
    len <-w (
      match (V5Publish.correlation_data self) with
      | Some data =>
          t6 <-w lift (usize_add 1 2) ;;
          t7 <-w lift (usize_add t6 (blen data)) ;;
          len <-w lift (usize_add len t7) ;;
          wret len
      | _ =>
          wret len
      end) ;;
    len <-w for_ (fun '(key, value) len =>
        t8 <-w lift (usize_add 1 2) ;;
        t9 <-w lift (usize_add t8 (blen key)) ;;
        t10 <-w lift (usize_add t9 2) ;;
        t11 <-w lift (usize_add t10 (blen value)) ;;
        len <-w lift (usize_add len t11) ;;
        wret len)
      (V5Publish.user_properties self) len ;;
    len <-w for_ (fun id len =>
        t12 <-w lift (TraceLib.len_len id) ;;
        t13 <-w lift (usize_add 1 t12) ;;
        len <-w lift (usize_add len t13) ;;
        wret len)
      (V5Publish.subscription_identifiers self) len ;;
    len <-w (
      match (V5Publish.content_type self) with
      | Some typ =>
          t14 <-w lift (usize_add 1 2) ;;
          t15 <-w lift (usize_add t14 (blen typ)) ;;
          len <-w lift (usize_add len t15) ;;
          wret len
      | _ =>
          wret len
      end) ;;
    wret len) [].

(** src/v5/publish.rs:44-64 `Publish::len` *)
Definition Publish_len (self : V5Publish.Publish) : outcome N :=
  run (
    len <-w lift (usize_add 2 (blen (V5Publish.topic self))) ;;
    len <-w (
      if ((negb (TraceLib.QoS_as_u8 (V5Publish.qos self) =? TraceLib.QoS_as_u8 Base.AtMostOnce)) && (negb ((V5Publish.pkid self) =? 0))) then (
        len <-w lift (usize_add len 2) ;;
        wret len)
      else (
        wret len)) ;;
    len <-w (
      match (V5Publish.properties self) with
      | Some properties =>
          properties_len <-w lift (PublishProperties_len properties) ;;
          properties_len_len <-w lift (TraceLib.len_len properties_len) ;;
          t1 <-w lift (usize_add properties_len_len properties_len) ;;
          len <-w lift (usize_add len t1) ;;
          wret len
      | None =>
          len <-w lift (usize_add len 1) ;;
          wret len
      end) ;;
    len <-w lift (usize_add len (blen (V5Publish.payload self))) ;;
    wret len) [].

(** src/v5/publish.rs:183-259 `PublishProperties::extract` *)
Definition PublishProperties_extract (fuel : nat) : writer (option V5Publish.PublishProperties) :=
  let payload_format_indicator : option N := None in
  let message_expiry_interval : option N := None in
  let topic_alias : option N := None in
  let response_topic : option (list N) := None in
  let correlation_data : option (list N) := None in
  let user_properties : list ((list N) * (list N)) := [] in
  let subscription_identifiers : list N := [] in
  let content_type : option (list N) := None in
  t1 <-w get ;;
  t2 <-w lift (TraceLib.length t1) ;;
  let '(properties_len_len, properties_len) := t2 in
  keep (advance properties_len_len) ;;w
  if (properties_len =? 0) then (
    wret None)
  else (
    let cursor := 0 in
    '(cursor, payload_format_indicator, message_expiry_interval, topic_alias, response_topic, correlation_data, user_properties, subscription_identifiers, content_type) <-w while_ fuel
      (fun '(cursor, payload_format_indicator, message_expiry_interval, topic_alias, response_topic, correlation_data, user_properties, subscription_identifiers, content_type) =>
        wret (cursor <? properties_len))
      (fun '(cursor, payload_format_indicator, message_expiry_interval, topic_alias, response_topic, correlation_data, user_properties, subscription_identifiers, content_type) =>
        prop <-w TraceLib.read_u8 ;;
        cursor <-w lift (usize_add cursor 1) ;;
        t3 <-w lift (TraceV5Property.property prop) ;;
        '(payload_format_indicator, cursor, message_expiry_interval, topic_alias, response_topic, correlation_data, user_properties, subscription_identifiers, content_type) <-w (
          match t3 with
          | V5Property.PayloadFormatIndicator =>
              t4 <-w TraceLib.read_u8 ;;
              let payload_format_indicator := (Some t4) in
              cursor <-w lift (usize_add cursor 1) ;;
              wret (payload_format_indicator, cursor, message_expiry_interval, topic_alias, response_topic, correlation_data, user_properties, subscription_identifiers, content_type)
          | V5Property.MessageExpiryInterval =>
              t5 <-w TraceLib.read_u32 ;;
              let message_expiry_interval := (Some t5) in
              cursor <-w lift (usize_add cursor 4) ;;
              wret (payload_format_indicator, cursor, message_expiry_interval, topic_alias, response_topic, correlation_data, user_properties, subscription_identifiers, content_type)
          | V5Property.TopicAlias =>
              t6 <-w TraceLib.read_u16 ;;
              let topic_alias := (Some t6) in
              cursor <-w lift (usize_add cursor 2) ;;
              wret (payload_format_indicator, cursor, message_expiry_interval, topic_alias, response_topic, correlation_data, user_properties, subscription_identifiers, content_type)
          | V5Property.ResponseTopic =>
              topic <-w TraceLib.read_mqtt_string ;;
              t7 <-w lift (usize_add 2 (blen topic)) ;;
              cursor <-w lift (usize_add cursor t7) ;;
              let response_topic := (Some topic) in
              wret (payload_format_indicator, cursor, message_expiry_interval, topic_alias, response_topic, correlation_data, user_properties, subscription_identifiers, content_type)
          | V5Property.CorrelationData =>
              data <-w TraceLib.read_mqtt_bytes ;;
              t8 <-w lift (usize_add 2 (blen data)) ;;
              cursor <-w lift (usize_add cursor t8) ;;
              let correlation_data := (Some data) in
              wret (payload_format_indicator, cursor, message_expiry_interval, topic_alias, response_topic, correlation_data, user_properties, subscription_identifiers, content_type)
          | V5Property.UserProperty =>
              key <-w TraceLib.read_mqtt_string ;;
              value <-w TraceLib.read_mqtt_string ;;
              t9 <-w lift (usize_add 2 (blen key)) ;;
              t10 <-w lift (usize_add t9 2) ;;
              t11 <-w lift (usize_add t10 (blen value)) ;;
              cursor <-w lift (usize_add cursor t11) ;;
              let user_properties := (user_properties ++ [(key, value)]) in
              wret (payload_format_indicator, cursor, message_expiry_interval, topic_alias, response_topic, correlation_data, user_properties, subscription_identifiers, content_type)
          | V5Property.SubscriptionIdentifier =>
              t12 <-w get ;;
              t13 <-w lift (TraceLib.length t12) ;;
              let '(id_len, id) := t13 in
              t14 <-w lift (usize_add 1 id_len) ;;
              cursor <-w lift (usize_add cursor t14) ;;
              keep (advance id_len) ;;w
              let subscription_identifiers := (subscription_identifiers ++ [id]) in
              wret (payload_format_indicator, cursor, message_expiry_interval, topic_alias, response_topic, correlation_data, user_properties, subscription_identifiers, content_type)
          | V5Property.ContentType =>
              typ <-w TraceLib.read_mqtt_string ;;
              t15 <-w lift (usize_add 2 (blen typ)) ;;
              cursor <-w lift (usize_add cursor t15) ;;
              let content_type := (Some typ) in
              wret (payload_format_indicator, cursor, message_expiry_interval, topic_alias, response_topic, correlation_data, user_properties, subscription_identifiers, content_type)
          | _ =>
              werr (Base.InvalidPropertyType prop)
          end) ;;
        wret (cursor, payload_format_indicator, message_expiry_interval, topic_alias, response_topic, correlation_data, user_properties, subscription_identifiers, content_type))
      (cursor, payload_format_indicator, message_expiry_interval, topic_alias, response_topic, correlation_data, user_properties, subscription_identifiers, content_type) ;;
    wret (Some (V5Publish.mkPublishProperties payload_format_indicator message_expiry_interval topic_alias response_topic correlation_data user_properties subscription_identifiers content_type))).

(** src/v5/publish.rs:66-96 `Publish::read` *)
Definition Publish_read (fuel : nat) (fixed_header : Lib.FixedHeader) (bytes : list N) : outcome V5Publish.Publish :=
  run (
    t1 <-w lift (u8_shr (N.land (Lib.byte1 fixed_header) 6) 1) ;;
    qos <-w lift (TraceLib.qos t1) ;;
    let dup := (negb ((N.land (Lib.byte1 fixed_header) 8) =? 0)) in
    let retain := (negb ((N.land (Lib.byte1 fixed_header) 1) =? 0)) in
    let variable_header_index := (Lib.fixed_header_len fixed_header) in
    keep (advance variable_header_index) ;;w
    topic <-w TraceLib.read_mqtt_string ;;
    pkid <-w (
      match qos with
      | Base.AtMostOnce =>
          wret 0
      | Base.AtLeastOnce | Base.ExactlyOnce =>
          t2 <-w TraceLib.read_u16 ;;
          wret t2
      end) ;;
    (
      if ((negb (TraceLib.QoS_as_u8 qos =? TraceLib.QoS_as_u8 Base.AtMostOnce)) && (pkid =? 0)) then (
        werr Base.PacketIdZero)
      else (
        wret tt)) ;;w
    t3 <-w PublishProperties_extract fuel ;;
    t4 <-w get ;;
    let publish := (V5Publish.mkPublish dup qos retain topic pkid t3 t4) in
    wret publish) bytes.

(** src/v5/publish.rs:261-307 `PublishProperties::write` *)
Definition PublishProperties_write (fuel : nat) (self : V5Publish.PublishProperties) : writer unit :=
  len <-w lift (PublishProperties_len self) ;;
  t1 <-w TraceLib.write_remaining_length fuel len ;;
  (
    match (V5Publish.payload_format_indicator self) with
    | Some payload_format_indicator =>
        put_u8 (TraceV5Property.PropertyType_as_u8 V5Property.PayloadFormatIndicator) ;;w
        put_u8 payload_format_indicator ;;w
        wret tt
    | _ =>
        wret tt
    end) ;;w
  (
    match (V5Publish.message_expiry_interval self) with
    | Some message_expiry_interval =>
        put_u8 (TraceV5Property.PropertyType_as_u8 V5Property.MessageExpiryInterval) ;;w
        put_u32 message_expiry_interval ;;w
        wret tt
    | _ =>
        wret tt
    end) ;;w
  (
    match (V5Publish.topic_alias self) with
    | Some topic_alias =>
        put_u8 (TraceV5Property.PropertyType_as_u8 V5Property.TopicAlias) ;;w
        put_u16 topic_alias ;;w
        wret tt
    | _ =>
        wret tt
    end) ;;w
  (
    match (V5Publish.response_topic self) with
    | Some topic =>
        put_u8 (TraceV5Property.PropertyType_as_u8 V5Property.ResponseTopic) ;;w
        TraceLib.write_mqtt_string topic ;;w
        wret tt
    | _ =>
        wret tt
    end) ;;w
  (
    match (V5Publish.correlation_data self) with
    | Some data =>
        put_u8 (TraceV5Property.PropertyType_as_u8 V5Property.CorrelationData) ;;w
        TraceLib.write_mqtt_bytes data ;;w
        wret tt
    | _ =>
        wret tt
    end) ;;w
  for_ (fun '(key, value) (_ : unit) =>
      put_u8 (TraceV5Property.PropertyType_as_u8 V5Property.UserProperty) ;;w
      TraceLib.write_mqtt_string key ;;w
      TraceLib.write_mqtt_string value ;;w
      wret tt)
    (V5Publish.user_properties self) tt ;;w
  for_ (fun id (_ : unit) =>
      put_u8 (TraceV5Property.PropertyType_as_u8 V5Property.SubscriptionIdentifier) ;;w
      t2 <-w TraceLib.write_remaining_length fuel id ;;
      wret tt)
    (V5Publish.subscription_identifiers self) tt ;;w
  (
    match (V5Publish.content_type self) with
    | Some typ =>
        put_u8 (TraceV5Property.PropertyType_as_u8 V5Property.ContentType) ;;w
        TraceLib.write_mqtt_string typ ;;w
        wret tt
    | _ =>
        wret tt
    end) ;;w
  wret tt.

(** src/v5/publish.rs:98-129 `Publish::write` *)
Definition Publish_write (fuel : nat) (self : V5Publish.Publish) : writer N :=
  len <-w lift (Publish_len self) ;;
  let dup := (bool_u8 (V5Publish.dup self)) in
  let qos := (TraceLib.QoS_as_u8 (V5Publish.qos self)) in
  let retain := (bool_u8 (V5Publish.retain self)) in
  t1 <-w lift (u8_shl qos 1) ;;
  t2 <-w lift (u8_shl dup 3) ;;
  put_u8 (N.lor (N.lor (N.lor 48 retain) t1) t2) ;;w
  count <-w TraceLib.write_remaining_length fuel len ;;
  TraceLib.write_mqtt_string (V5Publish.topic self) ;;w
  (
    if (negb (TraceLib.QoS_as_u8 (V5Publish.qos self) =? TraceLib.QoS_as_u8 Base.AtMostOnce)) then (
      let pkid := (V5Publish.pkid self) in
      (
        if (pkid =? 0) then (
          werr Base.PacketIdZero)
        else (
          wret tt)) ;;w
      put_u16 pkid ;;w
      wret tt)
    else (
      wret tt)) ;;w
  (
    match (V5Publish.properties self) with
    | Some properties =>
        PublishProperties_write fuel properties ;;w
        wret tt
    | None =>
        t3 <-w TraceLib.write_remaining_length fuel 0 ;;
        wret tt
    end) ;;w
  extend_from_slice (V5Publish.payload self) ;;w
  t4 <-w lift (usize_add 1 count) ;;
  t5 <-w lift (usize_add t4 len) ;;
  wret t5.

(** WrapV5Subscribe.v -- GENERATED by tools/rust2coq.py from src/v5/subscribe.rs; do not edit.
    Not translated:
     src/v5/subscribe.rs:325 conditional item #[cfg(test)]
    No proofs in this file. *)
From Verif Require Import Base Lib SrcBase WrapBase.
From Verif Require V5Property V5Subscribe.
From Verif Require WrapLib WrapV5Property.

(** src/v5/subscribe.rs:298 `RetainForwardRule as u8` (the discriminants of the declaration; also decides the derived `==`) *)
Definition RetainForwardRule_as_u8 (x : V5Subscribe.RetainForwardRule) : N :=
  match x with
  | V5Subscribe.OnEverySubscribe => 0
  | V5Subscribe.OnNewSubscribe => 1
  | V5Subscribe.Never => 2
  end.

(** src/v5/subscribe.rs:16-30 `Subscribe::new` *)
Definition Subscribe_new (path : list N) (qos : Base.QoS) : outcome V5Subscribe.Subscribe :=
  run (
    let filter := (V5Subscribe.mkSubscribeFilter path qos false false V5Subscribe.OnEverySubscribe) in
    wret (V5Subscribe.mkSubscribe 0 [filter] None)) [].

(** src/v5/subscribe.rs:32-41 `Subscribe::new_many` *)
Definition Subscribe_new_many (topics : list V5Subscribe.SubscribeFilter) : outcome V5Subscribe.Subscribe :=
  run (
    wret (V5Subscribe.mkSubscribe 0 topics None)) [].

(** src/v5/subscribe.rs:43-49 `Subscribe::empty_subscribe` *)
Definition Subscribe_empty_subscribe : outcome V5Subscribe.Subscribe :=
  run (
    wret (V5Subscribe.mkSubscribe 0 [] None)) [].

(** src/v5/subscribe.rs:51-62 `Subscribe::add` *)
Definition Subscribe_add (self : V5Subscribe.Subscribe) (path : list N) (qos : Base.QoS) : outcome V5Subscribe.Subscribe :=
  run (
    let filter := (V5Subscribe.mkSubscribeFilter path qos false false V5Subscribe.OnEverySubscribe) in
    let self := (V5Subscribe.mkSubscribe (V5Subscribe.pkid self) ((V5Subscribe.filters self) ++ [filter]) (V5Subscribe.properties self)) in
    wret self) [].

(** src/v5/subscribe.rs:270-273 `SubscribeFilter::len` *)
Definition SubscribeFilter_len (self : V5Subscribe.SubscribeFilter) : outcome N :=
  run (
    t1 <-w lift (usize_add 2 (blen (V5Subscribe.path self))) ;;
    t2 <-w lift (usize_add t1 1) ;;
    wret t2) [].

(** src/v5/subscribe.rs:160-172 `SubscribeProperties::len` *)
Definition SubscribeProperties_len (self : V5Subscribe.SubscribeProperties) : outcome N :=
  run (
    let len := 0 in
    len <-w (
      match (V5Subscribe.id self) with
      | Some id =>
          t1 <-w lift (WrapLib.len_len id) ;;
          t2 <-w lift (usize_add 1 t1) ;;
          len <-w lift (usize_add len t2) ;;
          wret len
      | _ =>
          wret len
      end) ;;
    len <-w for_ (fun '(key, value) len =>
        t3 <-w lift (usize_add 1 2) ;;
        t4 <-w lift (usize_add t3 (blen key)) ;;
        t5 <-w lift (usize_add t4 2) ;;
        t6 <-w lift (usize_add t5 (blen value)) ;;
        len <-w lift (usize_add len t6) ;;
        wret len)
      (V5Subscribe.user_properties self) len ;;
    wret len) [].

(** src/v5/subscribe.rs:64-77 `Subscribe::len` *)
Definition Subscribe_len (self : V5Subscribe.Subscribe) : outcome N :=
  run (
    t3 <-w (
      fold_ (fun s t =>
        t1 <-w lift (SubscribeFilter_len t) ;;
        t2 <-w lift (usize_add s t1) ;;
        wret t2) (V5Subscribe.filters self) 0) ;;
    len <-w lift (usize_add 2 t3) ;;
    len <-w (
      match (V5Subscribe.properties self) with
      | Some properties =>
          properties_len <-w lift (SubscribeProperties_len properties) ;;
          properties_len_len <-w lift (WrapLib.len_len properties_len) ;;
          t4 <-w lift (usize_add properties_len_len properties_len) ;;
          len <-w lift (usize_add len t4) ;;
          wret len
      | _ =>
          len <-w lift (usize_add len 1) ;;
          wret len
      end) ;;
    wret len) [].

(** src/v5/subscribe.rs:174-213 `SubscribeProperties::extract` *)
Definition SubscribeProperties_extract (fuel : nat) : writer (option V5Subscribe.SubscribeProperties) :=
  let id : option N := None in
  let user_properties : list ((list N) * (list N)) := [] in
  t1 <-w get ;;
  t2 <-w lift (WrapLib.length t1) ;;
  let '(properties_len_len, properties_len) := t2 in
  keep (advance properties_len_len) ;;w
  if (properties_len =? 0) then (
    wret None)
  else (
    let cursor := 0 in
    '(cursor, id, user_properties) <-w while_ fuel
      (fun '(cursor, id, user_properties) =>
        wret (cursor <? properties_len))
      (fun '(cursor, id, user_properties) =>
        prop <-w WrapLib.read_u8 ;;
        cursor <-w lift (usize_add cursor 1) ;;
        t3 <-w lift (WrapV5Property.property prop) ;;
        '(cursor, id, user_properties) <-w (
          match t3 with
          | V5Property.SubscriptionIdentifier =>
              t4 <-w get ;;
              t5 <-w lift (WrapLib.length t4) ;;
              let '(id_len, sub_id) := t5 in
              t6 <-w lift (usize_add 1 id_len) ;;
              cursor <-w lift (usize_add cursor t6) ;;
              keep (advance id_len) ;;w
              let id := (Some sub_id) in
              wret (cursor, id, user_properties)
          | V5Property.UserProperty =>
              key <-w WrapLib.read_mqtt_string ;;
              value <-w WrapLib.read_mqtt_string ;;
              t7 <-w lift (usize_add 2 (blen key)) ;;
              t8 <-w lift (usize_add t7 2) ;;
              t9 <-w lift (usize_add t8 (blen value)) ;;
              cursor <-w lift (usize_add cursor t9) ;;
              let user_properties := (user_properties ++ [(key, value)]) in
              wret (cursor, id, user_properties)
          | _ =>
              werr (Base.InvalidPropertyType prop)
          end) ;;
        wret (cursor, id, user_properties))
      (cursor, id, user_properties) ;;
    wret (Some (V5Subscribe.mkSubscribeProperties id user_properties))).

(** src/v5/subscribe.rs:79-124 `Subscribe::read` *)
Definition Subscribe_read (fuel : nat) (fixed_header : Lib.FixedHeader) (bytes : list N) : outcome V5Subscribe.Subscribe :=
  run (
    let variable_header_index := (Lib.fixed_header_len fixed_header) in
    keep (advance variable_header_index) ;;w
    pkid <-w WrapLib.read_u16 ;;
    properties <-w SubscribeProperties_extract fuel ;;
    let filters : list V5Subscribe.SubscribeFilter := [] in
    filters <-w while_ fuel
      (fun filters =>
        t1 <-w get ;;
        wret (has_remaining t1))
      (fun filters =>
        path <-w WrapLib.read_mqtt_string ;;
        options <-w WrapLib.read_u8 ;;
        let requested_qos := (N.land options 3) in
        t2 <-w lift (u8_shr options 2) ;;
        let nolocal := (N.land t2 1) in
        let nolocal := (negb (nolocal =? 0)) in
        t3 <-w lift (u8_shr options 3) ;;
        let preserve_retain := (N.land t3 1) in
        let preserve_retain := (negb (preserve_retain =? 0)) in
        t4 <-w lift (u8_shr options 4) ;;
        let retain_forward_rule := (N.land t4 3) in
        retain_forward_rule <-w (
          match retain_forward_rule with
          | 0 =>
              wret V5Subscribe.OnEverySubscribe
          | 1 =>
              wret V5Subscribe.OnNewSubscribe
          | 2 =>
              wret V5Subscribe.Never
          | r =>
              werr (Base.InvalidRetainForwardRule r)
          end) ;;
        t5 <-w lift (WrapLib.qos requested_qos) ;;
        let filters := (filters ++ [(V5Subscribe.mkSubscribeFilter path t5 nolocal preserve_retain retain_forward_rule)]) in
        wret filters)
      filters ;;
    let subscribe := (V5Subscribe.mkSubscribe pkid filters properties) in
    wret subscribe) bytes.

(** src/v5/subscribe.rs:215-231 `SubscribeProperties::write` *)
Definition SubscribeProperties_write (fuel : nat) (self : V5Subscribe.SubscribeProperties) : writer unit :=
  len <-w lift (SubscribeProperties_len self) ;;
  t1 <-w WrapLib.write_remaining_length fuel len ;;
  (
    match (V5Subscribe.id self) with
    | Some id =>
        put_u8 (WrapV5Property.PropertyType_as_u8 V5Property.SubscriptionIdentifier) ;;w
        t2 <-w WrapLib.write_remaining_length fuel id ;;
        wret tt
    | _ =>
        wret tt
    end) ;;w
  for_ (fun '(key, value) (_ : unit) =>
      put_u8 (WrapV5Property.PropertyType_as_u8 V5Property.UserProperty) ;;w
      WrapLib.write_mqtt_string key ;;w
      WrapLib.write_mqtt_string value ;;w
      wret tt)
    (V5Subscribe.user_properties self) tt ;;w
  wret tt.

(** src/v5/subscribe.rs:275-295 `SubscribeFilter::write` *)
Definition SubscribeFilter_write (self : V5Subscribe.SubscribeFilter) : writer unit :=
  let options := 0 in
  let options := (N.lor options (WrapLib.QoS_as_u8 (V5Subscribe.qos self))) in
  options <-w (
    if (V5Subscribe.nolocal self) then (
      t1 <-w lift (u8_shl 1 2) ;;
      let options := (N.lor options t1) in
      wret options)
    else (
      wret options)) ;;
  options <-w (
    if (V5Subscribe.preserve_retain self) then (
      t2 <-w lift (u8_shl 1 3) ;;
      let options := (N.lor options t2) in
      wret options)
    else (
      wret options)) ;;
  options <-w (
    match (V5Subscribe.retain_forward_rule self) with
    | V5Subscribe.OnEverySubscribe =>
        t3 <-w lift (u8_shl 0 4) ;;
        let options := (N.lor options t3) in
        wret options
    | V5Subscribe.OnNewSubscribe =>
        t4 <-w lift (u8_shl 1 4) ;;
        let options := (N.lor options t4) in
        wret options
    | V5Subscribe.Never =>
        t5 <-w lift (u8_shl 2 4) ;;
        let options := (N.lor options t5) in
        wret options
    end) ;;
  WrapLib.write_mqtt_string (V5Subscribe.path self) ;;w
  put_u8 options ;;w
  wret tt.

(** src/v5/subscribe.rs:126-150 `Subscribe::write` *)
Definition Subscribe_write (fuel : nat) (self : V5Subscribe.Subscribe) : writer N :=
  put_u8 130 ;;w
  remaining_len <-w lift (Subscribe_len self) ;;
  remaining_len_bytes <-w WrapLib.write_remaining_length fuel remaining_len ;;
  put_u16 (V5Subscribe.pkid self) ;;w
  (
    match (V5Subscribe.properties self) with
    | Some properties =>
        SubscribeProperties_write fuel properties ;;w
        wret tt
    | None =>
        t1 <-w WrapLib.write_remaining_length fuel 0 ;;
        wret tt
    end) ;;w
  for_ (fun filter (_ : unit) =>
      SubscribeFilter_write filter ;;w
      wret tt)
    (V5Subscribe.filters self) tt ;;w
  t2 <-w lift (usize_add 1 remaining_len_bytes) ;;
  t3 <-w lift (usize_add t2 remaining_len) ;;
  wret t3.

(** src/v5/subscribe.rs:245-253 `SubscribeFilter::new` *)
Definition SubscribeFilter_new (path : list N) (qos : Base.QoS) : outcome V5Subscribe.SubscribeFilter :=
  run (
    wret (V5Subscribe.mkSubscribeFilter path qos false false V5Subscribe.OnEverySubscribe)) [].

(** src/v5/subscribe.rs:255-258 `SubscribeFilter::set_nolocal` *)
Definition SubscribeFilter_set_nolocal (self : V5Subscribe.SubscribeFilter) (flag : bool) : outcome V5Subscribe.SubscribeFilter :=
  run (
    let self := (V5Subscribe.mkSubscribeFilter (V5Subscribe.path self) (V5Subscribe.qos self) flag (V5Subscribe.preserve_retain self) (V5Subscribe.retain_forward_rule self)) in
    wret self) [].

(** src/v5/subscribe.rs:260-263 `SubscribeFilter::set_preserve_retain` *)
Definition SubscribeFilter_set_preserve_retain (self : V5Subscribe.SubscribeFilter) (flag : bool) : outcome V5Subscribe.SubscribeFilter :=
  run (
    let self := (V5Subscribe.mkSubscribeFilter (V5Subscribe.path self) (V5Subscribe.qos self) (V5Subscribe.nolocal self) flag (V5Subscribe.retain_forward_rule self)) in
    wret self) [].

(** src/v5/subscribe.rs:265-268 `SubscribeFilter::set_retain_forward_rule` *)
Definition SubscribeFilter_set_retain_forward_rule (self : V5Subscribe.SubscribeFilter) (rule : V5Subscribe.RetainForwardRule) : outcome V5Subscribe.SubscribeFilter :=
  run (
    let self := (V5Subscribe.mkSubscribeFilter (V5Subscribe.path self) (V5Subscribe.qos self) (V5Subscribe.nolocal self) (V5Subscribe.preserve_retain self) rule) in
    wret self) [].

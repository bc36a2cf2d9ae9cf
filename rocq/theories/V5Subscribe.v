(** V5Subscribe.v -- model of src/v5/subscribe.rs.  No proofs in this file. *)
From Verif Require Import Base Utf8 Lib V5Property.

(** src/v5/subscribe.rs:154-157 `SubscribeProperties` *)
Record SubscribeProperties := mkSubscribeProperties {
  id : option N;
  user_properties : list (bytes * bytes)
}.

(** src/v5/subscribe.rs:174-213: the local variables before the loop (the loop state is
    kept in the record it finally builds) *)
Definition props_new : SubscribeProperties := mkSubscribeProperties None [].

(** src/v5/subscribe.rs:174-213: assignment to the local variable for `id` *)
Definition set_id (self : SubscribeProperties) (v : N) : SubscribeProperties :=
  mkSubscribeProperties (Some v) (user_properties self).
(** src/v5/subscribe.rs:174-213: `push` onto the local vector for `user_properties` *)
Definition push_user_properties (self : SubscribeProperties) (v : bytes * bytes) : SubscribeProperties :=
  mkSubscribeProperties (id self) (user_properties self ++ [v]).

(** src/v5/subscribe.rs:160-172 `SubscribeProperties::len` *)
Definition props_len (self : SubscribeProperties) : N :=
  let len := 0 in
  let len := match id self with Some id => len + (1 + len_len id) | None => len end in
  let len := fold_left (fun len kv => len + (1 + 2 + blen (fst kv) + 2 + blen (snd kv))) (user_properties self) len in
  len.

(** src/v5/subscribe.rs:187-207: the `match property(prop)?` of the loop body.  Returns the
    updated variables and what is added to `cursor`. *)
Definition props_step (ty : PropertyType) (prop : N) (self : SubscribeProperties)
  : reader (SubscribeProperties * N) :=
  match ty with
  | SubscriptionIdentifier =>
      ll <-r peek_length ;;
      advance (fst ll) ;;r
      rret (set_id self (snd ll), 1 + fst ll)
  | UserProperty =>
      key <-r read_mqtt_string ;;
      value <-r read_mqtt_string ;;
      rret (push_user_properties self (key, value), 2 + blen key + 2 + blen value)
  | _ => rerr (InvalidPropertyType prop)
  end.

(** src/v5/subscribe.rs:174-213 `SubscribeProperties::extract` *)
Definition extract : reader (option SubscribeProperties) :=
  ll <-r peek_length ;;
  advance (fst ll) ;;r
  if snd ll =? 0 then rret None
  else
    p <-r props_loop props_step (snd ll) props_new ;;
    rret (Some p).

(** src/v5/subscribe.rs:215-231 `SubscribeProperties::write` *)
Definition props_write (self : SubscribeProperties) : writer unit :=
  let len := props_len self in
  write_remaining_length len ;;w
  when_some (id self) (fun id =>
    put_u8 (property_u8 SubscriptionIdentifier) ;;w
    write_remaining_length id ;;w wret tt) ;;w
  for_each (user_properties self) (fun kv =>
    put_u8 (property_u8 UserProperty) ;;w
    write_mqtt_string (fst kv) ;;w write_mqtt_string (snd kv)) ;;w
  wret tt.

(** src/v5/subscribe.rs:299-303 `RetainForwardRule` *)
Inductive RetainForwardRule := OnEverySubscribe | OnNewSubscribe | Never.

(** src/v5/subscribe.rs:236-242 `SubscribeFilter` *)
Record SubscribeFilter := mkSubscribeFilter {
  path : bytes;
  qos : QoS;
  nolocal : bool;
  preserve_retain : bool;
  retain_forward_rule : RetainForwardRule
}.

(** src/v5/subscribe.rs:9-13 `Subscribe` *)
Record Subscribe := mkSubscribe {
  pkid : N;
  filters : list SubscribeFilter;
  properties : option SubscribeProperties
}.

(** src/v5/subscribe.rs:245-253 `SubscribeFilter::new` *)
Definition filter_new (path : bytes) (qos : QoS) : SubscribeFilter :=
  mkSubscribeFilter path qos false false OnEverySubscribe.
(** src/v5/subscribe.rs:255-258 `SubscribeFilter::set_nolocal` *)
Definition set_nolocal (self : SubscribeFilter) (flag : bool) : SubscribeFilter :=
  mkSubscribeFilter (path self) (qos self) flag (preserve_retain self) (retain_forward_rule self).
(** src/v5/subscribe.rs:260-263 `SubscribeFilter::set_preserve_retain` *)
Definition set_preserve_retain (self : SubscribeFilter) (flag : bool) : SubscribeFilter :=
  mkSubscribeFilter (path self) (qos self) (nolocal self) flag (retain_forward_rule self).
(** src/v5/subscribe.rs:265-268 `SubscribeFilter::set_retain_forward_rule` *)
Definition set_retain_forward_rule (self : SubscribeFilter) (rule : RetainForwardRule)
  : SubscribeFilter :=
  mkSubscribeFilter (path self) (qos self) (nolocal self) (preserve_retain self) rule.

(** src/v5/subscribe.rs:16-30 `Subscribe::new` *)
Definition new (path : bytes) (qos : QoS) : Subscribe :=
  mkSubscribe 0 [mkSubscribeFilter path qos false false OnEverySubscribe] None.
(** src/v5/subscribe.rs:32-41 `Subscribe::new_many` *)
Definition new_many (topics : list SubscribeFilter) : Subscribe := mkSubscribe 0 topics None.
(** src/v5/subscribe.rs:43-49 `Subscribe::empty_subscribe` *)
Definition empty_subscribe : Subscribe := mkSubscribe 0 [] None.
(** src/v5/subscribe.rs:51-62 `Subscribe::add` *)
Definition add (self : Subscribe) (path : bytes) (qos : QoS) : Subscribe :=
  mkSubscribe (pkid self)
    (filters self ++ [mkSubscribeFilter path qos false false OnEverySubscribe])
    (properties self).

(** src/v5/subscribe.rs:270-273 `SubscribeFilter::len` *)
Definition filter_len (self : SubscribeFilter) : N := 2 + blen (path self) + 1.

(** src/v5/subscribe.rs:64-77 `Subscribe::len` *)
Definition len (self : Subscribe) : N :=
  let len := 2 + fold_left (fun s t => s + filter_len t) (filters self) 0 in
  match properties self with
  | Some properties => add_props_len len (props_len properties)
  | None => len + 1
  end.

(** src/v5/subscribe.rs:100-106: the `match retain_forward_rule` *)
Definition rule_of (num : N) : outcome RetainForwardRule :=
  match num with
  | 0 => Ok OnEverySubscribe
  | 1 => Ok OnNewSubscribe
  | 2 => Ok Never
  | r => Err (InvalidRetainForwardRule r)
  end.

(** src/v5/subscribe.rs:89-115: the `while bytes.has_remaining()` loop *)
Fixpoint filters_loop (fuel : nat) (filters : list SubscribeFilter)
  : reader (list SubscribeFilter) :=
  fun bytes =>
    match fuel with
    | O => Diverge
    | S fuel =>
        if has_remaining bytes then
          (path <-r read_mqtt_string ;;
           options <-r read_u8 ;;
           let requested_qos := N.land options 3 in
           let nolocal := N.land (N.shiftr options 2) 1 in
           let nolocal := negb (nolocal =? 0) in
           let preserve_retain := N.land (N.shiftr options 3) 1 in
           let preserve_retain := negb (preserve_retain =? 0) in
           let retain_forward_rule := N.land (N.shiftr options 4) 3 in
           retain_forward_rule <-r rlift (rule_of retain_forward_rule) ;;
           qos <-r rlift (Lib.qos requested_qos) ;;
           filters_loop fuel
             (filters ++ [mkSubscribeFilter path qos nolocal preserve_retain retain_forward_rule]))
            bytes
        else Ok (filters, bytes)
    end.

(** src/v5/subscribe.rs:79-124 `Subscribe::read` *)
Definition read (fixed_header : FixedHeader) : reader Subscribe :=
  advance (fixed_header_len fixed_header) ;;r
  pkid <-r read_u16 ;;
  properties <-r extract ;;
  filters <-r (fun bytes => filters_loop (S (List.length bytes)) [] bytes) ;;
  rret (mkSubscribe pkid filters properties).

(** src/v5/subscribe.rs:275-295 `SubscribeFilter::write` *)
Definition filter_write (self : SubscribeFilter) : writer unit :=
  let options := 0 in
  let options := N.lor options (qos_u8 (qos self)) in
  let options := if nolocal self then N.lor options (N.shiftl 1 2) else options in
  let options := if preserve_retain self then N.lor options (N.shiftl 1 3) else options in
  let options := match retain_forward_rule self with
                 | OnEverySubscribe => N.lor options (N.shiftl 0 4)
                 | OnNewSubscribe => N.lor options (N.shiftl 1 4)
                 | Never => N.lor options (N.shiftl 2 4)
                 end in
  write_mqtt_string (path self) ;;w
  put_u8 options.

(** src/v5/subscribe.rs:126-150 `Subscribe::write` *)
Definition write (self : Subscribe) : writer N :=
  put_u8 0x82 ;;w
  let remaining_len := len self in
  remaining_len_bytes <-w write_remaining_length remaining_len ;;
  put_u16 (pkid self) ;;w
  (match properties self with
   | Some properties => props_write properties
   | None => write_remaining_length 0 ;;w wret tt
   end) ;;w
  for_each (filters self) filter_write ;;w
  wret (1 + remaining_len_bytes + remaining_len).

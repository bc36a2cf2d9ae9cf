(** RelV5Subscribe.v -- generated by tools/gen_release.py from V5Subscribe.v: its definitions that use
    machine integers, without overflow checks (Release.v).  No proofs in this file. *)
From Verif Require Import Base Utf8 Lib V5Property V5Subscribe Release RelLib RelV5Property.

Section WithBuild.
Context {build : Build}.

(** src/v5/subscribe.rs:160-172 `SubscribeProperties::len` *)
Definition props_len (self : SubscribeProperties) : N :=
  let len := 0 in
  let len := match id self with Some id => len + (1 + len_len id) | None => len end in
  let len := fold_left (fun len kv => len + (1 + 2 + blen (fst kv) + 2 + blen (snd kv))) (user_properties self) len in
  len.

(** src/v5/subscribe.rs:187-207: the `match property(prop)?` of the loop body.  Returns the
    updated variables and what is added to `cursor`. *)
Definition props_step (ty : PropertyType) (prop : N) (self : SubscribeProperties)
  : reader (SubscribeProperties * N) :=
  match ty with
  | SubscriptionIdentifier =>
      ll <-r peek_length ;;
      advance (fst ll) ;;r
      rret (set_id self (snd ll), 1 + fst ll)
  | UserProperty =>
      key <-r read_mqtt_string ;;
      value <-r read_mqtt_string ;;
      rret (push_user_properties self (key, value), 2 + blen key + 2 + blen value)
  | _ => rerr (InvalidPropertyType prop)
  end.

(** src/v5/subscribe.rs:174-213 `SubscribeProperties::extract` *)
Definition extract : reader (option SubscribeProperties) :=
  ll <-r peek_length ;;
  advance (fst ll) ;;r
  if snd ll =? 0 then rret None
  else
    p <-r props_loop props_step (snd ll) props_new ;;
    rret (Some p).

(** src/v5/subscribe.rs:215-231 `SubscribeProperties::write` *)
Definition props_write (self : SubscribeProperties) : writer unit :=
  let len := props_len self in
  write_remaining_length len ;;w
  when_some (id self) (fun id =>
    put_u8 (property_u8 SubscriptionIdentifier) ;;w
    write_remaining_length id ;;w wret tt) ;;w
  for_each (user_properties self) (fun kv =>
    put_u8 (property_u8 UserProperty) ;;w
    write_mqtt_string (fst kv) ;;w write_mqtt_string (snd kv)) ;;w
  wret tt.

(** src/v5/subscribe.rs:270-273 `SubscribeFilter::len` *)
Definition filter_len (self : SubscribeFilter) : N := 2 + blen (path self) + 1.

(** src/v5/subscribe.rs:64-77 `Subscribe::len` *)
Definition len (self : Subscribe) : N :=
  let len := 2 + fold_left (fun s t => s + filter_len t) (filters self) 0 in
  match properties self with
  | Some properties => add_props_len len (props_len properties)
  | None => len + 1
  end.

(** src/v5/subscribe.rs:79-124 `Subscribe::read` *)
Definition read (fixed_header : FixedHeader) : reader Subscribe :=
  advance (fixed_header_len fixed_header) ;;r
  pkid <-r read_u16 ;;
  properties <-r extract ;;
  filters <-r (fun bytes => filters_loop (S (List.length bytes)) [] bytes) ;;
  rret (mkSubscribe pkid filters properties).

(** src/v5/subscribe.rs:126-150 `Subscribe::write` *)
Definition write (self : Subscribe) : writer N :=
  put_u8 0x82 ;;w
  let remaining_len := len self in
  remaining_len_bytes <-w write_remaining_length remaining_len ;;
  put_u16 (pkid self) ;;w
  (match properties self with
   | Some properties => props_write properties
   | None => write_remaining_length 0 ;;w wret tt
   end) ;;w
  for_each (filters self) filter_write ;;w
  wret (1 + remaining_len_bytes + remaining_len).

End WithBuild.

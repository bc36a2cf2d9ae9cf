(** V5Unsubscribe.v -- model of src/v5/unsubscribe.rs.  No proofs in this file. *)
From Verif Require Import Base Utf8 Lib V5Property.

(** src/v5/unsubscribe.rs:89-91 `UnsubscribeProperties` *)
Record UnsubscribeProperties := mkUnsubscribeProperties {
  user_properties : list (bytes * bytes)
}.

(** src/v5/unsubscribe.rs:104-132: the local variables before the loop (the loop state is
    kept in the record it finally builds) *)
Definition props_new : UnsubscribeProperties := mkUnsubscribeProperties [].

(** src/v5/unsubscribe.rs:104-132: `push` onto the local vector for `user_properties` *)
Definition push_user_properties (self : UnsubscribeProperties) (v : bytes * bytes) : UnsubscribeProperties :=
  mkUnsubscribeProperties (user_properties self ++ [v]).

(** src/v5/unsubscribe.rs:94-102 `UnsubscribeProperties::len` *)
Definition props_len (self : UnsubscribeProperties) : N :=
  let len := 0 in
  let len := fold_left (fun len kv => len + (1 + 2 + blen (fst kv) + 2 + blen (snd kv))) (user_properties self) len in
  len.

(** src/v5/unsubscribe.rs:116-129: the `match property(prop)?` of the loop body.  Returns the
    updated variables and what is added to `cursor`. *)
Definition props_step (ty : PropertyType) (prop : N) (self : UnsubscribeProperties)
  : reader (UnsubscribeProperties * N) :=
  match ty with
  | UserProperty =>
      key <-r read_mqtt_string ;;
      value <-r read_mqtt_string ;;
      rret (push_user_properties self (key, value), 2 + blen key + 2 + blen value)
  | _ => rerr (InvalidPropertyType prop)
  end.

(** src/v5/unsubscribe.rs:104-132 `UnsubscribeProperties::extract` *)
Definition extract : reader (option UnsubscribeProperties) :=
  ll <-r peek_length ;;
  advance (fst ll) ;;r
  if snd ll =? 0 then rret None
  else
    p <-r props_loop props_step (snd ll) props_new ;;
    rret (Some p).

(** src/v5/unsubscribe.rs:134-145 `UnsubscribeProperties::write` *)
Definition props_write (self : UnsubscribeProperties) : writer unit :=
  let len := props_len self in
  write_remaining_length len ;;w
  for_each (user_properties self) (fun kv =>
    put_u8 (property_u8 UserProperty) ;;w
    write_mqtt_string (fst kv) ;;w write_mqtt_string (snd kv)) ;;w
  wret tt.

(** src/v5/unsubscribe.rs:8-12 `Unsubscribe` *)
Record Unsubscribe := mkUnsubscribe {
  pkid : N;
  filters : list bytes;
  properties : option UnsubscribeProperties
}.

(** src/v5/unsubscribe.rs:15-21 `Unsubscribe::new` *)
Definition new (topic : bytes) : Unsubscribe := mkUnsubscribe 0 [topic] None.

(** src/v5/unsubscribe.rs:23-38 `Unsubscribe::len` *)
Definition len (self : Unsubscribe) : N :=
  let len := 2 + fold_left (fun s t => 2 + s + blen t) (filters self) 0 in
  match properties self with
  | Some properties => add_props_len len (props_len properties)
  | None => len + 1
  end.

(** src/v5/unsubscribe.rs:49-52: the `while bytes.has_remaining()` loop *)
Fixpoint filters_loop (fuel : nat) (filters : list bytes) : reader (list bytes) :=
  fun s =>
    match fuel with
    | O => Diverge
    | S fuel =>
        if has_remaining s then
          (filter <-r read_mqtt_string ;;
           filters_loop fuel (filters ++ [filter])) s
        else Ok (filters, s)
    end.

(** src/v5/unsubscribe.rs:40-60 `Unsubscribe::read`.  (Line 45, `dbg!(pkid)`, prints to stderr; not
    modelled.) *)
Definition read (fixed_header : FixedHeader) : reader Unsubscribe :=
  advance (fixed_header_len fixed_header) ;;r
  pkid <-r read_u16 ;;
  properties <-r extract ;;
  filters <-r (fun s => filters_loop (S (List.length s)) [] s) ;;
  rret (mkUnsubscribe pkid filters properties).

(** src/v5/unsubscribe.rs:62-85 `Unsubscribe::write` *)
Definition write (self : Unsubscribe) : writer N :=
  put_u8 0xA2 ;;w
  let remaining_len := len self in
  remaining_len_bytes <-w write_remaining_length remaining_len ;;
  put_u16 (pkid self) ;;w
  (match properties self with
   | Some properties => props_write properties
   | None => write_remaining_length 0 ;;w wret tt
   end) ;;w
  for_each (filters self) write_mqtt_string ;;w
  wret (1 + remaining_len_bytes + remaining_len).

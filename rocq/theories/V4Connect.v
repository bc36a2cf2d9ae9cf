(** V4Connect.v -- model of src/v4/connect.rs.  No proofs in this file. *)
From Verif Require Import Base Utf8 Lib.

(** src/v4/connect.rs:140-146 `LastWill` *)
Record LastWill := mkLastWill {
  lw_topic : bytes;
  lw_message : bytes;
  lw_qos : QoS;
  lw_retain : bool
}.

(** src/v4/connect.rs:205-209 `Login` *)
Record Login := mkLogin { username : bytes; password : bytes }.

(** src/v4/connect.rs:7-21 `Connect` *)
Record Connect := mkConnect {
  protocol : Protocol;
  keep_alive : N;
  client_id : bytes;
  clean_session : bool;
  last_will : option LastWill;
  login : option Login
}.

(** src/v4/connect.rs:24-33 `Connect::new` *)
Definition new (id : bytes) : Connect := mkConnect V4 10 id true None None.

(** src/v4/connect.rs:35-43 `Connect::set_login` *)
Definition set_login (self : Connect) (u p : bytes) : Connect :=
  mkConnect (protocol self) (keep_alive self) (client_id self) (clean_session self)
    (last_will self) (Some (mkLogin u p)).

(** src/v4/connect.rs:149-161 `LastWill::new` *)
Definition lw_new (topic payload : bytes) (qos : QoS) (retain : bool) : LastWill :=
  mkLastWill topic payload qos retain.

(** src/v4/connect.rs:212-217 `Login::new` *)
Definition login_new (u p : bytes) : Login := mkLogin u p.

(** src/v4/connect.rs:266-268 `Login::validate` *)
Definition login_validate (self : Login) (u p : bytes) : bool :=
  bytes_eqb (username self) u && bytes_eqb (password self) p.

(** src/v4/connect.rs:163-167 `LastWill::len` *)
Definition lw_len (self : LastWill) : N :=
  0 + (2 + blen (lw_topic self) + 2 + blen (lw_message self)).

(** src/v4/connect.rs:237-249 `Login::len` *)
Definition login_len (self : Login) : N :=
  let len := 0 in
  let len := if negb (is_empty (username self)) then len + (2 + blen (username self)) else len in
  let len := if negb (is_empty (password self)) then len + (2 + blen (password self)) else len in
  len.

(** the literal "MQTT" (src/v4/connect.rs:46, 73, 107). *)
Definition mqtt_name : bytes := [77; 81; 84; 84].

(** src/v4/connect.rs:45-64 `Connect::len` *)
Definition len (self : Connect) : N :=
  let len := 2 + blen mqtt_name + 1 + 1 + 2 in
  let len := len + (2 + blen (client_id self)) in
  let len := match last_will self with Some last_will => len + lw_len last_will | None => len end in
  let len := match login self with Some login => len + login_len login | None => len end in
  len.

(** src/v4/connect.rs:169-189 `LastWill::read` *)
Definition lw_read (connect_flags : N) : reader (option LastWill) :=
  if N.land connect_flags 4 =? 0 then
    if negb (N.land connect_flags 56 =? 0) then rerr IncorrectPacketFormat
    else rret None
  else
    will_topic <-r read_mqtt_string ;;
    will_message <-r read_mqtt_bytes ;;
    will_qos <-r rlift (qos (N.shiftr (N.land connect_flags 24) 3)) ;;
    rret (Some (mkLastWill will_topic will_message will_qos
                  (negb (N.land connect_flags 32 =? 0)))).

(** src/v4/connect.rs:219-235 `Login::read` *)
Definition login_read (connect_flags : N) : reader (option Login) :=
  username <-r (if N.land connect_flags 128 =? 0 then rret [] else read_mqtt_string) ;;
  password <-r (if N.land connect_flags 64 =? 0 then rret [] else read_mqtt_string) ;;
  if is_empty username && is_empty password then rret None
  else rret (Some (mkLogin username password)).

(** src/v4/connect.rs:66-101 `Connect::read` *)
Definition read (fixed_header : FixedHeader) : reader Connect :=
  advance (fixed_header_len fixed_header) ;;r
  protocol_name <-r read_mqtt_string ;;
  protocol_level <-r read_u8 ;;
  if negb (bytes_eqb protocol_name mqtt_name) then rerr InvalidProtocol
  else
    protocol <-r (match protocol_level with
                  | 4 => rret V4
                  | 5 => rret V5
                  | num => rerr (InvalidProtocolLevel num)
                  end) ;;
    connect_flags <-r read_u8 ;;
    let clean_session := negb (N.land connect_flags 2 =? 0) in
    keep_alive <-r read_u16 ;;
    client_id <-r read_mqtt_string ;;
    last_will <-r lw_read connect_flags ;;
    login <-r login_read connect_flags ;;
    rret (mkConnect protocol keep_alive client_id clean_session last_will login).

(** src/v4/connect.rs:191-202 `LastWill::write` (returns the flag bits) *)
Definition lw_write (self : LastWill) : writer N :=
  let connect_flags := N.lor 0 (N.lor 4 (N.shiftl (qos_u8 (lw_qos self)) 3)) in
  let connect_flags := if lw_retain self then N.lor connect_flags 0x20 else connect_flags in
  write_mqtt_string (lw_topic self) ;;w
  write_mqtt_bytes (lw_message self) ;;w
  wret connect_flags.

(** src/v4/connect.rs:251-264 `Login::write` (returns the flag bits) *)
Definition login_write (self : Login) : writer N :=
  let connect_flags := 0 in
  connect_flags <-w
    (if negb (is_empty (username self))
     then write_mqtt_string (username self) ;;w wret (N.lor connect_flags 0x80)
     else wret connect_flags) ;;
  (if negb (is_empty (password self))
   then write_mqtt_string (password self) ;;w wret (N.lor connect_flags 0x40)
   else wret connect_flags).

(** src/v4/connect.rs:103-136 `Connect::write`.  [set_index] is
    `buffer[flags_index] = connect_flags`, an index from the start of the
    caller's buffer. *)
Definition write (self : Connect) : writer N :=
  let len := len self in
  put_u8 16 ;;w
  count <-w write_remaining_length len ;;
  write_mqtt_string mqtt_name ;;w
  (match protocol self with V4 => put_u8 4 | V5 => put_u8 5 end) ;;w
  let flags_index := 1 + count + 2 + 4 + 1 in
  let connect_flags := 0 in
  let connect_flags := if clean_session self then N.lor connect_flags 2 else connect_flags in
  put_u8 connect_flags ;;w
  put_u16 (keep_alive self) ;;w
  write_mqtt_string (client_id self) ;;w
  connect_flags <-w
    (match last_will self with
     | Some last_will => f <-w lw_write last_will ;; wret (N.lor connect_flags f)
     | None => wret connect_flags
     end) ;;
  connect_flags <-w
    (match login self with
     | Some login => f <-w login_write login ;; wret (N.lor connect_flags f)
     | None => wret connect_flags
     end) ;;
  set_index flags_index connect_flags ;;w
  wret len.

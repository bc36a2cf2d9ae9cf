(** TraceV4Connect.v -- GENERATED by tools/rust2coq.py from src/v4/connect.rs; do not edit.
    Not translated:
     src/v4/connect.rs:271 conditional item #[cfg(test)]
    No proofs in this file. *)
From Verif Require Import Base Lib SrcBase TraceBase.
From Verif Require V4Connect.
From Verif Require TraceLib.

(** src/v4/connect.rs:24-33 `Connect::new` *)
Definition Connect_new (id : list N) : outcome V4Connect.Connect :=
  run (
    wret (V4Connect.mkConnect Base.V4 10 id true None None)) [].

(** src/v4/connect.rs:35-43 `Connect::set_login` *)
Definition Connect_set_login (self : V4Connect.Connect) (u : list N) (p : list N) : outcome V4Connect.Connect :=
  run (
    let login := (V4Connect.mkLogin u p) in
    let self := (V4Connect.mkConnect (V4Connect.protocol self) (V4Connect.keep_alive self) (V4Connect.client_id self) (V4Connect.clean_session self) (V4Connect.last_will self) (Some login)) in
    wret self) [].

(** src/v4/connect.rs:163-167 `LastWill::len` *)
Definition LastWill_len (self : V4Connect.LastWill) : outcome N :=
  run (
    let len := 0 in
    t1 <-w lift (usize_add 2 (blen (V4Connect.lw_topic self))) ;;
    t2 <-w lift (usize_add t1 2) ;;
    t3 <-w lift (usize_add t2 (blen (V4Connect.lw_message self))) ;;
    len <-w lift (usize_add len t3) ;;
    wret len) [].

(** src/v4/connect.rs:237-249 `Login::len` *)
Definition Login_len (self : V4Connect.Login) : outcome N :=
  run (
    let len := 0 in
    len <-w (
      if (negb (is_empty (V4Connect.username self))) then (
        t1 <-w lift (usize_add 2 (blen (V4Connect.username self))) ;;
        len <-w lift (usize_add len t1) ;;
        wret len)
      else (
        wret len)) ;;
    len <-w (
      if (negb (is_empty (V4Connect.password self))) then (
        t2 <-w lift (usize_add 2 (blen (V4Connect.password self))) ;;
        len <-w lift (usize_add len t2) ;;
        wret len)
      else (
        wret len)) ;;
    wret len) [].

(** src/v4/connect.rs:45-64 `Connect::len` *)
Definition Connect_len (self : V4Connect.Connect) : outcome N :=
  run (
    t1 <-w lift (usize_add 2 (blen [77; 81; 84; 84])) ;;
    t2 <-w lift (usize_add t1 1) ;;
    t3 <-w lift (usize_add t2 1) ;;
    len <-w lift (usize_add t3 2) ;;
    t4 <-w lift (usize_add 2 (blen (V4Connect.client_id self))) ;;
    len <-w lift (usize_add len t4) ;;
    len <-w (
      match (V4Connect.last_will self) with
      | Some last_will =>
          t5 <-w lift (LastWill_len last_will) ;;
          len <-w lift (usize_add len t5) ;;
          wret len
      | _ =>
          wret len
      end) ;;
    len <-w (
      match (V4Connect.login self) with
      | Some login =>
          t6 <-w lift (Login_len login) ;;
          len <-w lift (usize_add len t6) ;;
          wret len
      | _ =>
          wret len
      end) ;;
    wret len) [].

(** src/v4/connect.rs:169-189 `LastWill::read` *)
Definition LastWill_read (connect_flags : N) : writer (option V4Connect.LastWill) :=
  last_will <-w (
    match (N.land connect_flags 4) with
    | 0 =>
        if (negb ((N.land connect_flags 56) =? 0)) then (
          werr Base.IncorrectPacketFormat)
        else (
          match (N.land connect_flags 4) with
          | 0 =>
              wret None
          | _ =>
              will_topic <-w TraceLib.read_mqtt_string ;;
              will_message <-w TraceLib.read_mqtt_bytes ;;
              t1 <-w lift (u8_shr (N.land connect_flags 24) 3) ;;
              will_qos <-w lift (TraceLib.qos t1) ;;
              wret (Some (V4Connect.mkLastWill will_topic will_message will_qos (negb ((N.land connect_flags 32) =? 0))))
          end)
    | _ =>
        match (N.land connect_flags 4) with
        | 0 =>
            wret None
        | _ =>
            will_topic <-w TraceLib.read_mqtt_string ;;
            will_message <-w TraceLib.read_mqtt_bytes ;;
            t1 <-w lift (u8_shr (N.land connect_flags 24) 3) ;;
            will_qos <-w lift (TraceLib.qos t1) ;;
            wret (Some (V4Connect.mkLastWill will_topic will_message will_qos (negb ((N.land connect_flags 32) =? 0))))
        end
    end) ;;
  wret last_will.

(** src/v4/connect.rs:219-235 `Login::read` *)
Definition Login_read (connect_flags : N) : writer (option V4Connect.Login) :=
  username <-w (
    match (N.land connect_flags 128) with
    | 0 =>
        wret []
    | _ =>
        t1 <-w TraceLib.read_mqtt_string ;;
        wret t1
    end) ;;
  password <-w (
    match (N.land connect_flags 64) with
    | 0 =>
        wret []
    | _ =>
        t2 <-w TraceLib.read_mqtt_string ;;
        wret t2
    end) ;;
  if ((is_empty username) && (is_empty password)) then (
    wret None)
  else (
    wret (Some (V4Connect.mkLogin username password))).

(** src/v4/connect.rs:66-101 `Connect::read` *)
Definition Connect_read (fixed_header : Lib.FixedHeader) (bytes : list N) : outcome V4Connect.Connect :=
  run (
    let variable_header_index := (Lib.fixed_header_len fixed_header) in
    keep (advance variable_header_index) ;;w
    protocol_name <-w TraceLib.read_mqtt_string ;;
    protocol_level <-w TraceLib.read_u8 ;;
    (
      if (negb (bytes_eqb protocol_name [77; 81; 84; 84])) then (
        werr Base.InvalidProtocol)
      else (
        wret tt)) ;;w
    protocol <-w (
      match protocol_level with
      | 4 =>
          wret Base.V4
      | 5 =>
          wret Base.V5
      | num =>
          werr (Base.InvalidProtocolLevel num)
      end) ;;
    connect_flags <-w TraceLib.read_u8 ;;
    let clean_session := (negb ((N.land connect_flags 2) =? 0)) in
    keep_alive <-w TraceLib.read_u16 ;;
    client_id <-w TraceLib.read_mqtt_string ;;
    last_will <-w LastWill_read connect_flags ;;
    login <-w Login_read connect_flags ;;
    let connect := (V4Connect.mkConnect protocol keep_alive client_id clean_session last_will login) in
    wret connect) bytes.

(** src/v4/connect.rs:191-202 `LastWill::write` *)
Definition LastWill_write (self : V4Connect.LastWill) : writer N :=
  let connect_flags := 0 in
  t1 <-w lift (u8_shl (TraceLib.QoS_as_u8 (V4Connect.lw_qos self)) 3) ;;
  let connect_flags := (N.lor connect_flags (N.lor 4 t1)) in
  connect_flags <-w (
    if (V4Connect.lw_retain self) then (
      let connect_flags := (N.lor connect_flags 32) in
      wret connect_flags)
    else (
      wret connect_flags)) ;;
  TraceLib.write_mqtt_string (V4Connect.lw_topic self) ;;w
  TraceLib.write_mqtt_bytes (V4Connect.lw_message self) ;;w
  wret connect_flags.

(** src/v4/connect.rs:251-264 `Login::write` *)
Definition Login_write (self : V4Connect.Login) : writer N :=
  let connect_flags := 0 in
  connect_flags <-w (
    if (negb (is_empty (V4Connect.username self))) then (
      let connect_flags := (N.lor connect_flags 128) in
      TraceLib.write_mqtt_string (V4Connect.username self) ;;w
      wret connect_flags)
    else (
      wret connect_flags)) ;;
  connect_flags <-w (
    if (negb (is_empty (V4Connect.password self))) then (
      let connect_flags := (N.lor connect_flags 64) in
      TraceLib.write_mqtt_string (V4Connect.password self) ;;w
      wret connect_flags)
    else (
      wret connect_flags)) ;;
  wret connect_flags.

(** src/v4/connect.rs:103-136 `Connect::write` *)
Definition Connect_write (fuel : nat) (self : V4Connect.Connect) : writer N :=
  len <-w lift (Connect_len self) ;;
  put_u8 16 ;;w
  count <-w TraceLib.write_remaining_length fuel len ;;
  TraceLib.write_mqtt_string [77; 81; 84; 84] ;;w
  (
    match (V4Connect.protocol self) with
    | Base.V4 =>
        put_u8 4 ;;w
        wret tt
    | Base.V5 =>
        put_u8 5 ;;w
        wret tt
    end) ;;w
  t1 <-w lift (usize_add 1 count) ;;
  t2 <-w lift (usize_add t1 2) ;;
  t3 <-w lift (usize_add t2 4) ;;
  flags_index <-w lift (usize_add t3 1) ;;
  let connect_flags := 0 in
  connect_flags <-w (
    if (V4Connect.clean_session self) then (
      let connect_flags := (N.lor connect_flags 2) in
      wret connect_flags)
    else (
      wret connect_flags)) ;;
  put_u8 connect_flags ;;w
  put_u16 (V4Connect.keep_alive self) ;;w
  TraceLib.write_mqtt_string (V4Connect.client_id self) ;;w
  connect_flags <-w (
    match (V4Connect.last_will self) with
    | Some last_will =>
        t4 <-w LastWill_write last_will ;;
        let connect_flags := (N.lor connect_flags t4) in
        wret connect_flags
    | _ =>
        wret connect_flags
    end) ;;
  connect_flags <-w (
    match (V4Connect.login self) with
    | Some login =>
        t5 <-w Login_write login ;;
        let connect_flags := (N.lor connect_flags t5) in
        wret connect_flags
    | _ =>
        wret connect_flags
    end) ;;
  set_index flags_index connect_flags ;;w
  wret len.

(** src/v4/connect.rs:149-161 `LastWill::new` *)
Definition LastWill_new (topic : list N) (payload : list N) (qos : Base.QoS) (retain : bool) : outcome V4Connect.LastWill :=
  run (
    wret (V4Connect.mkLastWill topic payload qos retain)) [].

(** src/v4/connect.rs:212-217 `Login::new` *)
Definition Login_new (u : list N) (p : list N) : outcome V4Connect.Login :=
  run (
    wret (V4Connect.mkLogin u p)) [].

(** src/v4/connect.rs:266-268 `Login::validate` *)
Definition Login_validate (self : V4Connect.Login) (username : list N) (password : list N) : outcome bool :=
  run (
    wret ((bytes_eqb (V4Connect.username self) username) && (bytes_eqb (V4Connect.password self) password))) [].

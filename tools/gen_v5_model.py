#!/usr/bin/env python3
"""Writes the regular part of the v5 model (enums, property records, property
codecs) and glues the hand-written packet functions after it.  The generated
.v files are committed; this script is only a typing aid and is not needed to
build."""
import os
OUT = os.path.join(os.path.dirname(__file__), '..', 'rocq', 'theories')

# (field, kind, PropertyType)
TY = {'u8': 'option N', 'u16': 'option N', 'u32': 'option N', 'str': 'option bytes',
      'bin': 'option bytes', 'user': 'list (bytes * bytes)', 'ids': 'list N', 'id': 'option N'}

def props(path, rec, fields, lines, pre='', fn='extract', order=None, pubnew=None):
    """lines: dict struct,len,read,loop,write -> 'a-b'"""
    o = []
    f = [(pre + n, k, t) for n, k, t in fields]
    rpre = pre
    o.append(f"(** {path}:{lines['struct']} `{rec}` *)")
    o.append(f"Record {rec} := mk{rec} {{")
    o.append(";\n".join(f"  {n} : {TY[k]}" for n, k, t in f))
    o.append("}.\n")
    if pubnew:
        o.append(f"(** {path}:{pubnew} `{rec}::new`; also the state of the local variables before the loop")
        o.append(f"    ({path}:{lines['read']}) *)")
    else:
        o.append(f"(** {path}:{lines['read']}: the local variables before the loop (the loop state is")
        o.append(f"    kept in the record it finally builds) *)")
    empt = " ".join('[]' if TY[k].startswith('list') else 'None' for n, k, t in f)
    o.append(f"Definition {pre}props_new : {rec} := mk{rec} {empt}.\n")
    for i, (n, k, t) in enumerate(f):
        args = []
        for j, (m, k2, t2) in enumerate(f):
            if i == j:
                args.append(f"({m} self ++ [v])" if TY[k].startswith('list') else "(Some v)")
            else:
                args.append(f"({m} self)")
        verb = 'push' if TY[k].startswith('list') else 'set'
        vt = {'user': 'bytes * bytes', 'ids': 'N'}.get(k) or TY[k].replace('option ', '')
        what = f"`push` onto the local vector" if verb == 'push' else "assignment to the local variable"
        o.append(f"(** {path}:{lines['read']}: {what} for `{n}` *)")
        o.append(f"Definition {verb}_{n} (self : {rec}) (v : {vt}) : {rec} :=\n  mk{rec} {' '.join(args)}.")
    o.append("")
    o.append(f"(** {path}:{lines['len']} `{rec}::len` *)")
    o.append(f"Definition {pre}props_len (self : {rec}) : N :=")
    o.append("  let len := 0 in")
    for n, k, t in f:
        if k in ('u8', 'u16', 'u32'):
            sz = {'u8': 1, 'u16': 2, 'u32': 4}[k]
            o.append(f"  let len := if is_some ({n} self) then len + (1 + {sz}) else len in")
        elif k in ('str', 'bin'):
            o.append(f"  let len := match {n} self with Some v => len + (1 + 2 + blen v) | None => len end in")
        elif k == 'user':
            o.append(f"  let len := fold_left (fun len kv => len + (1 + 2 + blen (fst kv) + 2 + blen (snd kv))) ({n} self) len in")
        elif k == 'ids':
            o.append(f"  let len := fold_left (fun len id => len + (1 + len_len id)) ({n} self) len in")
        elif k == 'id':
            o.append(f"  let len := match {n} self with Some id => len + (1 + len_len id) | None => len end in")
    o.append("  len.\n")
    o.append(f"(** {path}:{lines['loop']}: the `match property(prop)?` of the loop body.  Returns the")
    o.append("    updated variables and what is added to `cursor`. *)")
    o.append(f"Definition {pre}props_step (ty : PropertyType) (prop : N) (self : {rec})")
    o.append(f"  : reader ({rec} * N) :=")
    o.append("  match ty with")
    fo = f if order is None else [next(x for x in f if x[0] == pre + n) for n in order]
    for n, k, t in fo:
        o.append(f"  | {t} =>")
        if k in ('u8', 'u16', 'u32'):
            sz = {'u8': 1, 'u16': 2, 'u32': 4}[k]
            o.append(f"      v <-r read_{k} ;; rret (set_{n} self v, {sz})")
        elif k == 'str':
            o.append(f"      v <-r read_mqtt_string ;; rret (set_{n} self v, 2 + blen v)")
        elif k == 'bin':
            o.append(f"      v <-r read_mqtt_bytes ;; rret (set_{n} self v, 2 + blen v)")
        elif k == 'user':
            o.append(f"      key <-r read_mqtt_string ;;\n      value <-r read_mqtt_string ;;\n"
                     f"      rret (push_{n} self (key, value), 2 + blen key + 2 + blen value)")
        elif k in ('ids', 'id'):
            verb = 'push' if k == 'ids' else 'set'
            o.append(f"      ll <-r peek_length ;;\n      advance (fst ll) ;;r\n"
                     f"      rret ({verb}_{n} self (snd ll), 1 + fst ll)")
    o.append("  | _ => rerr (InvalidPropertyType prop)")
    o.append("  end.\n")
    o.append(f"(** {path}:{lines['read']} `{rec}::{fn}` *)")
    o.append(f"Definition {pre}extract : reader (option {rec}) :=")
    o.append("  ll <-r peek_length ;;\n  advance (fst ll) ;;r")
    o.append("  if snd ll =? 0 then rret None")
    o.append("  else")
    o.append(f"    p <-r props_loop {pre}props_step (snd ll) {pre}props_new ;;")
    o.append("    rret (Some p).\n")
    o.append(f"(** {path}:{lines['write']} `{rec}::write` *)")
    o.append(f"Definition {pre}props_write (self : {rec}) : writer unit :=")
    o.append(f"  let len := {pre}props_len self in")
    o.append("  write_remaining_length len ;;w")
    for n, k, t in f:
        if k in ('u8', 'u16', 'u32'):
            o.append(f"  when_some ({n} self) (fun v => put_u8 (property_u8 {t}) ;;w put_{k} v) ;;w")
        elif k == 'str':
            o.append(f"  when_some ({n} self) (fun v => put_u8 (property_u8 {t}) ;;w write_mqtt_string v) ;;w")
        elif k == 'bin':
            o.append(f"  when_some ({n} self) (fun v => put_u8 (property_u8 {t}) ;;w write_mqtt_bytes v) ;;w")
        elif k == 'user':
            o.append(f"  for_each ({n} self) (fun kv =>\n    put_u8 (property_u8 {t}) ;;w\n"
                     f"    write_mqtt_string (fst kv) ;;w write_mqtt_string (snd kv)) ;;w")
        elif k == 'ids':
            o.append(f"  for_each ({n} self) (fun id =>\n    put_u8 (property_u8 {t}) ;;w\n"
                     f"    write_remaining_length id ;;w wret tt) ;;w")
        elif k == 'id':
            o.append(f"  when_some ({n} self) (fun id =>\n    put_u8 (property_u8 {t}) ;;w\n"
                     f"    write_remaining_length id ;;w wret tt) ;;w")
    o.append("  wret tt.\n")
    return "\n".join(o)

def enum(path, name, alts, l_enum, dec=None, l_dec=None, decname=None, err=None, u8='code_u8'):
    o = [f"(** {path}:{l_enum} `{name}` *)", f"Inductive {name} :=",
         "\n".join(f"| {a}" for a, _ in alts) + ".\n",
         f"(** the discriminants of `{name}` ({path}:{l_enum}), `as u8` *)",
         f"Definition {u8} (c : {name}) : N :=", "  match c with",
         "\n".join(f"  | {a} => {n}" for a, n in alts), "  end.\n"]
    if decname:
        o += [f"(** {path}:{l_dec} `{dec}` *)",
              f"Definition {decname} (num : N) : outcome {name} :=", "  match num with",
              "\n".join(f"  | {n} => Ok {a}" for a, n in alts),
              f"  | num => Err ({err} num)", "  end.\n"]
    return "\n".join(o)

HDR = "(** {f}.v -- model of {path}.  No proofs in this file. *)\nFrom Verif Require Import Base Utf8 Lib V5Property.\n\n"

def emit(f, path, *parts):
    with open(os.path.join(OUT, f + '.v'), 'w') as h:
        h.write(HDR.format(f=f, path=path) + "\n".join(p.strip('\n') + "\n" for p in parts))

PT = [('PayloadFormatIndicator', 1), ('MessageExpiryInterval', 2), ('ContentType', 3), ('ResponseTopic', 8),
      ('CorrelationData', 9), ('SubscriptionIdentifier', 11), ('SessionExpiryInterval', 17),
      ('AssignedClientIdentifier', 18), ('ServerKeepAlive', 19), ('AuthenticationMethod', 21),
      ('AuthenticationData', 22), ('RequestProblemInformation', 23), ('WillDelayInterval', 24),
      ('RequestResponseInformation', 25), ('ResponseInformation', 26), ('ServerReference', 28),
      ('ReasonString', 31), ('ReceiveMaximum', 33), ('TopicAliasMaximum', 34), ('TopicAlias', 35),
      ('MaximumQos', 36), ('RetainAvailable', 37), ('UserProperty', 38), ('MaximumPacketSize', 39),
      ('WildcardSubscriptionAvailable', 40), ('SubscriptionIdentifierAvailable', 41),
      ('SharedSubscriptionAvailable', 42)]

with open(os.path.join(OUT, 'V5Property.v'), 'w') as h:
    h.write("""(** V5Property.v -- model of the property vocabulary of src/v5/mod.rs and of the
    loop every v5 property block uses.  No proofs in this file. *)
From Verif Require Import Base Utf8 Lib.

""")
    h.write(enum('src/v5/mod.rs', 'PropertyType', PT, '50-80', 'property', '82-115', 'property',
                 'InvalidPropertyType', 'property_u8'))
    h.write("""
(** `length(bytes.iter())?`: looks at the buffer without consuming
    (e.g. src/v5/connack.rs:235). *)
Definition peek_length : reader (N * N) := fun s => rlift (length s) s.

(** The `while cursor < properties_len` loop, copied in every v5 file (e.g.
    src/v5/puback.rs:142-162):
      let prop = read_u8(bytes)?; cursor += 1;
      match property(prop)? { ... cursor += d; }
    [step] is the `match`; it returns the new local variables and [d]. *)
Fixpoint props_loop_fuel {A} (step : PropertyType -> N -> A -> reader (A * N))
    (fuel : nat) (properties_len cursor : N) (acc : A) : reader A :=
  fun bytes =>
    match fuel with
    | O => Diverge
    | S fuel =>
        if cursor <? properties_len then
          (prop <-r read_u8 ;;
           cursor <-r rlift (usize_add cursor 1) ;;
           ty <-r rlift (property prop) ;;
           r <-r step ty prop acc ;;
           cursor <-r rlift (usize_add cursor (snd r)) ;;
           props_loop_fuel step fuel properties_len cursor (fst r)) bytes
        else Ok (acc, bytes)
    end.

(** The loop from `let mut cursor = 0`; each iteration reads at least one byte
    (e.g. src/v5/puback.rs:142-162). *)
Definition props_loop {A} (step : PropertyType -> N -> A -> reader (A * N))
    (properties_len : N) (acc : A) : reader A :=
  fun bytes => props_loop_fuel step (S (List.length bytes)) properties_len 0 acc bytes.

(** The repeated
      let properties_len = properties.len();
      let properties_len_len = len_len(properties_len);
      len += properties_len_len + properties_len;
    (e.g. src/v5/puback.rs:44-48). *)
Definition add_props_len (len properties_len : N) : N :=
  len + (len_len properties_len + properties_len).
""")

# ---------------------------------------------------------------- connect
C = 'src/v5/connect.rs'
will = props(C, 'WillProperties', [
    ('delay_interval', 'u32', 'WillDelayInterval'), ('payload_format_indicator', 'u8', 'PayloadFormatIndicator'),
    ('message_expiry_interval', 'u32', 'MessageExpiryInterval'), ('content_type', 'str', 'ContentType'),
    ('response_topic', 'str', 'ResponseTopic'), ('correlation_data', 'bin', 'CorrelationData'),
    ('user_properties', 'user', 'UserProperty')],
    dict(struct='262-270', len='273-305', read='307-375', loop='324-364', write='377-418'), pre='wp_', fn='read')
conn = props(C, 'ConnectProperties', [
    ('session_expiry_interval', 'u32', 'SessionExpiryInterval'), ('receive_maximum', 'u16', 'ReceiveMaximum'),
    ('max_packet_size', 'u32', 'MaximumPacketSize'), ('topic_alias_max', 'u16', 'TopicAliasMaximum'),
    ('request_response_info', 'u8', 'RequestResponseInformation'),
    ('request_problem_info', 'u8', 'RequestProblemInformation'), ('user_properties', 'user', 'UserProperty'),
    ('authentication_method', 'str', 'AuthenticationMethod'), ('authentication_data', 'bin', 'AuthenticationData')],
    dict(struct='484-501', len='598-638', read='518-596', loop='537-583', write='640-691'), pre='cp_', fn='read')
emit('V5Connect', C, will, conn, """
(** src/v5/connect.rs:171-177 `LastWill` *)
Record LastWill := mkLastWill {
  lw_topic : bytes;
  lw_message : bytes;
  lw_qos : QoS;
  lw_retain : bool;
  lw_properties : option WillProperties
}.

(** src/v5/connect.rs:422-425 `Login` *)
Record Login := mkLogin { username : bytes; password : bytes }.

(** src/v5/connect.rs:8-23 `Connect` *)
Record Connect := mkConnect {
  protocol : Protocol;
  keep_alive : N;
  client_id : bytes;
  clean_session : bool;
  last_will : option LastWill;
  login : option Login;
  properties : option ConnectProperties
}.

(** src/v5/connect.rs:26-36 `Connect::new` *)
Definition new (id : bytes) : Connect := mkConnect V5 10 id true None None None.

(** src/v5/connect.rs:38-46 `Connect::set_login` *)
Definition set_login (self : Connect) (u p : bytes) : Connect :=
  mkConnect (protocol self) (keep_alive self) (client_id self) (clean_session self)
    (last_will self) (Some (mkLogin u p)) (properties self).

(** src/v5/connect.rs:180-193 `LastWill::new` *)
Definition lw_new (topic payload : bytes) (qos : QoS) (retain : bool) : LastWill :=
  mkLastWill topic payload qos retain None.

(** src/v5/connect.rs:428-433 `Login::new` *)
Definition login_new (u p : bytes) : Login := mkLogin u p.

(** src/v5/connect.rs:195-212 `LastWill::len` *)
Definition lw_len (self : LastWill) : N :=
  let len := 0 in
  let len := match lw_properties self with
             | Some properties => add_props_len len (wp_props_len properties)
             | None => len + 1
             end in
  len + (2 + blen (lw_topic self) + 2 + blen (lw_message self)).

(** src/v5/connect.rs:453-465 `Login::len` *)
Definition login_len (self : Login) : N :=
  let len := 0 in
  let len := if negb (is_empty (username self)) then len + (2 + blen (username self)) else len in
  let len := if negb (is_empty (password self)) then len + (2 + blen (password self)) else len in
  len.

(** the literal "MQTT" (src/v5/connect.rs:49, 88, 129). *)
Definition mqtt_name : bytes := [77; 81; 84; 84].

(** src/v5/connect.rs:48-79 `Connect::len` *)
Definition len (self : Connect) : N :=
  let len := 2 + blen mqtt_name + 1 + 1 + 2 in
  let len := match properties self with
             | Some properties => add_props_len len (cp_props_len properties)
             | None => len + 1
             end in
  let len := len + (2 + blen (client_id self)) in
  let len := match last_will self with Some last_will => len + lw_len last_will | None => len end in
  let len := match login self with Some login => len + login_len login | None => len end in
  len.

(** src/v5/connect.rs:214-238 `LastWill::read` *)
Definition lw_read (connect_flags : N) : reader (option LastWill) :=
  if N.land connect_flags 4 =? 0 then
    if negb (N.land connect_flags 56 =? 0) then rerr IncorrectPacketFormat
    else rret None
  else
    properties <-r wp_extract ;;
    will_topic <-r read_mqtt_string ;;
    will_message <-r read_mqtt_bytes ;;
    will_qos <-r rlift (qos (N.shiftr (N.land connect_flags 24) 3)) ;;
    rret (Some (mkLastWill will_topic will_message will_qos
                  (negb (N.land connect_flags 32 =? 0)) properties)).

(** src/v5/connect.rs:435-451 `Login::read` *)
Definition login_read (connect_flags : N) : reader (option Login) :=
  username <-r (if N.land connect_flags 128 =? 0 then rret [] else read_mqtt_string) ;;
  password <-r (if N.land connect_flags 64 =? 0 then rret [] else read_mqtt_string) ;;
  if is_empty username && is_empty password then rret None
  else rret (Some (mkLogin username password)).

(** src/v5/connect.rs:81-123 `Connect::read` *)
Definition read (fixed_header : FixedHeader) : reader Connect :=
  advance (fixed_header_len fixed_header) ;;r
  protocol_name <-r read_mqtt_string ;;
  protocol_level <-r read_u8 ;;
  if negb (bytes_eqb protocol_name mqtt_name) then rerr InvalidProtocol
  else
    protocol <-r (match protocol_level with
                  | 4 => rret V4
                  | 5 => rret V5
                  | num => rerr (InvalidProtocolLevel num)
                  end) ;;
    connect_flags <-r read_u8 ;;
    let clean_session := negb (N.land connect_flags 2 =? 0) in
    keep_alive <-r read_u16 ;;
    properties <-r (match protocol with
                    | V5 => cp_extract
                    | V4 => rret None
                    end) ;;
    client_id <-r read_mqtt_string ;;
    last_will <-r lw_read connect_flags ;;
    login <-r login_read connect_flags ;;
    rret (mkConnect protocol keep_alive client_id clean_session last_will login properties).

(** src/v5/connect.rs:240-258 `LastWill::write` (returns the flag bits) *)
Definition lw_write (self : LastWill) : writer N :=
  let connect_flags := N.lor 0 (N.lor 4 (N.shiftl (qos_u8 (lw_qos self)) 3)) in
  let connect_flags := if lw_retain self then N.lor connect_flags 0x20 else connect_flags in
  (match lw_properties self with
   | Some properties => wp_props_write properties
   | None => write_remaining_length 0 ;;w wret tt
   end) ;;w
  write_mqtt_string (lw_topic self) ;;w
  write_mqtt_bytes (lw_message self) ;;w
  wret connect_flags.

(** src/v5/connect.rs:467-480 `Login::write` (returns the flag bits) *)
Definition login_write (self : Login) : writer N :=
  let connect_flags := 0 in
  connect_flags <-w
    (if negb (is_empty (username self))
     then write_mqtt_string (username self) ;;w wret (N.lor connect_flags 0x80)
     else wret connect_flags) ;;
  (if negb (is_empty (password self))
   then write_mqtt_string (password self) ;;w wret (N.lor connect_flags 0x40)
   else wret connect_flags).

(** src/v5/connect.rs:125-166 `Connect::write`.  [set_index] is
    `buffer[flags_index] = connect_flags`, an index from the start of the
    caller's buffer. *)
Definition write (self : Connect) : writer N :=
  let len := len self in
  put_u8 16 ;;w
  count <-w write_remaining_length len ;;
  write_mqtt_string mqtt_name ;;w
  (match protocol self with V4 => put_u8 4 | V5 => put_u8 5 end) ;;w
  let flags_index := 1 + count + 2 + 4 + 1 in
  let connect_flags := 0 in
  let connect_flags := if clean_session self then N.lor connect_flags 2 else connect_flags in
  put_u8 connect_flags ;;w
  put_u16 (keep_alive self) ;;w
  (match properties self with
   | Some properties => cp_props_write properties
   | None => write_remaining_length 0 ;;w wret tt
   end) ;;w
  write_mqtt_string (client_id self) ;;w
  connect_flags <-w
    (match last_will self with
     | Some last_will => f <-w lw_write last_will ;; wret (N.lor connect_flags f)
     | None => wret connect_flags
     end) ;;
  connect_flags <-w
    (match login self with
     | Some login => f <-w login_write login ;; wret (N.lor connect_flags f)
     | None => wret connect_flags
     end) ;;
  set_index flags_index connect_flags ;;w
  wret len.
""")

# ---------------------------------------------------------------- connack
K = 'src/v5/connack.rs'
codes = [('Success', 0), ('UnspecifiedError', 128), ('MalformedPacket', 129), ('ProtocolError', 130),
         ('ImplementationSpecificError', 131), ('UnsupportedProtocolVersion', 132),
         ('ClientIdentifierNotValid', 133), ('BadUserNamePassword', 134), ('NotAuthorized', 135),
         ('ServerUnavailable', 136), ('ServerBusy', 137), ('Banned', 138), ('BadAuthenticationMethod', 140),
         ('TopicNameInvalid', 144), ('PacketTooLarge', 149), ('QuotaExceeded', 151),
         ('PayloadFormatInvalid', 153), ('RetainNotSupported', 154), ('QoSNotSupported', 155),
         ('UseAnotherServer', 156), ('ServerMoved', 157), ('ConnectionRateExceeded', 159)]
kp = props(K, 'ConnAckProperties', [
    ('session_expiry_interval', 'u32', 'SessionExpiryInterval'), ('receive_max', 'u16', 'ReceiveMaximum'),
    ('max_qos', 'u8', 'MaximumQos'), ('retain_available', 'u8', 'RetainAvailable'),
    ('max_packet_size', 'u32', 'MaximumPacketSize'), ('assigned_client_identifier', 'str', 'AssignedClientIdentifier'),
    ('topic_alias_max', 'u16', 'TopicAliasMaximum'), ('reason_string', 'str', 'ReasonString'),
    ('user_properties', 'user', 'UserProperty'),
    ('wildcard_subscription_available', 'u8', 'WildcardSubscriptionAvailable'),
    ('subscription_identifiers_available', 'u8', 'SubscriptionIdentifierAvailable'),
    ('shared_subscription_available', 'u8', 'SharedSubscriptionAvailable'),
    ('server_keep_alive', 'u16', 'ServerKeepAlive'), ('response_information', 'str', 'ResponseInformation'),
    ('server_reference', 'str', 'ServerReference'), ('authentication_method', 'str', 'AuthenticationMethod'),
    ('authentication_data', 'bin', 'AuthenticationData')],
    dict(struct='99-117', len='142-214', read='216-347', loop='243-326', write='349-440'), pubnew='120-140',
    order=['session_expiry_interval', 'receive_max', 'max_qos', 'retain_available', 'assigned_client_identifier',
           'max_packet_size', 'topic_alias_max', 'reason_string', 'user_properties',
           'wildcard_subscription_available', 'subscription_identifiers_available',
           'shared_subscription_available', 'server_keep_alive', 'response_information', 'server_reference',
           'authentication_method', 'authentication_data'])
emit('V5ConnAck', K, enum(K, 'ConnectReturnCode', codes, '9-32', 'connect_return', '444-472', 'connect_return',
                          'InvalidConnectReturnCode'), kp, """
(** src/v5/connack.rs:36-40 `ConnAck` *)
Record ConnAck := mkConnAck {
  session_present : bool;
  code : ConnectReturnCode;
  properties : option ConnAckProperties
}.

(** src/v5/connack.rs:43-49 `ConnAck::new` *)
Definition new (code : ConnectReturnCode) (session_present : bool) : ConnAck :=
  mkConnAck session_present code None.

(** src/v5/connack.rs:51-62 `ConnAck::len` *)
Definition len (self : ConnAck) : N :=
  let len := 1 + 1 in
  match properties self with
  | Some properties => add_props_len len (props_len properties)
  | None => len
  end.

(** src/v5/connack.rs:64-80 `ConnAck::read` *)
Definition read (fixed_header : FixedHeader) : reader ConnAck :=
  advance (fixed_header_len fixed_header) ;;r
  flags <-r read_u8 ;;
  return_code <-r read_u8 ;;
  let session_present := N.land flags 1 =? 1 in
  code <-r rlift (connect_return return_code) ;;
  properties <-r extract ;;
  rret (mkConnAck session_present code properties).

(** src/v5/connack.rs:82-95 `ConnAck::write` *)
Definition write (self : ConnAck) : writer N :=
  let len := len self in
  put_u8 0x20 ;;w
  count <-w write_remaining_length len ;;
  put_u8 (bool_u8 (session_present self)) ;;w
  put_u8 (code_u8 (code self)) ;;w
  when_some (properties self) props_write ;;w
  wret (1 + count + len).
""")

# ---------------------------------------------------------------- publish
P = 'src/v5/publish.rs'
pp = props(P, 'PublishProperties', [
    ('payload_format_indicator', 'u8', 'PayloadFormatIndicator'),
    ('message_expiry_interval', 'u32', 'MessageExpiryInterval'), ('topic_alias', 'u16', 'TopicAlias'),
    ('response_topic', 'str', 'ResponseTopic'), ('correlation_data', 'bin', 'CorrelationData'),
    ('user_properties', 'user', 'UserProperty'), ('subscription_identifiers', 'ids', 'SubscriptionIdentifier'),
    ('content_type', 'str', 'ContentType')],
    dict(struct='133-142', len='145-181', read='183-259', loop='201-247', write='261-307'))
emit('V5Publish', P, pp, """
(** src/v5/publish.rs:9-17 `Publish` *)
Record Publish := mkPublish {
  dup : bool;
  qos : QoS;
  retain : bool;
  topic : bytes;
  pkid : N;
  properties : option PublishProperties;
  payload : bytes
}.

(** src/v5/publish.rs:20-30 `Publish::new` *)
Definition new (topic : bytes) (qos : QoS) (payload : bytes) : Publish :=
  mkPublish false qos false topic 0 None payload.
(** src/v5/publish.rs:32-42 `Publish::from_bytes` *)
Definition from_bytes (topic : bytes) (qos : QoS) (payload : bytes) : Publish :=
  mkPublish false qos false topic 0 None payload.

(** src/v5/publish.rs:44-64 `Publish::len` *)
Definition len (self : Publish) : N :=
  let len := 2 + blen (topic self) in
  let len := if negb (qos_eqb (qos self) AtMostOnce) && negb (pkid self =? 0)
             then len + 2 else len in
  let len := match properties self with
             | Some properties => add_props_len len (props_len properties)
             | None => len + 1
             end in
  len + blen (payload self).

(** src/v5/publish.rs:66-96 `Publish::read` *)
Definition read (fixed_header : FixedHeader) : reader Publish :=
  qos <-r rlift (Lib.qos (N.shiftr (N.land (byte1 fixed_header) 6) 1)) ;;
  let dup := negb (N.land (byte1 fixed_header) 8 =? 0) in
  let retain := negb (N.land (byte1 fixed_header) 1 =? 0) in
  advance (fixed_header_len fixed_header) ;;r
  topic <-r read_mqtt_string ;;
  pkid <-r (match qos with
            | AtMostOnce => rret 0
            | AtLeastOnce | ExactlyOnce => read_u16
            end) ;;
  if negb (qos_eqb qos AtMostOnce) && (pkid =? 0) then rerr PacketIdZero
  else
    properties <-r extract ;;
    fun bytes => Ok (mkPublish dup qos retain topic pkid properties bytes, []).
    (* `payload: bytes`: the rest of the frame moves into the packet *)

(** src/v5/publish.rs:98-129 `Publish::write` *)
Definition write (self : Publish) : writer N :=
  let len := len self in
  let dup := bool_u8 (dup self) in
  let qos_n := qos_u8 (qos self) in
  let retain := bool_u8 (retain self) in
  put_u8 (N.lor (N.lor (N.lor 48 retain) (N.shiftl qos_n 1)) (N.shiftl dup 3)) ;;w
  count <-w write_remaining_length len ;;
  write_mqtt_string (topic self) ;;w
  (if negb (qos_eqb (qos self) AtMostOnce) then
     if pkid self =? 0 then werr PacketIdZero
     else put_u16 (pkid self)
   else wret tt) ;;w
  (match properties self with
   | Some properties => props_write properties
   | None => write_remaining_length 0 ;;w wret tt
   end) ;;w
  extend_from_slice (payload self) ;;w
  wret (1 + count + len).
""")

# ---------------------------------------------------------------- acks
R1 = [('Success', 0), ('NoMatchingSubscribers', 16), ('UnspecifiedError', 128), ('ImplementationSpecificError', 131),
      ('NotAuthorized', 135), ('TopicNameInvalid', 144), ('PacketIdentifierInUse', 145), ('QuotaExceeded', 151),
      ('PayloadFormatInvalid', 153)]
R2 = [('Success', 0), ('PacketIdentifierNotFound', 146)]
RS = [('reason_string', 'str', 'ReasonString'), ('user_properties', 'user', 'UserProperty')]
for (f, X, hdr, reasons, le, lst, lnew, llen, lread, lwrite, lp, lr) in [
    ('puback', 'PubAck', '0x40', R1, '7-17', '21-25', '28-34', '36-54', '56-87', '89-107',
     dict(struct='111-114', len='117-129', read='131-167', loop='144-161', write='169-185'), '188-203'),
    ('pubrec', 'PubRec', '0x50', R1, '7-17', '21-25', '28-34', '36-53', '55-83', '85-103',
     dict(struct='107-110', len='113-125', read='127-163', loop='140-157', write='165-181'), '184-199'),
    ('pubrel', 'PubRel', '0x62', R2, '7-10', '14-18', '21-27', '29-44', '46-74', '76-94',
     dict(struct='98-101', len='104-116', read='118-154', loop='131-148', write='156-172'), '175-183'),
    ('pubcomp', 'PubComp', '0x70', R2, '7-10', '14-18', '21-27', '29-44', '46-75', '77-95',
     dict(struct='99-102', len='105-117', read='119-155', loop='132-149', write='157-173'), '176-184')]:
    A = f'src/v5/{f}.rs'
    emit('V5' + X, A, enum(A, X + 'Reason', reasons, le, 'reason', lr, 'reason_of', 'InvalidConnectReturnCode'),
         f"(** `==` on `{X}Reason` (derived PartialEq, {A}:5-7). *)\n"
         f"Definition reason_eqb (a b : {X}Reason) : bool := code_u8 a =? code_u8 b.\n",
         props(A, X + 'Properties', RS, lp), f"""
(** {A}:{lst} `{X}` *)
Record {X} := mk{X} {{
  pkid : N;
  reason : {X}Reason;
  properties : option {X}Properties
}}.

(** {A}:{lnew} `{X}::new` *)
Definition new (pkid : N) : {X} := mk{X} pkid Success None.

(** {A}:{llen} `{X}::len` *)
Definition len (self : {X}) : N :=
  let len := 2 + 1 in
  if reason_eqb (reason self) Success && is_none (properties self) then 2
  else
    match properties self with
    | Some properties => add_props_len len (props_len properties)
    | None => len
    end.

(** {A}:{lread} `{X}::read` *)
Definition read (fixed_header : FixedHeader) : reader {X} :=
  advance (fixed_header_len fixed_header) ;;r
  pkid <-r read_u16 ;;
  if remaining_len fixed_header =? 2 then rret (mk{X} pkid Success None)
  else
    ack_reason <-r read_u8 ;;
    if remaining_len fixed_header <? 4 then
      reason <-r rlift (reason_of ack_reason) ;;
      rret (mk{X} pkid reason None)
    else
      reason <-r rlift (reason_of ack_reason) ;;
      properties <-r extract ;;
      rret (mk{X} pkid reason properties).

(** {A}:{lwrite} `{X}::write` *)
Definition write (self : {X}) : writer N :=
  let len := len self in
  put_u8 {hdr} ;;w
  count <-w write_remaining_length len ;;
  put_u16 (pkid self) ;;w
  if reason_eqb (reason self) Success && is_none (properties self) then wret 4
  else
    put_u8 (code_u8 (reason self)) ;;w
    when_some (properties self) props_write ;;w
    wret (1 + count + len).
""")

# ---------------------------------------------------------------- subscribe
S = 'src/v5/subscribe.rs'
emit('V5Subscribe', S, props(S, 'SubscribeProperties', [('id', 'id', 'SubscriptionIdentifier'),
     ('user_properties', 'user', 'UserProperty')],
     dict(struct='154-157', len='160-172', read='174-213', loop='187-207', write='215-231')), """
(** src/v5/subscribe.rs:299-303 `RetainForwardRule` *)
Inductive RetainForwardRule := OnEverySubscribe | OnNewSubscribe | Never.

(** src/v5/subscribe.rs:236-242 `SubscribeFilter` *)
Record SubscribeFilter := mkSubscribeFilter {
  path : bytes;
  qos : QoS;
  nolocal : bool;
  preserve_retain : bool;
  retain_forward_rule : RetainForwardRule
}.

(** src/v5/subscribe.rs:9-13 `Subscribe` *)
Record Subscribe := mkSubscribe {
  pkid : N;
  filters : list SubscribeFilter;
  properties : option SubscribeProperties
}.

(** src/v5/subscribe.rs:245-253 `SubscribeFilter::new` *)
Definition filter_new (path : bytes) (qos : QoS) : SubscribeFilter :=
  mkSubscribeFilter path qos false false OnEverySubscribe.
(** src/v5/subscribe.rs:255-258 `SubscribeFilter::set_nolocal` *)
Definition set_nolocal (self : SubscribeFilter) (flag : bool) : SubscribeFilter :=
  mkSubscribeFilter (path self) (qos self) flag (preserve_retain self) (retain_forward_rule self).
(** src/v5/subscribe.rs:260-263 `SubscribeFilter::set_preserve_retain` *)
Definition set_preserve_retain (self : SubscribeFilter) (flag : bool) : SubscribeFilter :=
  mkSubscribeFilter (path self) (qos self) (nolocal self) flag (retain_forward_rule self).
(** src/v5/subscribe.rs:265-268 `SubscribeFilter::set_retain_forward_rule` *)
Definition set_retain_forward_rule (self : SubscribeFilter) (rule : RetainForwardRule)
  : SubscribeFilter :=
  mkSubscribeFilter (path self) (qos self) (nolocal self) (preserve_retain self) rule.

(** src/v5/subscribe.rs:16-30 `Subscribe::new` *)
Definition new (path : bytes) (qos : QoS) : Subscribe :=
  mkSubscribe 0 [mkSubscribeFilter path qos false false OnEverySubscribe] None.
(** src/v5/subscribe.rs:32-41 `Subscribe::new_many` *)
Definition new_many (topics : list SubscribeFilter) : Subscribe := mkSubscribe 0 topics None.
(** src/v5/subscribe.rs:43-49 `Subscribe::empty_subscribe` *)
Definition empty_subscribe : Subscribe := mkSubscribe 0 [] None.
(** src/v5/subscribe.rs:51-62 `Subscribe::add` *)
Definition add (self : Subscribe) (path : bytes) (qos : QoS) : Subscribe :=
  mkSubscribe (pkid self)
    (filters self ++ [mkSubscribeFilter path qos false false OnEverySubscribe])
    (properties self).

(** src/v5/subscribe.rs:270-273 `SubscribeFilter::len` *)
Definition filter_len (self : SubscribeFilter) : N := 2 + blen (path self) + 1.

(** src/v5/subscribe.rs:64-77 `Subscribe::len` *)
Definition len (self : Subscribe) : N :=
  let len := 2 + fold_left (fun s t => s + filter_len t) (filters self) 0 in
  match properties self with
  | Some properties => add_props_len len (props_len properties)
  | None => len + 1
  end.

(** src/v5/subscribe.rs:100-106: the `match retain_forward_rule` *)
Definition rule_of (num : N) : outcome RetainForwardRule :=
  match num with
  | 0 => Ok OnEverySubscribe
  | 1 => Ok OnNewSubscribe
  | 2 => Ok Never
  | r => Err (InvalidRetainForwardRule r)
  end.

(** src/v5/subscribe.rs:89-115: the `while bytes.has_remaining()` loop *)
Fixpoint filters_loop (fuel : nat) (filters : list SubscribeFilter)
  : reader (list SubscribeFilter) :=
  fun bytes =>
    match fuel with
    | O => Diverge
    | S fuel =>
        if has_remaining bytes then
          (path <-r read_mqtt_string ;;
           options <-r read_u8 ;;
           let requested_qos := N.land options 3 in
           let nolocal := N.land (N.shiftr options 2) 1 in
           let nolocal := negb (nolocal =? 0) in
           let preserve_retain := N.land (N.shiftr options 3) 1 in
           let preserve_retain := negb (preserve_retain =? 0) in
           let retain_forward_rule := N.land (N.shiftr options 4) 3 in
           retain_forward_rule <-r rlift (rule_of retain_forward_rule) ;;
           qos <-r rlift (Lib.qos requested_qos) ;;
           filters_loop fuel
             (filters ++ [mkSubscribeFilter path qos nolocal preserve_retain retain_forward_rule]))
            bytes
        else Ok (filters, bytes)
    end.

(** src/v5/subscribe.rs:79-124 `Subscribe::read` *)
Definition read (fixed_header : FixedHeader) : reader Subscribe :=
  advance (fixed_header_len fixed_header) ;;r
  pkid <-r read_u16 ;;
  properties <-r extract ;;
  filters <-r (fun bytes => filters_loop (S (List.length bytes)) [] bytes) ;;
  rret (mkSubscribe pkid filters properties).

(** src/v5/subscribe.rs:275-295 `SubscribeFilter::write` *)
Definition filter_write (self : SubscribeFilter) : writer unit :=
  let options := 0 in
  let options := N.lor options (qos_u8 (qos self)) in
  let options := if nolocal self then N.lor options (N.shiftl 1 2) else options in
  let options := if preserve_retain self then N.lor options (N.shiftl 1 3) else options in
  let options := match retain_forward_rule self with
                 | OnEverySubscribe => N.lor options (N.shiftl 0 4)
                 | OnNewSubscribe => N.lor options (N.shiftl 1 4)
                 | Never => N.lor options (N.shiftl 2 4)
                 end in
  write_mqtt_string (path self) ;;w
  put_u8 options.

(** src/v5/subscribe.rs:126-150 `Subscribe::write` *)
Definition write (self : Subscribe) : writer N :=
  put_u8 0x82 ;;w
  let remaining_len := len self in
  remaining_len_bytes <-w write_remaining_length remaining_len ;;
  put_u16 (pkid self) ;;w
  (match properties self with
   | Some properties => props_write properties
   | None => write_remaining_length 0 ;;w wret tt
   end) ;;w
  for_each (filters self) filter_write ;;w
  wret (1 + remaining_len_bytes + remaining_len).
""")

# ---------------------------------------------------------------- suback / unsuback
SA = 'src/v5/suback.rs'
UA = 'src/v5/unsuback.rs'
sc = [('QoS0', 0), ('QoS1', 1), ('QoS2', 2), ('Unspecified', 128), ('ImplementationSpecific', 131),
      ('NotAuthorized', 135), ('TopicFilterInvalid', 143), ('PkidInUse', 145), ('QuotaExceeded', 151),
      ('SharedSubscriptionsNotSupported', 158), ('SubscriptionIdNotSupported', 161),
      ('WildcardSubscriptionsNotSupported', 162)]
uc = [('Success', '0x00'), ('NoSubscriptionExisted', '0x11'), ('UnspecifiedError', '0x80'),
      ('ImplementationSpecificError', '0x83'), ('NotAuthorized', '0x87'), ('TopicFilterInvalid', '0x8F'),
      ('PacketIdentifierInUse', '0x91')]
for (f, A, X, E, alts, le, decn, ld, declab, fld, hdr, lst, lnew, llen, lread, lloop, lwrite, lp) in [
    ('suback', SA, 'SubAck', 'SubscribeReasonCode', sc, '167-180', 'try_from', '182-204', 'TryFrom<u8>', 'return_codes', '0x90',
     '8-12', '15-21', '23-39', '41-65', '53-56', '67-84',
     dict(struct='88-91', len='94-106', read='108-144', loop='120-138', write='146-162')),
    ('unsuback', UA, 'UnsubAck', 'UnsubAckReason', uc, '7-15', 'reason_of', '177-190', 'reason', 'reasons', '0xB0',
     '19-23', '26-32', '34-50', '52-76', '64-67', '78-95',
     dict(struct='99-102', len='105-117', read='119-155', loop='131-149', write='157-173'))]:
    newdef = (f"Definition new (pkid : N) ({fld} : list {E}) : {X} := mk{X} pkid {fld} None." if f == 'suback'
              else f"Definition new (pkid : N) : {X} := mk{X} pkid [] None.")
    emit('V5' + X, A, enum(A, E, alts, le, declab, ld, decn, 'InvalidSubscribeReasonCode'),
         props(A, X + 'Properties', RS, lp), f"""
(** {A}:{lst} `{X}` *)
Record {X} := mk{X} {{
  pkid : N;
  {fld} : list {E};
  properties : option {X}Properties
}}.

(** {A}:{lnew} `{X}::new` *)
{newdef}

(** {A}:{llen} `{X}::len` *)
Definition len (self : {X}) : N :=
  let len := 2 + blen ({fld} self) in
  match properties self with
  | Some properties => add_props_len len (props_len properties)
  | None => len + 1
  end.

(** {A}:{lloop}: the `while bytes.has_remaining()` loop *)
Fixpoint codes_loop (fuel : nat) ({fld} : list {E})
  : reader (list {E}) :=
  fun bytes =>
    match fuel with
    | O => Diverge
    | S fuel =>
        if has_remaining bytes then
          (return_code <-r read_u8 ;;
           c <-r rlift ({decn} return_code) ;;
           codes_loop fuel ({fld} ++ [c])) bytes
        else Ok ({fld}, bytes)
    end.

(** {A}:{lread} `{X}::read` *)
Definition read (fixed_header : FixedHeader) : reader {X} :=
  advance (fixed_header_len fixed_header) ;;r
  pkid <-r read_u16 ;;
  properties <-r extract ;;
  fun bytes =>
    if negb (has_remaining bytes) then Err MalformedPacket
    else
      ({fld} <-r codes_loop (S (List.length bytes)) [] ;;
       rret (mk{X} pkid {fld} properties)) bytes.

(** {A}:{lwrite} `{X}::write` *)
Definition write (self : {X}) : writer N :=
  put_u8 {hdr} ;;w
  let remaining_len := len self in
  remaining_len_bytes <-w write_remaining_length remaining_len ;;
  put_u16 (pkid self) ;;w
  (match properties self with
   | Some properties => props_write properties
   | None => write_remaining_length 0 ;;w wret tt
   end) ;;w
  let p := map code_u8 ({fld} self) in
  extend_from_slice p ;;w
  wret (1 + remaining_len_bytes + remaining_len).
""")

# ---------------------------------------------------------------- unsubscribe
U = 'src/v5/unsubscribe.rs'
emit('V5Unsubscribe', U, props(U, 'UnsubscribeProperties', [('user_properties', 'user', 'UserProperty')],
     dict(struct='89-91', len='94-102', read='104-132', loop='116-129', write='134-145')), f"""
(** {U}:8-12 `Unsubscribe` *)
Record Unsubscribe := mkUnsubscribe {{
  pkid : N;
  filters : list bytes;
  properties : option UnsubscribeProperties
}}.

(** {U}:15-21 `Unsubscribe::new` *)
Definition new (topic : bytes) : Unsubscribe := mkUnsubscribe 0 [topic] None.

(** {U}:23-38 `Unsubscribe::len` *)
Definition len (self : Unsubscribe) : N :=
  let len := 2 + fold_left (fun s t => 2 + s + blen t) (filters self) 0 in
  match properties self with
  | Some properties => add_props_len len (props_len properties)
  | None => len + 1
  end.

(** {U}:49-52: the `while bytes.has_remaining()` loop *)
Fixpoint filters_loop (fuel : nat) (filters : list bytes) : reader (list bytes) :=
  fun s =>
    match fuel with
    | O => Diverge
    | S fuel =>
        if has_remaining s then
          (filter <-r read_mqtt_string ;;
           filters_loop fuel (filters ++ [filter])) s
        else Ok (filters, s)
    end.

(** {U}:40-60 `Unsubscribe::read`.  (Line 45, `dbg!(pkid)`, prints to stderr; not
    modelled.) *)
Definition read (fixed_header : FixedHeader) : reader Unsubscribe :=
  advance (fixed_header_len fixed_header) ;;r
  pkid <-r read_u16 ;;
  properties <-r extract ;;
  filters <-r (fun s => filters_loop (S (List.length s)) [] s) ;;
  rret (mkUnsubscribe pkid filters properties).

(** {U}:62-85 `Unsubscribe::write` *)
Definition write (self : Unsubscribe) : writer N :=
  put_u8 0xA2 ;;w
  let remaining_len := len self in
  remaining_len_bytes <-w write_remaining_length remaining_len ;;
  put_u16 (pkid self) ;;w
  (match properties self with
   | Some properties => props_write properties
   | None => write_remaining_length 0 ;;w wret tt
   end) ;;w
  for_each (filters self) write_mqtt_string ;;w
  wret (1 + remaining_len_bytes + remaining_len).
""")

# ---------------------------------------------------------------- disconnect
D = 'src/v5/disconnect.rs'
dc = [('NormalDisconnection', '0x00'), ('DisconnectWithWillMessage', '0x04'), ('UnspecifiedError', '0x80'),
      ('MalformedPacket', '0x81'), ('ProtocolError', '0x82'), ('ImplementationSpecificError', '0x83'),
      ('NotAuthorized', '0x87'), ('ServerBusy', '0x89'), ('ServerShuttingDown', '0x8B'), ('KeepAliveTimeout', '0x8D'),
      ('SessionTakenOver', '0x8E'), ('TopicFilterInvalid', '0x8F'), ('TopicNameInvalid', '0x90'),
      ('ReceiveMaximumExceeded', '0x93'), ('TopicAliasInvalid', '0x94'), ('PacketTooLarge', '0x95'),
      ('MessageRateTooHigh', '0x96'), ('QuotaExceeded', '0x97'), ('AdministrativeAction', '0x98'),
      ('PayloadFormatInvalid', '0x99'), ('RetainNotSupported', '0x9A'), ('QoSNotSupported', '0x9B'),
      ('UseAnotherServer', '0x9C'), ('ServerMoved', '0x9D'), ('SharedSubscriptionNotSupported', '0x9E'),
      ('ConnectionRateExceeded', '0x9F'), ('MaximumConnectTime', '0xA0'),
      ('SubscriptionIdentifiersNotSupported', '0xA1'), ('WildcardSubscriptionsNotSupported', '0xA2')]
emit('V5Disconnect', D, enum(D, 'DisconnectReasonCode', dc, '11-70', 'TryFrom<u8>', '72-111', 'try_from',
                             'InvalidConnectReturnCode'), """
(** `==` on `DisconnectReasonCode` (derived PartialEq, src/v5/disconnect.rs:9-11). *)
Definition reason_eqb (a b : DisconnectReasonCode) : bool := code_u8 a =? code_u8 b.
""", props(D, 'DisconnectProperties', [('session_expiry_interval', 'u32', 'SessionExpiryInterval'),
     ('reason_string', 'str', 'ReasonString'), ('user_properties', 'user', 'UserProperty'),
     ('server_reference', 'str', 'ServerReference')],
     dict(struct='114-126', len='147-167', read='169-223', loop='186-213', write='225-251'), pubnew='138-145'), f"""
(** {D}:129-135 `Disconnect` *)
Record Disconnect := mkDisconnect {{
  reason_code : DisconnectReasonCode;
  properties : option DisconnectProperties
}}.

(** {D}:255-260 `Disconnect::new` *)
Definition new : Disconnect := mkDisconnect NormalDisconnection None.

(** {D}:262-286 `Disconnect::len` *)
Definition len (self : Disconnect) : N :=
  if reason_eqb (reason_code self) NormalDisconnection && is_none (properties self) then 2
  else
    let length := 0 in
    match properties self with
    | Some properties =>
        let length := length + 1 in
        add_props_len length (props_len properties)
    | None =>
        if reason_eqb (reason_code self) NormalDisconnection then length
        else length + 1
    end.

(** {D}:288-314 `Disconnect::read` *)
Definition read (fixed_header : FixedHeader) : reader Disconnect :=
  let packet_type := N.shiftr (byte1 fixed_header) 4 in
  let flags := N.land (byte1 fixed_header) 15 in
  advance (fixed_header_len fixed_header) ;;r
  if negb (packet_type =? packet_type_u8 PT_Disconnect) then rerr (InvalidPacketType packet_type)
  else if negb (flags =? 0x00) then rerr Base.MalformedPacket
  else if remaining_len fixed_header =? 0 then rret new
  else
    reason_code <-r read_u8 ;;
    reason_code <-r rlift (try_from reason_code) ;;
    properties <-r extract ;;
    rret (mkDisconnect reason_code properties).

(** {D}:316-336 `Disconnect::write` *)
Definition write (self : Disconnect) : writer N :=
  put_u8 0xE0 ;;w
  let length := len self in
  if length =? 2 then put_u8 0x00 ;;w wret length
  else
    len_len <-w write_remaining_length length ;;
    put_u8 (code_u8 (reason_code self)) ;;w
    when_some (properties self) props_write ;;w
    wret (1 + len_len + length).
""")

# ---------------------------------------------------------------- ping / mod
with open(os.path.join(OUT, 'V5Ping.v'), 'w') as h:
    h.write("""(** V5Ping.v -- model of src/v5/ping.rs.  No proofs in this file. *)
From Verif Require Import Base Utf8 Lib.

(** src/v5/ping.rs:7-10 `PingReq::write` *)
Definition pingreq_write : writer N := put_slice [0xC0; 0x00] ;;w wret 2.
(** src/v5/ping.rs:16-19 `PingResp::write` *)
Definition pingresp_write : writer N := put_slice [0xD0; 0x00] ;;w wret 2.
""")
kinds = ['Connect', 'ConnAck', 'Publish', 'PubAck', 'PubRec', 'PubRel', 'PubComp', 'Subscribe', 'SubAck',
         'Unsubscribe', 'UnsubAck']
with open(os.path.join(OUT, 'V5Mod.v'), 'w') as h:
    h.write("""(** V5Mod.v -- model of src/v5/mod.rs (`Packet` and `read`).  No proofs in this file. *)
From Verif Require Import Base Utf8 Lib.
From Verif Require V5Connect V5ConnAck V5Publish V5PubAck V5PubRec V5PubRel V5PubComp
  V5Subscribe V5SubAck V5Unsubscribe V5UnsubAck V5Ping V5Disconnect.

(** src/v5/mod.rs:33-48 `Packet` *)
Inductive Packet :=
""")
    for k in kinds:
        h.write(f"| {k} (p : V5{k}.{k})\n")
    h.write("| PingReq\n| PingResp\n| Disconnect (p : V5Disconnect.Disconnect).\n")
    h.write("""
(** `Packet::X(X::read(fixed_header, packet)?)`: the decoder runs on the frame;
    what it leaves of the frame is dropped (src/v5/mod.rs:136-149). *)
Definition wrap {A} (f : A -> Packet) (r : outcome (A * bytes)) : outcome Packet :=
  match r with
  | Ok (a, _) => Ok (f a)
  | Err e => Err e
  | Panic => Panic
  | Diverge => Diverge
  end.

(** src/v5/mod.rs:123-152: what happens with a split-off frame. *)
Definition read_frame (fixed_header : FixedHeader) (packet : bytes) : outcome Packet :=
  packet_type <-? packet_type fixed_header ;;
  if remaining_len fixed_header =? 0 then
    match packet_type with
    | PT_PingReq => Ok PingReq
    | PT_PingResp => Ok PingResp
    | _ => Err PayloadRequired
    end
  else
    match packet_type with
""")
    for k in kinds:
        h.write(f"    | PT_{k} => wrap {k} (V5{k}.read fixed_header packet)\n")
    h.write("""    | PT_PingReq => Ok PingReq
    | PT_PingResp => Ok PingResp
    | PT_Disconnect => wrap Disconnect (V5Disconnect.read fixed_header packet)
    end.

(** src/v5/mod.rs:118-153 `read`.  Returns the result and the caller's stream after
    the call. *)
Definition read (stream : bytes) (max_size : N) : outcome Packet * bytes :=
  match check stream max_size with
  | Ok fixed_header =>
      match (n <-? frame_length fixed_header ;; split_to n stream) with
      | Ok (packet, stream) => (read_frame fixed_header packet, stream)
      | _ => (Panic, stream)                   (* `split_to` past the end panics *)
      end
  | Err e => (Err e, stream)
  | Panic => (Panic, stream)
  | Diverge => (Diverge, stream)
  end.

(** Not a function of the crate: the `write` method of the packet's own struct.
    Used to state properties for all packet kinds (e.g. src/v5/connect.rs:125-166). *)
Definition write (p : Packet) : writer N :=
  match p with
""")
    for k in kinds:
        h.write(f"  | {k} p => V5{k}.write p\n")
    h.write("""  | PingReq => V5Ping.pingreq_write
  | PingResp => V5Ping.pingresp_write
  | Disconnect p => V5Disconnect.write p
  end.
""")

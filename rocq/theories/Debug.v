(** Debug.v -- model of the hand-written text output: `Debug` of PUBLISH, SUBSCRIBE and
    subscription filters (v4 and v5), `Display` of errors.  No proofs in this file.
    Text is the UTF-8 bytes written to the formatter.  The formatting machinery of `core`
    (`{}` of strings, booleans and integers, `{:?}` of field-less enums, of one-field
    variants and of vectors) is modelled here; the derived `Debug` of the other structs is
    in SrcDebug.v. *)
From Coq Require Import String Ascii Decimal.
From Verif Require Import Base Lib.
From Verif Require V4Publish V4Subscribe V5Publish V5Subscribe.

(** a string literal (e.g. src/lib.rs:341). *)
Definition txt (s : string) : bytes := map N_of_ascii (list_ascii_of_string s).

(** `core::fmt`: `{}` of unsigned integers (e.g. src/v4/publish.rs:111-119). *)
Fixpoint digits (u : uint) : bytes :=
  match u with
  | Nil => []
  | D0 u => 48 :: digits u | D1 u => 49 :: digits u | D2 u => 50 :: digits u | D3 u => 51 :: digits u
  | D4 u => 52 :: digits u | D5 u => 53 :: digits u | D6 u => 54 :: digits u | D7 u => 55 :: digits u
  | D8 u => 56 :: digits u | D9 u => 57 :: digits u
  end.
(** e.g. src/v4/publish.rs:111-119 *)
Definition dec (n : N) : bytes := digits (N.to_uint n).
(** `core::fmt`: `{}` of `bool` (e.g. src/v4/publish.rs:111-119). *)
Definition show_bool (b : bool) : bytes := if b then txt "true" else txt "false".
(** `core::fmt`: `{:?}` of `Vec<T>`: the entries between brackets, separated by `, `
    (src/v4/subscribe.rs:132-136). *)
Fixpoint entries {A} (show : A -> bytes) (l : list A) : bytes :=
  match l with
  | [] => []
  | [x] => show x
  | x :: l => show x ++ txt ", " ++ entries show l
  end.
(** src/v4/subscribe.rs:132-136 *)
Definition show_vec {A} (show : A -> bytes) (l : list A) : bytes := txt "[" ++ entries show l ++ txt "]".

(** src/lib.rs:73-79: derived `Debug` of `QoS` *)
Definition show_qos (q : QoS) : bytes :=
  match q with
  | AtMostOnce => txt "AtMostOnce"
  | AtLeastOnce => txt "AtLeastOnce"
  | ExactlyOnce => txt "ExactlyOnce"
  end.
(** src/v5/subscribe.rs:298-303: derived `Debug` of `RetainForwardRule` *)
Definition show_rule (r : V5Subscribe.RetainForwardRule) : bytes :=
  match r with
  | V5Subscribe.OnEverySubscribe => txt "OnEverySubscribe"
  | V5Subscribe.OnNewSubscribe => txt "OnNewSubscribe"
  | V5Subscribe.Never => txt "Never"
  end.
(** src/lib.rs:46-63: derived `Debug` of `PacketType` *)
Definition show_type (t : PacketType) : bytes :=
  match t with
  | PT_Connect => txt "Connect" | PT_ConnAck => txt "ConnAck" | PT_Publish => txt "Publish"
  | PT_PubAck => txt "PubAck" | PT_PubRec => txt "PubRec" | PT_PubRel => txt "PubRel"
  | PT_PubComp => txt "PubComp" | PT_Subscribe => txt "Subscribe" | PT_SubAck => txt "SubAck"
  | PT_Unsubscribe => txt "Unsubscribe" | PT_UnsubAck => txt "UnsubAck" | PT_PingReq => txt "PingReq"
  | PT_PingResp => txt "PingResp" | PT_Disconnect => txt "Disconnect"
  end.

(** `core::fmt`: `{:?}` of a variant with one field (derived at src/lib.rs:13-43). *)
Definition variant (name : string) (arg : bytes) : bytes := txt name ++ txt "(" ++ arg ++ txt ")".
(** src/lib.rs:14-43: derived `Debug` of `Error` *)
Definition show_error (e : Error) : bytes :=
  match e with
  | NotConnect t => variant "NotConnect" (show_type t)
  | UnexpectedConnect => txt "UnexpectedConnect"
  | InvalidConnectReturnCode n => variant "InvalidConnectReturnCode" (dec n)
  | InvalidReason n => variant "InvalidReason" (dec n)
  | InvalidProtocol => txt "InvalidProtocol"
  | InvalidProtocolLevel n => variant "InvalidProtocolLevel" (dec n)
  | IncorrectPacketFormat => txt "IncorrectPacketFormat"
  | InvalidPacketType n => variant "InvalidPacketType" (dec n)
  | InvalidPropertyType n => variant "InvalidPropertyType" (dec n)
  | InvalidRetainForwardRule n => variant "InvalidRetainForwardRule" (dec n)
  | InvalidQoS n => variant "InvalidQoS" (dec n)
  | InvalidSubscribeReasonCode n => variant "InvalidSubscribeReasonCode" (dec n)
  | PacketIdZero => txt "PacketIdZero"
  | SubscriptionIdZero => txt "SubscriptionIdZero"
  | PayloadSizeIncorrect => txt "PayloadSizeIncorrect"
  | PayloadTooLong => txt "PayloadTooLong"
  | PayloadSizeLimitExceeded n => variant "PayloadSizeLimitExceeded" (dec n)
  | PayloadRequired => txt "PayloadRequired"
  | TopicNotUtf8 => txt "TopicNotUtf8"
  | BoundaryCrossed n => variant "BoundaryCrossed" (dec n)
  | MalformedPacket => txt "MalformedPacket"
  | MalformedRemainingLength => txt "MalformedRemainingLength"
  | EmptySubscription => txt "EmptySubscription"
  | InsufficientBytes n => variant "InsufficientBytes" (dec n)
  end.
(** src/lib.rs:339-343 `Display for Error` *)
Definition error_display (e : Error) : bytes := txt "Error = " ++ show_error e.

(** src/v4/publish.rs:109-121 `Debug for Publish` *)
Definition v4_publish (p : V4Publish.Publish) : bytes :=
  txt "Topic = " ++ V4Publish.topic p ++ txt ", Qos = " ++ show_qos (V4Publish.qos p)
  ++ txt ", Retain = " ++ show_bool (V4Publish.retain p) ++ txt ", Pkid = " ++ dec (V4Publish.pkid p)
  ++ txt ", Payload Size = " ++ dec (blen (V4Publish.payload p)).
(** src/v5/publish.rs:310-322 `Debug for Publish` *)
Definition v5_publish (p : V5Publish.Publish) : bytes :=
  txt "Topic = " ++ V5Publish.topic p ++ txt ", Qos = " ++ show_qos (V5Publish.qos p)
  ++ txt ", Retain = " ++ show_bool (V5Publish.retain p) ++ txt ", Pkid = " ++ dec (V5Publish.pkid p)
  ++ txt ", Payload Size = " ++ dec (blen (V5Publish.payload p)).

(** src/v4/subscribe.rs:140-144 `Debug for SubscribeFilter` *)
Definition v4_filter (f : V4Subscribe.SubscribeFilter) : bytes :=
  txt "Filter = " ++ V4Subscribe.path f ++ txt ", Qos = " ++ show_qos (V4Subscribe.qos f).
(** src/v4/subscribe.rs:130-138 `Debug for Subscribe` *)
Definition v4_subscribe (s : V4Subscribe.Subscribe) : bytes :=
  txt "Filters = " ++ show_vec v4_filter (V4Subscribe.filters s)
  ++ txt ", Packet id = " ++ dec (V4Subscribe.pkid s).
(** src/v5/subscribe.rs:315-323 `Debug for SubscribeFilter` *)
Definition v5_filter (f : V5Subscribe.SubscribeFilter) : bytes :=
  txt "Filter = " ++ V5Subscribe.path f ++ txt ", Qos = " ++ show_qos (V5Subscribe.qos f)
  ++ txt ", Nolocal = " ++ show_bool (V5Subscribe.nolocal f)
  ++ txt ", Preserve retain = " ++ show_bool (V5Subscribe.preserve_retain f)
  ++ txt ", Forward rule = " ++ show_rule (V5Subscribe.retain_forward_rule f).
(** src/v5/subscribe.rs:305-313 `Debug for Subscribe` *)
Definition v5_subscribe (s : V5Subscribe.Subscribe) : bytes :=
  txt "Filters = " ++ show_vec v5_filter (V5Subscribe.filters s)
  ++ txt ", Packet id = " ++ dec (V5Subscribe.pkid s).

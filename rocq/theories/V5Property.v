(** V5Property.v -- model of the property vocabulary of src/v5/mod.rs and of the
    loop every v5 property block uses.  No proofs in this file. *)
From Verif Require Import Base Utf8 Lib.

(** src/v5/mod.rs:50-80 `PropertyType` *)
Inductive PropertyType :=
| PayloadFormatIndicator
| MessageExpiryInterval
| ContentType
| ResponseTopic
| CorrelationData
| SubscriptionIdentifier
| SessionExpiryInterval
| AssignedClientIdentifier
| ServerKeepAlive
| AuthenticationMethod
| AuthenticationData
| RequestProblemInformation
| WillDelayInterval
| RequestResponseInformation
| ResponseInformation
| ServerReference
| ReasonString
| ReceiveMaximum
| TopicAliasMaximum
| TopicAlias
| MaximumQos
| RetainAvailable
| UserProperty
| MaximumPacketSize
| WildcardSubscriptionAvailable
| SubscriptionIdentifierAvailable
| SharedSubscriptionAvailable.

(** the discriminants of `PropertyType` (src/v5/mod.rs:50-80), `as u8` *)
Definition property_u8 (c : PropertyType) : N :=
  match c with
  | PayloadFormatIndicator => 1
  | MessageExpiryInterval => 2
  | ContentType => 3
  | ResponseTopic => 8
  | CorrelationData => 9
  | SubscriptionIdentifier => 11
  | SessionExpiryInterval => 17
  | AssignedClientIdentifier => 18
  | ServerKeepAlive => 19
  | AuthenticationMethod => 21
  | AuthenticationData => 22
  | RequestProblemInformation => 23
  | WillDelayInterval => 24
  | RequestResponseInformation => 25
  | ResponseInformation => 26
  | ServerReference => 28
  | ReasonString => 31
  | ReceiveMaximum => 33
  | TopicAliasMaximum => 34
  | TopicAlias => 35
  | MaximumQos => 36
  | RetainAvailable => 37
  | UserProperty => 38
  | MaximumPacketSize => 39
  | WildcardSubscriptionAvailable => 40
  | SubscriptionIdentifierAvailable => 41
  | SharedSubscriptionAvailable => 42
  end.

(** src/v5/mod.rs:82-115 `property` *)
Definition property (num : N) : outcome PropertyType :=
  match num with
  | 1 => Ok PayloadFormatIndicator
  | 2 => Ok MessageExpiryInterval
  | 3 => Ok ContentType
  | 8 => Ok ResponseTopic
  | 9 => Ok CorrelationData
  | 11 => Ok SubscriptionIdentifier
  | 17 => Ok SessionExpiryInterval
  | 18 => Ok AssignedClientIdentifier
  | 19 => Ok ServerKeepAlive
  | 21 => Ok AuthenticationMethod
  | 22 => Ok AuthenticationData
  | 23 => Ok RequestProblemInformation
  | 24 => Ok WillDelayInterval
  | 25 => Ok RequestResponseInformation
  | 26 => Ok ResponseInformation
  | 28 => Ok ServerReference
  | 31 => Ok ReasonString
  | 33 => Ok ReceiveMaximum
  | 34 => Ok TopicAliasMaximum
  | 35 => Ok TopicAlias
  | 36 => Ok MaximumQos
  | 37 => Ok RetainAvailable
  | 38 => Ok UserProperty
  | 39 => Ok MaximumPacketSize
  | 40 => Ok WildcardSubscriptionAvailable
  | 41 => Ok SubscriptionIdentifierAvailable
  | 42 => Ok SharedSubscriptionAvailable
  | num => Err (InvalidPropertyType num)
  end.

(** `length(bytes.iter())?`: looks at the buffer without consuming
    (e.g. src/v5/connack.rs:235). *)
Definition peek_length : reader (N * N) := fun s => rlift (length s) s.

(** The `while cursor < properties_len` loop, copied in every v5 file (e.g.
    src/v5/puback.rs:142-162):
      let prop = read_u8(bytes)?; cursor += 1;
      match property(prop)? { ... cursor += d; }
    [step] is the `match`; it returns the new local variables and [d]. *)
Fixpoint props_loop_fuel {A} (step : PropertyType -> N -> A -> reader (A * N))
    (fuel : nat) (properties_len cursor : N) (acc : A) : reader A :=
  fun bytes =>
    match fuel with
    | O => Diverge
    | S fuel =>
        if cursor <? properties_len then
          (prop <-r read_u8 ;;
           cursor <-r rlift (usize_add cursor 1) ;;
           ty <-r rlift (property prop) ;;
           r <-r step ty prop acc ;;
           cursor <-r rlift (usize_add cursor (snd r)) ;;
           props_loop_fuel step fuel properties_len cursor (fst r)) bytes
        else Ok (acc, bytes)
    end.

(** The loop from `let mut cursor = 0`; each iteration reads at least one byte
    (e.g. src/v5/puback.rs:142-162). *)
Definition props_loop {A} (step : PropertyType -> N -> A -> reader (A * N))
    (properties_len : N) (acc : A) : reader A :=
  fun bytes => props_loop_fuel step (S (List.length bytes)) properties_len 0 acc bytes.

(** The repeated
      let properties_len = properties.len();
      let properties_len_len = len_len(properties_len);
      len += properties_len_len + properties_len;
    (e.g. src/v5/puback.rs:44-48). *)
Definition add_props_len (len properties_len : N) : N :=
  len + (len_len properties_len + properties_len).

(** SpecCodes.v -- what it means for an enumeration to be represented by wire codes, and
    the code tables that are not in SpecV4/SpecV5. *)
From Verif Require Import Base.
From Verif Require V5Property.

(** [represents code decode error]: every value is decoded from its code, and a byte that
    is nobody's code is rejected with the error that carries it *)
Definition represents {A} (code : A -> N) (decode : N -> outcome A) (error : N -> Error) : Prop :=
  (forall a, code a < 256) /\
  (forall a b, code a = code b -> a = b) /\
  (forall a, decode (code a) = Ok a) /\
  (forall n, (forall a, n <> code a) -> decode n = Err (error n)).

(** MQTT 3.1.1 / 5 table 2-1 *)
Definition type_code (t : PacketType) : N :=
  match t with
  | PT_Connect => 1 | PT_ConnAck => 2 | PT_Publish => 3 | PT_PubAck => 4
  | PT_PubRec => 5 | PT_PubRel => 6 | PT_PubComp => 7 | PT_Subscribe => 8
  | PT_SubAck => 9 | PT_Unsubscribe => 10 | PT_UnsubAck => 11
  | PT_PingReq => 12 | PT_PingResp => 13 | PT_Disconnect => 14
  end.

(** MQTT 5 table 2-4 *)
Definition property_code (p : V5Property.PropertyType) : N :=
  match p with
  | V5Property.PayloadFormatIndicator => 0x01
  | V5Property.MessageExpiryInterval => 0x02
  | V5Property.ContentType => 0x03
  | V5Property.ResponseTopic => 0x08
  | V5Property.CorrelationData => 0x09
  | V5Property.SubscriptionIdentifier => 0x0B
  | V5Property.SessionExpiryInterval => 0x11
  | V5Property.AssignedClientIdentifier => 0x12
  | V5Property.ServerKeepAlive => 0x13
  | V5Property.AuthenticationMethod => 0x15
  | V5Property.AuthenticationData => 0x16
  | V5Property.RequestProblemInformation => 0x17
  | V5Property.WillDelayInterval => 0x18
  | V5Property.RequestResponseInformation => 0x19
  | V5Property.ResponseInformation => 0x1A
  | V5Property.ServerReference => 0x1C
  | V5Property.ReasonString => 0x1F
  | V5Property.ReceiveMaximum => 0x21
  | V5Property.TopicAliasMaximum => 0x22
  | V5Property.TopicAlias => 0x23
  | V5Property.MaximumQos => 0x24
  | V5Property.RetainAvailable => 0x25
  | V5Property.UserProperty => 0x26
  | V5Property.MaximumPacketSize => 0x27
  | V5Property.WildcardSubscriptionAvailable => 0x28
  | V5Property.SubscriptionIdentifierAvailable => 0x29
  | V5Property.SharedSubscriptionAvailable => 0x2A
  end.

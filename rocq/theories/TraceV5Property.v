(** TraceV5Property.v -- GENERATED by tools/rust2coq.py from src/v5/mod.rs; do not edit.
    No proofs in this file. *)
From Verif Require Import Base Lib SrcBase TraceBase.
From Verif Require V5Property.

(** src/v5/mod.rs:50 `PropertyType as u8` (the discriminants of the declaration; also decides the derived `==`) *)
Definition PropertyType_as_u8 (x : V5Property.PropertyType) : N :=
  match x with
  | V5Property.PayloadFormatIndicator => 1
  | V5Property.MessageExpiryInterval => 2
  | V5Property.ContentType => 3
  | V5Property.ResponseTopic => 8
  | V5Property.CorrelationData => 9
  | V5Property.SubscriptionIdentifier => 11
  | V5Property.SessionExpiryInterval => 17
  | V5Property.AssignedClientIdentifier => 18
  | V5Property.ServerKeepAlive => 19
  | V5Property.AuthenticationMethod => 21
  | V5Property.AuthenticationData => 22
  | V5Property.RequestProblemInformation => 23
  | V5Property.WillDelayInterval => 24
  | V5Property.RequestResponseInformation => 25
  | V5Property.ResponseInformation => 26
  | V5Property.ServerReference => 28
  | V5Property.ReasonString => 31
  | V5Property.ReceiveMaximum => 33
  | V5Property.TopicAliasMaximum => 34
  | V5Property.TopicAlias => 35
  | V5Property.MaximumQos => 36
  | V5Property.RetainAvailable => 37
  | V5Property.UserProperty => 38
  | V5Property.MaximumPacketSize => 39
  | V5Property.WildcardSubscriptionAvailable => 40
  | V5Property.SubscriptionIdentifierAvailable => 41
  | V5Property.SharedSubscriptionAvailable => 42
  end.

(** src/v5/mod.rs:82-115 `property` *)
Definition property (num : N) : outcome V5Property.PropertyType :=
  run (
    property <-w (
      match num with
      | 1 =>
          wret V5Property.PayloadFormatIndicator
      | 2 =>
          wret V5Property.MessageExpiryInterval
      | 3 =>
          wret V5Property.ContentType
      | 8 =>
          wret V5Property.ResponseTopic
      | 9 =>
          wret V5Property.CorrelationData
      | 11 =>
          wret V5Property.SubscriptionIdentifier
      | 17 =>
          wret V5Property.SessionExpiryInterval
      | 18 =>
          wret V5Property.AssignedClientIdentifier
      | 19 =>
          wret V5Property.ServerKeepAlive
      | 21 =>
          wret V5Property.AuthenticationMethod
      | 22 =>
          wret V5Property.AuthenticationData
      | 23 =>
          wret V5Property.RequestProblemInformation
      | 24 =>
          wret V5Property.WillDelayInterval
      | 25 =>
          wret V5Property.RequestResponseInformation
      | 26 =>
          wret V5Property.ResponseInformation
      | 28 =>
          wret V5Property.ServerReference
      | 31 =>
          wret V5Property.ReasonString
      | 33 =>
          wret V5Property.ReceiveMaximum
      | 34 =>
          wret V5Property.TopicAliasMaximum
      | 35 =>
          wret V5Property.TopicAlias
      | 36 =>
          wret V5Property.MaximumQos
      | 37 =>
          wret V5Property.RetainAvailable
      | 38 =>
          wret V5Property.UserProperty
      | 39 =>
          wret V5Property.MaximumPacketSize
      | 40 =>
          wret V5Property.WildcardSubscriptionAvailable
      | 41 =>
          wret V5Property.SubscriptionIdentifierAvailable
      | 42 =>
          wret V5Property.SharedSubscriptionAvailable
      | num =>
          werr (Base.InvalidPropertyType num)
      end) ;;
    wret property) [].

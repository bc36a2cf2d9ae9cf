(** ProofPortPlain.v -- GENERATED by tools/gen_port_proofs.py: the functions that neither add on `usize`
    nor call one that does, on an arbitrary target. *)
From Verif Require Import Base Lib SrcBase ProofWrapBase ProofPortBase ProofPortLib.
From Verif Require V4ConnAck V4Connect V4PubAck V4PubComp V4PubRec V4PubRel V4SubAck V4Subscribe V4UnsubAck V5ConnAck V5Connect V5SubAck V5Subscribe.
From Verif Require SrcLib SrcTopic SrcV4ConnAck SrcV4Connect SrcV4Disconnect SrcV4Ping SrcV4PubAck SrcV4PubComp SrcV4PubRec SrcV4PubRel SrcV4Publish SrcV4SubAck SrcV4Subscribe SrcV4UnsubAck SrcV4Unsubscribe SrcV4Mod SrcV5Ping SrcV5Property SrcV5ConnAck SrcV5Connect SrcV5Disconnect SrcV5PubAck SrcV5PubComp SrcV5PubRec SrcV5PubRel SrcV5Publish SrcV5SubAck SrcV5Subscribe SrcV5UnsubAck SrcV5Unsubscribe SrcV5Mod.
From Verif Require PortLib PortTopic PortV4ConnAck PortV4Connect PortV4Disconnect PortV4Ping PortV4PubAck PortV4PubComp PortV4PubRec PortV4PubRel PortV4Publish PortV4SubAck PortV4Subscribe PortV4UnsubAck PortV4Unsubscribe PortV4Mod PortV5Ping PortV5Property PortV5ConnAck PortV5Connect PortV5Disconnect PortV5PubAck PortV5PubComp PortV5PubRec PortV5PubRel PortV5Publish PortV5SubAck PortV5Subscribe PortV5UnsubAck PortV5Unsubscribe PortV5Mod.

Ltac names :=
  change (@PortLib.PacketType_as_u8) with (@SrcLib.PacketType_as_u8);
  change (@PortLib.Protocol_as_u8) with (@SrcLib.Protocol_as_u8);
  change (@PortLib.QoS_as_u8) with (@SrcLib.QoS_as_u8);
  change (@PortV4ConnAck.ConnectReturnCode_as_u8) with (@SrcV4ConnAck.ConnectReturnCode_as_u8);
  change (@PortV5Property.PropertyType_as_u8) with (@SrcV5Property.PropertyType_as_u8);
  change (@PortV5ConnAck.ConnectReturnCode_as_u8) with (@SrcV5ConnAck.ConnectReturnCode_as_u8);
  change (@PortV5Disconnect.DisconnectReasonCode_as_u8) with (@SrcV5Disconnect.DisconnectReasonCode_as_u8);
  change (@PortV5PubAck.PubAckReason_as_u8) with (@SrcV5PubAck.PubAckReason_as_u8);
  change (@PortV5PubComp.PubCompReason_as_u8) with (@SrcV5PubComp.PubCompReason_as_u8);
  change (@PortV5PubRec.PubRecReason_as_u8) with (@SrcV5PubRec.PubRecReason_as_u8);
  change (@PortV5PubRel.PubRelReason_as_u8) with (@SrcV5PubRel.PubRelReason_as_u8);
  change (@PortV5SubAck.SubscribeReasonCode_as_u8) with (@SrcV5SubAck.SubscribeReasonCode_as_u8);
  change (@PortV5Subscribe.RetainForwardRule_as_u8) with (@SrcV5Subscribe.RetainForwardRule_as_u8);
  change (@PortV5UnsubAck.UnsubAckReason_as_u8) with (@SrcV5UnsubAck.UnsubAckReason_as_u8).

Lemma pTopic_has_wildcards {T : Target} (s : list N) : osim (SrcTopic.has_wildcards s) (PortTopic.has_wildcards s).
Proof. unfold SrcTopic.has_wildcards, PortTopic.has_wildcards. names. plain. Qed.
Global Hint Resolve pTopic_has_wildcards : port.

Lemma pTopic_valid_topic {T : Target} (topic : list N) : osim (SrcTopic.valid_topic topic) (PortTopic.valid_topic topic).
Proof. unfold SrcTopic.valid_topic, PortTopic.valid_topic. names. plain. Qed.
Global Hint Resolve pTopic_valid_topic : port.

Lemma pTopic_valid_filter {T : Target} (filter : list N) : osim (SrcTopic.valid_filter filter) (PortTopic.valid_filter filter).
Proof. unfold SrcTopic.valid_filter, PortTopic.valid_filter. names. plain. Qed.
Global Hint Resolve pTopic_valid_filter : port.

Lemma pTopic_matches {T : Target} (topic : list N) (filter : list N) : osim (SrcTopic.matches topic filter) (PortTopic.matches topic filter).
Proof. unfold SrcTopic.matches, PortTopic.matches. names. plain. Qed.
Global Hint Resolve pTopic_matches : port.

Lemma pV4ConnAck_ConnAck_new {T : Target} (code : V4ConnAck.ConnectReturnCode) (session_present : bool) : osim (SrcV4ConnAck.ConnAck_new code session_present) (PortV4ConnAck.ConnAck_new code session_present).
Proof. unfold SrcV4ConnAck.ConnAck_new, PortV4ConnAck.ConnAck_new. names. plain. Qed.
Global Hint Resolve pV4ConnAck_ConnAck_new : port.

Lemma pV4ConnAck_connect_return {T : Target} (num : N) : osim (SrcV4ConnAck.connect_return num) (PortV4ConnAck.connect_return num).
Proof. unfold SrcV4ConnAck.connect_return, PortV4ConnAck.connect_return. names. plain. Qed.
Global Hint Resolve pV4ConnAck_connect_return : port.

Lemma pV4ConnAck_ConnAck_read {T : Target} (fixed_header : Lib.FixedHeader) (bytes : list N) : osim (SrcV4ConnAck.ConnAck_read fixed_header bytes) (PortV4ConnAck.ConnAck_read fixed_header bytes).
Proof. unfold SrcV4ConnAck.ConnAck_read, PortV4ConnAck.ConnAck_read. names. plain. Qed.
Global Hint Resolve pV4ConnAck_ConnAck_read : port.

Lemma pV4Connect_Connect_new {T : Target} (id : list N) : osim (SrcV4Connect.Connect_new id) (PortV4Connect.Connect_new id).
Proof. unfold SrcV4Connect.Connect_new, PortV4Connect.Connect_new. names. plain. Qed.
Global Hint Resolve pV4Connect_Connect_new : port.

Lemma pV4Connect_Connect_set_login {T : Target} (self : V4Connect.Connect) (u : list N) (p : list N) : osim (SrcV4Connect.Connect_set_login self u p) (PortV4Connect.Connect_set_login self u p).
Proof. unfold SrcV4Connect.Connect_set_login, PortV4Connect.Connect_set_login. names. plain. Qed.
Global Hint Resolve pV4Connect_Connect_set_login : port.

Lemma pV4Connect_LastWill_read {T : Target} (connect_flags : N) : wsim (SrcV4Connect.LastWill_read connect_flags) (PortV4Connect.LastWill_read connect_flags).
Proof. unfold SrcV4Connect.LastWill_read, PortV4Connect.LastWill_read. names. plain. Qed.
Global Hint Resolve pV4Connect_LastWill_read : port.

Lemma pV4Connect_Login_read {T : Target} (connect_flags : N) : wsim (SrcV4Connect.Login_read connect_flags) (PortV4Connect.Login_read connect_flags).
Proof. unfold SrcV4Connect.Login_read, PortV4Connect.Login_read. names. plain. Qed.
Global Hint Resolve pV4Connect_Login_read : port.

Lemma pV4Connect_Connect_read {T : Target} (fixed_header : Lib.FixedHeader) (bytes : list N) : osim (SrcV4Connect.Connect_read fixed_header bytes) (PortV4Connect.Connect_read fixed_header bytes).
Proof. unfold SrcV4Connect.Connect_read, PortV4Connect.Connect_read. names. plain. Qed.
Global Hint Resolve pV4Connect_Connect_read : port.

Lemma pV4Connect_LastWill_write {T : Target} (self : V4Connect.LastWill) : wsim (SrcV4Connect.LastWill_write self) (PortV4Connect.LastWill_write self).
Proof. unfold SrcV4Connect.LastWill_write, PortV4Connect.LastWill_write. names. plain. Qed.
Global Hint Resolve pV4Connect_LastWill_write : port.

Lemma pV4Connect_Login_write {T : Target} (self : V4Connect.Login) : wsim (SrcV4Connect.Login_write self) (PortV4Connect.Login_write self).
Proof. unfold SrcV4Connect.Login_write, PortV4Connect.Login_write. names. plain. Qed.
Global Hint Resolve pV4Connect_Login_write : port.

Lemma pV4Connect_LastWill_new {T : Target} (topic : list N) (payload : list N) (qos : Base.QoS) (retain : bool) : osim (SrcV4Connect.LastWill_new topic payload qos retain) (PortV4Connect.LastWill_new topic payload qos retain).
Proof. unfold SrcV4Connect.LastWill_new, PortV4Connect.LastWill_new. names. plain. Qed.
Global Hint Resolve pV4Connect_LastWill_new : port.

Lemma pV4Connect_Login_new {T : Target} (u : list N) (p : list N) : osim (SrcV4Connect.Login_new u p) (PortV4Connect.Login_new u p).
Proof. unfold SrcV4Connect.Login_new, PortV4Connect.Login_new. names. plain. Qed.
Global Hint Resolve pV4Connect_Login_new : port.

Lemma pV4Connect_Login_validate {T : Target} (self : V4Connect.Login) (username : list N) (password : list N) : osim (SrcV4Connect.Login_validate self username password) (PortV4Connect.Login_validate self username password).
Proof. unfold SrcV4Connect.Login_validate, PortV4Connect.Login_validate. names. plain. Qed.
Global Hint Resolve pV4Connect_Login_validate : port.

Lemma pV4Disconnect_Disconnect_write {T : Target} : wsim (SrcV4Disconnect.Disconnect_write ) (PortV4Disconnect.Disconnect_write ).
Proof. unfold SrcV4Disconnect.Disconnect_write, PortV4Disconnect.Disconnect_write. names. plain. Qed.
Global Hint Resolve pV4Disconnect_Disconnect_write : port.

Lemma pV4Ping_PingReq_write {T : Target} : wsim (SrcV4Ping.PingReq_write ) (PortV4Ping.PingReq_write ).
Proof. unfold SrcV4Ping.PingReq_write, PortV4Ping.PingReq_write. names. plain. Qed.
Global Hint Resolve pV4Ping_PingReq_write : port.

Lemma pV4Ping_PingResp_write {T : Target} : wsim (SrcV4Ping.PingResp_write ) (PortV4Ping.PingResp_write ).
Proof. unfold SrcV4Ping.PingResp_write, PortV4Ping.PingResp_write. names. plain. Qed.
Global Hint Resolve pV4Ping_PingResp_write : port.

Lemma pV4PubAck_PubAck_new {T : Target} (pkid : N) : osim (SrcV4PubAck.PubAck_new pkid) (PortV4PubAck.PubAck_new pkid).
Proof. unfold SrcV4PubAck.PubAck_new, PortV4PubAck.PubAck_new. names. plain. Qed.
Global Hint Resolve pV4PubAck_PubAck_new : port.

Lemma pV4PubAck_PubAck_len {T : Target} (self : V4PubAck.PubAck) : osim (SrcV4PubAck.PubAck_len self) (PortV4PubAck.PubAck_len self).
Proof. unfold SrcV4PubAck.PubAck_len, PortV4PubAck.PubAck_len. names. plain. Qed.
Global Hint Resolve pV4PubAck_PubAck_len : port.

Lemma pV4PubAck_PubAck_read {T : Target} (fixed_header : Lib.FixedHeader) (bytes : list N) : osim (SrcV4PubAck.PubAck_read fixed_header bytes) (PortV4PubAck.PubAck_read fixed_header bytes).
Proof. unfold SrcV4PubAck.PubAck_read, PortV4PubAck.PubAck_read. names. plain. Qed.
Global Hint Resolve pV4PubAck_PubAck_read : port.

Lemma pV4PubComp_PubComp_new {T : Target} (pkid : N) : osim (SrcV4PubComp.PubComp_new pkid) (PortV4PubComp.PubComp_new pkid).
Proof. unfold SrcV4PubComp.PubComp_new, PortV4PubComp.PubComp_new. names. plain. Qed.
Global Hint Resolve pV4PubComp_PubComp_new : port.

Lemma pV4PubComp_PubComp_len {T : Target} (self : V4PubComp.PubComp) : osim (SrcV4PubComp.PubComp_len self) (PortV4PubComp.PubComp_len self).
Proof. unfold SrcV4PubComp.PubComp_len, PortV4PubComp.PubComp_len. names. plain. Qed.
Global Hint Resolve pV4PubComp_PubComp_len : port.

Lemma pV4PubComp_PubComp_read {T : Target} (fixed_header : Lib.FixedHeader) (bytes : list N) : osim (SrcV4PubComp.PubComp_read fixed_header bytes) (PortV4PubComp.PubComp_read fixed_header bytes).
Proof. unfold SrcV4PubComp.PubComp_read, PortV4PubComp.PubComp_read. names. plain. Qed.
Global Hint Resolve pV4PubComp_PubComp_read : port.

Lemma pV4PubRec_PubRec_new {T : Target} (pkid : N) : osim (SrcV4PubRec.PubRec_new pkid) (PortV4PubRec.PubRec_new pkid).
Proof. unfold SrcV4PubRec.PubRec_new, PortV4PubRec.PubRec_new. names. plain. Qed.
Global Hint Resolve pV4PubRec_PubRec_new : port.

Lemma pV4PubRec_PubRec_len {T : Target} (self : V4PubRec.PubRec) : osim (SrcV4PubRec.PubRec_len self) (PortV4PubRec.PubRec_len self).
Proof. unfold SrcV4PubRec.PubRec_len, PortV4PubRec.PubRec_len. names. plain. Qed.
Global Hint Resolve pV4PubRec_PubRec_len : port.

Lemma pV4PubRec_PubRec_read {T : Target} (fixed_header : Lib.FixedHeader) (bytes : list N) : osim (SrcV4PubRec.PubRec_read fixed_header bytes) (PortV4PubRec.PubRec_read fixed_header bytes).
Proof. unfold SrcV4PubRec.PubRec_read, PortV4PubRec.PubRec_read. names. plain. Qed.
Global Hint Resolve pV4PubRec_PubRec_read : port.

Lemma pV4PubRel_PubRel_new {T : Target} (pkid : N) : osim (SrcV4PubRel.PubRel_new pkid) (PortV4PubRel.PubRel_new pkid).
Proof. unfold SrcV4PubRel.PubRel_new, PortV4PubRel.PubRel_new. names. plain. Qed.
Global Hint Resolve pV4PubRel_PubRel_new : port.

Lemma pV4PubRel_PubRel_len {T : Target} (self : V4PubRel.PubRel) : osim (SrcV4PubRel.PubRel_len self) (PortV4PubRel.PubRel_len self).
Proof. unfold SrcV4PubRel.PubRel_len, PortV4PubRel.PubRel_len. names. plain. Qed.
Global Hint Resolve pV4PubRel_PubRel_len : port.

Lemma pV4PubRel_PubRel_read {T : Target} (fixed_header : Lib.FixedHeader) (bytes : list N) : osim (SrcV4PubRel.PubRel_read fixed_header bytes) (PortV4PubRel.PubRel_read fixed_header bytes).
Proof. unfold SrcV4PubRel.PubRel_read, PortV4PubRel.PubRel_read. names. plain. Qed.
Global Hint Resolve pV4PubRel_PubRel_read : port.

Lemma pV4Publish_Publish_new {T : Target} (topic : list N) (qos : Base.QoS) (payload : list N) : osim (SrcV4Publish.Publish_new topic qos payload) (PortV4Publish.Publish_new topic qos payload).
Proof. unfold SrcV4Publish.Publish_new, PortV4Publish.Publish_new. names. plain. Qed.
Global Hint Resolve pV4Publish_Publish_new : port.

Lemma pV4Publish_Publish_from_bytes {T : Target} (topic : list N) (qos : Base.QoS) (payload : list N) : osim (SrcV4Publish.Publish_from_bytes topic qos payload) (PortV4Publish.Publish_from_bytes topic qos payload).
Proof. unfold SrcV4Publish.Publish_from_bytes, PortV4Publish.Publish_from_bytes. names. plain. Qed.
Global Hint Resolve pV4Publish_Publish_from_bytes : port.

Lemma pV4Publish_Publish_read {T : Target} (fixed_header : Lib.FixedHeader) (bytes : list N) : osim (SrcV4Publish.Publish_read fixed_header bytes) (PortV4Publish.Publish_read fixed_header bytes).
Proof. unfold SrcV4Publish.Publish_read, PortV4Publish.Publish_read. names. plain. Qed.
Global Hint Resolve pV4Publish_Publish_read : port.

Lemma pV4SubAck_SubAck_new {T : Target} (pkid : N) (return_codes : list V4SubAck.SubscribeReasonCode) : osim (SrcV4SubAck.SubAck_new pkid return_codes) (PortV4SubAck.SubAck_new pkid return_codes).
Proof. unfold SrcV4SubAck.SubAck_new, PortV4SubAck.SubAck_new. names. plain. Qed.
Global Hint Resolve pV4SubAck_SubAck_new : port.

Lemma pV4SubAck_SubscribeReasonCode_try_from {T : Target} (value : N) : osim (SrcV4SubAck.SubscribeReasonCode_try_from value) (PortV4SubAck.SubscribeReasonCode_try_from value).
Proof. unfold SrcV4SubAck.SubscribeReasonCode_try_from, PortV4SubAck.SubscribeReasonCode_try_from. names. plain. Qed.
Global Hint Resolve pV4SubAck_SubscribeReasonCode_try_from : port.

Lemma pV4SubAck_SubAck_read {T : Target} (fuel : nat) (fixed_header : Lib.FixedHeader) (bytes : list N) : osim (SrcV4SubAck.SubAck_read fuel fixed_header bytes) (PortV4SubAck.SubAck_read fuel fixed_header bytes).
Proof. unfold SrcV4SubAck.SubAck_read, PortV4SubAck.SubAck_read. names. plain. Qed.
Global Hint Resolve pV4SubAck_SubAck_read : port.

Lemma pV4Subscribe_Subscribe_new {T : Target} (path : list N) (qos : Base.QoS) : osim (SrcV4Subscribe.Subscribe_new path qos) (PortV4Subscribe.Subscribe_new path qos).
Proof. unfold SrcV4Subscribe.Subscribe_new, PortV4Subscribe.Subscribe_new. names. plain. Qed.
Global Hint Resolve pV4Subscribe_Subscribe_new : port.

Lemma pV4Subscribe_Subscribe_new_many {T : Target} (topics : list V4Subscribe.SubscribeFilter) : osim (SrcV4Subscribe.Subscribe_new_many topics) (PortV4Subscribe.Subscribe_new_many topics).
Proof. unfold SrcV4Subscribe.Subscribe_new_many, PortV4Subscribe.Subscribe_new_many. names. plain. Qed.
Global Hint Resolve pV4Subscribe_Subscribe_new_many : port.

Lemma pV4Subscribe_Subscribe_add {T : Target} (self : V4Subscribe.Subscribe) (path : list N) (qos : Base.QoS) : osim (SrcV4Subscribe.Subscribe_add self path qos) (PortV4Subscribe.Subscribe_add self path qos).
Proof. unfold SrcV4Subscribe.Subscribe_add, PortV4Subscribe.Subscribe_add. names. plain. Qed.
Global Hint Resolve pV4Subscribe_Subscribe_add : port.

Lemma pV4Subscribe_Subscribe_read {T : Target} (fuel : nat) (fixed_header : Lib.FixedHeader) (bytes : list N) : osim (SrcV4Subscribe.Subscribe_read fuel fixed_header bytes) (PortV4Subscribe.Subscribe_read fuel fixed_header bytes).
Proof. unfold SrcV4Subscribe.Subscribe_read, PortV4Subscribe.Subscribe_read. names. plain. Qed.
Global Hint Resolve pV4Subscribe_Subscribe_read : port.

Lemma pV4Subscribe_SubscribeFilter_write {T : Target} (self : V4Subscribe.SubscribeFilter) : wsim (SrcV4Subscribe.SubscribeFilter_write self) (PortV4Subscribe.SubscribeFilter_write self).
Proof. unfold SrcV4Subscribe.SubscribeFilter_write, PortV4Subscribe.SubscribeFilter_write. names. plain. Qed.
Global Hint Resolve pV4Subscribe_SubscribeFilter_write : port.

Lemma pV4Subscribe_SubscribeFilter_new {T : Target} (path : list N) (qos : Base.QoS) : osim (SrcV4Subscribe.SubscribeFilter_new path qos) (PortV4Subscribe.SubscribeFilter_new path qos).
Proof. unfold SrcV4Subscribe.SubscribeFilter_new, PortV4Subscribe.SubscribeFilter_new. names. plain. Qed.
Global Hint Resolve pV4Subscribe_SubscribeFilter_new : port.

Lemma pV4UnsubAck_UnsubAck_new {T : Target} (pkid : N) : osim (SrcV4UnsubAck.UnsubAck_new pkid) (PortV4UnsubAck.UnsubAck_new pkid).
Proof. unfold SrcV4UnsubAck.UnsubAck_new, PortV4UnsubAck.UnsubAck_new. names. plain. Qed.
Global Hint Resolve pV4UnsubAck_UnsubAck_new : port.

Lemma pV4UnsubAck_UnsubAck_read {T : Target} (fixed_header : Lib.FixedHeader) (bytes : list N) : osim (SrcV4UnsubAck.UnsubAck_read fixed_header bytes) (PortV4UnsubAck.UnsubAck_read fixed_header bytes).
Proof. unfold SrcV4UnsubAck.UnsubAck_read, PortV4UnsubAck.UnsubAck_read. names. plain. Qed.
Global Hint Resolve pV4UnsubAck_UnsubAck_read : port.

Lemma pV4UnsubAck_UnsubAck_write {T : Target} (self : V4UnsubAck.UnsubAck) : wsim (SrcV4UnsubAck.UnsubAck_write self) (PortV4UnsubAck.UnsubAck_write self).
Proof. unfold SrcV4UnsubAck.UnsubAck_write, PortV4UnsubAck.UnsubAck_write. names. plain. Qed.
Global Hint Resolve pV4UnsubAck_UnsubAck_write : port.

Lemma pV4Unsubscribe_Unsubscribe_new {T : Target} (topic : list N) : osim (SrcV4Unsubscribe.Unsubscribe_new topic) (PortV4Unsubscribe.Unsubscribe_new topic).
Proof. unfold SrcV4Unsubscribe.Unsubscribe_new, PortV4Unsubscribe.Unsubscribe_new. names. plain. Qed.
Global Hint Resolve pV4Unsubscribe_Unsubscribe_new : port.

Lemma pV5Ping_PingReq_write {T : Target} : wsim (SrcV5Ping.PingReq_write ) (PortV5Ping.PingReq_write ).
Proof. unfold SrcV5Ping.PingReq_write, PortV5Ping.PingReq_write. names. plain. Qed.
Global Hint Resolve pV5Ping_PingReq_write : port.

Lemma pV5Ping_PingResp_write {T : Target} : wsim (SrcV5Ping.PingResp_write ) (PortV5Ping.PingResp_write ).
Proof. unfold SrcV5Ping.PingResp_write, PortV5Ping.PingResp_write. names. plain. Qed.
Global Hint Resolve pV5Ping_PingResp_write : port.

Lemma pV5ConnAck_ConnAck_new {T : Target} (code : V5ConnAck.ConnectReturnCode) (session_present : bool) : osim (SrcV5ConnAck.ConnAck_new code session_present) (PortV5ConnAck.ConnAck_new code session_present).
Proof. unfold SrcV5ConnAck.ConnAck_new, PortV5ConnAck.ConnAck_new. names. plain. Qed.
Global Hint Resolve pV5ConnAck_ConnAck_new : port.

Lemma pV5ConnAck_connect_return {T : Target} (num : N) : osim (SrcV5ConnAck.connect_return num) (PortV5ConnAck.connect_return num).
Proof. unfold SrcV5ConnAck.connect_return, PortV5ConnAck.connect_return. names. plain. Qed.
Global Hint Resolve pV5ConnAck_connect_return : port.

Lemma pV5ConnAck_ConnAckProperties_new {T : Target} : osim (SrcV5ConnAck.ConnAckProperties_new ) (PortV5ConnAck.ConnAckProperties_new ).
Proof. unfold SrcV5ConnAck.ConnAckProperties_new, PortV5ConnAck.ConnAckProperties_new. names. plain. Qed.
Global Hint Resolve pV5ConnAck_ConnAckProperties_new : port.

Lemma pV5Connect_Connect_new {T : Target} (id : list N) : osim (SrcV5Connect.Connect_new id) (PortV5Connect.Connect_new id).
Proof. unfold SrcV5Connect.Connect_new, PortV5Connect.Connect_new. names. plain. Qed.
Global Hint Resolve pV5Connect_Connect_new : port.

Lemma pV5Connect_Connect_set_login {T : Target} (self : V5Connect.Connect) (u : list N) (p : list N) : osim (SrcV5Connect.Connect_set_login self u p) (PortV5Connect.Connect_set_login self u p).
Proof. unfold SrcV5Connect.Connect_set_login, PortV5Connect.Connect_set_login. names. plain. Qed.
Global Hint Resolve pV5Connect_Connect_set_login : port.

Lemma pV5Connect_Login_read {T : Target} (connect_flags : N) : wsim (SrcV5Connect.Login_read connect_flags) (PortV5Connect.Login_read connect_flags).
Proof. unfold SrcV5Connect.Login_read, PortV5Connect.Login_read. names. plain. Qed.
Global Hint Resolve pV5Connect_Login_read : port.

Lemma pV5Connect_Login_write {T : Target} (self : V5Connect.Login) : wsim (SrcV5Connect.Login_write self) (PortV5Connect.Login_write self).
Proof. unfold SrcV5Connect.Login_write, PortV5Connect.Login_write. names. plain. Qed.
Global Hint Resolve pV5Connect_Login_write : port.

Lemma pV5Connect_LastWill_new {T : Target} (topic : list N) (payload : list N) (qos : Base.QoS) (retain : bool) : osim (SrcV5Connect.LastWill_new topic payload qos retain) (PortV5Connect.LastWill_new topic payload qos retain).
Proof. unfold SrcV5Connect.LastWill_new, PortV5Connect.LastWill_new. names. plain. Qed.
Global Hint Resolve pV5Connect_LastWill_new : port.

Lemma pV5Connect_Login_new {T : Target} (u : list N) (p : list N) : osim (SrcV5Connect.Login_new u p) (PortV5Connect.Login_new u p).
Proof. unfold SrcV5Connect.Login_new, PortV5Connect.Login_new. names. plain. Qed.
Global Hint Resolve pV5Connect_Login_new : port.

Lemma pV5Connect_ConnectProperties__new {T : Target} : osim (SrcV5Connect.ConnectProperties__new ) (PortV5Connect.ConnectProperties__new ).
Proof. unfold SrcV5Connect.ConnectProperties__new, PortV5Connect.ConnectProperties__new. names. plain. Qed.
Global Hint Resolve pV5Connect_ConnectProperties__new : port.

Lemma pV5Disconnect_DisconnectReasonCode_try_from {T : Target} (value : N) : osim (SrcV5Disconnect.DisconnectReasonCode_try_from value) (PortV5Disconnect.DisconnectReasonCode_try_from value).
Proof. unfold SrcV5Disconnect.DisconnectReasonCode_try_from, PortV5Disconnect.DisconnectReasonCode_try_from. names. plain. Qed.
Global Hint Resolve pV5Disconnect_DisconnectReasonCode_try_from : port.

Lemma pV5Disconnect_DisconnectProperties_new {T : Target} : osim (SrcV5Disconnect.DisconnectProperties_new ) (PortV5Disconnect.DisconnectProperties_new ).
Proof. unfold SrcV5Disconnect.DisconnectProperties_new, PortV5Disconnect.DisconnectProperties_new. names. plain. Qed.
Global Hint Resolve pV5Disconnect_DisconnectProperties_new : port.

Lemma pV5Disconnect_Disconnect_new {T : Target} : osim (SrcV5Disconnect.Disconnect_new ) (PortV5Disconnect.Disconnect_new ).
Proof. unfold SrcV5Disconnect.Disconnect_new, PortV5Disconnect.Disconnect_new. names. plain. Qed.
Global Hint Resolve pV5Disconnect_Disconnect_new : port.

Lemma pV5PubAck_PubAck_new {T : Target} (pkid : N) : osim (SrcV5PubAck.PubAck_new pkid) (PortV5PubAck.PubAck_new pkid).
Proof. unfold SrcV5PubAck.PubAck_new, PortV5PubAck.PubAck_new. names. plain. Qed.
Global Hint Resolve pV5PubAck_PubAck_new : port.

Lemma pV5PubAck_reason {T : Target} (num : N) : osim (SrcV5PubAck.reason num) (PortV5PubAck.reason num).
Proof. unfold SrcV5PubAck.reason, PortV5PubAck.reason. names. plain. Qed.
Global Hint Resolve pV5PubAck_reason : port.

Lemma pV5PubComp_PubComp_new {T : Target} (pkid : N) : osim (SrcV5PubComp.PubComp_new pkid) (PortV5PubComp.PubComp_new pkid).
Proof. unfold SrcV5PubComp.PubComp_new, PortV5PubComp.PubComp_new. names. plain. Qed.
Global Hint Resolve pV5PubComp_PubComp_new : port.

Lemma pV5PubComp_reason {T : Target} (num : N) : osim (SrcV5PubComp.reason num) (PortV5PubComp.reason num).
Proof. unfold SrcV5PubComp.reason, PortV5PubComp.reason. names. plain. Qed.
Global Hint Resolve pV5PubComp_reason : port.

Lemma pV5PubRec_PubRec_new {T : Target} (pkid : N) : osim (SrcV5PubRec.PubRec_new pkid) (PortV5PubRec.PubRec_new pkid).
Proof. unfold SrcV5PubRec.PubRec_new, PortV5PubRec.PubRec_new. names. plain. Qed.
Global Hint Resolve pV5PubRec_PubRec_new : port.

Lemma pV5PubRec_reason {T : Target} (num : N) : osim (SrcV5PubRec.reason num) (PortV5PubRec.reason num).
Proof. unfold SrcV5PubRec.reason, PortV5PubRec.reason. names. plain. Qed.
Global Hint Resolve pV5PubRec_reason : port.

Lemma pV5PubRel_PubRel_new {T : Target} (pkid : N) : osim (SrcV5PubRel.PubRel_new pkid) (PortV5PubRel.PubRel_new pkid).
Proof. unfold SrcV5PubRel.PubRel_new, PortV5PubRel.PubRel_new. names. plain. Qed.
Global Hint Resolve pV5PubRel_PubRel_new : port.

Lemma pV5PubRel_reason {T : Target} (num : N) : osim (SrcV5PubRel.reason num) (PortV5PubRel.reason num).
Proof. unfold SrcV5PubRel.reason, PortV5PubRel.reason. names. plain. Qed.
Global Hint Resolve pV5PubRel_reason : port.

Lemma pV5Publish_Publish_new {T : Target} (topic : list N) (qos : Base.QoS) (payload : list N) : osim (SrcV5Publish.Publish_new topic qos payload) (PortV5Publish.Publish_new topic qos payload).
Proof. unfold SrcV5Publish.Publish_new, PortV5Publish.Publish_new. names. plain. Qed.
Global Hint Resolve pV5Publish_Publish_new : port.

Lemma pV5Publish_Publish_from_bytes {T : Target} (topic : list N) (qos : Base.QoS) (payload : list N) : osim (SrcV5Publish.Publish_from_bytes topic qos payload) (PortV5Publish.Publish_from_bytes topic qos payload).
Proof. unfold SrcV5Publish.Publish_from_bytes, PortV5Publish.Publish_from_bytes. names. plain. Qed.
Global Hint Resolve pV5Publish_Publish_from_bytes : port.

Lemma pV5SubAck_SubAck_new {T : Target} (pkid : N) (return_codes : list V5SubAck.SubscribeReasonCode) : osim (SrcV5SubAck.SubAck_new pkid return_codes) (PortV5SubAck.SubAck_new pkid return_codes).
Proof. unfold SrcV5SubAck.SubAck_new, PortV5SubAck.SubAck_new. names. plain. Qed.
Global Hint Resolve pV5SubAck_SubAck_new : port.

Lemma pV5SubAck_SubscribeReasonCode_try_from {T : Target} (value : N) : osim (SrcV5SubAck.SubscribeReasonCode_try_from value) (PortV5SubAck.SubscribeReasonCode_try_from value).
Proof. unfold SrcV5SubAck.SubscribeReasonCode_try_from, PortV5SubAck.SubscribeReasonCode_try_from. names. plain. Qed.
Global Hint Resolve pV5SubAck_SubscribeReasonCode_try_from : port.

Lemma pV5Subscribe_Subscribe_new {T : Target} (path : list N) (qos : Base.QoS) : osim (SrcV5Subscribe.Subscribe_new path qos) (PortV5Subscribe.Subscribe_new path qos).
Proof. unfold SrcV5Subscribe.Subscribe_new, PortV5Subscribe.Subscribe_new. names. plain. Qed.
Global Hint Resolve pV5Subscribe_Subscribe_new : port.

Lemma pV5Subscribe_Subscribe_new_many {T : Target} (topics : list V5Subscribe.SubscribeFilter) : osim (SrcV5Subscribe.Subscribe_new_many topics) (PortV5Subscribe.Subscribe_new_many topics).
Proof. unfold SrcV5Subscribe.Subscribe_new_many, PortV5Subscribe.Subscribe_new_many. names. plain. Qed.
Global Hint Resolve pV5Subscribe_Subscribe_new_many : port.

Lemma pV5Subscribe_Subscribe_empty_subscribe {T : Target} : osim (SrcV5Subscribe.Subscribe_empty_subscribe ) (PortV5Subscribe.Subscribe_empty_subscribe ).
Proof. unfold SrcV5Subscribe.Subscribe_empty_subscribe, PortV5Subscribe.Subscribe_empty_subscribe. names. plain. Qed.
Global Hint Resolve pV5Subscribe_Subscribe_empty_subscribe : port.

Lemma pV5Subscribe_Subscribe_add {T : Target} (self : V5Subscribe.Subscribe) (path : list N) (qos : Base.QoS) : osim (SrcV5Subscribe.Subscribe_add self path qos) (PortV5Subscribe.Subscribe_add self path qos).
Proof. unfold SrcV5Subscribe.Subscribe_add, PortV5Subscribe.Subscribe_add. names. plain. Qed.
Global Hint Resolve pV5Subscribe_Subscribe_add : port.

Lemma pV5Subscribe_SubscribeFilter_write {T : Target} (self : V5Subscribe.SubscribeFilter) : wsim (SrcV5Subscribe.SubscribeFilter_write self) (PortV5Subscribe.SubscribeFilter_write self).
Proof. unfold SrcV5Subscribe.SubscribeFilter_write, PortV5Subscribe.SubscribeFilter_write. names. plain. Qed.
Global Hint Resolve pV5Subscribe_SubscribeFilter_write : port.

Lemma pV5Subscribe_SubscribeFilter_new {T : Target} (path : list N) (qos : Base.QoS) : osim (SrcV5Subscribe.SubscribeFilter_new path qos) (PortV5Subscribe.SubscribeFilter_new path qos).
Proof. unfold SrcV5Subscribe.SubscribeFilter_new, PortV5Subscribe.SubscribeFilter_new. names. plain. Qed.
Global Hint Resolve pV5Subscribe_SubscribeFilter_new : port.

Lemma pV5Subscribe_SubscribeFilter_set_nolocal {T : Target} (self : V5Subscribe.SubscribeFilter) (flag : bool) : osim (SrcV5Subscribe.SubscribeFilter_set_nolocal self flag) (PortV5Subscribe.SubscribeFilter_set_nolocal self flag).
Proof. unfold SrcV5Subscribe.SubscribeFilter_set_nolocal, PortV5Subscribe.SubscribeFilter_set_nolocal. names. plain. Qed.
Global Hint Resolve pV5Subscribe_SubscribeFilter_set_nolocal : port.

Lemma pV5Subscribe_SubscribeFilter_set_preserve_retain {T : Target} (self : V5Subscribe.SubscribeFilter) (flag : bool) : osim (SrcV5Subscribe.SubscribeFilter_set_preserve_retain self flag) (PortV5Subscribe.SubscribeFilter_set_preserve_retain self flag).
Proof. unfold SrcV5Subscribe.SubscribeFilter_set_preserve_retain, PortV5Subscribe.SubscribeFilter_set_preserve_retain. names. plain. Qed.
Global Hint Resolve pV5Subscribe_SubscribeFilter_set_preserve_retain : port.

Lemma pV5Subscribe_SubscribeFilter_set_retain_forward_rule {T : Target} (self : V5Subscribe.SubscribeFilter) (rule : V5Subscribe.RetainForwardRule) : osim (SrcV5Subscribe.SubscribeFilter_set_retain_forward_rule self rule) (PortV5Subscribe.SubscribeFilter_set_retain_forward_rule self rule).
Proof. unfold SrcV5Subscribe.SubscribeFilter_set_retain_forward_rule, PortV5Subscribe.SubscribeFilter_set_retain_forward_rule. names. plain. Qed.
Global Hint Resolve pV5Subscribe_SubscribeFilter_set_retain_forward_rule : port.

Lemma pV5UnsubAck_UnsubAck_new {T : Target} (pkid : N) : osim (SrcV5UnsubAck.UnsubAck_new pkid) (PortV5UnsubAck.UnsubAck_new pkid).
Proof. unfold SrcV5UnsubAck.UnsubAck_new, PortV5UnsubAck.UnsubAck_new. names. plain. Qed.
Global Hint Resolve pV5UnsubAck_UnsubAck_new : port.

Lemma pV5UnsubAck_reason {T : Target} (num : N) : osim (SrcV5UnsubAck.reason num) (PortV5UnsubAck.reason num).
Proof. unfold SrcV5UnsubAck.reason, PortV5UnsubAck.reason. names. plain. Qed.
Global Hint Resolve pV5UnsubAck_reason : port.

Lemma pV5Unsubscribe_Unsubscribe_new {T : Target} (topic : list N) : osim (SrcV5Unsubscribe.Unsubscribe_new topic) (PortV5Unsubscribe.Unsubscribe_new topic).
Proof. unfold SrcV5Unsubscribe.Unsubscribe_new, PortV5Unsubscribe.Unsubscribe_new. names. plain. Qed.
Global Hint Resolve pV5Unsubscribe_Unsubscribe_new : port.

(** ProofTrace.v -- GENERATED by tools/gen_trace_proofs.py: every function except v5 `Unsubscribe::read` and the v5
    `read` prints nothing. *)
From Verif Require Import Base Lib SrcBase ProofTraceBase.
From Verif Require V4ConnAck V4Connect V4Mod V4PubAck V4PubComp V4PubRec V4PubRel V4Publish V4SubAck V4Subscribe V4UnsubAck V4Unsubscribe V5ConnAck V5Connect V5Disconnect V5PubAck V5PubComp V5PubRec V5PubRel V5Publish V5SubAck V5Subscribe V5UnsubAck V5Unsubscribe.
From Verif Require SrcLib SrcTopic SrcV4ConnAck SrcV4Connect SrcV4Disconnect SrcV4Ping SrcV4PubAck SrcV4PubComp SrcV4PubRec SrcV4PubRel SrcV4Publish SrcV4SubAck SrcV4Subscribe SrcV4UnsubAck SrcV4Unsubscribe SrcV4Mod SrcV5Ping SrcV5Property SrcV5ConnAck SrcV5Connect SrcV5Disconnect SrcV5PubAck SrcV5PubComp SrcV5PubRec SrcV5PubRel SrcV5Publish SrcV5SubAck SrcV5Subscribe SrcV5UnsubAck SrcV5Unsubscribe SrcV5Mod.
From Verif Require TraceLib TraceTopic TraceV4ConnAck TraceV4Connect TraceV4Disconnect TraceV4Ping TraceV4PubAck TraceV4PubComp TraceV4PubRec TraceV4PubRel TraceV4Publish TraceV4SubAck TraceV4Subscribe TraceV4UnsubAck TraceV4Unsubscribe TraceV4Mod TraceV5Ping TraceV5Property TraceV5ConnAck TraceV5Connect TraceV5Disconnect TraceV5PubAck TraceV5PubComp TraceV5PubRec TraceV5PubRel TraceV5Publish TraceV5SubAck TraceV5Subscribe TraceV5UnsubAck TraceV5Unsubscribe TraceV5Mod.

Ltac names :=
  change (@TraceLib.PacketType_as_u8) with (@SrcLib.PacketType_as_u8);
  change (@TraceLib.Protocol_as_u8) with (@SrcLib.Protocol_as_u8);
  change (@TraceLib.QoS_as_u8) with (@SrcLib.QoS_as_u8);
  change (@TraceV4ConnAck.ConnectReturnCode_as_u8) with (@SrcV4ConnAck.ConnectReturnCode_as_u8);
  change (@TraceV5Property.PropertyType_as_u8) with (@SrcV5Property.PropertyType_as_u8);
  change (@TraceV5ConnAck.ConnectReturnCode_as_u8) with (@SrcV5ConnAck.ConnectReturnCode_as_u8);
  change (@TraceV5Disconnect.DisconnectReasonCode_as_u8) with (@SrcV5Disconnect.DisconnectReasonCode_as_u8);
  change (@TraceV5PubAck.PubAckReason_as_u8) with (@SrcV5PubAck.PubAckReason_as_u8);
  change (@TraceV5PubComp.PubCompReason_as_u8) with (@SrcV5PubComp.PubCompReason_as_u8);
  change (@TraceV5PubRec.PubRecReason_as_u8) with (@SrcV5PubRec.PubRecReason_as_u8);
  change (@TraceV5PubRel.PubRelReason_as_u8) with (@SrcV5PubRel.PubRelReason_as_u8);
  change (@TraceV5SubAck.SubscribeReasonCode_as_u8) with (@SrcV5SubAck.SubscribeReasonCode_as_u8);
  change (@TraceV5Subscribe.RetainForwardRule_as_u8) with (@SrcV5Subscribe.RetainForwardRule_as_u8);
  change (@TraceV5UnsubAck.UnsubAckReason_as_u8) with (@SrcV5UnsubAck.UnsubAckReason_as_u8).

Lemma qLib_FixedHeader_new (byte1 : N) (remaining_len_len : N) (remaining_len : N) : oq (SrcLib.FixedHeader_new byte1 remaining_len_len remaining_len) (TraceLib.FixedHeader_new byte1 remaining_len_len remaining_len).
Proof. unfold SrcLib.FixedHeader_new, TraceLib.FixedHeader_new. names. quiet. Qed.
Global Hint Resolve qLib_FixedHeader_new : quiet.

Lemma qLib_FixedHeader_packet_type (self : Lib.FixedHeader) : oq (SrcLib.FixedHeader_packet_type self) (TraceLib.FixedHeader_packet_type self).
Proof. unfold SrcLib.FixedHeader_packet_type, TraceLib.FixedHeader_packet_type. names. quiet. Qed.
Global Hint Resolve qLib_FixedHeader_packet_type : quiet.

Lemma qLib_FixedHeader_frame_length (self : Lib.FixedHeader) : oq (SrcLib.FixedHeader_frame_length self) (TraceLib.FixedHeader_frame_length self).
Proof. unfold SrcLib.FixedHeader_frame_length, TraceLib.FixedHeader_frame_length. names. quiet. Qed.
Global Hint Resolve qLib_FixedHeader_frame_length : quiet.

Lemma qLib_length (stream : list N) : oq (SrcLib.length stream) (TraceLib.length stream).
Proof. unfold SrcLib.length, TraceLib.length. names. quiet. Qed.
Global Hint Resolve qLib_length : quiet.

Lemma qLib_parse_fixed_header (stream : list N) : oq (SrcLib.parse_fixed_header stream) (TraceLib.parse_fixed_header stream).
Proof. unfold SrcLib.parse_fixed_header, TraceLib.parse_fixed_header. names. quiet. Qed.
Global Hint Resolve qLib_parse_fixed_header : quiet.

Lemma qLib_check (stream : list N) (max_packet_size : N) : oq (SrcLib.check stream max_packet_size) (TraceLib.check stream max_packet_size).
Proof. unfold SrcLib.check, TraceLib.check. names. quiet. Qed.
Global Hint Resolve qLib_check : quiet.

Lemma qLib_read_u16 : wq (SrcLib.read_u16 ) (TraceLib.read_u16 ).
Proof. unfold SrcLib.read_u16, TraceLib.read_u16. names. quiet. Qed.
Global Hint Resolve qLib_read_u16 : quiet.

Lemma qLib_read_mqtt_bytes : wq (SrcLib.read_mqtt_bytes ) (TraceLib.read_mqtt_bytes ).
Proof. unfold SrcLib.read_mqtt_bytes, TraceLib.read_mqtt_bytes. names. quiet. Qed.
Global Hint Resolve qLib_read_mqtt_bytes : quiet.

Lemma qLib_read_mqtt_string : wq (SrcLib.read_mqtt_string ) (TraceLib.read_mqtt_string ).
Proof. unfold SrcLib.read_mqtt_string, TraceLib.read_mqtt_string. names. quiet. Qed.
Global Hint Resolve qLib_read_mqtt_string : quiet.

Lemma qLib_write_mqtt_bytes (bytes : list N) : wq (SrcLib.write_mqtt_bytes bytes) (TraceLib.write_mqtt_bytes bytes).
Proof. unfold SrcLib.write_mqtt_bytes, TraceLib.write_mqtt_bytes. names. quiet. Qed.
Global Hint Resolve qLib_write_mqtt_bytes : quiet.

Lemma qLib_write_mqtt_string (string : list N) : wq (SrcLib.write_mqtt_string string) (TraceLib.write_mqtt_string string).
Proof. unfold SrcLib.write_mqtt_string, TraceLib.write_mqtt_string. names. quiet. Qed.
Global Hint Resolve qLib_write_mqtt_string : quiet.

Lemma qLib_write_remaining_length (fuel : nat) (len : N) : wq (SrcLib.write_remaining_length fuel len) (TraceLib.write_remaining_length fuel len).
Proof. unfold SrcLib.write_remaining_length, TraceLib.write_remaining_length. names. quiet. Qed.
Global Hint Resolve qLib_write_remaining_length : quiet.

Lemma qLib_len_len (len : N) : oq (SrcLib.len_len len) (TraceLib.len_len len).
Proof. unfold SrcLib.len_len, TraceLib.len_len. names. quiet. Qed.
Global Hint Resolve qLib_len_len : quiet.

Lemma qLib_qos (num : N) : oq (SrcLib.qos num) (TraceLib.qos num).
Proof. unfold SrcLib.qos, TraceLib.qos. names. quiet. Qed.
Global Hint Resolve qLib_qos : quiet.

Lemma qLib_read_u8 : wq (SrcLib.read_u8 ) (TraceLib.read_u8 ).
Proof. unfold SrcLib.read_u8, TraceLib.read_u8. names. quiet. Qed.
Global Hint Resolve qLib_read_u8 : quiet.

Lemma qLib_read_u32 : wq (SrcLib.read_u32 ) (TraceLib.read_u32 ).
Proof. unfold SrcLib.read_u32, TraceLib.read_u32. names. quiet. Qed.
Global Hint Resolve qLib_read_u32 : quiet.

Lemma qTopic_has_wildcards (s : list N) : oq (SrcTopic.has_wildcards s) (TraceTopic.has_wildcards s).
Proof. unfold SrcTopic.has_wildcards, TraceTopic.has_wildcards. names. quiet. Qed.
Global Hint Resolve qTopic_has_wildcards : quiet.

Lemma qTopic_valid_topic (topic : list N) : oq (SrcTopic.valid_topic topic) (TraceTopic.valid_topic topic).
Proof. unfold SrcTopic.valid_topic, TraceTopic.valid_topic. names. quiet. Qed.
Global Hint Resolve qTopic_valid_topic : quiet.

Lemma qTopic_valid_filter (filter : list N) : oq (SrcTopic.valid_filter filter) (TraceTopic.valid_filter filter).
Proof. unfold SrcTopic.valid_filter, TraceTopic.valid_filter. names. quiet. Qed.
Global Hint Resolve qTopic_valid_filter : quiet.

Lemma qTopic_matches (topic : list N) (filter : list N) : oq (SrcTopic.matches topic filter) (TraceTopic.matches topic filter).
Proof. unfold SrcTopic.matches, TraceTopic.matches. names. quiet. Qed.
Global Hint Resolve qTopic_matches : quiet.

Lemma qV4ConnAck_ConnAck_new (code : V4ConnAck.ConnectReturnCode) (session_present : bool) : oq (SrcV4ConnAck.ConnAck_new code session_present) (TraceV4ConnAck.ConnAck_new code session_present).
Proof. unfold SrcV4ConnAck.ConnAck_new, TraceV4ConnAck.ConnAck_new. names. quiet. Qed.
Global Hint Resolve qV4ConnAck_ConnAck_new : quiet.

Lemma qV4ConnAck_ConnAck_len (self : V4ConnAck.ConnAck) : oq (SrcV4ConnAck.ConnAck_len self) (TraceV4ConnAck.ConnAck_len self).
Proof. unfold SrcV4ConnAck.ConnAck_len, TraceV4ConnAck.ConnAck_len. names. quiet. Qed.
Global Hint Resolve qV4ConnAck_ConnAck_len : quiet.

Lemma qV4ConnAck_connect_return (num : N) : oq (SrcV4ConnAck.connect_return num) (TraceV4ConnAck.connect_return num).
Proof. unfold SrcV4ConnAck.connect_return, TraceV4ConnAck.connect_return. names. quiet. Qed.
Global Hint Resolve qV4ConnAck_connect_return : quiet.

Lemma qV4ConnAck_ConnAck_read (fixed_header : Lib.FixedHeader) (bytes : list N) : oq (SrcV4ConnAck.ConnAck_read fixed_header bytes) (TraceV4ConnAck.ConnAck_read fixed_header bytes).
Proof. unfold SrcV4ConnAck.ConnAck_read, TraceV4ConnAck.ConnAck_read. names. quiet. Qed.
Global Hint Resolve qV4ConnAck_ConnAck_read : quiet.

Lemma qV4ConnAck_ConnAck_write (fuel : nat) (self : V4ConnAck.ConnAck) : wq (SrcV4ConnAck.ConnAck_write fuel self) (TraceV4ConnAck.ConnAck_write fuel self).
Proof. unfold SrcV4ConnAck.ConnAck_write, TraceV4ConnAck.ConnAck_write. names. quiet. Qed.
Global Hint Resolve qV4ConnAck_ConnAck_write : quiet.

Lemma qV4Connect_Connect_new (id : list N) : oq (SrcV4Connect.Connect_new id) (TraceV4Connect.Connect_new id).
Proof. unfold SrcV4Connect.Connect_new, TraceV4Connect.Connect_new. names. quiet. Qed.
Global Hint Resolve qV4Connect_Connect_new : quiet.

Lemma qV4Connect_Connect_set_login (self : V4Connect.Connect) (u : list N) (p : list N) : oq (SrcV4Connect.Connect_set_login self u p) (TraceV4Connect.Connect_set_login self u p).
Proof. unfold SrcV4Connect.Connect_set_login, TraceV4Connect.Connect_set_login. names. quiet. Qed.
Global Hint Resolve qV4Connect_Connect_set_login : quiet.

Lemma qV4Connect_LastWill_len (self : V4Connect.LastWill) : oq (SrcV4Connect.LastWill_len self) (TraceV4Connect.LastWill_len self).
Proof. unfold SrcV4Connect.LastWill_len, TraceV4Connect.LastWill_len. names. quiet. Qed.
Global Hint Resolve qV4Connect_LastWill_len : quiet.

Lemma qV4Connect_Login_len (self : V4Connect.Login) : oq (SrcV4Connect.Login_len self) (TraceV4Connect.Login_len self).
Proof. unfold SrcV4Connect.Login_len, TraceV4Connect.Login_len. names. quiet. Qed.
Global Hint Resolve qV4Connect_Login_len : quiet.

Lemma qV4Connect_Connect_len (self : V4Connect.Connect) : oq (SrcV4Connect.Connect_len self) (TraceV4Connect.Connect_len self).
Proof. unfold SrcV4Connect.Connect_len, TraceV4Connect.Connect_len. names. quiet. Qed.
Global Hint Resolve qV4Connect_Connect_len : quiet.

Lemma qV4Connect_LastWill_read (connect_flags : N) : wq (SrcV4Connect.LastWill_read connect_flags) (TraceV4Connect.LastWill_read connect_flags).
Proof. unfold SrcV4Connect.LastWill_read, TraceV4Connect.LastWill_read. names. quiet. Qed.
Global Hint Resolve qV4Connect_LastWill_read : quiet.

Lemma qV4Connect_Login_read (connect_flags : N) : wq (SrcV4Connect.Login_read connect_flags) (TraceV4Connect.Login_read connect_flags).
Proof. unfold SrcV4Connect.Login_read, TraceV4Connect.Login_read. names. quiet. Qed.
Global Hint Resolve qV4Connect_Login_read : quiet.

Lemma qV4Connect_Connect_read (fixed_header : Lib.FixedHeader) (bytes : list N) : oq (SrcV4Connect.Connect_read fixed_header bytes) (TraceV4Connect.Connect_read fixed_header bytes).
Proof. unfold SrcV4Connect.Connect_read, TraceV4Connect.Connect_read. names. quiet. Qed.
Global Hint Resolve qV4Connect_Connect_read : quiet.

Lemma qV4Connect_LastWill_write (self : V4Connect.LastWill) : wq (SrcV4Connect.LastWill_write self) (TraceV4Connect.LastWill_write self).
Proof. unfold SrcV4Connect.LastWill_write, TraceV4Connect.LastWill_write. names. quiet. Qed.
Global Hint Resolve qV4Connect_LastWill_write : quiet.

Lemma qV4Connect_Login_write (self : V4Connect.Login) : wq (SrcV4Connect.Login_write self) (TraceV4Connect.Login_write self).
Proof. unfold SrcV4Connect.Login_write, TraceV4Connect.Login_write. names. quiet. Qed.
Global Hint Resolve qV4Connect_Login_write : quiet.

Lemma qV4Connect_Connect_write (fuel : nat) (self : V4Connect.Connect) : wq (SrcV4Connect.Connect_write fuel self) (TraceV4Connect.Connect_write fuel self).
Proof. unfold SrcV4Connect.Connect_write, TraceV4Connect.Connect_write. names. quiet. Qed.
Global Hint Resolve qV4Connect_Connect_write : quiet.

Lemma qV4Connect_LastWill_new (topic : list N) (payload : list N) (qos : Base.QoS) (retain : bool) : oq (SrcV4Connect.LastWill_new topic payload qos retain) (TraceV4Connect.LastWill_new topic payload qos retain).
Proof. unfold SrcV4Connect.LastWill_new, TraceV4Connect.LastWill_new. names. quiet. Qed.
Global Hint Resolve qV4Connect_LastWill_new : quiet.

Lemma qV4Connect_Login_new (u : list N) (p : list N) : oq (SrcV4Connect.Login_new u p) (TraceV4Connect.Login_new u p).
Proof. unfold SrcV4Connect.Login_new, TraceV4Connect.Login_new. names. quiet. Qed.
Global Hint Resolve qV4Connect_Login_new : quiet.

Lemma qV4Connect_Login_validate (self : V4Connect.Login) (username : list N) (password : list N) : oq (SrcV4Connect.Login_validate self username password) (TraceV4Connect.Login_validate self username password).
Proof. unfold SrcV4Connect.Login_validate, TraceV4Connect.Login_validate. names. quiet. Qed.
Global Hint Resolve qV4Connect_Login_validate : quiet.

Lemma qV4Disconnect_Disconnect_write : wq (SrcV4Disconnect.Disconnect_write ) (TraceV4Disconnect.Disconnect_write ).
Proof. unfold SrcV4Disconnect.Disconnect_write, TraceV4Disconnect.Disconnect_write. names. quiet. Qed.
Global Hint Resolve qV4Disconnect_Disconnect_write : quiet.

Lemma qV4Ping_PingReq_write : wq (SrcV4Ping.PingReq_write ) (TraceV4Ping.PingReq_write ).
Proof. unfold SrcV4Ping.PingReq_write, TraceV4Ping.PingReq_write. names. quiet. Qed.
Global Hint Resolve qV4Ping_PingReq_write : quiet.

Lemma qV4Ping_PingResp_write : wq (SrcV4Ping.PingResp_write ) (TraceV4Ping.PingResp_write ).
Proof. unfold SrcV4Ping.PingResp_write, TraceV4Ping.PingResp_write. names. quiet. Qed.
Global Hint Resolve qV4Ping_PingResp_write : quiet.

Lemma qV4PubAck_PubAck_new (pkid : N) : oq (SrcV4PubAck.PubAck_new pkid) (TraceV4PubAck.PubAck_new pkid).
Proof. unfold SrcV4PubAck.PubAck_new, TraceV4PubAck.PubAck_new. names. quiet. Qed.
Global Hint Resolve qV4PubAck_PubAck_new : quiet.

Lemma qV4PubAck_PubAck_len (self : V4PubAck.PubAck) : oq (SrcV4PubAck.PubAck_len self) (TraceV4PubAck.PubAck_len self).
Proof. unfold SrcV4PubAck.PubAck_len, TraceV4PubAck.PubAck_len. names. quiet. Qed.
Global Hint Resolve qV4PubAck_PubAck_len : quiet.

Lemma qV4PubAck_PubAck_read (fixed_header : Lib.FixedHeader) (bytes : list N) : oq (SrcV4PubAck.PubAck_read fixed_header bytes) (TraceV4PubAck.PubAck_read fixed_header bytes).
Proof. unfold SrcV4PubAck.PubAck_read, TraceV4PubAck.PubAck_read. names. quiet. Qed.
Global Hint Resolve qV4PubAck_PubAck_read : quiet.

Lemma qV4PubAck_PubAck_write (fuel : nat) (self : V4PubAck.PubAck) : wq (SrcV4PubAck.PubAck_write fuel self) (TraceV4PubAck.PubAck_write fuel self).
Proof. unfold SrcV4PubAck.PubAck_write, TraceV4PubAck.PubAck_write. names. quiet. Qed.
Global Hint Resolve qV4PubAck_PubAck_write : quiet.

Lemma qV4PubComp_PubComp_new (pkid : N) : oq (SrcV4PubComp.PubComp_new pkid) (TraceV4PubComp.PubComp_new pkid).
Proof. unfold SrcV4PubComp.PubComp_new, TraceV4PubComp.PubComp_new. names. quiet. Qed.
Global Hint Resolve qV4PubComp_PubComp_new : quiet.

Lemma qV4PubComp_PubComp_len (self : V4PubComp.PubComp) : oq (SrcV4PubComp.PubComp_len self) (TraceV4PubComp.PubComp_len self).
Proof. unfold SrcV4PubComp.PubComp_len, TraceV4PubComp.PubComp_len. names. quiet. Qed.
Global Hint Resolve qV4PubComp_PubComp_len : quiet.

Lemma qV4PubComp_PubComp_read (fixed_header : Lib.FixedHeader) (bytes : list N) : oq (SrcV4PubComp.PubComp_read fixed_header bytes) (TraceV4PubComp.PubComp_read fixed_header bytes).
Proof. unfold SrcV4PubComp.PubComp_read, TraceV4PubComp.PubComp_read. names. quiet. Qed.
Global Hint Resolve qV4PubComp_PubComp_read : quiet.

Lemma qV4PubComp_PubComp_write (fuel : nat) (self : V4PubComp.PubComp) : wq (SrcV4PubComp.PubComp_write fuel self) (TraceV4PubComp.PubComp_write fuel self).
Proof. unfold SrcV4PubComp.PubComp_write, TraceV4PubComp.PubComp_write. names. quiet. Qed.
Global Hint Resolve qV4PubComp_PubComp_write : quiet.

Lemma qV4PubRec_PubRec_new (pkid : N) : oq (SrcV4PubRec.PubRec_new pkid) (TraceV4PubRec.PubRec_new pkid).
Proof. unfold SrcV4PubRec.PubRec_new, TraceV4PubRec.PubRec_new. names. quiet. Qed.
Global Hint Resolve qV4PubRec_PubRec_new : quiet.

Lemma qV4PubRec_PubRec_len (self : V4PubRec.PubRec) : oq (SrcV4PubRec.PubRec_len self) (TraceV4PubRec.PubRec_len self).
Proof. unfold SrcV4PubRec.PubRec_len, TraceV4PubRec.PubRec_len. names. quiet. Qed.
Global Hint Resolve qV4PubRec_PubRec_len : quiet.

Lemma qV4PubRec_PubRec_read (fixed_header : Lib.FixedHeader) (bytes : list N) : oq (SrcV4PubRec.PubRec_read fixed_header bytes) (TraceV4PubRec.PubRec_read fixed_header bytes).
Proof. unfold SrcV4PubRec.PubRec_read, TraceV4PubRec.PubRec_read. names. quiet. Qed.
Global Hint Resolve qV4PubRec_PubRec_read : quiet.

Lemma qV4PubRec_PubRec_write (fuel : nat) (self : V4PubRec.PubRec) : wq (SrcV4PubRec.PubRec_write fuel self) (TraceV4PubRec.PubRec_write fuel self).
Proof. unfold SrcV4PubRec.PubRec_write, TraceV4PubRec.PubRec_write. names. quiet. Qed.
Global Hint Resolve qV4PubRec_PubRec_write : quiet.

Lemma qV4PubRel_PubRel_new (pkid : N) : oq (SrcV4PubRel.PubRel_new pkid) (TraceV4PubRel.PubRel_new pkid).
Proof. unfold SrcV4PubRel.PubRel_new, TraceV4PubRel.PubRel_new. names. quiet. Qed.
Global Hint Resolve qV4PubRel_PubRel_new : quiet.

Lemma qV4PubRel_PubRel_len (self : V4PubRel.PubRel) : oq (SrcV4PubRel.PubRel_len self) (TraceV4PubRel.PubRel_len self).
Proof. unfold SrcV4PubRel.PubRel_len, TraceV4PubRel.PubRel_len. names. quiet. Qed.
Global Hint Resolve qV4PubRel_PubRel_len : quiet.

Lemma qV4PubRel_PubRel_read (fixed_header : Lib.FixedHeader) (bytes : list N) : oq (SrcV4PubRel.PubRel_read fixed_header bytes) (TraceV4PubRel.PubRel_read fixed_header bytes).
Proof. unfold SrcV4PubRel.PubRel_read, TraceV4PubRel.PubRel_read. names. quiet. Qed.
Global Hint Resolve qV4PubRel_PubRel_read : quiet.

Lemma qV4PubRel_PubRel_write (fuel : nat) (self : V4PubRel.PubRel) : wq (SrcV4PubRel.PubRel_write fuel self) (TraceV4PubRel.PubRel_write fuel self).
Proof. unfold SrcV4PubRel.PubRel_write, TraceV4PubRel.PubRel_write. names. quiet. Qed.
Global Hint Resolve qV4PubRel_PubRel_write : quiet.

Lemma qV4Publish_Publish_new (topic : list N) (qos : Base.QoS) (payload : list N) : oq (SrcV4Publish.Publish_new topic qos payload) (TraceV4Publish.Publish_new topic qos payload).
Proof. unfold SrcV4Publish.Publish_new, TraceV4Publish.Publish_new. names. quiet. Qed.
Global Hint Resolve qV4Publish_Publish_new : quiet.

Lemma qV4Publish_Publish_from_bytes (topic : list N) (qos : Base.QoS) (payload : list N) : oq (SrcV4Publish.Publish_from_bytes topic qos payload) (TraceV4Publish.Publish_from_bytes topic qos payload).
Proof. unfold SrcV4Publish.Publish_from_bytes, TraceV4Publish.Publish_from_bytes. names. quiet. Qed.
Global Hint Resolve qV4Publish_Publish_from_bytes : quiet.

Lemma qV4Publish_Publish_len (self : V4Publish.Publish) : oq (SrcV4Publish.Publish_len self) (TraceV4Publish.Publish_len self).
Proof. unfold SrcV4Publish.Publish_len, TraceV4Publish.Publish_len. names. quiet. Qed.
Global Hint Resolve qV4Publish_Publish_len : quiet.

Lemma qV4Publish_Publish_read (fixed_header : Lib.FixedHeader) (bytes : list N) : oq (SrcV4Publish.Publish_read fixed_header bytes) (TraceV4Publish.Publish_read fixed_header bytes).
Proof. unfold SrcV4Publish.Publish_read, TraceV4Publish.Publish_read. names. quiet. Qed.
Global Hint Resolve qV4Publish_Publish_read : quiet.

Lemma qV4Publish_Publish_write (fuel : nat) (self : V4Publish.Publish) : wq (SrcV4Publish.Publish_write fuel self) (TraceV4Publish.Publish_write fuel self).
Proof. unfold SrcV4Publish.Publish_write, TraceV4Publish.Publish_write. names. quiet. Qed.
Global Hint Resolve qV4Publish_Publish_write : quiet.

Lemma qV4SubAck_SubAck_new (pkid : N) (return_codes : list V4SubAck.SubscribeReasonCode) : oq (SrcV4SubAck.SubAck_new pkid return_codes) (TraceV4SubAck.SubAck_new pkid return_codes).
Proof. unfold SrcV4SubAck.SubAck_new, TraceV4SubAck.SubAck_new. names. quiet. Qed.
Global Hint Resolve qV4SubAck_SubAck_new : quiet.

Lemma qV4SubAck_SubAck_len (self : V4SubAck.SubAck) : oq (SrcV4SubAck.SubAck_len self) (TraceV4SubAck.SubAck_len self).
Proof. unfold SrcV4SubAck.SubAck_len, TraceV4SubAck.SubAck_len. names. quiet. Qed.
Global Hint Resolve qV4SubAck_SubAck_len : quiet.

Lemma qV4SubAck_SubscribeReasonCode_try_from (value : N) : oq (SrcV4SubAck.SubscribeReasonCode_try_from value) (TraceV4SubAck.SubscribeReasonCode_try_from value).
Proof. unfold SrcV4SubAck.SubscribeReasonCode_try_from, TraceV4SubAck.SubscribeReasonCode_try_from. names. quiet. Qed.
Global Hint Resolve qV4SubAck_SubscribeReasonCode_try_from : quiet.

Lemma qV4SubAck_SubAck_read (fuel : nat) (fixed_header : Lib.FixedHeader) (bytes : list N) : oq (SrcV4SubAck.SubAck_read fuel fixed_header bytes) (TraceV4SubAck.SubAck_read fuel fixed_header bytes).
Proof. unfold SrcV4SubAck.SubAck_read, TraceV4SubAck.SubAck_read. names. quiet. Qed.
Global Hint Resolve qV4SubAck_SubAck_read : quiet.

Lemma qV4SubAck_SubAck_write (fuel : nat) (self : V4SubAck.SubAck) : wq (SrcV4SubAck.SubAck_write fuel self) (TraceV4SubAck.SubAck_write fuel self).
Proof. unfold SrcV4SubAck.SubAck_write, TraceV4SubAck.SubAck_write. names. quiet. Qed.
Global Hint Resolve qV4SubAck_SubAck_write : quiet.

Lemma qV4Subscribe_Subscribe_new (path : list N) (qos : Base.QoS) : oq (SrcV4Subscribe.Subscribe_new path qos) (TraceV4Subscribe.Subscribe_new path qos).
Proof. unfold SrcV4Subscribe.Subscribe_new, TraceV4Subscribe.Subscribe_new. names. quiet. Qed.
Global Hint Resolve qV4Subscribe_Subscribe_new : quiet.

Lemma qV4Subscribe_Subscribe_new_many (topics : list V4Subscribe.SubscribeFilter) : oq (SrcV4Subscribe.Subscribe_new_many topics) (TraceV4Subscribe.Subscribe_new_many topics).
Proof. unfold SrcV4Subscribe.Subscribe_new_many, TraceV4Subscribe.Subscribe_new_many. names. quiet. Qed.
Global Hint Resolve qV4Subscribe_Subscribe_new_many : quiet.

Lemma qV4Subscribe_Subscribe_add (self : V4Subscribe.Subscribe) (path : list N) (qos : Base.QoS) : oq (SrcV4Subscribe.Subscribe_add self path qos) (TraceV4Subscribe.Subscribe_add self path qos).
Proof. unfold SrcV4Subscribe.Subscribe_add, TraceV4Subscribe.Subscribe_add. names. quiet. Qed.
Global Hint Resolve qV4Subscribe_Subscribe_add : quiet.

Lemma qV4Subscribe_SubscribeFilter_len (self : V4Subscribe.SubscribeFilter) : oq (SrcV4Subscribe.SubscribeFilter_len self) (TraceV4Subscribe.SubscribeFilter_len self).
Proof. unfold SrcV4Subscribe.SubscribeFilter_len, TraceV4Subscribe.SubscribeFilter_len. names. quiet. Qed.
Global Hint Resolve qV4Subscribe_SubscribeFilter_len : quiet.

Lemma qV4Subscribe_Subscribe_len (self : V4Subscribe.Subscribe) : oq (SrcV4Subscribe.Subscribe_len self) (TraceV4Subscribe.Subscribe_len self).
Proof. unfold SrcV4Subscribe.Subscribe_len, TraceV4Subscribe.Subscribe_len. names. quiet. Qed.
Global Hint Resolve qV4Subscribe_Subscribe_len : quiet.

Lemma qV4Subscribe_Subscribe_read (fuel : nat) (fixed_header : Lib.FixedHeader) (bytes : list N) : oq (SrcV4Subscribe.Subscribe_read fuel fixed_header bytes) (TraceV4Subscribe.Subscribe_read fuel fixed_header bytes).
Proof. unfold SrcV4Subscribe.Subscribe_read, TraceV4Subscribe.Subscribe_read. names. quiet. Qed.
Global Hint Resolve qV4Subscribe_Subscribe_read : quiet.

Lemma qV4Subscribe_SubscribeFilter_write (self : V4Subscribe.SubscribeFilter) : wq (SrcV4Subscribe.SubscribeFilter_write self) (TraceV4Subscribe.SubscribeFilter_write self).
Proof. unfold SrcV4Subscribe.SubscribeFilter_write, TraceV4Subscribe.SubscribeFilter_write. names. quiet. Qed.
Global Hint Resolve qV4Subscribe_SubscribeFilter_write : quiet.

Lemma qV4Subscribe_Subscribe_write (fuel : nat) (self : V4Subscribe.Subscribe) : wq (SrcV4Subscribe.Subscribe_write fuel self) (TraceV4Subscribe.Subscribe_write fuel self).
Proof. unfold SrcV4Subscribe.Subscribe_write, TraceV4Subscribe.Subscribe_write. names. quiet. Qed.
Global Hint Resolve qV4Subscribe_Subscribe_write : quiet.

Lemma qV4Subscribe_SubscribeFilter_new (path : list N) (qos : Base.QoS) : oq (SrcV4Subscribe.SubscribeFilter_new path qos) (TraceV4Subscribe.SubscribeFilter_new path qos).
Proof. unfold SrcV4Subscribe.SubscribeFilter_new, TraceV4Subscribe.SubscribeFilter_new. names. quiet. Qed.
Global Hint Resolve qV4Subscribe_SubscribeFilter_new : quiet.

Lemma qV4UnsubAck_UnsubAck_new (pkid : N) : oq (SrcV4UnsubAck.UnsubAck_new pkid) (TraceV4UnsubAck.UnsubAck_new pkid).
Proof. unfold SrcV4UnsubAck.UnsubAck_new, TraceV4UnsubAck.UnsubAck_new. names. quiet. Qed.
Global Hint Resolve qV4UnsubAck_UnsubAck_new : quiet.

Lemma qV4UnsubAck_UnsubAck_read (fixed_header : Lib.FixedHeader) (bytes : list N) : oq (SrcV4UnsubAck.UnsubAck_read fixed_header bytes) (TraceV4UnsubAck.UnsubAck_read fixed_header bytes).
Proof. unfold SrcV4UnsubAck.UnsubAck_read, TraceV4UnsubAck.UnsubAck_read. names. quiet. Qed.
Global Hint Resolve qV4UnsubAck_UnsubAck_read : quiet.

Lemma qV4UnsubAck_UnsubAck_write (self : V4UnsubAck.UnsubAck) : wq (SrcV4UnsubAck.UnsubAck_write self) (TraceV4UnsubAck.UnsubAck_write self).
Proof. unfold SrcV4UnsubAck.UnsubAck_write, TraceV4UnsubAck.UnsubAck_write. names. quiet. Qed.
Global Hint Resolve qV4UnsubAck_UnsubAck_write : quiet.

Lemma qV4Unsubscribe_Unsubscribe_new (topic : list N) : oq (SrcV4Unsubscribe.Unsubscribe_new topic) (TraceV4Unsubscribe.Unsubscribe_new topic).
Proof. unfold SrcV4Unsubscribe.Unsubscribe_new, TraceV4Unsubscribe.Unsubscribe_new. names. quiet. Qed.
Global Hint Resolve qV4Unsubscribe_Unsubscribe_new : quiet.

Lemma qV4Unsubscribe_Unsubscribe_read (fuel : nat) (fixed_header : Lib.FixedHeader) (bytes : list N) : oq (SrcV4Unsubscribe.Unsubscribe_read fuel fixed_header bytes) (TraceV4Unsubscribe.Unsubscribe_read fuel fixed_header bytes).
Proof. unfold SrcV4Unsubscribe.Unsubscribe_read, TraceV4Unsubscribe.Unsubscribe_read. names. quiet. Qed.
Global Hint Resolve qV4Unsubscribe_Unsubscribe_read : quiet.

Lemma qV4Unsubscribe_Unsubscribe_write (fuel : nat) (self : V4Unsubscribe.Unsubscribe) : wq (SrcV4Unsubscribe.Unsubscribe_write fuel self) (TraceV4Unsubscribe.Unsubscribe_write fuel self).
Proof. unfold SrcV4Unsubscribe.Unsubscribe_write, TraceV4Unsubscribe.Unsubscribe_write. names. quiet. Qed.
Global Hint Resolve qV4Unsubscribe_Unsubscribe_write : quiet.

Lemma qV4Mod_read (fuel : nat) (max_size : N) : wq (SrcV4Mod.read fuel max_size) (TraceV4Mod.read fuel max_size).
Proof. unfold SrcV4Mod.read, TraceV4Mod.read. names. quiet. Qed.
Global Hint Resolve qV4Mod_read : quiet.

Lemma qV5Ping_PingReq_write : wq (SrcV5Ping.PingReq_write ) (TraceV5Ping.PingReq_write ).
Proof. unfold SrcV5Ping.PingReq_write, TraceV5Ping.PingReq_write. names. quiet. Qed.
Global Hint Resolve qV5Ping_PingReq_write : quiet.

Lemma qV5Ping_PingResp_write : wq (SrcV5Ping.PingResp_write ) (TraceV5Ping.PingResp_write ).
Proof. unfold SrcV5Ping.PingResp_write, TraceV5Ping.PingResp_write. names. quiet. Qed.
Global Hint Resolve qV5Ping_PingResp_write : quiet.

Lemma qV5Property_property (num : N) : oq (SrcV5Property.property num) (TraceV5Property.property num).
Proof. unfold SrcV5Property.property, TraceV5Property.property. names. quiet. Qed.
Global Hint Resolve qV5Property_property : quiet.

Lemma qV5ConnAck_ConnAck_new (code : V5ConnAck.ConnectReturnCode) (session_present : bool) : oq (SrcV5ConnAck.ConnAck_new code session_present) (TraceV5ConnAck.ConnAck_new code session_present).
Proof. unfold SrcV5ConnAck.ConnAck_new, TraceV5ConnAck.ConnAck_new. names. quiet. Qed.
Global Hint Resolve qV5ConnAck_ConnAck_new : quiet.

Lemma qV5ConnAck_ConnAckProperties_len (self : V5ConnAck.ConnAckProperties) : oq (SrcV5ConnAck.ConnAckProperties_len self) (TraceV5ConnAck.ConnAckProperties_len self).
Proof. unfold SrcV5ConnAck.ConnAckProperties_len, TraceV5ConnAck.ConnAckProperties_len. names. quiet. Qed.
Global Hint Resolve qV5ConnAck_ConnAckProperties_len : quiet.

Lemma qV5ConnAck_ConnAck_len (self : V5ConnAck.ConnAck) : oq (SrcV5ConnAck.ConnAck_len self) (TraceV5ConnAck.ConnAck_len self).
Proof. unfold SrcV5ConnAck.ConnAck_len, TraceV5ConnAck.ConnAck_len. names. quiet. Qed.
Global Hint Resolve qV5ConnAck_ConnAck_len : quiet.

Lemma qV5ConnAck_connect_return (num : N) : oq (SrcV5ConnAck.connect_return num) (TraceV5ConnAck.connect_return num).
Proof. unfold SrcV5ConnAck.connect_return, TraceV5ConnAck.connect_return. names. quiet. Qed.
Global Hint Resolve qV5ConnAck_connect_return : quiet.

Lemma qV5ConnAck_ConnAckProperties_extract (fuel : nat) : wq (SrcV5ConnAck.ConnAckProperties_extract fuel) (TraceV5ConnAck.ConnAckProperties_extract fuel).
Proof. unfold SrcV5ConnAck.ConnAckProperties_extract, TraceV5ConnAck.ConnAckProperties_extract. names. quiet. Qed.
Global Hint Resolve qV5ConnAck_ConnAckProperties_extract : quiet.

Lemma qV5ConnAck_ConnAck_read (fuel : nat) (fixed_header : Lib.FixedHeader) (bytes : list N) : oq (SrcV5ConnAck.ConnAck_read fuel fixed_header bytes) (TraceV5ConnAck.ConnAck_read fuel fixed_header bytes).
Proof. unfold SrcV5ConnAck.ConnAck_read, TraceV5ConnAck.ConnAck_read. names. quiet. Qed.
Global Hint Resolve qV5ConnAck_ConnAck_read : quiet.

Lemma qV5ConnAck_ConnAckProperties_write (fuel : nat) (self : V5ConnAck.ConnAckProperties) : wq (SrcV5ConnAck.ConnAckProperties_write fuel self) (TraceV5ConnAck.ConnAckProperties_write fuel self).
Proof. unfold SrcV5ConnAck.ConnAckProperties_write, TraceV5ConnAck.ConnAckProperties_write. names. quiet. Qed.
Global Hint Resolve qV5ConnAck_ConnAckProperties_write : quiet.

Lemma qV5ConnAck_ConnAck_write (fuel : nat) (self : V5ConnAck.ConnAck) : wq (SrcV5ConnAck.ConnAck_write fuel self) (TraceV5ConnAck.ConnAck_write fuel self).
Proof. unfold SrcV5ConnAck.ConnAck_write, TraceV5ConnAck.ConnAck_write. names. quiet. Qed.
Global Hint Resolve qV5ConnAck_ConnAck_write : quiet.

Lemma qV5ConnAck_ConnAckProperties_new : oq (SrcV5ConnAck.ConnAckProperties_new ) (TraceV5ConnAck.ConnAckProperties_new ).
Proof. unfold SrcV5ConnAck.ConnAckProperties_new, TraceV5ConnAck.ConnAckProperties_new. names. quiet. Qed.
Global Hint Resolve qV5ConnAck_ConnAckProperties_new : quiet.

Lemma qV5Connect_Connect_new (id : list N) : oq (SrcV5Connect.Connect_new id) (TraceV5Connect.Connect_new id).
Proof. unfold SrcV5Connect.Connect_new, TraceV5Connect.Connect_new. names. quiet. Qed.
Global Hint Resolve qV5Connect_Connect_new : quiet.

Lemma qV5Connect_Connect_set_login (self : V5Connect.Connect) (u : list N) (p : list N) : oq (SrcV5Connect.Connect_set_login self u p) (TraceV5Connect.Connect_set_login self u p).
Proof. unfold SrcV5Connect.Connect_set_login, TraceV5Connect.Connect_set_login. names. quiet. Qed.
Global Hint Resolve qV5Connect_Connect_set_login : quiet.

Lemma qV5Connect_ConnectProperties_len (self : V5Connect.ConnectProperties) : oq (SrcV5Connect.ConnectProperties_len self) (TraceV5Connect.ConnectProperties_len self).
Proof. unfold SrcV5Connect.ConnectProperties_len, TraceV5Connect.ConnectProperties_len. names. quiet. Qed.
Global Hint Resolve qV5Connect_ConnectProperties_len : quiet.

Lemma qV5Connect_WillProperties_len (self : V5Connect.WillProperties) : oq (SrcV5Connect.WillProperties_len self) (TraceV5Connect.WillProperties_len self).
Proof. unfold SrcV5Connect.WillProperties_len, TraceV5Connect.WillProperties_len. names. quiet. Qed.
Global Hint Resolve qV5Connect_WillProperties_len : quiet.

Lemma qV5Connect_LastWill_len (self : V5Connect.LastWill) : oq (SrcV5Connect.LastWill_len self) (TraceV5Connect.LastWill_len self).
Proof. unfold SrcV5Connect.LastWill_len, TraceV5Connect.LastWill_len. names. quiet. Qed.
Global Hint Resolve qV5Connect_LastWill_len : quiet.

Lemma qV5Connect_Login_len (self : V5Connect.Login) : oq (SrcV5Connect.Login_len self) (TraceV5Connect.Login_len self).
Proof. unfold SrcV5Connect.Login_len, TraceV5Connect.Login_len. names. quiet. Qed.
Global Hint Resolve qV5Connect_Login_len : quiet.

Lemma qV5Connect_Connect_len (self : V5Connect.Connect) : oq (SrcV5Connect.Connect_len self) (TraceV5Connect.Connect_len self).
Proof. unfold SrcV5Connect.Connect_len, TraceV5Connect.Connect_len. names. quiet. Qed.
Global Hint Resolve qV5Connect_Connect_len : quiet.

Lemma qV5Connect_ConnectProperties_read (fuel : nat) : wq (SrcV5Connect.ConnectProperties_read fuel) (TraceV5Connect.ConnectProperties_read fuel).
Proof. unfold SrcV5Connect.ConnectProperties_read, TraceV5Connect.ConnectProperties_read. names. quiet. Qed.
Global Hint Resolve qV5Connect_ConnectProperties_read : quiet.

Lemma qV5Connect_WillProperties_read (fuel : nat) : wq (SrcV5Connect.WillProperties_read fuel) (TraceV5Connect.WillProperties_read fuel).
Proof. unfold SrcV5Connect.WillProperties_read, TraceV5Connect.WillProperties_read. names. quiet. Qed.
Global Hint Resolve qV5Connect_WillProperties_read : quiet.

Lemma qV5Connect_LastWill_read (fuel : nat) (connect_flags : N) : wq (SrcV5Connect.LastWill_read fuel connect_flags) (TraceV5Connect.LastWill_read fuel connect_flags).
Proof. unfold SrcV5Connect.LastWill_read, TraceV5Connect.LastWill_read. names. quiet. Qed.
Global Hint Resolve qV5Connect_LastWill_read : quiet.

Lemma qV5Connect_Login_read (connect_flags : N) : wq (SrcV5Connect.Login_read connect_flags) (TraceV5Connect.Login_read connect_flags).
Proof. unfold SrcV5Connect.Login_read, TraceV5Connect.Login_read. names. quiet. Qed.
Global Hint Resolve qV5Connect_Login_read : quiet.

Lemma qV5Connect_Connect_read (fuel : nat) (fixed_header : Lib.FixedHeader) (bytes : list N) : oq (SrcV5Connect.Connect_read fuel fixed_header bytes) (TraceV5Connect.Connect_read fuel fixed_header bytes).
Proof. unfold SrcV5Connect.Connect_read, TraceV5Connect.Connect_read. names. quiet. Qed.
Global Hint Resolve qV5Connect_Connect_read : quiet.

Lemma qV5Connect_ConnectProperties_write (fuel : nat) (self : V5Connect.ConnectProperties) : wq (SrcV5Connect.ConnectProperties_write fuel self) (TraceV5Connect.ConnectProperties_write fuel self).
Proof. unfold SrcV5Connect.ConnectProperties_write, TraceV5Connect.ConnectProperties_write. names. quiet. Qed.
Global Hint Resolve qV5Connect_ConnectProperties_write : quiet.

Lemma qV5Connect_WillProperties_write (fuel : nat) (self : V5Connect.WillProperties) : wq (SrcV5Connect.WillProperties_write fuel self) (TraceV5Connect.WillProperties_write fuel self).
Proof. unfold SrcV5Connect.WillProperties_write, TraceV5Connect.WillProperties_write. names. quiet. Qed.
Global Hint Resolve qV5Connect_WillProperties_write : quiet.

Lemma qV5Connect_LastWill_write (fuel : nat) (self : V5Connect.LastWill) : wq (SrcV5Connect.LastWill_write fuel self) (TraceV5Connect.LastWill_write fuel self).
Proof. unfold SrcV5Connect.LastWill_write, TraceV5Connect.LastWill_write. names. quiet. Qed.
Global Hint Resolve qV5Connect_LastWill_write : quiet.

Lemma qV5Connect_Login_write (self : V5Connect.Login) : wq (SrcV5Connect.Login_write self) (TraceV5Connect.Login_write self).
Proof. unfold SrcV5Connect.Login_write, TraceV5Connect.Login_write. names. quiet. Qed.
Global Hint Resolve qV5Connect_Login_write : quiet.

Lemma qV5Connect_Connect_write (fuel : nat) (self : V5Connect.Connect) : wq (SrcV5Connect.Connect_write fuel self) (TraceV5Connect.Connect_write fuel self).
Proof. unfold SrcV5Connect.Connect_write, TraceV5Connect.Connect_write. names. quiet. Qed.
Global Hint Resolve qV5Connect_Connect_write : quiet.

Lemma qV5Connect_LastWill_new (topic : list N) (payload : list N) (qos : Base.QoS) (retain : bool) : oq (SrcV5Connect.LastWill_new topic payload qos retain) (TraceV5Connect.LastWill_new topic payload qos retain).
Proof. unfold SrcV5Connect.LastWill_new, TraceV5Connect.LastWill_new. names. quiet. Qed.
Global Hint Resolve qV5Connect_LastWill_new : quiet.

Lemma qV5Connect_Login_new (u : list N) (p : list N) : oq (SrcV5Connect.Login_new u p) (TraceV5Connect.Login_new u p).
Proof. unfold SrcV5Connect.Login_new, TraceV5Connect.Login_new. names. quiet. Qed.
Global Hint Resolve qV5Connect_Login_new : quiet.

Lemma qV5Connect_ConnectProperties__new : oq (SrcV5Connect.ConnectProperties__new ) (TraceV5Connect.ConnectProperties__new ).
Proof. unfold SrcV5Connect.ConnectProperties__new, TraceV5Connect.ConnectProperties__new. names. quiet. Qed.
Global Hint Resolve qV5Connect_ConnectProperties__new : quiet.

Lemma qV5Disconnect_DisconnectReasonCode_try_from (value : N) : oq (SrcV5Disconnect.DisconnectReasonCode_try_from value) (TraceV5Disconnect.DisconnectReasonCode_try_from value).
Proof. unfold SrcV5Disconnect.DisconnectReasonCode_try_from, TraceV5Disconnect.DisconnectReasonCode_try_from. names. quiet. Qed.
Global Hint Resolve qV5Disconnect_DisconnectReasonCode_try_from : quiet.

Lemma qV5Disconnect_DisconnectProperties_new : oq (SrcV5Disconnect.DisconnectProperties_new ) (TraceV5Disconnect.DisconnectProperties_new ).
Proof. unfold SrcV5Disconnect.DisconnectProperties_new, TraceV5Disconnect.DisconnectProperties_new. names. quiet. Qed.
Global Hint Resolve qV5Disconnect_DisconnectProperties_new : quiet.

Lemma qV5Disconnect_DisconnectProperties_len (self : V5Disconnect.DisconnectProperties) : oq (SrcV5Disconnect.DisconnectProperties_len self) (TraceV5Disconnect.DisconnectProperties_len self).
Proof. unfold SrcV5Disconnect.DisconnectProperties_len, TraceV5Disconnect.DisconnectProperties_len. names. quiet. Qed.
Global Hint Resolve qV5Disconnect_DisconnectProperties_len : quiet.

Lemma qV5Disconnect_DisconnectProperties_extract (fuel : nat) : wq (SrcV5Disconnect.DisconnectProperties_extract fuel) (TraceV5Disconnect.DisconnectProperties_extract fuel).
Proof. unfold SrcV5Disconnect.DisconnectProperties_extract, TraceV5Disconnect.DisconnectProperties_extract. names. quiet. Qed.
Global Hint Resolve qV5Disconnect_DisconnectProperties_extract : quiet.

Lemma qV5Disconnect_DisconnectProperties_write (fuel : nat) (self : V5Disconnect.DisconnectProperties) : wq (SrcV5Disconnect.DisconnectProperties_write fuel self) (TraceV5Disconnect.DisconnectProperties_write fuel self).
Proof. unfold SrcV5Disconnect.DisconnectProperties_write, TraceV5Disconnect.DisconnectProperties_write. names. quiet. Qed.
Global Hint Resolve qV5Disconnect_DisconnectProperties_write : quiet.

Lemma qV5Disconnect_Disconnect_new : oq (SrcV5Disconnect.Disconnect_new ) (TraceV5Disconnect.Disconnect_new ).
Proof. unfold SrcV5Disconnect.Disconnect_new, TraceV5Disconnect.Disconnect_new. names. quiet. Qed.
Global Hint Resolve qV5Disconnect_Disconnect_new : quiet.

Lemma qV5Disconnect_Disconnect_len (self : V5Disconnect.Disconnect) : oq (SrcV5Disconnect.Disconnect_len self) (TraceV5Disconnect.Disconnect_len self).
Proof. unfold SrcV5Disconnect.Disconnect_len, TraceV5Disconnect.Disconnect_len. names. quiet. Qed.
Global Hint Resolve qV5Disconnect_Disconnect_len : quiet.

Lemma qV5Disconnect_Disconnect_read (fuel : nat) (fixed_header : Lib.FixedHeader) (bytes : list N) : oq (SrcV5Disconnect.Disconnect_read fuel fixed_header bytes) (TraceV5Disconnect.Disconnect_read fuel fixed_header bytes).
Proof. unfold SrcV5Disconnect.Disconnect_read, TraceV5Disconnect.Disconnect_read. names. quiet. Qed.
Global Hint Resolve qV5Disconnect_Disconnect_read : quiet.

Lemma qV5Disconnect_Disconnect_write (fuel : nat) (self : V5Disconnect.Disconnect) : wq (SrcV5Disconnect.Disconnect_write fuel self) (TraceV5Disconnect.Disconnect_write fuel self).
Proof. unfold SrcV5Disconnect.Disconnect_write, TraceV5Disconnect.Disconnect_write. names. quiet. Qed.
Global Hint Resolve qV5Disconnect_Disconnect_write : quiet.

Lemma qV5PubAck_PubAck_new (pkid : N) : oq (SrcV5PubAck.PubAck_new pkid) (TraceV5PubAck.PubAck_new pkid).
Proof. unfold SrcV5PubAck.PubAck_new, TraceV5PubAck.PubAck_new. names. quiet. Qed.
Global Hint Resolve qV5PubAck_PubAck_new : quiet.

Lemma qV5PubAck_PubAckProperties_len (self : V5PubAck.PubAckProperties) : oq (SrcV5PubAck.PubAckProperties_len self) (TraceV5PubAck.PubAckProperties_len self).
Proof. unfold SrcV5PubAck.PubAckProperties_len, TraceV5PubAck.PubAckProperties_len. names. quiet. Qed.
Global Hint Resolve qV5PubAck_PubAckProperties_len : quiet.

Lemma qV5PubAck_PubAck_len (self : V5PubAck.PubAck) : oq (SrcV5PubAck.PubAck_len self) (TraceV5PubAck.PubAck_len self).
Proof. unfold SrcV5PubAck.PubAck_len, TraceV5PubAck.PubAck_len. names. quiet. Qed.
Global Hint Resolve qV5PubAck_PubAck_len : quiet.

Lemma qV5PubAck_reason (num : N) : oq (SrcV5PubAck.reason num) (TraceV5PubAck.reason num).
Proof. unfold SrcV5PubAck.reason, TraceV5PubAck.reason. names. quiet. Qed.
Global Hint Resolve qV5PubAck_reason : quiet.

Lemma qV5PubAck_PubAckProperties_extract (fuel : nat) : wq (SrcV5PubAck.PubAckProperties_extract fuel) (TraceV5PubAck.PubAckProperties_extract fuel).
Proof. unfold SrcV5PubAck.PubAckProperties_extract, TraceV5PubAck.PubAckProperties_extract. names. quiet. Qed.
Global Hint Resolve qV5PubAck_PubAckProperties_extract : quiet.

Lemma qV5PubAck_PubAck_read (fuel : nat) (fixed_header : Lib.FixedHeader) (bytes : list N) : oq (SrcV5PubAck.PubAck_read fuel fixed_header bytes) (TraceV5PubAck.PubAck_read fuel fixed_header bytes).
Proof. unfold SrcV5PubAck.PubAck_read, TraceV5PubAck.PubAck_read. names. quiet. Qed.
Global Hint Resolve qV5PubAck_PubAck_read : quiet.

Lemma qV5PubAck_PubAckProperties_write (fuel : nat) (self : V5PubAck.PubAckProperties) : wq (SrcV5PubAck.PubAckProperties_write fuel self) (TraceV5PubAck.PubAckProperties_write fuel self).
Proof. unfold SrcV5PubAck.PubAckProperties_write, TraceV5PubAck.PubAckProperties_write. names. quiet. Qed.
Global Hint Resolve qV5PubAck_PubAckProperties_write : quiet.

Lemma qV5PubAck_PubAck_write (fuel : nat) (self : V5PubAck.PubAck) : wq (SrcV5PubAck.PubAck_write fuel self) (TraceV5PubAck.PubAck_write fuel self).
Proof. unfold SrcV5PubAck.PubAck_write, TraceV5PubAck.PubAck_write. names. quiet. Qed.
Global Hint Resolve qV5PubAck_PubAck_write : quiet.

Lemma qV5PubComp_PubComp_new (pkid : N) : oq (SrcV5PubComp.PubComp_new pkid) (TraceV5PubComp.PubComp_new pkid).
Proof. unfold SrcV5PubComp.PubComp_new, TraceV5PubComp.PubComp_new. names. quiet. Qed.
Global Hint Resolve qV5PubComp_PubComp_new : quiet.

Lemma qV5PubComp_PubCompProperties_len (self : V5PubComp.PubCompProperties) : oq (SrcV5PubComp.PubCompProperties_len self) (TraceV5PubComp.PubCompProperties_len self).
Proof. unfold SrcV5PubComp.PubCompProperties_len, TraceV5PubComp.PubCompProperties_len. names. quiet. Qed.
Global Hint Resolve qV5PubComp_PubCompProperties_len : quiet.

Lemma qV5PubComp_PubComp_len (self : V5PubComp.PubComp) : oq (SrcV5PubComp.PubComp_len self) (TraceV5PubComp.PubComp_len self).
Proof. unfold SrcV5PubComp.PubComp_len, TraceV5PubComp.PubComp_len. names. quiet. Qed.
Global Hint Resolve qV5PubComp_PubComp_len : quiet.

Lemma qV5PubComp_reason (num : N) : oq (SrcV5PubComp.reason num) (TraceV5PubComp.reason num).
Proof. unfold SrcV5PubComp.reason, TraceV5PubComp.reason. names. quiet. Qed.
Global Hint Resolve qV5PubComp_reason : quiet.

Lemma qV5PubComp_PubCompProperties_extract (fuel : nat) : wq (SrcV5PubComp.PubCompProperties_extract fuel) (TraceV5PubComp.PubCompProperties_extract fuel).
Proof. unfold SrcV5PubComp.PubCompProperties_extract, TraceV5PubComp.PubCompProperties_extract. names. quiet. Qed.
Global Hint Resolve qV5PubComp_PubCompProperties_extract : quiet.

Lemma qV5PubComp_PubComp_read (fuel : nat) (fixed_header : Lib.FixedHeader) (bytes : list N) : oq (SrcV5PubComp.PubComp_read fuel fixed_header bytes) (TraceV5PubComp.PubComp_read fuel fixed_header bytes).
Proof. unfold SrcV5PubComp.PubComp_read, TraceV5PubComp.PubComp_read. names. quiet. Qed.
Global Hint Resolve qV5PubComp_PubComp_read : quiet.

Lemma qV5PubComp_PubCompProperties_write (fuel : nat) (self : V5PubComp.PubCompProperties) : wq (SrcV5PubComp.PubCompProperties_write fuel self) (TraceV5PubComp.PubCompProperties_write fuel self).
Proof. unfold SrcV5PubComp.PubCompProperties_write, TraceV5PubComp.PubCompProperties_write. names. quiet. Qed.
Global Hint Resolve qV5PubComp_PubCompProperties_write : quiet.

Lemma qV5PubComp_PubComp_write (fuel : nat) (self : V5PubComp.PubComp) : wq (SrcV5PubComp.PubComp_write fuel self) (TraceV5PubComp.PubComp_write fuel self).
Proof. unfold SrcV5PubComp.PubComp_write, TraceV5PubComp.PubComp_write. names. quiet. Qed.
Global Hint Resolve qV5PubComp_PubComp_write : quiet.

Lemma qV5PubRec_PubRec_new (pkid : N) : oq (SrcV5PubRec.PubRec_new pkid) (TraceV5PubRec.PubRec_new pkid).
Proof. unfold SrcV5PubRec.PubRec_new, TraceV5PubRec.PubRec_new. names. quiet. Qed.
Global Hint Resolve qV5PubRec_PubRec_new : quiet.

Lemma qV5PubRec_PubRecProperties_len (self : V5PubRec.PubRecProperties) : oq (SrcV5PubRec.PubRecProperties_len self) (TraceV5PubRec.PubRecProperties_len self).
Proof. unfold SrcV5PubRec.PubRecProperties_len, TraceV5PubRec.PubRecProperties_len. names. quiet. Qed.
Global Hint Resolve qV5PubRec_PubRecProperties_len : quiet.

Lemma qV5PubRec_PubRec_len (self : V5PubRec.PubRec) : oq (SrcV5PubRec.PubRec_len self) (TraceV5PubRec.PubRec_len self).
Proof. unfold SrcV5PubRec.PubRec_len, TraceV5PubRec.PubRec_len. names. quiet. Qed.
Global Hint Resolve qV5PubRec_PubRec_len : quiet.

Lemma qV5PubRec_reason (num : N) : oq (SrcV5PubRec.reason num) (TraceV5PubRec.reason num).
Proof. unfold SrcV5PubRec.reason, TraceV5PubRec.reason. names. quiet. Qed.
Global Hint Resolve qV5PubRec_reason : quiet.

Lemma qV5PubRec_PubRecProperties_extract (fuel : nat) : wq (SrcV5PubRec.PubRecProperties_extract fuel) (TraceV5PubRec.PubRecProperties_extract fuel).
Proof. unfold SrcV5PubRec.PubRecProperties_extract, TraceV5PubRec.PubRecProperties_extract. names. quiet. Qed.
Global Hint Resolve qV5PubRec_PubRecProperties_extract : quiet.

Lemma qV5PubRec_PubRec_read (fuel : nat) (fixed_header : Lib.FixedHeader) (bytes : list N) : oq (SrcV5PubRec.PubRec_read fuel fixed_header bytes) (TraceV5PubRec.PubRec_read fuel fixed_header bytes).
Proof. unfold SrcV5PubRec.PubRec_read, TraceV5PubRec.PubRec_read. names. quiet. Qed.
Global Hint Resolve qV5PubRec_PubRec_read : quiet.

Lemma qV5PubRec_PubRecProperties_write (fuel : nat) (self : V5PubRec.PubRecProperties) : wq (SrcV5PubRec.PubRecProperties_write fuel self) (TraceV5PubRec.PubRecProperties_write fuel self).
Proof. unfold SrcV5PubRec.PubRecProperties_write, TraceV5PubRec.PubRecProperties_write. names. quiet. Qed.
Global Hint Resolve qV5PubRec_PubRecProperties_write : quiet.

Lemma qV5PubRec_PubRec_write (fuel : nat) (self : V5PubRec.PubRec) : wq (SrcV5PubRec.PubRec_write fuel self) (TraceV5PubRec.PubRec_write fuel self).
Proof. unfold SrcV5PubRec.PubRec_write, TraceV5PubRec.PubRec_write. names. quiet. Qed.
Global Hint Resolve qV5PubRec_PubRec_write : quiet.

Lemma qV5PubRel_PubRel_new (pkid : N) : oq (SrcV5PubRel.PubRel_new pkid) (TraceV5PubRel.PubRel_new pkid).
Proof. unfold SrcV5PubRel.PubRel_new, TraceV5PubRel.PubRel_new. names. quiet. Qed.
Global Hint Resolve qV5PubRel_PubRel_new : quiet.

Lemma qV5PubRel_PubRelProperties_len (self : V5PubRel.PubRelProperties) : oq (SrcV5PubRel.PubRelProperties_len self) (TraceV5PubRel.PubRelProperties_len self).
Proof. unfold SrcV5PubRel.PubRelProperties_len, TraceV5PubRel.PubRelProperties_len. names. quiet. Qed.
Global Hint Resolve qV5PubRel_PubRelProperties_len : quiet.

Lemma qV5PubRel_PubRel_len (self : V5PubRel.PubRel) : oq (SrcV5PubRel.PubRel_len self) (TraceV5PubRel.PubRel_len self).
Proof. unfold SrcV5PubRel.PubRel_len, TraceV5PubRel.PubRel_len. names. quiet. Qed.
Global Hint Resolve qV5PubRel_PubRel_len : quiet.

Lemma qV5PubRel_reason (num : N) : oq (SrcV5PubRel.reason num) (TraceV5PubRel.reason num).
Proof. unfold SrcV5PubRel.reason, TraceV5PubRel.reason. names. quiet. Qed.
Global Hint Resolve qV5PubRel_reason : quiet.

Lemma qV5PubRel_PubRelProperties_extract (fuel : nat) : wq (SrcV5PubRel.PubRelProperties_extract fuel) (TraceV5PubRel.PubRelProperties_extract fuel).
Proof. unfold SrcV5PubRel.PubRelProperties_extract, TraceV5PubRel.PubRelProperties_extract. names. quiet. Qed.
Global Hint Resolve qV5PubRel_PubRelProperties_extract : quiet.

Lemma qV5PubRel_PubRel_read (fuel : nat) (fixed_header : Lib.FixedHeader) (bytes : list N) : oq (SrcV5PubRel.PubRel_read fuel fixed_header bytes) (TraceV5PubRel.PubRel_read fuel fixed_header bytes).
Proof. unfold SrcV5PubRel.PubRel_read, TraceV5PubRel.PubRel_read. names. quiet. Qed.
Global Hint Resolve qV5PubRel_PubRel_read : quiet.

Lemma qV5PubRel_PubRelProperties_write (fuel : nat) (self : V5PubRel.PubRelProperties) : wq (SrcV5PubRel.PubRelProperties_write fuel self) (TraceV5PubRel.PubRelProperties_write fuel self).
Proof. unfold SrcV5PubRel.PubRelProperties_write, TraceV5PubRel.PubRelProperties_write. names. quiet. Qed.
Global Hint Resolve qV5PubRel_PubRelProperties_write : quiet.

Lemma qV5PubRel_PubRel_write (fuel : nat) (self : V5PubRel.PubRel) : wq (SrcV5PubRel.PubRel_write fuel self) (TraceV5PubRel.PubRel_write fuel self).
Proof. unfold SrcV5PubRel.PubRel_write, TraceV5PubRel.PubRel_write. names. quiet. Qed.
Global Hint Resolve qV5PubRel_PubRel_write : quiet.

Lemma qV5Publish_Publish_new (topic : list N) (qos : Base.QoS) (payload : list N) : oq (SrcV5Publish.Publish_new topic qos payload) (TraceV5Publish.Publish_new topic qos payload).
Proof. unfold SrcV5Publish.Publish_new, TraceV5Publish.Publish_new. names. quiet. Qed.
Global Hint Resolve qV5Publish_Publish_new : quiet.

Lemma qV5Publish_Publish_from_bytes (topic : list N) (qos : Base.QoS) (payload : list N) : oq (SrcV5Publish.Publish_from_bytes topic qos payload) (TraceV5Publish.Publish_from_bytes topic qos payload).
Proof. unfold SrcV5Publish.Publish_from_bytes, TraceV5Publish.Publish_from_bytes. names. quiet. Qed.
Global Hint Resolve qV5Publish_Publish_from_bytes : quiet.

Lemma qV5Publish_PublishProperties_len (self : V5Publish.PublishProperties) : oq (SrcV5Publish.PublishProperties_len self) (TraceV5Publish.PublishProperties_len self).
Proof. unfold SrcV5Publish.PublishProperties_len, TraceV5Publish.PublishProperties_len. names. quiet. Qed.
Global Hint Resolve qV5Publish_PublishProperties_len : quiet.

Lemma qV5Publish_Publish_len (self : V5Publish.Publish) : oq (SrcV5Publish.Publish_len self) (TraceV5Publish.Publish_len self).
Proof. unfold SrcV5Publish.Publish_len, TraceV5Publish.Publish_len. names. quiet. Qed.
Global Hint Resolve qV5Publish_Publish_len : quiet.

Lemma qV5Publish_PublishProperties_extract (fuel : nat) : wq (SrcV5Publish.PublishProperties_extract fuel) (TraceV5Publish.PublishProperties_extract fuel).
Proof. unfold SrcV5Publish.PublishProperties_extract, TraceV5Publish.PublishProperties_extract. names. quiet. Qed.
Global Hint Resolve qV5Publish_PublishProperties_extract : quiet.

Lemma qV5Publish_Publish_read (fuel : nat) (fixed_header : Lib.FixedHeader) (bytes : list N) : oq (SrcV5Publish.Publish_read fuel fixed_header bytes) (TraceV5Publish.Publish_read fuel fixed_header bytes).
Proof. unfold SrcV5Publish.Publish_read, TraceV5Publish.Publish_read. names. quiet. Qed.
Global Hint Resolve qV5Publish_Publish_read : quiet.

Lemma qV5Publish_PublishProperties_write (fuel : nat) (self : V5Publish.PublishProperties) : wq (SrcV5Publish.PublishProperties_write fuel self) (TraceV5Publish.PublishProperties_write fuel self).
Proof. unfold SrcV5Publish.PublishProperties_write, TraceV5Publish.PublishProperties_write. names. quiet. Qed.
Global Hint Resolve qV5Publish_PublishProperties_write : quiet.

Lemma qV5Publish_Publish_write (fuel : nat) (self : V5Publish.Publish) : wq (SrcV5Publish.Publish_write fuel self) (TraceV5Publish.Publish_write fuel self).
Proof. unfold SrcV5Publish.Publish_write, TraceV5Publish.Publish_write. names. quiet. Qed.
Global Hint Resolve qV5Publish_Publish_write : quiet.

Lemma qV5SubAck_SubAck_new (pkid : N) (return_codes : list V5SubAck.SubscribeReasonCode) : oq (SrcV5SubAck.SubAck_new pkid return_codes) (TraceV5SubAck.SubAck_new pkid return_codes).
Proof. unfold SrcV5SubAck.SubAck_new, TraceV5SubAck.SubAck_new. names. quiet. Qed.
Global Hint Resolve qV5SubAck_SubAck_new : quiet.

Lemma qV5SubAck_SubAckProperties_len (self : V5SubAck.SubAckProperties) : oq (SrcV5SubAck.SubAckProperties_len self) (TraceV5SubAck.SubAckProperties_len self).
Proof. unfold SrcV5SubAck.SubAckProperties_len, TraceV5SubAck.SubAckProperties_len. names. quiet. Qed.
Global Hint Resolve qV5SubAck_SubAckProperties_len : quiet.

Lemma qV5SubAck_SubAck_len (self : V5SubAck.SubAck) : oq (SrcV5SubAck.SubAck_len self) (TraceV5SubAck.SubAck_len self).
Proof. unfold SrcV5SubAck.SubAck_len, TraceV5SubAck.SubAck_len. names. quiet. Qed.
Global Hint Resolve qV5SubAck_SubAck_len : quiet.

Lemma qV5SubAck_SubAckProperties_extract (fuel : nat) : wq (SrcV5SubAck.SubAckProperties_extract fuel) (TraceV5SubAck.SubAckProperties_extract fuel).
Proof. unfold SrcV5SubAck.SubAckProperties_extract, TraceV5SubAck.SubAckProperties_extract. names. quiet. Qed.
Global Hint Resolve qV5SubAck_SubAckProperties_extract : quiet.

Lemma qV5SubAck_SubscribeReasonCode_try_from (value : N) : oq (SrcV5SubAck.SubscribeReasonCode_try_from value) (TraceV5SubAck.SubscribeReasonCode_try_from value).
Proof. unfold SrcV5SubAck.SubscribeReasonCode_try_from, TraceV5SubAck.SubscribeReasonCode_try_from. names. quiet. Qed.
Global Hint Resolve qV5SubAck_SubscribeReasonCode_try_from : quiet.

Lemma qV5SubAck_SubAck_read (fuel : nat) (fixed_header : Lib.FixedHeader) (bytes : list N) : oq (SrcV5SubAck.SubAck_read fuel fixed_header bytes) (TraceV5SubAck.SubAck_read fuel fixed_header bytes).
Proof. unfold SrcV5SubAck.SubAck_read, TraceV5SubAck.SubAck_read. names. quiet. Qed.
Global Hint Resolve qV5SubAck_SubAck_read : quiet.

Lemma qV5SubAck_SubAckProperties_write (fuel : nat) (self : V5SubAck.SubAckProperties) : wq (SrcV5SubAck.SubAckProperties_write fuel self) (TraceV5SubAck.SubAckProperties_write fuel self).
Proof. unfold SrcV5SubAck.SubAckProperties_write, TraceV5SubAck.SubAckProperties_write. names. quiet. Qed.
Global Hint Resolve qV5SubAck_SubAckProperties_write : quiet.

Lemma qV5SubAck_SubAck_write (fuel : nat) (self : V5SubAck.SubAck) : wq (SrcV5SubAck.SubAck_write fuel self) (TraceV5SubAck.SubAck_write fuel self).
Proof. unfold SrcV5SubAck.SubAck_write, TraceV5SubAck.SubAck_write. names. quiet. Qed.
Global Hint Resolve qV5SubAck_SubAck_write : quiet.

Lemma qV5Subscribe_Subscribe_new (path : list N) (qos : Base.QoS) : oq (SrcV5Subscribe.Subscribe_new path qos) (TraceV5Subscribe.Subscribe_new path qos).
Proof. unfold SrcV5Subscribe.Subscribe_new, TraceV5Subscribe.Subscribe_new. names. quiet. Qed.
Global Hint Resolve qV5Subscribe_Subscribe_new : quiet.

Lemma qV5Subscribe_Subscribe_new_many (topics : list V5Subscribe.SubscribeFilter) : oq (SrcV5Subscribe.Subscribe_new_many topics) (TraceV5Subscribe.Subscribe_new_many topics).
Proof. unfold SrcV5Subscribe.Subscribe_new_many, TraceV5Subscribe.Subscribe_new_many. names. quiet. Qed.
Global Hint Resolve qV5Subscribe_Subscribe_new_many : quiet.

Lemma qV5Subscribe_Subscribe_empty_subscribe : oq (SrcV5Subscribe.Subscribe_empty_subscribe ) (TraceV5Subscribe.Subscribe_empty_subscribe ).
Proof. unfold SrcV5Subscribe.Subscribe_empty_subscribe, TraceV5Subscribe.Subscribe_empty_subscribe. names. quiet. Qed.
Global Hint Resolve qV5Subscribe_Subscribe_empty_subscribe : quiet.

Lemma qV5Subscribe_Subscribe_add (self : V5Subscribe.Subscribe) (path : list N) (qos : Base.QoS) : oq (SrcV5Subscribe.Subscribe_add self path qos) (TraceV5Subscribe.Subscribe_add self path qos).
Proof. unfold SrcV5Subscribe.Subscribe_add, TraceV5Subscribe.Subscribe_add. names. quiet. Qed.
Global Hint Resolve qV5Subscribe_Subscribe_add : quiet.

Lemma qV5Subscribe_SubscribeFilter_len (self : V5Subscribe.SubscribeFilter) : oq (SrcV5Subscribe.SubscribeFilter_len self) (TraceV5Subscribe.SubscribeFilter_len self).
Proof. unfold SrcV5Subscribe.SubscribeFilter_len, TraceV5Subscribe.SubscribeFilter_len. names. quiet. Qed.
Global Hint Resolve qV5Subscribe_SubscribeFilter_len : quiet.

Lemma qV5Subscribe_SubscribeProperties_len (self : V5Subscribe.SubscribeProperties) : oq (SrcV5Subscribe.SubscribeProperties_len self) (TraceV5Subscribe.SubscribeProperties_len self).
Proof. unfold SrcV5Subscribe.SubscribeProperties_len, TraceV5Subscribe.SubscribeProperties_len. names. quiet. Qed.
Global Hint Resolve qV5Subscribe_SubscribeProperties_len : quiet.

Lemma qV5Subscribe_Subscribe_len (self : V5Subscribe.Subscribe) : oq (SrcV5Subscribe.Subscribe_len self) (TraceV5Subscribe.Subscribe_len self).
Proof. unfold SrcV5Subscribe.Subscribe_len, TraceV5Subscribe.Subscribe_len. names. quiet. Qed.
Global Hint Resolve qV5Subscribe_Subscribe_len : quiet.

Lemma qV5Subscribe_SubscribeProperties_extract (fuel : nat) : wq (SrcV5Subscribe.SubscribeProperties_extract fuel) (TraceV5Subscribe.SubscribeProperties_extract fuel).
Proof. unfold SrcV5Subscribe.SubscribeProperties_extract, TraceV5Subscribe.SubscribeProperties_extract. names. quiet. Qed.
Global Hint Resolve qV5Subscribe_SubscribeProperties_extract : quiet.

Lemma qV5Subscribe_Subscribe_read (fuel : nat) (fixed_header : Lib.FixedHeader) (bytes : list N) : oq (SrcV5Subscribe.Subscribe_read fuel fixed_header bytes) (TraceV5Subscribe.Subscribe_read fuel fixed_header bytes).
Proof. unfold SrcV5Subscribe.Subscribe_read, TraceV5Subscribe.Subscribe_read. names. quiet. Qed.
Global Hint Resolve qV5Subscribe_Subscribe_read : quiet.

Lemma qV5Subscribe_SubscribeProperties_write (fuel : nat) (self : V5Subscribe.SubscribeProperties) : wq (SrcV5Subscribe.SubscribeProperties_write fuel self) (TraceV5Subscribe.SubscribeProperties_write fuel self).
Proof. unfold SrcV5Subscribe.SubscribeProperties_write, TraceV5Subscribe.SubscribeProperties_write. names. quiet. Qed.
Global Hint Resolve qV5Subscribe_SubscribeProperties_write : quiet.

Lemma qV5Subscribe_SubscribeFilter_write (self : V5Subscribe.SubscribeFilter) : wq (SrcV5Subscribe.SubscribeFilter_write self) (TraceV5Subscribe.SubscribeFilter_write self).
Proof. unfold SrcV5Subscribe.SubscribeFilter_write, TraceV5Subscribe.SubscribeFilter_write. names. quiet. Qed.
Global Hint Resolve qV5Subscribe_SubscribeFilter_write : quiet.

Lemma qV5Subscribe_Subscribe_write (fuel : nat) (self : V5Subscribe.Subscribe) : wq (SrcV5Subscribe.Subscribe_write fuel self) (TraceV5Subscribe.Subscribe_write fuel self).
Proof. unfold SrcV5Subscribe.Subscribe_write, TraceV5Subscribe.Subscribe_write. names. quiet. Qed.
Global Hint Resolve qV5Subscribe_Subscribe_write : quiet.

Lemma qV5Subscribe_SubscribeFilter_new (path : list N) (qos : Base.QoS) : oq (SrcV5Subscribe.SubscribeFilter_new path qos) (TraceV5Subscribe.SubscribeFilter_new path qos).
Proof. unfold SrcV5Subscribe.SubscribeFilter_new, TraceV5Subscribe.SubscribeFilter_new. names. quiet. Qed.
Global Hint Resolve qV5Subscribe_SubscribeFilter_new : quiet.

Lemma qV5Subscribe_SubscribeFilter_set_nolocal (self : V5Subscribe.SubscribeFilter) (flag : bool) : oq (SrcV5Subscribe.SubscribeFilter_set_nolocal self flag) (TraceV5Subscribe.SubscribeFilter_set_nolocal self flag).
Proof. unfold SrcV5Subscribe.SubscribeFilter_set_nolocal, TraceV5Subscribe.SubscribeFilter_set_nolocal. names. quiet. Qed.
Global Hint Resolve qV5Subscribe_SubscribeFilter_set_nolocal : quiet.

Lemma qV5Subscribe_SubscribeFilter_set_preserve_retain (self : V5Subscribe.SubscribeFilter) (flag : bool) : oq (SrcV5Subscribe.SubscribeFilter_set_preserve_retain self flag) (TraceV5Subscribe.SubscribeFilter_set_preserve_retain self flag).
Proof. unfold SrcV5Subscribe.SubscribeFilter_set_preserve_retain, TraceV5Subscribe.SubscribeFilter_set_preserve_retain. names. quiet. Qed.
Global Hint Resolve qV5Subscribe_SubscribeFilter_set_preserve_retain : quiet.

Lemma qV5Subscribe_SubscribeFilter_set_retain_forward_rule (self : V5Subscribe.SubscribeFilter) (rule : V5Subscribe.RetainForwardRule) : oq (SrcV5Subscribe.SubscribeFilter_set_retain_forward_rule self rule) (TraceV5Subscribe.SubscribeFilter_set_retain_forward_rule self rule).
Proof. unfold SrcV5Subscribe.SubscribeFilter_set_retain_forward_rule, TraceV5Subscribe.SubscribeFilter_set_retain_forward_rule. names. quiet. Qed.
Global Hint Resolve qV5Subscribe_SubscribeFilter_set_retain_forward_rule : quiet.

Lemma qV5UnsubAck_UnsubAck_new (pkid : N) : oq (SrcV5UnsubAck.UnsubAck_new pkid) (TraceV5UnsubAck.UnsubAck_new pkid).
Proof. unfold SrcV5UnsubAck.UnsubAck_new, TraceV5UnsubAck.UnsubAck_new. names. quiet. Qed.
Global Hint Resolve qV5UnsubAck_UnsubAck_new : quiet.

Lemma qV5UnsubAck_UnsubAckProperties_len (self : V5UnsubAck.UnsubAckProperties) : oq (SrcV5UnsubAck.UnsubAckProperties_len self) (TraceV5UnsubAck.UnsubAckProperties_len self).
Proof. unfold SrcV5UnsubAck.UnsubAckProperties_len, TraceV5UnsubAck.UnsubAckProperties_len. names. quiet. Qed.
Global Hint Resolve qV5UnsubAck_UnsubAckProperties_len : quiet.

Lemma qV5UnsubAck_UnsubAck_len (self : V5UnsubAck.UnsubAck) : oq (SrcV5UnsubAck.UnsubAck_len self) (TraceV5UnsubAck.UnsubAck_len self).
Proof. unfold SrcV5UnsubAck.UnsubAck_len, TraceV5UnsubAck.UnsubAck_len. names. quiet. Qed.
Global Hint Resolve qV5UnsubAck_UnsubAck_len : quiet.

Lemma qV5UnsubAck_UnsubAckProperties_extract (fuel : nat) : wq (SrcV5UnsubAck.UnsubAckProperties_extract fuel) (TraceV5UnsubAck.UnsubAckProperties_extract fuel).
Proof. unfold SrcV5UnsubAck.UnsubAckProperties_extract, TraceV5UnsubAck.UnsubAckProperties_extract. names. quiet. Qed.
Global Hint Resolve qV5UnsubAck_UnsubAckProperties_extract : quiet.

Lemma qV5UnsubAck_reason (num : N) : oq (SrcV5UnsubAck.reason num) (TraceV5UnsubAck.reason num).
Proof. unfold SrcV5UnsubAck.reason, TraceV5UnsubAck.reason. names. quiet. Qed.
Global Hint Resolve qV5UnsubAck_reason : quiet.

Lemma qV5UnsubAck_UnsubAck_read (fuel : nat) (fixed_header : Lib.FixedHeader) (bytes : list N) : oq (SrcV5UnsubAck.UnsubAck_read fuel fixed_header bytes) (TraceV5UnsubAck.UnsubAck_read fuel fixed_header bytes).
Proof. unfold SrcV5UnsubAck.UnsubAck_read, TraceV5UnsubAck.UnsubAck_read. names. quiet. Qed.
Global Hint Resolve qV5UnsubAck_UnsubAck_read : quiet.

Lemma qV5UnsubAck_UnsubAckProperties_write (fuel : nat) (self : V5UnsubAck.UnsubAckProperties) : wq (SrcV5UnsubAck.UnsubAckProperties_write fuel self) (TraceV5UnsubAck.UnsubAckProperties_write fuel self).
Proof. unfold SrcV5UnsubAck.UnsubAckProperties_write, TraceV5UnsubAck.UnsubAckProperties_write. names. quiet. Qed.
Global Hint Resolve qV5UnsubAck_UnsubAckProperties_write : quiet.

Lemma qV5UnsubAck_UnsubAck_write (fuel : nat) (self : V5UnsubAck.UnsubAck) : wq (SrcV5UnsubAck.UnsubAck_write fuel self) (TraceV5UnsubAck.UnsubAck_write fuel self).
Proof. unfold SrcV5UnsubAck.UnsubAck_write, TraceV5UnsubAck.UnsubAck_write. names. quiet. Qed.
Global Hint Resolve qV5UnsubAck_UnsubAck_write : quiet.

Lemma qV5Unsubscribe_Unsubscribe_new (topic : list N) : oq (SrcV5Unsubscribe.Unsubscribe_new topic) (TraceV5Unsubscribe.Unsubscribe_new topic).
Proof. unfold SrcV5Unsubscribe.Unsubscribe_new, TraceV5Unsubscribe.Unsubscribe_new. names. quiet. Qed.
Global Hint Resolve qV5Unsubscribe_Unsubscribe_new : quiet.

Lemma qV5Unsubscribe_UnsubscribeProperties_len (self : V5Unsubscribe.UnsubscribeProperties) : oq (SrcV5Unsubscribe.UnsubscribeProperties_len self) (TraceV5Unsubscribe.UnsubscribeProperties_len self).
Proof. unfold SrcV5Unsubscribe.UnsubscribeProperties_len, TraceV5Unsubscribe.UnsubscribeProperties_len. names. quiet. Qed.
Global Hint Resolve qV5Unsubscribe_UnsubscribeProperties_len : quiet.

Lemma qV5Unsubscribe_Unsubscribe_len (self : V5Unsubscribe.Unsubscribe) : oq (SrcV5Unsubscribe.Unsubscribe_len self) (TraceV5Unsubscribe.Unsubscribe_len self).
Proof. unfold SrcV5Unsubscribe.Unsubscribe_len, TraceV5Unsubscribe.Unsubscribe_len. names. quiet. Qed.
Global Hint Resolve qV5Unsubscribe_Unsubscribe_len : quiet.

Lemma qV5Unsubscribe_UnsubscribeProperties_extract (fuel : nat) : wq (SrcV5Unsubscribe.UnsubscribeProperties_extract fuel) (TraceV5Unsubscribe.UnsubscribeProperties_extract fuel).
Proof. unfold SrcV5Unsubscribe.UnsubscribeProperties_extract, TraceV5Unsubscribe.UnsubscribeProperties_extract. names. quiet. Qed.
Global Hint Resolve qV5Unsubscribe_UnsubscribeProperties_extract : quiet.

Lemma qV5Unsubscribe_UnsubscribeProperties_write (fuel : nat) (self : V5Unsubscribe.UnsubscribeProperties) : wq (SrcV5Unsubscribe.UnsubscribeProperties_write fuel self) (TraceV5Unsubscribe.UnsubscribeProperties_write fuel self).
Proof. unfold SrcV5Unsubscribe.UnsubscribeProperties_write, TraceV5Unsubscribe.UnsubscribeProperties_write. names. quiet. Qed.
Global Hint Resolve qV5Unsubscribe_UnsubscribeProperties_write : quiet.

Lemma qV5Unsubscribe_Unsubscribe_write (fuel : nat) (self : V5Unsubscribe.Unsubscribe) : wq (SrcV5Unsubscribe.Unsubscribe_write fuel self) (TraceV5Unsubscribe.Unsubscribe_write fuel self).
Proof. unfold SrcV5Unsubscribe.Unsubscribe_write, TraceV5Unsubscribe.Unsubscribe_write. names. quiet. Qed.
Global Hint Resolve qV5Unsubscribe_Unsubscribe_write : quiet.

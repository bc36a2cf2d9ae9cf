(** ProofWrap.v -- GENERATED by tools/gen_wrap_proofs.py: function by function, a build without
    overflow checks returns what a build with them returns, unless the latter panics. *)
From Verif Require Import Base Lib SrcBase ProofWrapBase.
From Verif Require V4ConnAck V4Connect V4PubAck V4PubComp V4PubRec V4PubRel V4Publish V4SubAck V4Subscribe V4UnsubAck V4Unsubscribe V5ConnAck V5Connect V5Disconnect V5Property V5PubAck V5PubComp V5PubRec V5PubRel V5Publish V5SubAck V5Subscribe V5UnsubAck V5Unsubscribe.
From Verif Require SrcLib SrcTopic SrcV4ConnAck SrcV4Connect SrcV4Disconnect SrcV4Ping SrcV4PubAck SrcV4PubComp SrcV4PubRec SrcV4PubRel SrcV4Publish SrcV4SubAck SrcV4Subscribe SrcV4UnsubAck SrcV4Unsubscribe SrcV4Mod SrcV5Ping SrcV5Property SrcV5ConnAck SrcV5Connect SrcV5Disconnect SrcV5PubAck SrcV5PubComp SrcV5PubRec SrcV5PubRel SrcV5Publish SrcV5SubAck SrcV5Subscribe SrcV5UnsubAck SrcV5Unsubscribe SrcV5Mod.
From Verif Require WrapLib WrapTopic WrapV4ConnAck WrapV4Connect WrapV4Disconnect WrapV4Ping WrapV4PubAck WrapV4PubComp WrapV4PubRec WrapV4PubRel WrapV4Publish WrapV4SubAck WrapV4Subscribe WrapV4UnsubAck WrapV4Unsubscribe WrapV4Mod WrapV5Ping WrapV5Property WrapV5ConnAck WrapV5Connect WrapV5Disconnect WrapV5PubAck WrapV5PubComp WrapV5PubRec WrapV5PubRel WrapV5Publish WrapV5SubAck WrapV5Subscribe WrapV5UnsubAck WrapV5Unsubscribe WrapV5Mod.

Ltac names :=
  change WrapLib.PacketType_as_u8 with SrcLib.PacketType_as_u8;
  change WrapLib.Protocol_as_u8 with SrcLib.Protocol_as_u8;
  change WrapLib.QoS_as_u8 with SrcLib.QoS_as_u8;
  change WrapV4ConnAck.ConnectReturnCode_as_u8 with SrcV4ConnAck.ConnectReturnCode_as_u8;
  change WrapV5Property.PropertyType_as_u8 with SrcV5Property.PropertyType_as_u8;
  change WrapV5ConnAck.ConnectReturnCode_as_u8 with SrcV5ConnAck.ConnectReturnCode_as_u8;
  change WrapV5Disconnect.DisconnectReasonCode_as_u8 with SrcV5Disconnect.DisconnectReasonCode_as_u8;
  change WrapV5PubAck.PubAckReason_as_u8 with SrcV5PubAck.PubAckReason_as_u8;
  change WrapV5PubComp.PubCompReason_as_u8 with SrcV5PubComp.PubCompReason_as_u8;
  change WrapV5PubRec.PubRecReason_as_u8 with SrcV5PubRec.PubRecReason_as_u8;
  change WrapV5PubRel.PubRelReason_as_u8 with SrcV5PubRel.PubRelReason_as_u8;
  change WrapV5SubAck.SubscribeReasonCode_as_u8 with SrcV5SubAck.SubscribeReasonCode_as_u8;
  change WrapV5Subscribe.RetainForwardRule_as_u8 with SrcV5Subscribe.RetainForwardRule_as_u8;
  change WrapV5UnsubAck.UnsubAckReason_as_u8 with SrcV5UnsubAck.UnsubAckReason_as_u8.

Lemma wLib_PacketType_as_u8 (x : Base.PacketType) : WrapLib.PacketType_as_u8 x = SrcLib.PacketType_as_u8 x.
Proof. reflexivity. Qed.

Lemma wLib_Protocol_as_u8 (x : Base.Protocol) : WrapLib.Protocol_as_u8 x = SrcLib.Protocol_as_u8 x.
Proof. reflexivity. Qed.

Lemma wLib_QoS_as_u8 (x : Base.QoS) : WrapLib.QoS_as_u8 x = SrcLib.QoS_as_u8 x.
Proof. reflexivity. Qed.

Lemma wLib_FixedHeader_new (byte1 : N) (remaining_len_len : N) (remaining_len : N) : osim (SrcLib.FixedHeader_new byte1 remaining_len_len remaining_len) (WrapLib.FixedHeader_new byte1 remaining_len_len remaining_len).
Proof. unfold SrcLib.FixedHeader_new, WrapLib.FixedHeader_new. names. sim. Qed.
Global Hint Resolve wLib_FixedHeader_new : sim.

Lemma wLib_FixedHeader_packet_type (self : Lib.FixedHeader) : osim (SrcLib.FixedHeader_packet_type self) (WrapLib.FixedHeader_packet_type self).
Proof. unfold SrcLib.FixedHeader_packet_type, WrapLib.FixedHeader_packet_type. names. sim. Qed.
Global Hint Resolve wLib_FixedHeader_packet_type : sim.

Lemma wLib_FixedHeader_frame_length (self : Lib.FixedHeader) : osim (SrcLib.FixedHeader_frame_length self) (WrapLib.FixedHeader_frame_length self).
Proof. unfold SrcLib.FixedHeader_frame_length, WrapLib.FixedHeader_frame_length. names. sim. Qed.
Global Hint Resolve wLib_FixedHeader_frame_length : sim.

Lemma wLib_length (stream : list N) : osim (SrcLib.length stream) (WrapLib.length stream).
Proof. unfold SrcLib.length, WrapLib.length. names. sim. Qed.
Global Hint Resolve wLib_length : sim.

Lemma wLib_parse_fixed_header (stream : list N) : osim (SrcLib.parse_fixed_header stream) (WrapLib.parse_fixed_header stream).
Proof. unfold SrcLib.parse_fixed_header, WrapLib.parse_fixed_header. names. sim. Qed.
Global Hint Resolve wLib_parse_fixed_header : sim.

Lemma wLib_check (stream : list N) (max_packet_size : N) : osim (SrcLib.check stream max_packet_size) (WrapLib.check stream max_packet_size).
Proof. unfold SrcLib.check, WrapLib.check. names. sim. Qed.
Global Hint Resolve wLib_check : sim.

Lemma wLib_read_u16 : wsim (SrcLib.read_u16 ) (WrapLib.read_u16 ).
Proof. unfold SrcLib.read_u16, WrapLib.read_u16. names. sim. Qed.
Global Hint Resolve wLib_read_u16 : sim.

Lemma wLib_read_mqtt_bytes : wsim (SrcLib.read_mqtt_bytes ) (WrapLib.read_mqtt_bytes ).
Proof. unfold SrcLib.read_mqtt_bytes, WrapLib.read_mqtt_bytes. names. sim. Qed.
Global Hint Resolve wLib_read_mqtt_bytes : sim.

Lemma wLib_read_mqtt_string : wsim (SrcLib.read_mqtt_string ) (WrapLib.read_mqtt_string ).
Proof. unfold SrcLib.read_mqtt_string, WrapLib.read_mqtt_string. names. sim. Qed.
Global Hint Resolve wLib_read_mqtt_string : sim.

Lemma wLib_write_mqtt_bytes (bytes : list N) : wsim (SrcLib.write_mqtt_bytes bytes) (WrapLib.write_mqtt_bytes bytes).
Proof. unfold SrcLib.write_mqtt_bytes, WrapLib.write_mqtt_bytes. names. sim. Qed.
Global Hint Resolve wLib_write_mqtt_bytes : sim.

Lemma wLib_write_mqtt_string (string : list N) : wsim (SrcLib.write_mqtt_string string) (WrapLib.write_mqtt_string string).
Proof. unfold SrcLib.write_mqtt_string, WrapLib.write_mqtt_string. names. sim. Qed.
Global Hint Resolve wLib_write_mqtt_string : sim.

Lemma wLib_write_remaining_length (fuel : nat) (len : N) : wsim (SrcLib.write_remaining_length fuel len) (WrapLib.write_remaining_length fuel len).
Proof. unfold SrcLib.write_remaining_length, WrapLib.write_remaining_length. names. sim. Qed.
Global Hint Resolve wLib_write_remaining_length : sim.

Lemma wLib_len_len (len : N) : osim (SrcLib.len_len len) (WrapLib.len_len len).
Proof. unfold SrcLib.len_len, WrapLib.len_len. names. sim. Qed.
Global Hint Resolve wLib_len_len : sim.

Lemma wLib_qos (num : N) : osim (SrcLib.qos num) (WrapLib.qos num).
Proof. unfold SrcLib.qos, WrapLib.qos. names. sim. Qed.
Global Hint Resolve wLib_qos : sim.

Lemma wLib_read_u8 : wsim (SrcLib.read_u8 ) (WrapLib.read_u8 ).
Proof. unfold SrcLib.read_u8, WrapLib.read_u8. names. sim. Qed.
Global Hint Resolve wLib_read_u8 : sim.

Lemma wLib_read_u32 : wsim (SrcLib.read_u32 ) (WrapLib.read_u32 ).
Proof. unfold SrcLib.read_u32, WrapLib.read_u32. names. sim. Qed.
Global Hint Resolve wLib_read_u32 : sim.

Lemma wTopic_has_wildcards (s : list N) : osim (SrcTopic.has_wildcards s) (WrapTopic.has_wildcards s).
Proof. unfold SrcTopic.has_wildcards, WrapTopic.has_wildcards. names. sim. Qed.
Global Hint Resolve wTopic_has_wildcards : sim.

Lemma wTopic_valid_topic (topic : list N) : osim (SrcTopic.valid_topic topic) (WrapTopic.valid_topic topic).
Proof. unfold SrcTopic.valid_topic, WrapTopic.valid_topic. names. sim. Qed.
Global Hint Resolve wTopic_valid_topic : sim.

Lemma wTopic_valid_filter (filter : list N) : osim (SrcTopic.valid_filter filter) (WrapTopic.valid_filter filter).
Proof. unfold SrcTopic.valid_filter, WrapTopic.valid_filter. names. sim. Qed.
Global Hint Resolve wTopic_valid_filter : sim.

Lemma wTopic_matches (topic : list N) (filter : list N) : osim (SrcTopic.matches topic filter) (WrapTopic.matches topic filter).
Proof. unfold SrcTopic.matches, WrapTopic.matches. names. sim. Qed.
Global Hint Resolve wTopic_matches : sim.

Lemma wV4ConnAck_ConnectReturnCode_as_u8 (x : V4ConnAck.ConnectReturnCode) : WrapV4ConnAck.ConnectReturnCode_as_u8 x = SrcV4ConnAck.ConnectReturnCode_as_u8 x.
Proof. reflexivity. Qed.

Lemma wV4ConnAck_ConnAck_new (code : V4ConnAck.ConnectReturnCode) (session_present : bool) : osim (SrcV4ConnAck.ConnAck_new code session_present) (WrapV4ConnAck.ConnAck_new code session_present).
Proof. unfold SrcV4ConnAck.ConnAck_new, WrapV4ConnAck.ConnAck_new. names. sim. Qed.
Global Hint Resolve wV4ConnAck_ConnAck_new : sim.

Lemma wV4ConnAck_ConnAck_len (self : V4ConnAck.ConnAck) : osim (SrcV4ConnAck.ConnAck_len self) (WrapV4ConnAck.ConnAck_len self).
Proof. unfold SrcV4ConnAck.ConnAck_len, WrapV4ConnAck.ConnAck_len. names. sim. Qed.
Global Hint Resolve wV4ConnAck_ConnAck_len : sim.

Lemma wV4ConnAck_connect_return (num : N) : osim (SrcV4ConnAck.connect_return num) (WrapV4ConnAck.connect_return num).
Proof. unfold SrcV4ConnAck.connect_return, WrapV4ConnAck.connect_return. names. sim. Qed.
Global Hint Resolve wV4ConnAck_connect_return : sim.

Lemma wV4ConnAck_ConnAck_read (fixed_header : Lib.FixedHeader) (bytes : list N) : osim (SrcV4ConnAck.ConnAck_read fixed_header bytes) (WrapV4ConnAck.ConnAck_read fixed_header bytes).
Proof. unfold SrcV4ConnAck.ConnAck_read, WrapV4ConnAck.ConnAck_read. names. sim. Qed.
Global Hint Resolve wV4ConnAck_ConnAck_read : sim.

Lemma wV4ConnAck_ConnAck_write (fuel : nat) (self : V4ConnAck.ConnAck) : wsim (SrcV4ConnAck.ConnAck_write fuel self) (WrapV4ConnAck.ConnAck_write fuel self).
Proof. unfold SrcV4ConnAck.ConnAck_write, WrapV4ConnAck.ConnAck_write. names. sim. Qed.
Global Hint Resolve wV4ConnAck_ConnAck_write : sim.

Lemma wV4Connect_Connect_new (id : list N) : osim (SrcV4Connect.Connect_new id) (WrapV4Connect.Connect_new id).
Proof. unfold SrcV4Connect.Connect_new, WrapV4Connect.Connect_new. names. sim. Qed.
Global Hint Resolve wV4Connect_Connect_new : sim.

Lemma wV4Connect_Connect_set_login (self : V4Connect.Connect) (u : list N) (p : list N) : osim (SrcV4Connect.Connect_set_login self u p) (WrapV4Connect.Connect_set_login self u p).
Proof. unfold SrcV4Connect.Connect_set_login, WrapV4Connect.Connect_set_login. names. sim. Qed.
Global Hint Resolve wV4Connect_Connect_set_login : sim.

Lemma wV4Connect_LastWill_len (self : V4Connect.LastWill) : osim (SrcV4Connect.LastWill_len self) (WrapV4Connect.LastWill_len self).
Proof. unfold SrcV4Connect.LastWill_len, WrapV4Connect.LastWill_len. names. sim. Qed.
Global Hint Resolve wV4Connect_LastWill_len : sim.

Lemma wV4Connect_Login_len (self : V4Connect.Login) : osim (SrcV4Connect.Login_len self) (WrapV4Connect.Login_len self).
Proof. unfold SrcV4Connect.Login_len, WrapV4Connect.Login_len. names. sim. Qed.
Global Hint Resolve wV4Connect_Login_len : sim.

Lemma wV4Connect_Connect_len (self : V4Connect.Connect) : osim (SrcV4Connect.Connect_len self) (WrapV4Connect.Connect_len self).
Proof. unfold SrcV4Connect.Connect_len, WrapV4Connect.Connect_len. names. sim. Qed.
Global Hint Resolve wV4Connect_Connect_len : sim.

Lemma wV4Connect_LastWill_read (connect_flags : N) : wsim (SrcV4Connect.LastWill_read connect_flags) (WrapV4Connect.LastWill_read connect_flags).
Proof. unfold SrcV4Connect.LastWill_read, WrapV4Connect.LastWill_read. names. sim. Qed.
Global Hint Resolve wV4Connect_LastWill_read : sim.

Lemma wV4Connect_Login_read (connect_flags : N) : wsim (SrcV4Connect.Login_read connect_flags) (WrapV4Connect.Login_read connect_flags).
Proof. unfold SrcV4Connect.Login_read, WrapV4Connect.Login_read. names. sim. Qed.
Global Hint Resolve wV4Connect_Login_read : sim.

Lemma wV4Connect_Connect_read (fixed_header : Lib.FixedHeader) (bytes : list N) : osim (SrcV4Connect.Connect_read fixed_header bytes) (WrapV4Connect.Connect_read fixed_header bytes).
Proof. unfold SrcV4Connect.Connect_read, WrapV4Connect.Connect_read. names. sim. Qed.
Global Hint Resolve wV4Connect_Connect_read : sim.

Lemma wV4Connect_LastWill_write (self : V4Connect.LastWill) : wsim (SrcV4Connect.LastWill_write self) (WrapV4Connect.LastWill_write self).
Proof. unfold SrcV4Connect.LastWill_write, WrapV4Connect.LastWill_write. names. sim. Qed.
Global Hint Resolve wV4Connect_LastWill_write : sim.

Lemma wV4Connect_Login_write (self : V4Connect.Login) : wsim (SrcV4Connect.Login_write self) (WrapV4Connect.Login_write self).
Proof. unfold SrcV4Connect.Login_write, WrapV4Connect.Login_write. names. sim. Qed.
Global Hint Resolve wV4Connect_Login_write : sim.

Lemma wV4Connect_Connect_write (fuel : nat) (self : V4Connect.Connect) : wsim (SrcV4Connect.Connect_write fuel self) (WrapV4Connect.Connect_write fuel self).
Proof. unfold SrcV4Connect.Connect_write, WrapV4Connect.Connect_write. names. sim. Qed.
Global Hint Resolve wV4Connect_Connect_write : sim.

Lemma wV4Connect_LastWill_new (topic : list N) (payload : list N) (qos : Base.QoS) (retain : bool) : osim (SrcV4Connect.LastWill_new topic payload qos retain) (WrapV4Connect.LastWill_new topic payload qos retain).
Proof. unfold SrcV4Connect.LastWill_new, WrapV4Connect.LastWill_new. names. sim. Qed.
Global Hint Resolve wV4Connect_LastWill_new : sim.

Lemma wV4Connect_Login_new (u : list N) (p : list N) : osim (SrcV4Connect.Login_new u p) (WrapV4Connect.Login_new u p).
Proof. unfold SrcV4Connect.Login_new, WrapV4Connect.Login_new. names. sim. Qed.
Global Hint Resolve wV4Connect_Login_new : sim.

Lemma wV4Connect_Login_validate (self : V4Connect.Login) (username : list N) (password : list N) : osim (SrcV4Connect.Login_validate self username password) (WrapV4Connect.Login_validate self username password).
Proof. unfold SrcV4Connect.Login_validate, WrapV4Connect.Login_validate. names. sim. Qed.
Global Hint Resolve wV4Connect_Login_validate : sim.

Lemma wV4Disconnect_Disconnect_write : wsim (SrcV4Disconnect.Disconnect_write ) (WrapV4Disconnect.Disconnect_write ).
Proof. unfold SrcV4Disconnect.Disconnect_write, WrapV4Disconnect.Disconnect_write. names. sim. Qed.
Global Hint Resolve wV4Disconnect_Disconnect_write : sim.

Lemma wV4Ping_PingReq_write : wsim (SrcV4Ping.PingReq_write ) (WrapV4Ping.PingReq_write ).
Proof. unfold SrcV4Ping.PingReq_write, WrapV4Ping.PingReq_write. names. sim. Qed.
Global Hint Resolve wV4Ping_PingReq_write : sim.

Lemma wV4Ping_PingResp_write : wsim (SrcV4Ping.PingResp_write ) (WrapV4Ping.PingResp_write ).
Proof. unfold SrcV4Ping.PingResp_write, WrapV4Ping.PingResp_write. names. sim. Qed.
Global Hint Resolve wV4Ping_PingResp_write : sim.

Lemma wV4PubAck_PubAck_new (pkid : N) : osim (SrcV4PubAck.PubAck_new pkid) (WrapV4PubAck.PubAck_new pkid).
Proof. unfold SrcV4PubAck.PubAck_new, WrapV4PubAck.PubAck_new. names. sim. Qed.
Global Hint Resolve wV4PubAck_PubAck_new : sim.

Lemma wV4PubAck_PubAck_len (self : V4PubAck.PubAck) : osim (SrcV4PubAck.PubAck_len self) (WrapV4PubAck.PubAck_len self).
Proof. unfold SrcV4PubAck.PubAck_len, WrapV4PubAck.PubAck_len. names. sim. Qed.
Global Hint Resolve wV4PubAck_PubAck_len : sim.

Lemma wV4PubAck_PubAck_read (fixed_header : Lib.FixedHeader) (bytes : list N) : osim (SrcV4PubAck.PubAck_read fixed_header bytes) (WrapV4PubAck.PubAck_read fixed_header bytes).
Proof. unfold SrcV4PubAck.PubAck_read, WrapV4PubAck.PubAck_read. names. sim. Qed.
Global Hint Resolve wV4PubAck_PubAck_read : sim.

Lemma wV4PubAck_PubAck_write (fuel : nat) (self : V4PubAck.PubAck) : wsim (SrcV4PubAck.PubAck_write fuel self) (WrapV4PubAck.PubAck_write fuel self).
Proof. unfold SrcV4PubAck.PubAck_write, WrapV4PubAck.PubAck_write. names. sim. Qed.
Global Hint Resolve wV4PubAck_PubAck_write : sim.

Lemma wV4PubComp_PubComp_new (pkid : N) : osim (SrcV4PubComp.PubComp_new pkid) (WrapV4PubComp.PubComp_new pkid).
Proof. unfold SrcV4PubComp.PubComp_new, WrapV4PubComp.PubComp_new. names. sim. Qed.
Global Hint Resolve wV4PubComp_PubComp_new : sim.

Lemma wV4PubComp_PubComp_len (self : V4PubComp.PubComp) : osim (SrcV4PubComp.PubComp_len self) (WrapV4PubComp.PubComp_len self).
Proof. unfold SrcV4PubComp.PubComp_len, WrapV4PubComp.PubComp_len. names. sim. Qed.
Global Hint Resolve wV4PubComp_PubComp_len : sim.

Lemma wV4PubComp_PubComp_read (fixed_header : Lib.FixedHeader) (bytes : list N) : osim (SrcV4PubComp.PubComp_read fixed_header bytes) (WrapV4PubComp.PubComp_read fixed_header bytes).
Proof. unfold SrcV4PubComp.PubComp_read, WrapV4PubComp.PubComp_read. names. sim. Qed.
Global Hint Resolve wV4PubComp_PubComp_read : sim.

Lemma wV4PubComp_PubComp_write (fuel : nat) (self : V4PubComp.PubComp) : wsim (SrcV4PubComp.PubComp_write fuel self) (WrapV4PubComp.PubComp_write fuel self).
Proof. unfold SrcV4PubComp.PubComp_write, WrapV4PubComp.PubComp_write. names. sim. Qed.
Global Hint Resolve wV4PubComp_PubComp_write : sim.

Lemma wV4PubRec_PubRec_new (pkid : N) : osim (SrcV4PubRec.PubRec_new pkid) (WrapV4PubRec.PubRec_new pkid).
Proof. unfold SrcV4PubRec.PubRec_new, WrapV4PubRec.PubRec_new. names. sim. Qed.
Global Hint Resolve wV4PubRec_PubRec_new : sim.

Lemma wV4PubRec_PubRec_len (self : V4PubRec.PubRec) : osim (SrcV4PubRec.PubRec_len self) (WrapV4PubRec.PubRec_len self).
Proof. unfold SrcV4PubRec.PubRec_len, WrapV4PubRec.PubRec_len. names. sim. Qed.
Global Hint Resolve wV4PubRec_PubRec_len : sim.

Lemma wV4PubRec_PubRec_read (fixed_header : Lib.FixedHeader) (bytes : list N) : osim (SrcV4PubRec.PubRec_read fixed_header bytes) (WrapV4PubRec.PubRec_read fixed_header bytes).
Proof. unfold SrcV4PubRec.PubRec_read, WrapV4PubRec.PubRec_read. names. sim. Qed.
Global Hint Resolve wV4PubRec_PubRec_read : sim.

Lemma wV4PubRec_PubRec_write (fuel : nat) (self : V4PubRec.PubRec) : wsim (SrcV4PubRec.PubRec_write fuel self) (WrapV4PubRec.PubRec_write fuel self).
Proof. unfold SrcV4PubRec.PubRec_write, WrapV4PubRec.PubRec_write. names. sim. Qed.
Global Hint Resolve wV4PubRec_PubRec_write : sim.

Lemma wV4PubRel_PubRel_new (pkid : N) : osim (SrcV4PubRel.PubRel_new pkid) (WrapV4PubRel.PubRel_new pkid).
Proof. unfold SrcV4PubRel.PubRel_new, WrapV4PubRel.PubRel_new. names. sim. Qed.
Global Hint Resolve wV4PubRel_PubRel_new : sim.

Lemma wV4PubRel_PubRel_len (self : V4PubRel.PubRel) : osim (SrcV4PubRel.PubRel_len self) (WrapV4PubRel.PubRel_len self).
Proof. unfold SrcV4PubRel.PubRel_len, WrapV4PubRel.PubRel_len. names. sim. Qed.
Global Hint Resolve wV4PubRel_PubRel_len : sim.

Lemma wV4PubRel_PubRel_read (fixed_header : Lib.FixedHeader) (bytes : list N) : osim (SrcV4PubRel.PubRel_read fixed_header bytes) (WrapV4PubRel.PubRel_read fixed_header bytes).
Proof. unfold SrcV4PubRel.PubRel_read, WrapV4PubRel.PubRel_read. names. sim. Qed.
Global Hint Resolve wV4PubRel_PubRel_read : sim.

Lemma wV4PubRel_PubRel_write (fuel : nat) (self : V4PubRel.PubRel) : wsim (SrcV4PubRel.PubRel_write fuel self) (WrapV4PubRel.PubRel_write fuel self).
Proof. unfold SrcV4PubRel.PubRel_write, WrapV4PubRel.PubRel_write. names. sim. Qed.
Global Hint Resolve wV4PubRel_PubRel_write : sim.

Lemma wV4Publish_Publish_new (topic : list N) (qos : Base.QoS) (payload : list N) : osim (SrcV4Publish.Publish_new topic qos payload) (WrapV4Publish.Publish_new topic qos payload).
Proof. unfold SrcV4Publish.Publish_new, WrapV4Publish.Publish_new. names. sim. Qed.
Global Hint Resolve wV4Publish_Publish_new : sim.

Lemma wV4Publish_Publish_from_bytes (topic : list N) (qos : Base.QoS) (payload : list N) : osim (SrcV4Publish.Publish_from_bytes topic qos payload) (WrapV4Publish.Publish_from_bytes topic qos payload).
Proof. unfold SrcV4Publish.Publish_from_bytes, WrapV4Publish.Publish_from_bytes. names. sim. Qed.
Global Hint Resolve wV4Publish_Publish_from_bytes : sim.

Lemma wV4Publish_Publish_len (self : V4Publish.Publish) : osim (SrcV4Publish.Publish_len self) (WrapV4Publish.Publish_len self).
Proof. unfold SrcV4Publish.Publish_len, WrapV4Publish.Publish_len. names. sim. Qed.
Global Hint Resolve wV4Publish_Publish_len : sim.

Lemma wV4Publish_Publish_read (fixed_header : Lib.FixedHeader) (bytes : list N) : osim (SrcV4Publish.Publish_read fixed_header bytes) (WrapV4Publish.Publish_read fixed_header bytes).
Proof. unfold SrcV4Publish.Publish_read, WrapV4Publish.Publish_read. names. sim. Qed.
Global Hint Resolve wV4Publish_Publish_read : sim.

Lemma wV4Publish_Publish_write (fuel : nat) (self : V4Publish.Publish) : wsim (SrcV4Publish.Publish_write fuel self) (WrapV4Publish.Publish_write fuel self).
Proof. unfold SrcV4Publish.Publish_write, WrapV4Publish.Publish_write. names. sim. Qed.
Global Hint Resolve wV4Publish_Publish_write : sim.

Lemma wV4SubAck_SubAck_new (pkid : N) (return_codes : list V4SubAck.SubscribeReasonCode) : osim (SrcV4SubAck.SubAck_new pkid return_codes) (WrapV4SubAck.SubAck_new pkid return_codes).
Proof. unfold SrcV4SubAck.SubAck_new, WrapV4SubAck.SubAck_new. names. sim. Qed.
Global Hint Resolve wV4SubAck_SubAck_new : sim.

Lemma wV4SubAck_SubAck_len (self : V4SubAck.SubAck) : osim (SrcV4SubAck.SubAck_len self) (WrapV4SubAck.SubAck_len self).
Proof. unfold SrcV4SubAck.SubAck_len, WrapV4SubAck.SubAck_len. names. sim. Qed.
Global Hint Resolve wV4SubAck_SubAck_len : sim.

Lemma wV4SubAck_SubscribeReasonCode_try_from (value : N) : osim (SrcV4SubAck.SubscribeReasonCode_try_from value) (WrapV4SubAck.SubscribeReasonCode_try_from value).
Proof. unfold SrcV4SubAck.SubscribeReasonCode_try_from, WrapV4SubAck.SubscribeReasonCode_try_from. names. sim. Qed.
Global Hint Resolve wV4SubAck_SubscribeReasonCode_try_from : sim.

Lemma wV4SubAck_SubAck_read (fuel : nat) (fixed_header : Lib.FixedHeader) (bytes : list N) : osim (SrcV4SubAck.SubAck_read fuel fixed_header bytes) (WrapV4SubAck.SubAck_read fuel fixed_header bytes).
Proof. unfold SrcV4SubAck.SubAck_read, WrapV4SubAck.SubAck_read. names. sim. Qed.
Global Hint Resolve wV4SubAck_SubAck_read : sim.

Lemma wV4SubAck_SubAck_write (fuel : nat) (self : V4SubAck.SubAck) : wsim (SrcV4SubAck.SubAck_write fuel self) (WrapV4SubAck.SubAck_write fuel self).
Proof. unfold SrcV4SubAck.SubAck_write, WrapV4SubAck.SubAck_write. names. sim. Qed.
Global Hint Resolve wV4SubAck_SubAck_write : sim.

Lemma wV4Subscribe_Subscribe_new (path : list N) (qos : Base.QoS) : osim (SrcV4Subscribe.Subscribe_new path qos) (WrapV4Subscribe.Subscribe_new path qos).
Proof. unfold SrcV4Subscribe.Subscribe_new, WrapV4Subscribe.Subscribe_new. names. sim. Qed.
Global Hint Resolve wV4Subscribe_Subscribe_new : sim.

Lemma wV4Subscribe_Subscribe_new_many (topics : list V4Subscribe.SubscribeFilter) : osim (SrcV4Subscribe.Subscribe_new_many topics) (WrapV4Subscribe.Subscribe_new_many topics).
Proof. unfold SrcV4Subscribe.Subscribe_new_many, WrapV4Subscribe.Subscribe_new_many. names. sim. Qed.
Global Hint Resolve wV4Subscribe_Subscribe_new_many : sim.

Lemma wV4Subscribe_Subscribe_add (self : V4Subscribe.Subscribe) (path : list N) (qos : Base.QoS) : osim (SrcV4Subscribe.Subscribe_add self path qos) (WrapV4Subscribe.Subscribe_add self path qos).
Proof. unfold SrcV4Subscribe.Subscribe_add, WrapV4Subscribe.Subscribe_add. names. sim. Qed.
Global Hint Resolve wV4Subscribe_Subscribe_add : sim.

Lemma wV4Subscribe_SubscribeFilter_len (self : V4Subscribe.SubscribeFilter) : osim (SrcV4Subscribe.SubscribeFilter_len self) (WrapV4Subscribe.SubscribeFilter_len self).
Proof. unfold SrcV4Subscribe.SubscribeFilter_len, WrapV4Subscribe.SubscribeFilter_len. names. sim. Qed.
Global Hint Resolve wV4Subscribe_SubscribeFilter_len : sim.

Lemma wV4Subscribe_Subscribe_len (self : V4Subscribe.Subscribe) : osim (SrcV4Subscribe.Subscribe_len self) (WrapV4Subscribe.Subscribe_len self).
Proof. unfold SrcV4Subscribe.Subscribe_len, WrapV4Subscribe.Subscribe_len. names. sim. Qed.
Global Hint Resolve wV4Subscribe_Subscribe_len : sim.

Lemma wV4Subscribe_Subscribe_read (fuel : nat) (fixed_header : Lib.FixedHeader) (bytes : list N) : osim (SrcV4Subscribe.Subscribe_read fuel fixed_header bytes) (WrapV4Subscribe.Subscribe_read fuel fixed_header bytes).
Proof. unfold SrcV4Subscribe.Subscribe_read, WrapV4Subscribe.Subscribe_read. names. sim. Qed.
Global Hint Resolve wV4Subscribe_Subscribe_read : sim.

Lemma wV4Subscribe_SubscribeFilter_write (self : V4Subscribe.SubscribeFilter) : wsim (SrcV4Subscribe.SubscribeFilter_write self) (WrapV4Subscribe.SubscribeFilter_write self).
Proof. unfold SrcV4Subscribe.SubscribeFilter_write, WrapV4Subscribe.SubscribeFilter_write. names. sim. Qed.
Global Hint Resolve wV4Subscribe_SubscribeFilter_write : sim.

Lemma wV4Subscribe_Subscribe_write (fuel : nat) (self : V4Subscribe.Subscribe) : wsim (SrcV4Subscribe.Subscribe_write fuel self) (WrapV4Subscribe.Subscribe_write fuel self).
Proof. unfold SrcV4Subscribe.Subscribe_write, WrapV4Subscribe.Subscribe_write. names. sim. Qed.
Global Hint Resolve wV4Subscribe_Subscribe_write : sim.

Lemma wV4Subscribe_SubscribeFilter_new (path : list N) (qos : Base.QoS) : osim (SrcV4Subscribe.SubscribeFilter_new path qos) (WrapV4Subscribe.SubscribeFilter_new path qos).
Proof. unfold SrcV4Subscribe.SubscribeFilter_new, WrapV4Subscribe.SubscribeFilter_new. names. sim. Qed.
Global Hint Resolve wV4Subscribe_SubscribeFilter_new : sim.

Lemma wV4UnsubAck_UnsubAck_new (pkid : N) : osim (SrcV4UnsubAck.UnsubAck_new pkid) (WrapV4UnsubAck.UnsubAck_new pkid).
Proof. unfold SrcV4UnsubAck.UnsubAck_new, WrapV4UnsubAck.UnsubAck_new. names. sim. Qed.
Global Hint Resolve wV4UnsubAck_UnsubAck_new : sim.

Lemma wV4UnsubAck_UnsubAck_read (fixed_header : Lib.FixedHeader) (bytes : list N) : osim (SrcV4UnsubAck.UnsubAck_read fixed_header bytes) (WrapV4UnsubAck.UnsubAck_read fixed_header bytes).
Proof. unfold SrcV4UnsubAck.UnsubAck_read, WrapV4UnsubAck.UnsubAck_read. names. sim. Qed.
Global Hint Resolve wV4UnsubAck_UnsubAck_read : sim.

Lemma wV4UnsubAck_UnsubAck_write (self : V4UnsubAck.UnsubAck) : wsim (SrcV4UnsubAck.UnsubAck_write self) (WrapV4UnsubAck.UnsubAck_write self).
Proof. unfold SrcV4UnsubAck.UnsubAck_write, WrapV4UnsubAck.UnsubAck_write. names. sim. Qed.
Global Hint Resolve wV4UnsubAck_UnsubAck_write : sim.

Lemma wV4Unsubscribe_Unsubscribe_new (topic : list N) : osim (SrcV4Unsubscribe.Unsubscribe_new topic) (WrapV4Unsubscribe.Unsubscribe_new topic).
Proof. unfold SrcV4Unsubscribe.Unsubscribe_new, WrapV4Unsubscribe.Unsubscribe_new. names. sim. Qed.
Global Hint Resolve wV4Unsubscribe_Unsubscribe_new : sim.

Lemma wV4Unsubscribe_Unsubscribe_read (fuel : nat) (fixed_header : Lib.FixedHeader) (bytes : list N) : osim (SrcV4Unsubscribe.Unsubscribe_read fuel fixed_header bytes) (WrapV4Unsubscribe.Unsubscribe_read fuel fixed_header bytes).
Proof. unfold SrcV4Unsubscribe.Unsubscribe_read, WrapV4Unsubscribe.Unsubscribe_read. names. sim. Qed.
Global Hint Resolve wV4Unsubscribe_Unsubscribe_read : sim.

Lemma wV4Unsubscribe_Unsubscribe_write (fuel : nat) (self : V4Unsubscribe.Unsubscribe) : wsim (SrcV4Unsubscribe.Unsubscribe_write fuel self) (WrapV4Unsubscribe.Unsubscribe_write fuel self).
Proof. unfold SrcV4Unsubscribe.Unsubscribe_write, WrapV4Unsubscribe.Unsubscribe_write. names. sim. Qed.
Global Hint Resolve wV4Unsubscribe_Unsubscribe_write : sim.

Lemma wV4Mod_read (fuel : nat) (max_size : N) : wsim (SrcV4Mod.read fuel max_size) (WrapV4Mod.read fuel max_size).
Proof. unfold SrcV4Mod.read, WrapV4Mod.read. names. sim. Qed.
Global Hint Resolve wV4Mod_read : sim.

Lemma wV5Ping_PingReq_write : wsim (SrcV5Ping.PingReq_write ) (WrapV5Ping.PingReq_write ).
Proof. unfold SrcV5Ping.PingReq_write, WrapV5Ping.PingReq_write. names. sim. Qed.
Global Hint Resolve wV5Ping_PingReq_write : sim.

Lemma wV5Ping_PingResp_write : wsim (SrcV5Ping.PingResp_write ) (WrapV5Ping.PingResp_write ).
Proof. unfold SrcV5Ping.PingResp_write, WrapV5Ping.PingResp_write. names. sim. Qed.
Global Hint Resolve wV5Ping_PingResp_write : sim.

Lemma wV5Property_PropertyType_as_u8 (x : V5Property.PropertyType) : WrapV5Property.PropertyType_as_u8 x = SrcV5Property.PropertyType_as_u8 x.
Proof. reflexivity. Qed.

Lemma wV5Property_property (num : N) : osim (SrcV5Property.property num) (WrapV5Property.property num).
Proof. unfold SrcV5Property.property, WrapV5Property.property. names. sim. Qed.
Global Hint Resolve wV5Property_property : sim.

Lemma wV5ConnAck_ConnectReturnCode_as_u8 (x : V5ConnAck.ConnectReturnCode) : WrapV5ConnAck.ConnectReturnCode_as_u8 x = SrcV5ConnAck.ConnectReturnCode_as_u8 x.
Proof. reflexivity. Qed.

Lemma wV5ConnAck_ConnAck_new (code : V5ConnAck.ConnectReturnCode) (session_present : bool) : osim (SrcV5ConnAck.ConnAck_new code session_present) (WrapV5ConnAck.ConnAck_new code session_present).
Proof. unfold SrcV5ConnAck.ConnAck_new, WrapV5ConnAck.ConnAck_new. names. sim. Qed.
Global Hint Resolve wV5ConnAck_ConnAck_new : sim.

Lemma wV5ConnAck_ConnAckProperties_len (self : V5ConnAck.ConnAckProperties) : osim (SrcV5ConnAck.ConnAckProperties_len self) (WrapV5ConnAck.ConnAckProperties_len self).
Proof. unfold SrcV5ConnAck.ConnAckProperties_len, WrapV5ConnAck.ConnAckProperties_len. names. sim. Qed.
Global Hint Resolve wV5ConnAck_ConnAckProperties_len : sim.

Lemma wV5ConnAck_ConnAck_len (self : V5ConnAck.ConnAck) : osim (SrcV5ConnAck.ConnAck_len self) (WrapV5ConnAck.ConnAck_len self).
Proof. unfold SrcV5ConnAck.ConnAck_len, WrapV5ConnAck.ConnAck_len. names. sim. Qed.
Global Hint Resolve wV5ConnAck_ConnAck_len : sim.

Lemma wV5ConnAck_connect_return (num : N) : osim (SrcV5ConnAck.connect_return num) (WrapV5ConnAck.connect_return num).
Proof. unfold SrcV5ConnAck.connect_return, WrapV5ConnAck.connect_return. names. sim. Qed.
Global Hint Resolve wV5ConnAck_connect_return : sim.

Lemma wV5ConnAck_ConnAckProperties_extract (fuel : nat) : wsim (SrcV5ConnAck.ConnAckProperties_extract fuel) (WrapV5ConnAck.ConnAckProperties_extract fuel).
Proof. unfold SrcV5ConnAck.ConnAckProperties_extract, WrapV5ConnAck.ConnAckProperties_extract. names. sim. Qed.
Global Hint Resolve wV5ConnAck_ConnAckProperties_extract : sim.

Lemma wV5ConnAck_ConnAck_read (fuel : nat) (fixed_header : Lib.FixedHeader) (bytes : list N) : osim (SrcV5ConnAck.ConnAck_read fuel fixed_header bytes) (WrapV5ConnAck.ConnAck_read fuel fixed_header bytes).
Proof. unfold SrcV5ConnAck.ConnAck_read, WrapV5ConnAck.ConnAck_read. names. sim. Qed.
Global Hint Resolve wV5ConnAck_ConnAck_read : sim.

Lemma wV5ConnAck_ConnAckProperties_write (fuel : nat) (self : V5ConnAck.ConnAckProperties) : wsim (SrcV5ConnAck.ConnAckProperties_write fuel self) (WrapV5ConnAck.ConnAckProperties_write fuel self).
Proof. unfold SrcV5ConnAck.ConnAckProperties_write, WrapV5ConnAck.ConnAckProperties_write. names. sim. Qed.
Global Hint Resolve wV5ConnAck_ConnAckProperties_write : sim.

Lemma wV5ConnAck_ConnAck_write (fuel : nat) (self : V5ConnAck.ConnAck) : wsim (SrcV5ConnAck.ConnAck_write fuel self) (WrapV5ConnAck.ConnAck_write fuel self).
Proof. unfold SrcV5ConnAck.ConnAck_write, WrapV5ConnAck.ConnAck_write. names. sim. Qed.
Global Hint Resolve wV5ConnAck_ConnAck_write : sim.

Lemma wV5ConnAck_ConnAckProperties_new : osim (SrcV5ConnAck.ConnAckProperties_new ) (WrapV5ConnAck.ConnAckProperties_new ).
Proof. unfold SrcV5ConnAck.ConnAckProperties_new, WrapV5ConnAck.ConnAckProperties_new. names. sim. Qed.
Global Hint Resolve wV5ConnAck_ConnAckProperties_new : sim.

Lemma wV5Connect_Connect_new (id : list N) : osim (SrcV5Connect.Connect_new id) (WrapV5Connect.Connect_new id).
Proof. unfold SrcV5Connect.Connect_new, WrapV5Connect.Connect_new. names. sim. Qed.
Global Hint Resolve wV5Connect_Connect_new : sim.

Lemma wV5Connect_Connect_set_login (self : V5Connect.Connect) (u : list N) (p : list N) : osim (SrcV5Connect.Connect_set_login self u p) (WrapV5Connect.Connect_set_login self u p).
Proof. unfold SrcV5Connect.Connect_set_login, WrapV5Connect.Connect_set_login. names. sim. Qed.
Global Hint Resolve wV5Connect_Connect_set_login : sim.

Lemma wV5Connect_ConnectProperties_len (self : V5Connect.ConnectProperties) : osim (SrcV5Connect.ConnectProperties_len self) (WrapV5Connect.ConnectProperties_len self).
Proof. unfold SrcV5Connect.ConnectProperties_len, WrapV5Connect.ConnectProperties_len. names. sim. Qed.
Global Hint Resolve wV5Connect_ConnectProperties_len : sim.

Lemma wV5Connect_WillProperties_len (self : V5Connect.WillProperties) : osim (SrcV5Connect.WillProperties_len self) (WrapV5Connect.WillProperties_len self).
Proof. unfold SrcV5Connect.WillProperties_len, WrapV5Connect.WillProperties_len. names. sim. Qed.
Global Hint Resolve wV5Connect_WillProperties_len : sim.

Lemma wV5Connect_LastWill_len (self : V5Connect.LastWill) : osim (SrcV5Connect.LastWill_len self) (WrapV5Connect.LastWill_len self).
Proof. unfold SrcV5Connect.LastWill_len, WrapV5Connect.LastWill_len. names. sim. Qed.
Global Hint Resolve wV5Connect_LastWill_len : sim.

Lemma wV5Connect_Login_len (self : V5Connect.Login) : osim (SrcV5Connect.Login_len self) (WrapV5Connect.Login_len self).
Proof. unfold SrcV5Connect.Login_len, WrapV5Connect.Login_len. names. sim. Qed.
Global Hint Resolve wV5Connect_Login_len : sim.

Lemma wV5Connect_Connect_len (self : V5Connect.Connect) : osim (SrcV5Connect.Connect_len self) (WrapV5Connect.Connect_len self).
Proof. unfold SrcV5Connect.Connect_len, WrapV5Connect.Connect_len. names. sim. Qed.
Global Hint Resolve wV5Connect_Connect_len : sim.

Lemma wV5Connect_ConnectProperties_read (fuel : nat) : wsim (SrcV5Connect.ConnectProperties_read fuel) (WrapV5Connect.ConnectProperties_read fuel).
Proof. unfold SrcV5Connect.ConnectProperties_read, WrapV5Connect.ConnectProperties_read. names. sim. Qed.
Global Hint Resolve wV5Connect_ConnectProperties_read : sim.

Lemma wV5Connect_WillProperties_read (fuel : nat) : wsim (SrcV5Connect.WillProperties_read fuel) (WrapV5Connect.WillProperties_read fuel).
Proof. unfold SrcV5Connect.WillProperties_read, WrapV5Connect.WillProperties_read. names. sim. Qed.
Global Hint Resolve wV5Connect_WillProperties_read : sim.

Lemma wV5Connect_LastWill_read (fuel : nat) (connect_flags : N) : wsim (SrcV5Connect.LastWill_read fuel connect_flags) (WrapV5Connect.LastWill_read fuel connect_flags).
Proof. unfold SrcV5Connect.LastWill_read, WrapV5Connect.LastWill_read. names. sim. Qed.
Global Hint Resolve wV5Connect_LastWill_read : sim.

Lemma wV5Connect_Login_read (connect_flags : N) : wsim (SrcV5Connect.Login_read connect_flags) (WrapV5Connect.Login_read connect_flags).
Proof. unfold SrcV5Connect.Login_read, WrapV5Connect.Login_read. names. sim. Qed.
Global Hint Resolve wV5Connect_Login_read : sim.

Lemma wV5Connect_Connect_read (fuel : nat) (fixed_header : Lib.FixedHeader) (bytes : list N) : osim (SrcV5Connect.Connect_read fuel fixed_header bytes) (WrapV5Connect.Connect_read fuel fixed_header bytes).
Proof. unfold SrcV5Connect.Connect_read, WrapV5Connect.Connect_read. names. sim. Qed.
Global Hint Resolve wV5Connect_Connect_read : sim.

Lemma wV5Connect_ConnectProperties_write (fuel : nat) (self : V5Connect.ConnectProperties) : wsim (SrcV5Connect.ConnectProperties_write fuel self) (WrapV5Connect.ConnectProperties_write fuel self).
Proof. unfold SrcV5Connect.ConnectProperties_write, WrapV5Connect.ConnectProperties_write. names. sim. Qed.
Global Hint Resolve wV5Connect_ConnectProperties_write : sim.

Lemma wV5Connect_WillProperties_write (fuel : nat) (self : V5Connect.WillProperties) : wsim (SrcV5Connect.WillProperties_write fuel self) (WrapV5Connect.WillProperties_write fuel self).
Proof. unfold SrcV5Connect.WillProperties_write, WrapV5Connect.WillProperties_write. names. sim. Qed.
Global Hint Resolve wV5Connect_WillProperties_write : sim.

Lemma wV5Connect_LastWill_write (fuel : nat) (self : V5Connect.LastWill) : wsim (SrcV5Connect.LastWill_write fuel self) (WrapV5Connect.LastWill_write fuel self).
Proof. unfold SrcV5Connect.LastWill_write, WrapV5Connect.LastWill_write. names. sim. Qed.
Global Hint Resolve wV5Connect_LastWill_write : sim.

Lemma wV5Connect_Login_write (self : V5Connect.Login) : wsim (SrcV5Connect.Login_write self) (WrapV5Connect.Login_write self).
Proof. unfold SrcV5Connect.Login_write, WrapV5Connect.Login_write. names. sim. Qed.
Global Hint Resolve wV5Connect_Login_write : sim.

Lemma wV5Connect_Connect_write (fuel : nat) (self : V5Connect.Connect) : wsim (SrcV5Connect.Connect_write fuel self) (WrapV5Connect.Connect_write fuel self).
Proof. unfold SrcV5Connect.Connect_write, WrapV5Connect.Connect_write. names. sim. Qed.
Global Hint Resolve wV5Connect_Connect_write : sim.

Lemma wV5Connect_LastWill_new (topic : list N) (payload : list N) (qos : Base.QoS) (retain : bool) : osim (SrcV5Connect.LastWill_new topic payload qos retain) (WrapV5Connect.LastWill_new topic payload qos retain).
Proof. unfold SrcV5Connect.LastWill_new, WrapV5Connect.LastWill_new. names. sim. Qed.
Global Hint Resolve wV5Connect_LastWill_new : sim.

Lemma wV5Connect_Login_new (u : list N) (p : list N) : osim (SrcV5Connect.Login_new u p) (WrapV5Connect.Login_new u p).
Proof. unfold SrcV5Connect.Login_new, WrapV5Connect.Login_new. names. sim. Qed.
Global Hint Resolve wV5Connect_Login_new : sim.

Lemma wV5Connect_ConnectProperties__new : osim (SrcV5Connect.ConnectProperties__new ) (WrapV5Connect.ConnectProperties__new ).
Proof. unfold SrcV5Connect.ConnectProperties__new, WrapV5Connect.ConnectProperties__new. names. sim. Qed.
Global Hint Resolve wV5Connect_ConnectProperties__new : sim.

Lemma wV5Disconnect_DisconnectReasonCode_as_u8 (x : V5Disconnect.DisconnectReasonCode) : WrapV5Disconnect.DisconnectReasonCode_as_u8 x = SrcV5Disconnect.DisconnectReasonCode_as_u8 x.
Proof. reflexivity. Qed.

Lemma wV5Disconnect_DisconnectReasonCode_try_from (value : N) : osim (SrcV5Disconnect.DisconnectReasonCode_try_from value) (WrapV5Disconnect.DisconnectReasonCode_try_from value).
Proof. unfold SrcV5Disconnect.DisconnectReasonCode_try_from, WrapV5Disconnect.DisconnectReasonCode_try_from. names. sim. Qed.
Global Hint Resolve wV5Disconnect_DisconnectReasonCode_try_from : sim.

Lemma wV5Disconnect_DisconnectProperties_new : osim (SrcV5Disconnect.DisconnectProperties_new ) (WrapV5Disconnect.DisconnectProperties_new ).
Proof. unfold SrcV5Disconnect.DisconnectProperties_new, WrapV5Disconnect.DisconnectProperties_new. names. sim. Qed.
Global Hint Resolve wV5Disconnect_DisconnectProperties_new : sim.

Lemma wV5Disconnect_DisconnectProperties_len (self : V5Disconnect.DisconnectProperties) : osim (SrcV5Disconnect.DisconnectProperties_len self) (WrapV5Disconnect.DisconnectProperties_len self).
Proof. unfold SrcV5Disconnect.DisconnectProperties_len, WrapV5Disconnect.DisconnectProperties_len. names. sim. Qed.
Global Hint Resolve wV5Disconnect_DisconnectProperties_len : sim.

Lemma wV5Disconnect_DisconnectProperties_extract (fuel : nat) : wsim (SrcV5Disconnect.DisconnectProperties_extract fuel) (WrapV5Disconnect.DisconnectProperties_extract fuel).
Proof. unfold SrcV5Disconnect.DisconnectProperties_extract, WrapV5Disconnect.DisconnectProperties_extract. names. sim. Qed.
Global Hint Resolve wV5Disconnect_DisconnectProperties_extract : sim.

Lemma wV5Disconnect_DisconnectProperties_write (fuel : nat) (self : V5Disconnect.DisconnectProperties) : wsim (SrcV5Disconnect.DisconnectProperties_write fuel self) (WrapV5Disconnect.DisconnectProperties_write fuel self).
Proof. unfold SrcV5Disconnect.DisconnectProperties_write, WrapV5Disconnect.DisconnectProperties_write. names. sim. Qed.
Global Hint Resolve wV5Disconnect_DisconnectProperties_write : sim.

Lemma wV5Disconnect_Disconnect_new : osim (SrcV5Disconnect.Disconnect_new ) (WrapV5Disconnect.Disconnect_new ).
Proof. unfold SrcV5Disconnect.Disconnect_new, WrapV5Disconnect.Disconnect_new. names. sim. Qed.
Global Hint Resolve wV5Disconnect_Disconnect_new : sim.

Lemma wV5Disconnect_Disconnect_len (self : V5Disconnect.Disconnect) : osim (SrcV5Disconnect.Disconnect_len self) (WrapV5Disconnect.Disconnect_len self).
Proof. unfold SrcV5Disconnect.Disconnect_len, WrapV5Disconnect.Disconnect_len. names. sim. Qed.
Global Hint Resolve wV5Disconnect_Disconnect_len : sim.

Lemma wV5Disconnect_Disconnect_read (fuel : nat) (fixed_header : Lib.FixedHeader) (bytes : list N) : osim (SrcV5Disconnect.Disconnect_read fuel fixed_header bytes) (WrapV5Disconnect.Disconnect_read fuel fixed_header bytes).
Proof. unfold SrcV5Disconnect.Disconnect_read, WrapV5Disconnect.Disconnect_read. names. sim. Qed.
Global Hint Resolve wV5Disconnect_Disconnect_read : sim.

Lemma wV5Disconnect_Disconnect_write (fuel : nat) (self : V5Disconnect.Disconnect) : wsim (SrcV5Disconnect.Disconnect_write fuel self) (WrapV5Disconnect.Disconnect_write fuel self).
Proof. unfold SrcV5Disconnect.Disconnect_write, WrapV5Disconnect.Disconnect_write. names. sim. Qed.
Global Hint Resolve wV5Disconnect_Disconnect_write : sim.

Lemma wV5PubAck_PubAckReason_as_u8 (x : V5PubAck.PubAckReason) : WrapV5PubAck.PubAckReason_as_u8 x = SrcV5PubAck.PubAckReason_as_u8 x.
Proof. reflexivity. Qed.

Lemma wV5PubAck_PubAck_new (pkid : N) : osim (SrcV5PubAck.PubAck_new pkid) (WrapV5PubAck.PubAck_new pkid).
Proof. unfold SrcV5PubAck.PubAck_new, WrapV5PubAck.PubAck_new. names. sim. Qed.
Global Hint Resolve wV5PubAck_PubAck_new : sim.

Lemma wV5PubAck_PubAckProperties_len (self : V5PubAck.PubAckProperties) : osim (SrcV5PubAck.PubAckProperties_len self) (WrapV5PubAck.PubAckProperties_len self).
Proof. unfold SrcV5PubAck.PubAckProperties_len, WrapV5PubAck.PubAckProperties_len. names. sim. Qed.
Global Hint Resolve wV5PubAck_PubAckProperties_len : sim.

Lemma wV5PubAck_PubAck_len (self : V5PubAck.PubAck) : osim (SrcV5PubAck.PubAck_len self) (WrapV5PubAck.PubAck_len self).
Proof. unfold SrcV5PubAck.PubAck_len, WrapV5PubAck.PubAck_len. names. sim. Qed.
Global Hint Resolve wV5PubAck_PubAck_len : sim.

Lemma wV5PubAck_reason (num : N) : osim (SrcV5PubAck.reason num) (WrapV5PubAck.reason num).
Proof. unfold SrcV5PubAck.reason, WrapV5PubAck.reason. names. sim. Qed.
Global Hint Resolve wV5PubAck_reason : sim.

Lemma wV5PubAck_PubAckProperties_extract (fuel : nat) : wsim (SrcV5PubAck.PubAckProperties_extract fuel) (WrapV5PubAck.PubAckProperties_extract fuel).
Proof. unfold SrcV5PubAck.PubAckProperties_extract, WrapV5PubAck.PubAckProperties_extract. names. sim. Qed.
Global Hint Resolve wV5PubAck_PubAckProperties_extract : sim.

Lemma wV5PubAck_PubAck_read (fuel : nat) (fixed_header : Lib.FixedHeader) (bytes : list N) : osim (SrcV5PubAck.PubAck_read fuel fixed_header bytes) (WrapV5PubAck.PubAck_read fuel fixed_header bytes).
Proof. unfold SrcV5PubAck.PubAck_read, WrapV5PubAck.PubAck_read. names. sim. Qed.
Global Hint Resolve wV5PubAck_PubAck_read : sim.

Lemma wV5PubAck_PubAckProperties_write (fuel : nat) (self : V5PubAck.PubAckProperties) : wsim (SrcV5PubAck.PubAckProperties_write fuel self) (WrapV5PubAck.PubAckProperties_write fuel self).
Proof. unfold SrcV5PubAck.PubAckProperties_write, WrapV5PubAck.PubAckProperties_write. names. sim. Qed.
Global Hint Resolve wV5PubAck_PubAckProperties_write : sim.

Lemma wV5PubAck_PubAck_write (fuel : nat) (self : V5PubAck.PubAck) : wsim (SrcV5PubAck.PubAck_write fuel self) (WrapV5PubAck.PubAck_write fuel self).
Proof. unfold SrcV5PubAck.PubAck_write, WrapV5PubAck.PubAck_write. names. sim. Qed.
Global Hint Resolve wV5PubAck_PubAck_write : sim.

Lemma wV5PubComp_PubCompReason_as_u8 (x : V5PubComp.PubCompReason) : WrapV5PubComp.PubCompReason_as_u8 x = SrcV5PubComp.PubCompReason_as_u8 x.
Proof. reflexivity. Qed.

Lemma wV5PubComp_PubComp_new (pkid : N) : osim (SrcV5PubComp.PubComp_new pkid) (WrapV5PubComp.PubComp_new pkid).
Proof. unfold SrcV5PubComp.PubComp_new, WrapV5PubComp.PubComp_new. names. sim. Qed.
Global Hint Resolve wV5PubComp_PubComp_new : sim.

Lemma wV5PubComp_PubCompProperties_len (self : V5PubComp.PubCompProperties) : osim (SrcV5PubComp.PubCompProperties_len self) (WrapV5PubComp.PubCompProperties_len self).
Proof. unfold SrcV5PubComp.PubCompProperties_len, WrapV5PubComp.PubCompProperties_len. names. sim. Qed.
Global Hint Resolve wV5PubComp_PubCompProperties_len : sim.

Lemma wV5PubComp_PubComp_len (self : V5PubComp.PubComp) : osim (SrcV5PubComp.PubComp_len self) (WrapV5PubComp.PubComp_len self).
Proof. unfold SrcV5PubComp.PubComp_len, WrapV5PubComp.PubComp_len. names. sim. Qed.
Global Hint Resolve wV5PubComp_PubComp_len : sim.

Lemma wV5PubComp_reason (num : N) : osim (SrcV5PubComp.reason num) (WrapV5PubComp.reason num).
Proof. unfold SrcV5PubComp.reason, WrapV5PubComp.reason. names. sim. Qed.
Global Hint Resolve wV5PubComp_reason : sim.

Lemma wV5PubComp_PubCompProperties_extract (fuel : nat) : wsim (SrcV5PubComp.PubCompProperties_extract fuel) (WrapV5PubComp.PubCompProperties_extract fuel).
Proof. unfold SrcV5PubComp.PubCompProperties_extract, WrapV5PubComp.PubCompProperties_extract. names. sim. Qed.
Global Hint Resolve wV5PubComp_PubCompProperties_extract : sim.

Lemma wV5PubComp_PubComp_read (fuel : nat) (fixed_header : Lib.FixedHeader) (bytes : list N) : osim (SrcV5PubComp.PubComp_read fuel fixed_header bytes) (WrapV5PubComp.PubComp_read fuel fixed_header bytes).
Proof. unfold SrcV5PubComp.PubComp_read, WrapV5PubComp.PubComp_read. names. sim. Qed.
Global Hint Resolve wV5PubComp_PubComp_read : sim.

Lemma wV5PubComp_PubCompProperties_write (fuel : nat) (self : V5PubComp.PubCompProperties) : wsim (SrcV5PubComp.PubCompProperties_write fuel self) (WrapV5PubComp.PubCompProperties_write fuel self).
Proof. unfold SrcV5PubComp.PubCompProperties_write, WrapV5PubComp.PubCompProperties_write. names. sim. Qed.
Global Hint Resolve wV5PubComp_PubCompProperties_write : sim.

Lemma wV5PubComp_PubComp_write (fuel : nat) (self : V5PubComp.PubComp) : wsim (SrcV5PubComp.PubComp_write fuel self) (WrapV5PubComp.PubComp_write fuel self).
Proof. unfold SrcV5PubComp.PubComp_write, WrapV5PubComp.PubComp_write. names. sim. Qed.
Global Hint Resolve wV5PubComp_PubComp_write : sim.

Lemma wV5PubRec_PubRecReason_as_u8 (x : V5PubRec.PubRecReason) : WrapV5PubRec.PubRecReason_as_u8 x = SrcV5PubRec.PubRecReason_as_u8 x.
Proof. reflexivity. Qed.

Lemma wV5PubRec_PubRec_new (pkid : N) : osim (SrcV5PubRec.PubRec_new pkid) (WrapV5PubRec.PubRec_new pkid).
Proof. unfold SrcV5PubRec.PubRec_new, WrapV5PubRec.PubRec_new. names. sim. Qed.
Global Hint Resolve wV5PubRec_PubRec_new : sim.

Lemma wV5PubRec_PubRecProperties_len (self : V5PubRec.PubRecProperties) : osim (SrcV5PubRec.PubRecProperties_len self) (WrapV5PubRec.PubRecProperties_len self).
Proof. unfold SrcV5PubRec.PubRecProperties_len, WrapV5PubRec.PubRecProperties_len. names. sim. Qed.
Global Hint Resolve wV5PubRec_PubRecProperties_len : sim.

Lemma wV5PubRec_PubRec_len (self : V5PubRec.PubRec) : osim (SrcV5PubRec.PubRec_len self) (WrapV5PubRec.PubRec_len self).
Proof. unfold SrcV5PubRec.PubRec_len, WrapV5PubRec.PubRec_len. names. sim. Qed.
Global Hint Resolve wV5PubRec_PubRec_len : sim.

Lemma wV5PubRec_reason (num : N) : osim (SrcV5PubRec.reason num) (WrapV5PubRec.reason num).
Proof. unfold SrcV5PubRec.reason, WrapV5PubRec.reason. names. sim. Qed.
Global Hint Resolve wV5PubRec_reason : sim.

Lemma wV5PubRec_PubRecProperties_extract (fuel : nat) : wsim (SrcV5PubRec.PubRecProperties_extract fuel) (WrapV5PubRec.PubRecProperties_extract fuel).
Proof. unfold SrcV5PubRec.PubRecProperties_extract, WrapV5PubRec.PubRecProperties_extract. names. sim. Qed.
Global Hint Resolve wV5PubRec_PubRecProperties_extract : sim.

Lemma wV5PubRec_PubRec_read (fuel : nat) (fixed_header : Lib.FixedHeader) (bytes : list N) : osim (SrcV5PubRec.PubRec_read fuel fixed_header bytes) (WrapV5PubRec.PubRec_read fuel fixed_header bytes).
Proof. unfold SrcV5PubRec.PubRec_read, WrapV5PubRec.PubRec_read. names. sim. Qed.
Global Hint Resolve wV5PubRec_PubRec_read : sim.

Lemma wV5PubRec_PubRecProperties_write (fuel : nat) (self : V5PubRec.PubRecProperties) : wsim (SrcV5PubRec.PubRecProperties_write fuel self) (WrapV5PubRec.PubRecProperties_write fuel self).
Proof. unfold SrcV5PubRec.PubRecProperties_write, WrapV5PubRec.PubRecProperties_write. names. sim. Qed.
Global Hint Resolve wV5PubRec_PubRecProperties_write : sim.

Lemma wV5PubRec_PubRec_write (fuel : nat) (self : V5PubRec.PubRec) : wsim (SrcV5PubRec.PubRec_write fuel self) (WrapV5PubRec.PubRec_write fuel self).
Proof. unfold SrcV5PubRec.PubRec_write, WrapV5PubRec.PubRec_write. names. sim. Qed.
Global Hint Resolve wV5PubRec_PubRec_write : sim.

Lemma wV5PubRel_PubRelReason_as_u8 (x : V5PubRel.PubRelReason) : WrapV5PubRel.PubRelReason_as_u8 x = SrcV5PubRel.PubRelReason_as_u8 x.
Proof. reflexivity. Qed.

Lemma wV5PubRel_PubRel_new (pkid : N) : osim (SrcV5PubRel.PubRel_new pkid) (WrapV5PubRel.PubRel_new pkid).
Proof. unfold SrcV5PubRel.PubRel_new, WrapV5PubRel.PubRel_new. names. sim. Qed.
Global Hint Resolve wV5PubRel_PubRel_new : sim.

Lemma wV5PubRel_PubRelProperties_len (self : V5PubRel.PubRelProperties) : osim (SrcV5PubRel.PubRelProperties_len self) (WrapV5PubRel.PubRelProperties_len self).
Proof. unfold SrcV5PubRel.PubRelProperties_len, WrapV5PubRel.PubRelProperties_len. names. sim. Qed.
Global Hint Resolve wV5PubRel_PubRelProperties_len : sim.

Lemma wV5PubRel_PubRel_len (self : V5PubRel.PubRel) : osim (SrcV5PubRel.PubRel_len self) (WrapV5PubRel.PubRel_len self).
Proof. unfold SrcV5PubRel.PubRel_len, WrapV5PubRel.PubRel_len. names. sim. Qed.
Global Hint Resolve wV5PubRel_PubRel_len : sim.

Lemma wV5PubRel_reason (num : N) : osim (SrcV5PubRel.reason num) (WrapV5PubRel.reason num).
Proof. unfold SrcV5PubRel.reason, WrapV5PubRel.reason. names. sim. Qed.
Global Hint Resolve wV5PubRel_reason : sim.

Lemma wV5PubRel_PubRelProperties_extract (fuel : nat) : wsim (SrcV5PubRel.PubRelProperties_extract fuel) (WrapV5PubRel.PubRelProperties_extract fuel).
Proof. unfold SrcV5PubRel.PubRelProperties_extract, WrapV5PubRel.PubRelProperties_extract. names. sim. Qed.
Global Hint Resolve wV5PubRel_PubRelProperties_extract : sim.

Lemma wV5PubRel_PubRel_read (fuel : nat) (fixed_header : Lib.FixedHeader) (bytes : list N) : osim (SrcV5PubRel.PubRel_read fuel fixed_header bytes) (WrapV5PubRel.PubRel_read fuel fixed_header bytes).
Proof. unfold SrcV5PubRel.PubRel_read, WrapV5PubRel.PubRel_read. names. sim. Qed.
Global Hint Resolve wV5PubRel_PubRel_read : sim.

Lemma wV5PubRel_PubRelProperties_write (fuel : nat) (self : V5PubRel.PubRelProperties) : wsim (SrcV5PubRel.PubRelProperties_write fuel self) (WrapV5PubRel.PubRelProperties_write fuel self).
Proof. unfold SrcV5PubRel.PubRelProperties_write, WrapV5PubRel.PubRelProperties_write. names. sim. Qed.
Global Hint Resolve wV5PubRel_PubRelProperties_write : sim.

Lemma wV5PubRel_PubRel_write (fuel : nat) (self : V5PubRel.PubRel) : wsim (SrcV5PubRel.PubRel_write fuel self) (WrapV5PubRel.PubRel_write fuel self).
Proof. unfold SrcV5PubRel.PubRel_write, WrapV5PubRel.PubRel_write. names. sim. Qed.
Global Hint Resolve wV5PubRel_PubRel_write : sim.

Lemma wV5Publish_Publish_new (topic : list N) (qos : Base.QoS) (payload : list N) : osim (SrcV5Publish.Publish_new topic qos payload) (WrapV5Publish.Publish_new topic qos payload).
Proof. unfold SrcV5Publish.Publish_new, WrapV5Publish.Publish_new. names. sim. Qed.
Global Hint Resolve wV5Publish_Publish_new : sim.

Lemma wV5Publish_Publish_from_bytes (topic : list N) (qos : Base.QoS) (payload : list N) : osim (SrcV5Publish.Publish_from_bytes topic qos payload) (WrapV5Publish.Publish_from_bytes topic qos payload).
Proof. unfold SrcV5Publish.Publish_from_bytes, WrapV5Publish.Publish_from_bytes. names. sim. Qed.
Global Hint Resolve wV5Publish_Publish_from_bytes : sim.

Lemma wV5Publish_PublishProperties_len (self : V5Publish.PublishProperties) : osim (SrcV5Publish.PublishProperties_len self) (WrapV5Publish.PublishProperties_len self).
Proof. unfold SrcV5Publish.PublishProperties_len, WrapV5Publish.PublishProperties_len. names. sim. Qed.
Global Hint Resolve wV5Publish_PublishProperties_len : sim.

Lemma wV5Publish_Publish_len (self : V5Publish.Publish) : osim (SrcV5Publish.Publish_len self) (WrapV5Publish.Publish_len self).
Proof. unfold SrcV5Publish.Publish_len, WrapV5Publish.Publish_len. names. sim. Qed.
Global Hint Resolve wV5Publish_Publish_len : sim.

Lemma wV5Publish_PublishProperties_extract (fuel : nat) : wsim (SrcV5Publish.PublishProperties_extract fuel) (WrapV5Publish.PublishProperties_extract fuel).
Proof. unfold SrcV5Publish.PublishProperties_extract, WrapV5Publish.PublishProperties_extract. names. sim. Qed.
Global Hint Resolve wV5Publish_PublishProperties_extract : sim.

Lemma wV5Publish_Publish_read (fuel : nat) (fixed_header : Lib.FixedHeader) (bytes : list N) : osim (SrcV5Publish.Publish_read fuel fixed_header bytes) (WrapV5Publish.Publish_read fuel fixed_header bytes).
Proof. unfold SrcV5Publish.Publish_read, WrapV5Publish.Publish_read. names. sim. Qed.
Global Hint Resolve wV5Publish_Publish_read : sim.

Lemma wV5Publish_PublishProperties_write (fuel : nat) (self : V5Publish.PublishProperties) : wsim (SrcV5Publish.PublishProperties_write fuel self) (WrapV5Publish.PublishProperties_write fuel self).
Proof. unfold SrcV5Publish.PublishProperties_write, WrapV5Publish.PublishProperties_write. names. sim. Qed.
Global Hint Resolve wV5Publish_PublishProperties_write : sim.

Lemma wV5Publish_Publish_write (fuel : nat) (self : V5Publish.Publish) : wsim (SrcV5Publish.Publish_write fuel self) (WrapV5Publish.Publish_write fuel self).
Proof. unfold SrcV5Publish.Publish_write, WrapV5Publish.Publish_write. names. sim. Qed.
Global Hint Resolve wV5Publish_Publish_write : sim.

Lemma wV5SubAck_SubscribeReasonCode_as_u8 (x : V5SubAck.SubscribeReasonCode) : WrapV5SubAck.SubscribeReasonCode_as_u8 x = SrcV5SubAck.SubscribeReasonCode_as_u8 x.
Proof. reflexivity. Qed.

Lemma wV5SubAck_SubAck_new (pkid : N) (return_codes : list V5SubAck.SubscribeReasonCode) : osim (SrcV5SubAck.SubAck_new pkid return_codes) (WrapV5SubAck.SubAck_new pkid return_codes).
Proof. unfold SrcV5SubAck.SubAck_new, WrapV5SubAck.SubAck_new. names. sim. Qed.
Global Hint Resolve wV5SubAck_SubAck_new : sim.

Lemma wV5SubAck_SubAckProperties_len (self : V5SubAck.SubAckProperties) : osim (SrcV5SubAck.SubAckProperties_len self) (WrapV5SubAck.SubAckProperties_len self).
Proof. unfold SrcV5SubAck.SubAckProperties_len, WrapV5SubAck.SubAckProperties_len. names. sim. Qed.
Global Hint Resolve wV5SubAck_SubAckProperties_len : sim.

Lemma wV5SubAck_SubAck_len (self : V5SubAck.SubAck) : osim (SrcV5SubAck.SubAck_len self) (WrapV5SubAck.SubAck_len self).
Proof. unfold SrcV5SubAck.SubAck_len, WrapV5SubAck.SubAck_len. names. sim. Qed.
Global Hint Resolve wV5SubAck_SubAck_len : sim.

Lemma wV5SubAck_SubAckProperties_extract (fuel : nat) : wsim (SrcV5SubAck.SubAckProperties_extract fuel) (WrapV5SubAck.SubAckProperties_extract fuel).
Proof. unfold SrcV5SubAck.SubAckProperties_extract, WrapV5SubAck.SubAckProperties_extract. names. sim. Qed.
Global Hint Resolve wV5SubAck_SubAckProperties_extract : sim.

Lemma wV5SubAck_SubscribeReasonCode_try_from (value : N) : osim (SrcV5SubAck.SubscribeReasonCode_try_from value) (WrapV5SubAck.SubscribeReasonCode_try_from value).
Proof. unfold SrcV5SubAck.SubscribeReasonCode_try_from, WrapV5SubAck.SubscribeReasonCode_try_from. names. sim. Qed.
Global Hint Resolve wV5SubAck_SubscribeReasonCode_try_from : sim.

Lemma wV5SubAck_SubAck_read (fuel : nat) (fixed_header : Lib.FixedHeader) (bytes : list N) : osim (SrcV5SubAck.SubAck_read fuel fixed_header bytes) (WrapV5SubAck.SubAck_read fuel fixed_header bytes).
Proof. unfold SrcV5SubAck.SubAck_read, WrapV5SubAck.SubAck_read. names. sim. Qed.
Global Hint Resolve wV5SubAck_SubAck_read : sim.

Lemma wV5SubAck_SubAckProperties_write (fuel : nat) (self : V5SubAck.SubAckProperties) : wsim (SrcV5SubAck.SubAckProperties_write fuel self) (WrapV5SubAck.SubAckProperties_write fuel self).
Proof. unfold SrcV5SubAck.SubAckProperties_write, WrapV5SubAck.SubAckProperties_write. names. sim. Qed.
Global Hint Resolve wV5SubAck_SubAckProperties_write : sim.

Lemma wV5SubAck_SubAck_write (fuel : nat) (self : V5SubAck.SubAck) : wsim (SrcV5SubAck.SubAck_write fuel self) (WrapV5SubAck.SubAck_write fuel self).
Proof. unfold SrcV5SubAck.SubAck_write, WrapV5SubAck.SubAck_write. names. sim. Qed.
Global Hint Resolve wV5SubAck_SubAck_write : sim.

Lemma wV5Subscribe_RetainForwardRule_as_u8 (x : V5Subscribe.RetainForwardRule) : WrapV5Subscribe.RetainForwardRule_as_u8 x = SrcV5Subscribe.RetainForwardRule_as_u8 x.
Proof. reflexivity. Qed.

Lemma wV5Subscribe_Subscribe_new (path : list N) (qos : Base.QoS) : osim (SrcV5Subscribe.Subscribe_new path qos) (WrapV5Subscribe.Subscribe_new path qos).
Proof. unfold SrcV5Subscribe.Subscribe_new, WrapV5Subscribe.Subscribe_new. names. sim. Qed.
Global Hint Resolve wV5Subscribe_Subscribe_new : sim.

Lemma wV5Subscribe_Subscribe_new_many (topics : list V5Subscribe.SubscribeFilter) : osim (SrcV5Subscribe.Subscribe_new_many topics) (WrapV5Subscribe.Subscribe_new_many topics).
Proof. unfold SrcV5Subscribe.Subscribe_new_many, WrapV5Subscribe.Subscribe_new_many. names. sim. Qed.
Global Hint Resolve wV5Subscribe_Subscribe_new_many : sim.

Lemma wV5Subscribe_Subscribe_empty_subscribe : osim (SrcV5Subscribe.Subscribe_empty_subscribe ) (WrapV5Subscribe.Subscribe_empty_subscribe ).
Proof. unfold SrcV5Subscribe.Subscribe_empty_subscribe, WrapV5Subscribe.Subscribe_empty_subscribe. names. sim. Qed.
Global Hint Resolve wV5Subscribe_Subscribe_empty_subscribe : sim.

Lemma wV5Subscribe_Subscribe_add (self : V5Subscribe.Subscribe) (path : list N) (qos : Base.QoS) : osim (SrcV5Subscribe.Subscribe_add self path qos) (WrapV5Subscribe.Subscribe_add self path qos).
Proof. unfold SrcV5Subscribe.Subscribe_add, WrapV5Subscribe.Subscribe_add. names. sim. Qed.
Global Hint Resolve wV5Subscribe_Subscribe_add : sim.

Lemma wV5Subscribe_SubscribeFilter_len (self : V5Subscribe.SubscribeFilter) : osim (SrcV5Subscribe.SubscribeFilter_len self) (WrapV5Subscribe.SubscribeFilter_len self).
Proof. unfold SrcV5Subscribe.SubscribeFilter_len, WrapV5Subscribe.SubscribeFilter_len. names. sim. Qed.
Global Hint Resolve wV5Subscribe_SubscribeFilter_len : sim.

Lemma wV5Subscribe_SubscribeProperties_len (self : V5Subscribe.SubscribeProperties) : osim (SrcV5Subscribe.SubscribeProperties_len self) (WrapV5Subscribe.SubscribeProperties_len self).
Proof. unfold SrcV5Subscribe.SubscribeProperties_len, WrapV5Subscribe.SubscribeProperties_len. names. sim. Qed.
Global Hint Resolve wV5Subscribe_SubscribeProperties_len : sim.

Lemma wV5Subscribe_Subscribe_len (self : V5Subscribe.Subscribe) : osim (SrcV5Subscribe.Subscribe_len self) (WrapV5Subscribe.Subscribe_len self).
Proof. unfold SrcV5Subscribe.Subscribe_len, WrapV5Subscribe.Subscribe_len. names. sim. Qed.
Global Hint Resolve wV5Subscribe_Subscribe_len : sim.

Lemma wV5Subscribe_SubscribeProperties_extract (fuel : nat) : wsim (SrcV5Subscribe.SubscribeProperties_extract fuel) (WrapV5Subscribe.SubscribeProperties_extract fuel).
Proof. unfold SrcV5Subscribe.SubscribeProperties_extract, WrapV5Subscribe.SubscribeProperties_extract. names. sim. Qed.
Global Hint Resolve wV5Subscribe_SubscribeProperties_extract : sim.

Lemma wV5Subscribe_Subscribe_read (fuel : nat) (fixed_header : Lib.FixedHeader) (bytes : list N) : osim (SrcV5Subscribe.Subscribe_read fuel fixed_header bytes) (WrapV5Subscribe.Subscribe_read fuel fixed_header bytes).
Proof. unfold SrcV5Subscribe.Subscribe_read, WrapV5Subscribe.Subscribe_read. names. sim. Qed.
Global Hint Resolve wV5Subscribe_Subscribe_read : sim.

Lemma wV5Subscribe_SubscribeProperties_write (fuel : nat) (self : V5Subscribe.SubscribeProperties) : wsim (SrcV5Subscribe.SubscribeProperties_write fuel self) (WrapV5Subscribe.SubscribeProperties_write fuel self).
Proof. unfold SrcV5Subscribe.SubscribeProperties_write, WrapV5Subscribe.SubscribeProperties_write. names. sim. Qed.
Global Hint Resolve wV5Subscribe_SubscribeProperties_write : sim.

Lemma wV5Subscribe_SubscribeFilter_write (self : V5Subscribe.SubscribeFilter) : wsim (SrcV5Subscribe.SubscribeFilter_write self) (WrapV5Subscribe.SubscribeFilter_write self).
Proof. unfold SrcV5Subscribe.SubscribeFilter_write, WrapV5Subscribe.SubscribeFilter_write. names. sim. Qed.
Global Hint Resolve wV5Subscribe_SubscribeFilter_write : sim.

Lemma wV5Subscribe_Subscribe_write (fuel : nat) (self : V5Subscribe.Subscribe) : wsim (SrcV5Subscribe.Subscribe_write fuel self) (WrapV5Subscribe.Subscribe_write fuel self).
Proof. unfold SrcV5Subscribe.Subscribe_write, WrapV5Subscribe.Subscribe_write. names. sim. Qed.
Global Hint Resolve wV5Subscribe_Subscribe_write : sim.

Lemma wV5Subscribe_SubscribeFilter_new (path : list N) (qos : Base.QoS) : osim (SrcV5Subscribe.SubscribeFilter_new path qos) (WrapV5Subscribe.SubscribeFilter_new path qos).
Proof. unfold SrcV5Subscribe.SubscribeFilter_new, WrapV5Subscribe.SubscribeFilter_new. names. sim. Qed.
Global Hint Resolve wV5Subscribe_SubscribeFilter_new : sim.

Lemma wV5Subscribe_SubscribeFilter_set_nolocal (self : V5Subscribe.SubscribeFilter) (flag : bool) : osim (SrcV5Subscribe.SubscribeFilter_set_nolocal self flag) (WrapV5Subscribe.SubscribeFilter_set_nolocal self flag).
Proof. unfold SrcV5Subscribe.SubscribeFilter_set_nolocal, WrapV5Subscribe.SubscribeFilter_set_nolocal. names. sim. Qed.
Global Hint Resolve wV5Subscribe_SubscribeFilter_set_nolocal : sim.

Lemma wV5Subscribe_SubscribeFilter_set_preserve_retain (self : V5Subscribe.SubscribeFilter) (flag : bool) : osim (SrcV5Subscribe.SubscribeFilter_set_preserve_retain self flag) (WrapV5Subscribe.SubscribeFilter_set_preserve_retain self flag).
Proof. unfold SrcV5Subscribe.SubscribeFilter_set_preserve_retain, WrapV5Subscribe.SubscribeFilter_set_preserve_retain. names. sim. Qed.
Global Hint Resolve wV5Subscribe_SubscribeFilter_set_preserve_retain : sim.

Lemma wV5Subscribe_SubscribeFilter_set_retain_forward_rule (self : V5Subscribe.SubscribeFilter) (rule : V5Subscribe.RetainForwardRule) : osim (SrcV5Subscribe.SubscribeFilter_set_retain_forward_rule self rule) (WrapV5Subscribe.SubscribeFilter_set_retain_forward_rule self rule).
Proof. unfold SrcV5Subscribe.SubscribeFilter_set_retain_forward_rule, WrapV5Subscribe.SubscribeFilter_set_retain_forward_rule. names. sim. Qed.
Global Hint Resolve wV5Subscribe_SubscribeFilter_set_retain_forward_rule : sim.

Lemma wV5UnsubAck_UnsubAckReason_as_u8 (x : V5UnsubAck.UnsubAckReason) : WrapV5UnsubAck.UnsubAckReason_as_u8 x = SrcV5UnsubAck.UnsubAckReason_as_u8 x.
Proof. reflexivity. Qed.

Lemma wV5UnsubAck_UnsubAck_new (pkid : N) : osim (SrcV5UnsubAck.UnsubAck_new pkid) (WrapV5UnsubAck.UnsubAck_new pkid).
Proof. unfold SrcV5UnsubAck.UnsubAck_new, WrapV5UnsubAck.UnsubAck_new. names. sim. Qed.
Global Hint Resolve wV5UnsubAck_UnsubAck_new : sim.

Lemma wV5UnsubAck_UnsubAckProperties_len (self : V5UnsubAck.UnsubAckProperties) : osim (SrcV5UnsubAck.UnsubAckProperties_len self) (WrapV5UnsubAck.UnsubAckProperties_len self).
Proof. unfold SrcV5UnsubAck.UnsubAckProperties_len, WrapV5UnsubAck.UnsubAckProperties_len. names. sim. Qed.
Global Hint Resolve wV5UnsubAck_UnsubAckProperties_len : sim.

Lemma wV5UnsubAck_UnsubAck_len (self : V5UnsubAck.UnsubAck) : osim (SrcV5UnsubAck.UnsubAck_len self) (WrapV5UnsubAck.UnsubAck_len self).
Proof. unfold SrcV5UnsubAck.UnsubAck_len, WrapV5UnsubAck.UnsubAck_len. names. sim. Qed.
Global Hint Resolve wV5UnsubAck_UnsubAck_len : sim.

Lemma wV5UnsubAck_UnsubAckProperties_extract (fuel : nat) : wsim (SrcV5UnsubAck.UnsubAckProperties_extract fuel) (WrapV5UnsubAck.UnsubAckProperties_extract fuel).
Proof. unfold SrcV5UnsubAck.UnsubAckProperties_extract, WrapV5UnsubAck.UnsubAckProperties_extract. names. sim. Qed.
Global Hint Resolve wV5UnsubAck_UnsubAckProperties_extract : sim.

Lemma wV5UnsubAck_reason (num : N) : osim (SrcV5UnsubAck.reason num) (WrapV5UnsubAck.reason num).
Proof. unfold SrcV5UnsubAck.reason, WrapV5UnsubAck.reason. names. sim. Qed.
Global Hint Resolve wV5UnsubAck_reason : sim.

Lemma wV5UnsubAck_UnsubAck_read (fuel : nat) (fixed_header : Lib.FixedHeader) (bytes : list N) : osim (SrcV5UnsubAck.UnsubAck_read fuel fixed_header bytes) (WrapV5UnsubAck.UnsubAck_read fuel fixed_header bytes).
Proof. unfold SrcV5UnsubAck.UnsubAck_read, WrapV5UnsubAck.UnsubAck_read. names. sim. Qed.
Global Hint Resolve wV5UnsubAck_UnsubAck_read : sim.

Lemma wV5UnsubAck_UnsubAckProperties_write (fuel : nat) (self : V5UnsubAck.UnsubAckProperties) : wsim (SrcV5UnsubAck.UnsubAckProperties_write fuel self) (WrapV5UnsubAck.UnsubAckProperties_write fuel self).
Proof. unfold SrcV5UnsubAck.UnsubAckProperties_write, WrapV5UnsubAck.UnsubAckProperties_write. names. sim. Qed.
Global Hint Resolve wV5UnsubAck_UnsubAckProperties_write : sim.

Lemma wV5UnsubAck_UnsubAck_write (fuel : nat) (self : V5UnsubAck.UnsubAck) : wsim (SrcV5UnsubAck.UnsubAck_write fuel self) (WrapV5UnsubAck.UnsubAck_write fuel self).
Proof. unfold SrcV5UnsubAck.UnsubAck_write, WrapV5UnsubAck.UnsubAck_write. names. sim. Qed.
Global Hint Resolve wV5UnsubAck_UnsubAck_write : sim.

Lemma wV5Unsubscribe_Unsubscribe_new (topic : list N) : osim (SrcV5Unsubscribe.Unsubscribe_new topic) (WrapV5Unsubscribe.Unsubscribe_new topic).
Proof. unfold SrcV5Unsubscribe.Unsubscribe_new, WrapV5Unsubscribe.Unsubscribe_new. names. sim. Qed.
Global Hint Resolve wV5Unsubscribe_Unsubscribe_new : sim.

Lemma wV5Unsubscribe_UnsubscribeProperties_len (self : V5Unsubscribe.UnsubscribeProperties) : osim (SrcV5Unsubscribe.UnsubscribeProperties_len self) (WrapV5Unsubscribe.UnsubscribeProperties_len self).
Proof. unfold SrcV5Unsubscribe.UnsubscribeProperties_len, WrapV5Unsubscribe.UnsubscribeProperties_len. names. sim. Qed.
Global Hint Resolve wV5Unsubscribe_UnsubscribeProperties_len : sim.

Lemma wV5Unsubscribe_Unsubscribe_len (self : V5Unsubscribe.Unsubscribe) : osim (SrcV5Unsubscribe.Unsubscribe_len self) (WrapV5Unsubscribe.Unsubscribe_len self).
Proof. unfold SrcV5Unsubscribe.Unsubscribe_len, WrapV5Unsubscribe.Unsubscribe_len. names. sim. Qed.
Global Hint Resolve wV5Unsubscribe_Unsubscribe_len : sim.

Lemma wV5Unsubscribe_UnsubscribeProperties_extract (fuel : nat) : wsim (SrcV5Unsubscribe.UnsubscribeProperties_extract fuel) (WrapV5Unsubscribe.UnsubscribeProperties_extract fuel).
Proof. unfold SrcV5Unsubscribe.UnsubscribeProperties_extract, WrapV5Unsubscribe.UnsubscribeProperties_extract. names. sim. Qed.
Global Hint Resolve wV5Unsubscribe_UnsubscribeProperties_extract : sim.

Lemma wV5Unsubscribe_Unsubscribe_read (fuel : nat) (fixed_header : Lib.FixedHeader) (bytes : list N) : osim (SrcV5Unsubscribe.Unsubscribe_read fuel fixed_header bytes) (WrapV5Unsubscribe.Unsubscribe_read fuel fixed_header bytes).
Proof. unfold SrcV5Unsubscribe.Unsubscribe_read, WrapV5Unsubscribe.Unsubscribe_read. names. sim. Qed.
Global Hint Resolve wV5Unsubscribe_Unsubscribe_read : sim.

Lemma wV5Unsubscribe_UnsubscribeProperties_write (fuel : nat) (self : V5Unsubscribe.UnsubscribeProperties) : wsim (SrcV5Unsubscribe.UnsubscribeProperties_write fuel self) (WrapV5Unsubscribe.UnsubscribeProperties_write fuel self).
Proof. unfold SrcV5Unsubscribe.UnsubscribeProperties_write, WrapV5Unsubscribe.UnsubscribeProperties_write. names. sim. Qed.
Global Hint Resolve wV5Unsubscribe_UnsubscribeProperties_write : sim.

Lemma wV5Unsubscribe_Unsubscribe_write (fuel : nat) (self : V5Unsubscribe.Unsubscribe) : wsim (SrcV5Unsubscribe.Unsubscribe_write fuel self) (WrapV5Unsubscribe.Unsubscribe_write fuel self).
Proof. unfold SrcV5Unsubscribe.Unsubscribe_write, WrapV5Unsubscribe.Unsubscribe_write. names. sim. Qed.
Global Hint Resolve wV5Unsubscribe_Unsubscribe_write : sim.

Lemma wV5Mod_read (fuel : nat) (max_size : N) : wsim (SrcV5Mod.read fuel max_size) (WrapV5Mod.read fuel max_size).
Proof. unfold SrcV5Mod.read, WrapV5Mod.read. names. sim. Qed.
Global Hint Resolve wV5Mod_read : sim.

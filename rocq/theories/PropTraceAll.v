(** PropTraceAll.v -- GENERATED by tools/gen_trace_proofs.py.  C76: every function of the crate except v5 `Unsubscribe::read`
    and the v5 `read` (PropTrace.v) does what it does without printing anything, on all arguments. *)
From Verif Require Import Base Lib SrcBase SpecTrace ProofTraceBase ProofTrace.
From Verif Require TraceBase V4ConnAck V4Connect V4Mod V4PubAck V4PubComp V4PubRec V4PubRel V4Publish V4SubAck V4Subscribe V4UnsubAck V4Unsubscribe V5ConnAck V5Connect V5Disconnect V5PubAck V5PubComp V5PubRec V5PubRel V5Publish V5SubAck V5Subscribe V5UnsubAck V5Unsubscribe.
From Verif Require SrcLib SrcTopic SrcV4ConnAck SrcV4Connect SrcV4Disconnect SrcV4Ping SrcV4PubAck SrcV4PubComp SrcV4PubRec SrcV4PubRel SrcV4Publish SrcV4SubAck SrcV4Subscribe SrcV4UnsubAck SrcV4Unsubscribe SrcV4Mod SrcV5Ping SrcV5Property SrcV5ConnAck SrcV5Connect SrcV5Disconnect SrcV5PubAck SrcV5PubComp SrcV5PubRec SrcV5PubRel SrcV5Publish SrcV5SubAck SrcV5Subscribe SrcV5UnsubAck SrcV5Unsubscribe SrcV5Mod.
From Verif Require TraceLib TraceTopic TraceV4ConnAck TraceV4Connect TraceV4Disconnect TraceV4Ping TraceV4PubAck TraceV4PubComp TraceV4PubRec TraceV4PubRel TraceV4Publish TraceV4SubAck TraceV4Subscribe TraceV4UnsubAck TraceV4Unsubscribe TraceV4Mod TraceV5Ping TraceV5Property TraceV5ConnAck TraceV5Connect TraceV5Disconnect TraceV5PubAck TraceV5PubComp TraceV5PubRec TraceV5PubRel TraceV5Publish TraceV5SubAck TraceV5Subscribe TraceV5UnsubAck TraceV5Unsubscribe TraceV5Mod.

Lemma run_q {A} (m : writer A) m' : wq m m' -> runs_silently m m'.
Proof. intros H b. unfold result, left_over, printed. rewrite (H b). auto. Qed.
Lemma return_q {A} (o : outcome A) o' : oq o o' -> returns_silently o o'.
Proof. intros ->. split; reflexivity. Qed.

(** src/lib.rs *)
Theorem C76_lib_silent :
  (forall (byte1 : N) (remaining_len_len : N) (remaining_len : N), returns_silently (SrcLib.FixedHeader_new byte1 remaining_len_len remaining_len) (TraceLib.FixedHeader_new byte1 remaining_len_len remaining_len)) /\
  (forall (self : Lib.FixedHeader), returns_silently (SrcLib.FixedHeader_packet_type self) (TraceLib.FixedHeader_packet_type self)) /\
  (forall (self : Lib.FixedHeader), returns_silently (SrcLib.FixedHeader_frame_length self) (TraceLib.FixedHeader_frame_length self)) /\
  (forall (stream : list N), returns_silently (SrcLib.length stream) (TraceLib.length stream)) /\
  (forall (stream : list N), returns_silently (SrcLib.parse_fixed_header stream) (TraceLib.parse_fixed_header stream)) /\
  (forall (stream : list N) (max_packet_size : N), returns_silently (SrcLib.check stream max_packet_size) (TraceLib.check stream max_packet_size)) /\
  (runs_silently (SrcLib.read_u16 ) (TraceLib.read_u16 )) /\
  (runs_silently (SrcLib.read_mqtt_bytes ) (TraceLib.read_mqtt_bytes )) /\
  (runs_silently (SrcLib.read_mqtt_string ) (TraceLib.read_mqtt_string )) /\
  (forall (bytes : list N), runs_silently (SrcLib.write_mqtt_bytes bytes) (TraceLib.write_mqtt_bytes bytes)) /\
  (forall (string : list N), runs_silently (SrcLib.write_mqtt_string string) (TraceLib.write_mqtt_string string)) /\
  (forall (fuel : nat) (len : N), runs_silently (SrcLib.write_remaining_length fuel len) (TraceLib.write_remaining_length fuel len)) /\
  (forall (len : N), returns_silently (SrcLib.len_len len) (TraceLib.len_len len)) /\
  (forall (num : N), returns_silently (SrcLib.qos num) (TraceLib.qos num)) /\
  (runs_silently (SrcLib.read_u8 ) (TraceLib.read_u8 )) /\
  (runs_silently (SrcLib.read_u32 ) (TraceLib.read_u32 )).
Proof.
  split; [intros; apply return_q, qLib_FixedHeader_new|].
  split; [intros; apply return_q, qLib_FixedHeader_packet_type|].
  split; [intros; apply return_q, qLib_FixedHeader_frame_length|].
  split; [intros; apply return_q, qLib_length|].
  split; [intros; apply return_q, qLib_parse_fixed_header|].
  split; [intros; apply return_q, qLib_check|].
  split; [intros; apply run_q, qLib_read_u16|].
  split; [intros; apply run_q, qLib_read_mqtt_bytes|].
  split; [intros; apply run_q, qLib_read_mqtt_string|].
  split; [intros; apply run_q, qLib_write_mqtt_bytes|].
  split; [intros; apply run_q, qLib_write_mqtt_string|].
  split; [intros; apply run_q, qLib_write_remaining_length|].
  split; [intros; apply return_q, qLib_len_len|].
  split; [intros; apply return_q, qLib_qos|].
  split; [intros; apply run_q, qLib_read_u8|].
  intros; apply run_q, qLib_read_u32.
Qed.

(** src/topic.rs *)
Theorem C76_topic_silent :
  (forall (s : list N), returns_silently (SrcTopic.has_wildcards s) (TraceTopic.has_wildcards s)) /\
  (forall (topic : list N), returns_silently (SrcTopic.valid_topic topic) (TraceTopic.valid_topic topic)) /\
  (forall (filter : list N), returns_silently (SrcTopic.valid_filter filter) (TraceTopic.valid_filter filter)) /\
  (forall (topic : list N) (filter : list N), returns_silently (SrcTopic.matches topic filter) (TraceTopic.matches topic filter)).
Proof.
  split; [intros; apply return_q, qTopic_has_wildcards|].
  split; [intros; apply return_q, qTopic_valid_topic|].
  split; [intros; apply return_q, qTopic_valid_filter|].
  intros; apply return_q, qTopic_matches.
Qed.

(** src/v4/connack.rs *)
Theorem C76_v4_connack_silent :
  (forall (code : V4ConnAck.ConnectReturnCode) (session_present : bool), returns_silently (SrcV4ConnAck.ConnAck_new code session_present) (TraceV4ConnAck.ConnAck_new code session_present)) /\
  (forall (self : V4ConnAck.ConnAck), returns_silently (SrcV4ConnAck.ConnAck_len self) (TraceV4ConnAck.ConnAck_len self)) /\
  (forall (num : N), returns_silently (SrcV4ConnAck.connect_return num) (TraceV4ConnAck.connect_return num)) /\
  (forall (fixed_header : Lib.FixedHeader) (bytes : list N), returns_silently (SrcV4ConnAck.ConnAck_read fixed_header bytes) (TraceV4ConnAck.ConnAck_read fixed_header bytes)) /\
  (forall (fuel : nat) (self : V4ConnAck.ConnAck), runs_silently (SrcV4ConnAck.ConnAck_write fuel self) (TraceV4ConnAck.ConnAck_write fuel self)).
Proof.
  split; [intros; apply return_q, qV4ConnAck_ConnAck_new|].
  split; [intros; apply return_q, qV4ConnAck_ConnAck_len|].
  split; [intros; apply return_q, qV4ConnAck_connect_return|].
  split; [intros; apply return_q, qV4ConnAck_ConnAck_read|].
  intros; apply run_q, qV4ConnAck_ConnAck_write.
Qed.

(** src/v4/connect.rs *)
Theorem C76_v4_connect_silent :
  (forall (id : list N), returns_silently (SrcV4Connect.Connect_new id) (TraceV4Connect.Connect_new id)) /\
  (forall (self : V4Connect.Connect) (u : list N) (p : list N), returns_silently (SrcV4Connect.Connect_set_login self u p) (TraceV4Connect.Connect_set_login self u p)) /\
  (forall (self : V4Connect.LastWill), returns_silently (SrcV4Connect.LastWill_len self) (TraceV4Connect.LastWill_len self)) /\
  (forall (self : V4Connect.Login), returns_silently (SrcV4Connect.Login_len self) (TraceV4Connect.Login_len self)) /\
  (forall (self : V4Connect.Connect), returns_silently (SrcV4Connect.Connect_len self) (TraceV4Connect.Connect_len self)) /\
  (forall (connect_flags : N), runs_silently (SrcV4Connect.LastWill_read connect_flags) (TraceV4Connect.LastWill_read connect_flags)) /\
  (forall (connect_flags : N), runs_silently (SrcV4Connect.Login_read connect_flags) (TraceV4Connect.Login_read connect_flags)) /\
  (forall (fixed_header : Lib.FixedHeader) (bytes : list N), returns_silently (SrcV4Connect.Connect_read fixed_header bytes) (TraceV4Connect.Connect_read fixed_header bytes)) /\
  (forall (self : V4Connect.LastWill), runs_silently (SrcV4Connect.LastWill_write self) (TraceV4Connect.LastWill_write self)) /\
  (forall (self : V4Connect.Login), runs_silently (SrcV4Connect.Login_write self) (TraceV4Connect.Login_write self)) /\
  (forall (fuel : nat) (self : V4Connect.Connect), runs_silently (SrcV4Connect.Connect_write fuel self) (TraceV4Connect.Connect_write fuel self)) /\
  (forall (topic : list N) (payload : list N) (qos : Base.QoS) (retain : bool), returns_silently (SrcV4Connect.LastWill_new topic payload qos retain) (TraceV4Connect.LastWill_new topic payload qos retain)) /\
  (forall (u : list N) (p : list N), returns_silently (SrcV4Connect.Login_new u p) (TraceV4Connect.Login_new u p)) /\
  (forall (self : V4Connect.Login) (username : list N) (password : list N), returns_silently (SrcV4Connect.Login_validate self username password) (TraceV4Connect.Login_validate self username password)).
Proof.
  split; [intros; apply return_q, qV4Connect_Connect_new|].
  split; [intros; apply return_q, qV4Connect_Connect_set_login|].
  split; [intros; apply return_q, qV4Connect_LastWill_len|].
  split; [intros; apply return_q, qV4Connect_Login_len|].
  split; [intros; apply return_q, qV4Connect_Connect_len|].
  split; [intros; apply run_q, qV4Connect_LastWill_read|].
  split; [intros; apply run_q, qV4Connect_Login_read|].
  split; [intros; apply return_q, qV4Connect_Connect_read|].
  split; [intros; apply run_q, qV4Connect_LastWill_write|].
  split; [intros; apply run_q, qV4Connect_Login_write|].
  split; [intros; apply run_q, qV4Connect_Connect_write|].
  split; [intros; apply return_q, qV4Connect_LastWill_new|].
  split; [intros; apply return_q, qV4Connect_Login_new|].
  intros; apply return_q, qV4Connect_Login_validate.
Qed.

(** src/v4/disconnect.rs *)
Theorem C76_v4_disconnect_silent :
  (runs_silently (SrcV4Disconnect.Disconnect_write ) (TraceV4Disconnect.Disconnect_write )).
Proof.
  intros; apply run_q, qV4Disconnect_Disconnect_write.
Qed.

(** src/v4/ping.rs *)
Theorem C76_v4_ping_silent :
  (runs_silently (SrcV4Ping.PingReq_write ) (TraceV4Ping.PingReq_write )) /\
  (runs_silently (SrcV4Ping.PingResp_write ) (TraceV4Ping.PingResp_write )).
Proof.
  split; [intros; apply run_q, qV4Ping_PingReq_write|].
  intros; apply run_q, qV4Ping_PingResp_write.
Qed.

(** src/v4/puback.rs *)
Theorem C76_v4_puback_silent :
  (forall (pkid : N), returns_silently (SrcV4PubAck.PubAck_new pkid) (TraceV4PubAck.PubAck_new pkid)) /\
  (forall (self : V4PubAck.PubAck), returns_silently (SrcV4PubAck.PubAck_len self) (TraceV4PubAck.PubAck_len self)) /\
  (forall (fixed_header : Lib.FixedHeader) (bytes : list N), returns_silently (SrcV4PubAck.PubAck_read fixed_header bytes) (TraceV4PubAck.PubAck_read fixed_header bytes)) /\
  (forall (fuel : nat) (self : V4PubAck.PubAck), runs_silently (SrcV4PubAck.PubAck_write fuel self) (TraceV4PubAck.PubAck_write fuel self)).
Proof.
  split; [intros; apply return_q, qV4PubAck_PubAck_new|].
  split; [intros; apply return_q, qV4PubAck_PubAck_len|].
  split; [intros; apply return_q, qV4PubAck_PubAck_read|].
  intros; apply run_q, qV4PubAck_PubAck_write.
Qed.

(** src/v4/pubcomp.rs *)
Theorem C76_v4_pubcomp_silent :
  (forall (pkid : N), returns_silently (SrcV4PubComp.PubComp_new pkid) (TraceV4PubComp.PubComp_new pkid)) /\
  (forall (self : V4PubComp.PubComp), returns_silently (SrcV4PubComp.PubComp_len self) (TraceV4PubComp.PubComp_len self)) /\
  (forall (fixed_header : Lib.FixedHeader) (bytes : list N), returns_silently (SrcV4PubComp.PubComp_read fixed_header bytes) (TraceV4PubComp.PubComp_read fixed_header bytes)) /\
  (forall (fuel : nat) (self : V4PubComp.PubComp), runs_silently (SrcV4PubComp.PubComp_write fuel self) (TraceV4PubComp.PubComp_write fuel self)).
Proof.
  split; [intros; apply return_q, qV4PubComp_PubComp_new|].
  split; [intros; apply return_q, qV4PubComp_PubComp_len|].
  split; [intros; apply return_q, qV4PubComp_PubComp_read|].
  intros; apply run_q, qV4PubComp_PubComp_write.
Qed.

(** src/v4/pubrec.rs *)
Theorem C76_v4_pubrec_silent :
  (forall (pkid : N), returns_silently (SrcV4PubRec.PubRec_new pkid) (TraceV4PubRec.PubRec_new pkid)) /\
  (forall (self : V4PubRec.PubRec), returns_silently (SrcV4PubRec.PubRec_len self) (TraceV4PubRec.PubRec_len self)) /\
  (forall (fixed_header : Lib.FixedHeader) (bytes : list N), returns_silently (SrcV4PubRec.PubRec_read fixed_header bytes) (TraceV4PubRec.PubRec_read fixed_header bytes)) /\
  (forall (fuel : nat) (self : V4PubRec.PubRec), runs_silently (SrcV4PubRec.PubRec_write fuel self) (TraceV4PubRec.PubRec_write fuel self)).
Proof.
  split; [intros; apply return_q, qV4PubRec_PubRec_new|].
  split; [intros; apply return_q, qV4PubRec_PubRec_len|].
  split; [intros; apply return_q, qV4PubRec_PubRec_read|].
  intros; apply run_q, qV4PubRec_PubRec_write.
Qed.

(** src/v4/pubrel.rs *)
Theorem C76_v4_pubrel_silent :
  (forall (pkid : N), returns_silently (SrcV4PubRel.PubRel_new pkid) (TraceV4PubRel.PubRel_new pkid)) /\
  (forall (self : V4PubRel.PubRel), returns_silently (SrcV4PubRel.PubRel_len self) (TraceV4PubRel.PubRel_len self)) /\
  (forall (fixed_header : Lib.FixedHeader) (bytes : list N), returns_silently (SrcV4PubRel.PubRel_read fixed_header bytes) (TraceV4PubRel.PubRel_read fixed_header bytes)) /\
  (forall (fuel : nat) (self : V4PubRel.PubRel), runs_silently (SrcV4PubRel.PubRel_write fuel self) (TraceV4PubRel.PubRel_write fuel self)).
Proof.
  split; [intros; apply return_q, qV4PubRel_PubRel_new|].
  split; [intros; apply return_q, qV4PubRel_PubRel_len|].
  split; [intros; apply return_q, qV4PubRel_PubRel_read|].
  intros; apply run_q, qV4PubRel_PubRel_write.
Qed.

(** src/v4/publish.rs *)
Theorem C76_v4_publish_silent :
  (forall (topic : list N) (qos : Base.QoS) (payload : list N), returns_silently (SrcV4Publish.Publish_new topic qos payload) (TraceV4Publish.Publish_new topic qos payload)) /\
  (forall (topic : list N) (qos : Base.QoS) (payload : list N), returns_silently (SrcV4Publish.Publish_from_bytes topic qos payload) (TraceV4Publish.Publish_from_bytes topic qos payload)) /\
  (forall (self : V4Publish.Publish), returns_silently (SrcV4Publish.Publish_len self) (TraceV4Publish.Publish_len self)) /\
  (forall (fixed_header : Lib.FixedHeader) (bytes : list N), returns_silently (SrcV4Publish.Publish_read fixed_header bytes) (TraceV4Publish.Publish_read fixed_header bytes)) /\
  (forall (fuel : nat) (self : V4Publish.Publish), runs_silently (SrcV4Publish.Publish_write fuel self) (TraceV4Publish.Publish_write fuel self)).
Proof.
  split; [intros; apply return_q, qV4Publish_Publish_new|].
  split; [intros; apply return_q, qV4Publish_Publish_from_bytes|].
  split; [intros; apply return_q, qV4Publish_Publish_len|].
  split; [intros; apply return_q, qV4Publish_Publish_read|].
  intros; apply run_q, qV4Publish_Publish_write.
Qed.

(** src/v4/suback.rs *)
Theorem C76_v4_suback_silent :
  (forall (pkid : N) (return_codes : list V4SubAck.SubscribeReasonCode), returns_silently (SrcV4SubAck.SubAck_new pkid return_codes) (TraceV4SubAck.SubAck_new pkid return_codes)) /\
  (forall (self : V4SubAck.SubAck), returns_silently (SrcV4SubAck.SubAck_len self) (TraceV4SubAck.SubAck_len self)) /\
  (forall (value : N), returns_silently (SrcV4SubAck.SubscribeReasonCode_try_from value) (TraceV4SubAck.SubscribeReasonCode_try_from value)) /\
  (forall (fuel : nat) (fixed_header : Lib.FixedHeader) (bytes : list N), returns_silently (SrcV4SubAck.SubAck_read fuel fixed_header bytes) (TraceV4SubAck.SubAck_read fuel fixed_header bytes)) /\
  (forall (fuel : nat) (self : V4SubAck.SubAck), runs_silently (SrcV4SubAck.SubAck_write fuel self) (TraceV4SubAck.SubAck_write fuel self)).
Proof.
  split; [intros; apply return_q, qV4SubAck_SubAck_new|].
  split; [intros; apply return_q, qV4SubAck_SubAck_len|].
  split; [intros; apply return_q, qV4SubAck_SubscribeReasonCode_try_from|].
  split; [intros; apply return_q, qV4SubAck_SubAck_read|].
  intros; apply run_q, qV4SubAck_SubAck_write.
Qed.

(** src/v4/subscribe.rs *)
Theorem C76_v4_subscribe_silent :
  (forall (path : list N) (qos : Base.QoS), returns_silently (SrcV4Subscribe.Subscribe_new path qos) (TraceV4Subscribe.Subscribe_new path qos)) /\
  (forall (topics : list V4Subscribe.SubscribeFilter), returns_silently (SrcV4Subscribe.Subscribe_new_many topics) (TraceV4Subscribe.Subscribe_new_many topics)) /\
  (forall (self : V4Subscribe.Subscribe) (path : list N) (qos : Base.QoS), returns_silently (SrcV4Subscribe.Subscribe_add self path qos) (TraceV4Subscribe.Subscribe_add self path qos)) /\
  (forall (self : V4Subscribe.SubscribeFilter), returns_silently (SrcV4Subscribe.SubscribeFilter_len self) (TraceV4Subscribe.SubscribeFilter_len self)) /\
  (forall (self : V4Subscribe.Subscribe), returns_silently (SrcV4Subscribe.Subscribe_len self) (TraceV4Subscribe.Subscribe_len self)) /\
  (forall (fuel : nat) (fixed_header : Lib.FixedHeader) (bytes : list N), returns_silently (SrcV4Subscribe.Subscribe_read fuel fixed_header bytes) (TraceV4Subscribe.Subscribe_read fuel fixed_header bytes)) /\
  (forall (self : V4Subscribe.SubscribeFilter), runs_silently (SrcV4Subscribe.SubscribeFilter_write self) (TraceV4Subscribe.SubscribeFilter_write self)) /\
  (forall (fuel : nat) (self : V4Subscribe.Subscribe), runs_silently (SrcV4Subscribe.Subscribe_write fuel self) (TraceV4Subscribe.Subscribe_write fuel self)) /\
  (forall (path : list N) (qos : Base.QoS), returns_silently (SrcV4Subscribe.SubscribeFilter_new path qos) (TraceV4Subscribe.SubscribeFilter_new path qos)).
Proof.
  split; [intros; apply return_q, qV4Subscribe_Subscribe_new|].
  split; [intros; apply return_q, qV4Subscribe_Subscribe_new_many|].
  split; [intros; apply return_q, qV4Subscribe_Subscribe_add|].
  split; [intros; apply return_q, qV4Subscribe_SubscribeFilter_len|].
  split; [intros; apply return_q, qV4Subscribe_Subscribe_len|].
  split; [intros; apply return_q, qV4Subscribe_Subscribe_read|].
  split; [intros; apply run_q, qV4Subscribe_SubscribeFilter_write|].
  split; [intros; apply run_q, qV4Subscribe_Subscribe_write|].
  intros; apply return_q, qV4Subscribe_SubscribeFilter_new.
Qed.

(** src/v4/unsuback.rs *)
Theorem C76_v4_unsuback_silent :
  (forall (pkid : N), returns_silently (SrcV4UnsubAck.UnsubAck_new pkid) (TraceV4UnsubAck.UnsubAck_new pkid)) /\
  (forall (fixed_header : Lib.FixedHeader) (bytes : list N), returns_silently (SrcV4UnsubAck.UnsubAck_read fixed_header bytes) (TraceV4UnsubAck.UnsubAck_read fixed_header bytes)) /\
  (forall (self : V4UnsubAck.UnsubAck), runs_silently (SrcV4UnsubAck.UnsubAck_write self) (TraceV4UnsubAck.UnsubAck_write self)).
Proof.
  split; [intros; apply return_q, qV4UnsubAck_UnsubAck_new|].
  split; [intros; apply return_q, qV4UnsubAck_UnsubAck_read|].
  intros; apply run_q, qV4UnsubAck_UnsubAck_write.
Qed.

(** src/v4/unsubscribe.rs *)
Theorem C76_v4_unsubscribe_silent :
  (forall (topic : list N), returns_silently (SrcV4Unsubscribe.Unsubscribe_new topic) (TraceV4Unsubscribe.Unsubscribe_new topic)) /\
  (forall (fuel : nat) (fixed_header : Lib.FixedHeader) (bytes : list N), returns_silently (SrcV4Unsubscribe.Unsubscribe_read fuel fixed_header bytes) (TraceV4Unsubscribe.Unsubscribe_read fuel fixed_header bytes)) /\
  (forall (fuel : nat) (self : V4Unsubscribe.Unsubscribe), runs_silently (SrcV4Unsubscribe.Unsubscribe_write fuel self) (TraceV4Unsubscribe.Unsubscribe_write fuel self)).
Proof.
  split; [intros; apply return_q, qV4Unsubscribe_Unsubscribe_new|].
  split; [intros; apply return_q, qV4Unsubscribe_Unsubscribe_read|].
  intros; apply run_q, qV4Unsubscribe_Unsubscribe_write.
Qed.

(** src/v4/mod.rs *)
Theorem C76_v4_mod_silent :
  (forall (fuel : nat) (max_size : N), runs_silently (SrcV4Mod.read fuel max_size) (TraceV4Mod.read fuel max_size)).
Proof.
  intros; apply run_q, qV4Mod_read.
Qed.

(** src/v5/ping.rs *)
Theorem C76_v5_ping_silent :
  (runs_silently (SrcV5Ping.PingReq_write ) (TraceV5Ping.PingReq_write )) /\
  (runs_silently (SrcV5Ping.PingResp_write ) (TraceV5Ping.PingResp_write )).
Proof.
  split; [intros; apply run_q, qV5Ping_PingReq_write|].
  intros; apply run_q, qV5Ping_PingResp_write.
Qed.

(** src/v5/mod.rs *)
Theorem C76_v5_mod_silent :
  (forall (num : N), returns_silently (SrcV5Property.property num) (TraceV5Property.property num)).
Proof.
  intros; apply return_q, qV5Property_property.
Qed.

(** src/v5/connack.rs *)
Theorem C76_v5_connack_silent :
  (forall (code : V5ConnAck.ConnectReturnCode) (session_present : bool), returns_silently (SrcV5ConnAck.ConnAck_new code session_present) (TraceV5ConnAck.ConnAck_new code session_present)) /\
  (forall (self : V5ConnAck.ConnAckProperties), returns_silently (SrcV5ConnAck.ConnAckProperties_len self) (TraceV5ConnAck.ConnAckProperties_len self)) /\
  (forall (self : V5ConnAck.ConnAck), returns_silently (SrcV5ConnAck.ConnAck_len self) (TraceV5ConnAck.ConnAck_len self)) /\
  (forall (num : N), returns_silently (SrcV5ConnAck.connect_return num) (TraceV5ConnAck.connect_return num)) /\
  (forall (fuel : nat), runs_silently (SrcV5ConnAck.ConnAckProperties_extract fuel) (TraceV5ConnAck.ConnAckProperties_extract fuel)) /\
  (forall (fuel : nat) (fixed_header : Lib.FixedHeader) (bytes : list N), returns_silently (SrcV5ConnAck.ConnAck_read fuel fixed_header bytes) (TraceV5ConnAck.ConnAck_read fuel fixed_header bytes)) /\
  (forall (fuel : nat) (self : V5ConnAck.ConnAckProperties), runs_silently (SrcV5ConnAck.ConnAckProperties_write fuel self) (TraceV5ConnAck.ConnAckProperties_write fuel self)) /\
  (forall (fuel : nat) (self : V5ConnAck.ConnAck), runs_silently (SrcV5ConnAck.ConnAck_write fuel self) (TraceV5ConnAck.ConnAck_write fuel self)) /\
  (returns_silently (SrcV5ConnAck.ConnAckProperties_new ) (TraceV5ConnAck.ConnAckProperties_new )).
Proof.
  split; [intros; apply return_q, qV5ConnAck_ConnAck_new|].
  split; [intros; apply return_q, qV5ConnAck_ConnAckProperties_len|].
  split; [intros; apply return_q, qV5ConnAck_ConnAck_len|].
  split; [intros; apply return_q, qV5ConnAck_connect_return|].
  split; [intros; apply run_q, qV5ConnAck_ConnAckProperties_extract|].
  split; [intros; apply return_q, qV5ConnAck_ConnAck_read|].
  split; [intros; apply run_q, qV5ConnAck_ConnAckProperties_write|].
  split; [intros; apply run_q, qV5ConnAck_ConnAck_write|].
  intros; apply return_q, qV5ConnAck_ConnAckProperties_new.
Qed.

(** src/v5/connect.rs *)
Theorem C76_v5_connect_silent :
  (forall (id : list N), returns_silently (SrcV5Connect.Connect_new id) (TraceV5Connect.Connect_new id)) /\
  (forall (self : V5Connect.Connect) (u : list N) (p : list N), returns_silently (SrcV5Connect.Connect_set_login self u p) (TraceV5Connect.Connect_set_login self u p)) /\
  (forall (self : V5Connect.ConnectProperties), returns_silently (SrcV5Connect.ConnectProperties_len self) (TraceV5Connect.ConnectProperties_len self)) /\
  (forall (self : V5Connect.WillProperties), returns_silently (SrcV5Connect.WillProperties_len self) (TraceV5Connect.WillProperties_len self)) /\
  (forall (self : V5Connect.LastWill), returns_silently (SrcV5Connect.LastWill_len self) (TraceV5Connect.LastWill_len self)) /\
  (forall (self : V5Connect.Login), returns_silently (SrcV5Connect.Login_len self) (TraceV5Connect.Login_len self)) /\
  (forall (self : V5Connect.Connect), returns_silently (SrcV5Connect.Connect_len self) (TraceV5Connect.Connect_len self)) /\
  (forall (fuel : nat), runs_silently (SrcV5Connect.ConnectProperties_read fuel) (TraceV5Connect.ConnectProperties_read fuel)) /\
  (forall (fuel : nat), runs_silently (SrcV5Connect.WillProperties_read fuel) (TraceV5Connect.WillProperties_read fuel)) /\
  (forall (fuel : nat) (connect_flags : N), runs_silently (SrcV5Connect.LastWill_read fuel connect_flags) (TraceV5Connect.LastWill_read fuel connect_flags)) /\
  (forall (connect_flags : N), runs_silently (SrcV5Connect.Login_read connect_flags) (TraceV5Connect.Login_read connect_flags)) /\
  (forall (fuel : nat) (fixed_header : Lib.FixedHeader) (bytes : list N), returns_silently (SrcV5Connect.Connect_read fuel fixed_header bytes) (TraceV5Connect.Connect_read fuel fixed_header bytes)) /\
  (forall (fuel : nat) (self : V5Connect.ConnectProperties), runs_silently (SrcV5Connect.ConnectProperties_write fuel self) (TraceV5Connect.ConnectProperties_write fuel self)) /\
  (forall (fuel : nat) (self : V5Connect.WillProperties), runs_silently (SrcV5Connect.WillProperties_write fuel self) (TraceV5Connect.WillProperties_write fuel self)) /\
  (forall (fuel : nat) (self : V5Connect.LastWill), runs_silently (SrcV5Connect.LastWill_write fuel self) (TraceV5Connect.LastWill_write fuel self)) /\
  (forall (self : V5Connect.Login), runs_silently (SrcV5Connect.Login_write self) (TraceV5Connect.Login_write self)) /\
  (forall (fuel : nat) (self : V5Connect.Connect), runs_silently (SrcV5Connect.Connect_write fuel self) (TraceV5Connect.Connect_write fuel self)) /\
  (forall (topic : list N) (payload : list N) (qos : Base.QoS) (retain : bool), returns_silently (SrcV5Connect.LastWill_new topic payload qos retain) (TraceV5Connect.LastWill_new topic payload qos retain)) /\
  (forall (u : list N) (p : list N), returns_silently (SrcV5Connect.Login_new u p) (TraceV5Connect.Login_new u p)) /\
  (returns_silently (SrcV5Connect.ConnectProperties__new ) (TraceV5Connect.ConnectProperties__new )).
Proof.
  split; [intros; apply return_q, qV5Connect_Connect_new|].
  split; [intros; apply return_q, qV5Connect_Connect_set_login|].
  split; [intros; apply return_q, qV5Connect_ConnectProperties_len|].
  split; [intros; apply return_q, qV5Connect_WillProperties_len|].
  split; [intros; apply return_q, qV5Connect_LastWill_len|].
  split; [intros; apply return_q, qV5Connect_Login_len|].
  split; [intros; apply return_q, qV5Connect_Connect_len|].
  split; [intros; apply run_q, qV5Connect_ConnectProperties_read|].
  split; [intros; apply run_q, qV5Connect_WillProperties_read|].
  split; [intros; apply run_q, qV5Connect_LastWill_read|].
  split; [intros; apply run_q, qV5Connect_Login_read|].
  split; [intros; apply return_q, qV5Connect_Connect_read|].
  split; [intros; apply run_q, qV5Connect_ConnectProperties_write|].
  split; [intros; apply run_q, qV5Connect_WillProperties_write|].
  split; [intros; apply run_q, qV5Connect_LastWill_write|].
  split; [intros; apply run_q, qV5Connect_Login_write|].
  split; [intros; apply run_q, qV5Connect_Connect_write|].
  split; [intros; apply return_q, qV5Connect_LastWill_new|].
  split; [intros; apply return_q, qV5Connect_Login_new|].
  intros; apply return_q, qV5Connect_ConnectProperties__new.
Qed.

(** src/v5/disconnect.rs *)
Theorem C76_v5_disconnect_silent :
  (forall (value : N), returns_silently (SrcV5Disconnect.DisconnectReasonCode_try_from value) (TraceV5Disconnect.DisconnectReasonCode_try_from value)) /\
  (returns_silently (SrcV5Disconnect.DisconnectProperties_new ) (TraceV5Disconnect.DisconnectProperties_new )) /\
  (forall (self : V5Disconnect.DisconnectProperties), returns_silently (SrcV5Disconnect.DisconnectProperties_len self) (TraceV5Disconnect.DisconnectProperties_len self)) /\
  (forall (fuel : nat), runs_silently (SrcV5Disconnect.DisconnectProperties_extract fuel) (TraceV5Disconnect.DisconnectProperties_extract fuel)) /\
  (forall (fuel : nat) (self : V5Disconnect.DisconnectProperties), runs_silently (SrcV5Disconnect.DisconnectProperties_write fuel self) (TraceV5Disconnect.DisconnectProperties_write fuel self)) /\
  (returns_silently (SrcV5Disconnect.Disconnect_new ) (TraceV5Disconnect.Disconnect_new )) /\
  (forall (self : V5Disconnect.Disconnect), returns_silently (SrcV5Disconnect.Disconnect_len self) (TraceV5Disconnect.Disconnect_len self)) /\
  (forall (fuel : nat) (fixed_header : Lib.FixedHeader) (bytes : list N), returns_silently (SrcV5Disconnect.Disconnect_read fuel fixed_header bytes) (TraceV5Disconnect.Disconnect_read fuel fixed_header bytes)) /\
  (forall (fuel : nat) (self : V5Disconnect.Disconnect), runs_silently (SrcV5Disconnect.Disconnect_write fuel self) (TraceV5Disconnect.Disconnect_write fuel self)).
Proof.
  split; [intros; apply return_q, qV5Disconnect_DisconnectReasonCode_try_from|].
  split; [intros; apply return_q, qV5Disconnect_DisconnectProperties_new|].
  split; [intros; apply return_q, qV5Disconnect_DisconnectProperties_len|].
  split; [intros; apply run_q, qV5Disconnect_DisconnectProperties_extract|].
  split; [intros; apply run_q, qV5Disconnect_DisconnectProperties_write|].
  split; [intros; apply return_q, qV5Disconnect_Disconnect_new|].
  split; [intros; apply return_q, qV5Disconnect_Disconnect_len|].
  split; [intros; apply return_q, qV5Disconnect_Disconnect_read|].
  intros; apply run_q, qV5Disconnect_Disconnect_write.
Qed.

(** src/v5/puback.rs *)
Theorem C76_v5_puback_silent :
  (forall (pkid : N), returns_silently (SrcV5PubAck.PubAck_new pkid) (TraceV5PubAck.PubAck_new pkid)) /\
  (forall (self : V5PubAck.PubAckProperties), returns_silently (SrcV5PubAck.PubAckProperties_len self) (TraceV5PubAck.PubAckProperties_len self)) /\
  (forall (self : V5PubAck.PubAck), returns_silently (SrcV5PubAck.PubAck_len self) (TraceV5PubAck.PubAck_len self)) /\
  (forall (num : N), returns_silently (SrcV5PubAck.reason num) (TraceV5PubAck.reason num)) /\
  (forall (fuel : nat), runs_silently (SrcV5PubAck.PubAckProperties_extract fuel) (TraceV5PubAck.PubAckProperties_extract fuel)) /\
  (forall (fuel : nat) (fixed_header : Lib.FixedHeader) (bytes : list N), returns_silently (SrcV5PubAck.PubAck_read fuel fixed_header bytes) (TraceV5PubAck.PubAck_read fuel fixed_header bytes)) /\
  (forall (fuel : nat) (self : V5PubAck.PubAckProperties), runs_silently (SrcV5PubAck.PubAckProperties_write fuel self) (TraceV5PubAck.PubAckProperties_write fuel self)) /\
  (forall (fuel : nat) (self : V5PubAck.PubAck), runs_silently (SrcV5PubAck.PubAck_write fuel self) (TraceV5PubAck.PubAck_write fuel self)).
Proof.
  split; [intros; apply return_q, qV5PubAck_PubAck_new|].
  split; [intros; apply return_q, qV5PubAck_PubAckProperties_len|].
  split; [intros; apply return_q, qV5PubAck_PubAck_len|].
  split; [intros; apply return_q, qV5PubAck_reason|].
  split; [intros; apply run_q, qV5PubAck_PubAckProperties_extract|].
  split; [intros; apply return_q, qV5PubAck_PubAck_read|].
  split; [intros; apply run_q, qV5PubAck_PubAckProperties_write|].
  intros; apply run_q, qV5PubAck_PubAck_write.
Qed.

(** src/v5/pubcomp.rs *)
Theorem C76_v5_pubcomp_silent :
  (forall (pkid : N), returns_silently (SrcV5PubComp.PubComp_new pkid) (TraceV5PubComp.PubComp_new pkid)) /\
  (forall (self : V5PubComp.PubCompProperties), returns_silently (SrcV5PubComp.PubCompProperties_len self) (TraceV5PubComp.PubCompProperties_len self)) /\
  (forall (self : V5PubComp.PubComp), returns_silently (SrcV5PubComp.PubComp_len self) (TraceV5PubComp.PubComp_len self)) /\
  (forall (num : N), returns_silently (SrcV5PubComp.reason num) (TraceV5PubComp.reason num)) /\
  (forall (fuel : nat), runs_silently (SrcV5PubComp.PubCompProperties_extract fuel) (TraceV5PubComp.PubCompProperties_extract fuel)) /\
  (forall (fuel : nat) (fixed_header : Lib.FixedHeader) (bytes : list N), returns_silently (SrcV5PubComp.PubComp_read fuel fixed_header bytes) (TraceV5PubComp.PubComp_read fuel fixed_header bytes)) /\
  (forall (fuel : nat) (self : V5PubComp.PubCompProperties), runs_silently (SrcV5PubComp.PubCompProperties_write fuel self) (TraceV5PubComp.PubCompProperties_write fuel self)) /\
  (forall (fuel : nat) (self : V5PubComp.PubComp), runs_silently (SrcV5PubComp.PubComp_write fuel self) (TraceV5PubComp.PubComp_write fuel self)).
Proof.
  split; [intros; apply return_q, qV5PubComp_PubComp_new|].
  split; [intros; apply return_q, qV5PubComp_PubCompProperties_len|].
  split; [intros; apply return_q, qV5PubComp_PubComp_len|].
  split; [intros; apply return_q, qV5PubComp_reason|].
  split; [intros; apply run_q, qV5PubComp_PubCompProperties_extract|].
  split; [intros; apply return_q, qV5PubComp_PubComp_read|].
  split; [intros; apply run_q, qV5PubComp_PubCompProperties_write|].
  intros; apply run_q, qV5PubComp_PubComp_write.
Qed.

(** src/v5/pubrec.rs *)
Theorem C76_v5_pubrec_silent :
  (forall (pkid : N), returns_silently (SrcV5PubRec.PubRec_new pkid) (TraceV5PubRec.PubRec_new pkid)) /\
  (forall (self : V5PubRec.PubRecProperties), returns_silently (SrcV5PubRec.PubRecProperties_len self) (TraceV5PubRec.PubRecProperties_len self)) /\
  (forall (self : V5PubRec.PubRec), returns_silently (SrcV5PubRec.PubRec_len self) (TraceV5PubRec.PubRec_len self)) /\
  (forall (num : N), returns_silently (SrcV5PubRec.reason num) (TraceV5PubRec.reason num)) /\
  (forall (fuel : nat), runs_silently (SrcV5PubRec.PubRecProperties_extract fuel) (TraceV5PubRec.PubRecProperties_extract fuel)) /\
  (forall (fuel : nat) (fixed_header : Lib.FixedHeader) (bytes : list N), returns_silently (SrcV5PubRec.PubRec_read fuel fixed_header bytes) (TraceV5PubRec.PubRec_read fuel fixed_header bytes)) /\
  (forall (fuel : nat) (self : V5PubRec.PubRecProperties), runs_silently (SrcV5PubRec.PubRecProperties_write fuel self) (TraceV5PubRec.PubRecProperties_write fuel self)) /\
  (forall (fuel : nat) (self : V5PubRec.PubRec), runs_silently (SrcV5PubRec.PubRec_write fuel self) (TraceV5PubRec.PubRec_write fuel self)).
Proof.
  split; [intros; apply return_q, qV5PubRec_PubRec_new|].
  split; [intros; apply return_q, qV5PubRec_PubRecProperties_len|].
  split; [intros; apply return_q, qV5PubRec_PubRec_len|].
  split; [intros; apply return_q, qV5PubRec_reason|].
  split; [intros; apply run_q, qV5PubRec_PubRecProperties_extract|].
  split; [intros; apply return_q, qV5PubRec_PubRec_read|].
  split; [intros; apply run_q, qV5PubRec_PubRecProperties_write|].
  intros; apply run_q, qV5PubRec_PubRec_write.
Qed.

(** src/v5/pubrel.rs *)
Theorem C76_v5_pubrel_silent :
  (forall (pkid : N), returns_silently (SrcV5PubRel.PubRel_new pkid) (TraceV5PubRel.PubRel_new pkid)) /\
  (forall (self : V5PubRel.PubRelProperties), returns_silently (SrcV5PubRel.PubRelProperties_len self) (TraceV5PubRel.PubRelProperties_len self)) /\
  (forall (self : V5PubRel.PubRel), returns_silently (SrcV5PubRel.PubRel_len self) (TraceV5PubRel.PubRel_len self)) /\
  (forall (num : N), returns_silently (SrcV5PubRel.reason num) (TraceV5PubRel.reason num)) /\
  (forall (fuel : nat), runs_silently (SrcV5PubRel.PubRelProperties_extract fuel) (TraceV5PubRel.PubRelProperties_extract fuel)) /\
  (forall (fuel : nat) (fixed_header : Lib.FixedHeader) (bytes : list N), returns_silently (SrcV5PubRel.PubRel_read fuel fixed_header bytes) (TraceV5PubRel.PubRel_read fuel fixed_header bytes)) /\
  (forall (fuel : nat) (self : V5PubRel.PubRelProperties), runs_silently (SrcV5PubRel.PubRelProperties_write fuel self) (TraceV5PubRel.PubRelProperties_write fuel self)) /\
  (forall (fuel : nat) (self : V5PubRel.PubRel), runs_silently (SrcV5PubRel.PubRel_write fuel self) (TraceV5PubRel.PubRel_write fuel self)).
Proof.
  split; [intros; apply return_q, qV5PubRel_PubRel_new|].
  split; [intros; apply return_q, qV5PubRel_PubRelProperties_len|].
  split; [intros; apply return_q, qV5PubRel_PubRel_len|].
  split; [intros; apply return_q, qV5PubRel_reason|].
  split; [intros; apply run_q, qV5PubRel_PubRelProperties_extract|].
  split; [intros; apply return_q, qV5PubRel_PubRel_read|].
  split; [intros; apply run_q, qV5PubRel_PubRelProperties_write|].
  intros; apply run_q, qV5PubRel_PubRel_write.
Qed.

(** src/v5/publish.rs *)
Theorem C76_v5_publish_silent :
  (forall (topic : list N) (qos : Base.QoS) (payload : list N), returns_silently (SrcV5Publish.Publish_new topic qos payload) (TraceV5Publish.Publish_new topic qos payload)) /\
  (forall (topic : list N) (qos : Base.QoS) (payload : list N), returns_silently (SrcV5Publish.Publish_from_bytes topic qos payload) (TraceV5Publish.Publish_from_bytes topic qos payload)) /\
  (forall (self : V5Publish.PublishProperties), returns_silently (SrcV5Publish.PublishProperties_len self) (TraceV5Publish.PublishProperties_len self)) /\
  (forall (self : V5Publish.Publish), returns_silently (SrcV5Publish.Publish_len self) (TraceV5Publish.Publish_len self)) /\
  (forall (fuel : nat), runs_silently (SrcV5Publish.PublishProperties_extract fuel) (TraceV5Publish.PublishProperties_extract fuel)) /\
  (forall (fuel : nat) (fixed_header : Lib.FixedHeader) (bytes : list N), returns_silently (SrcV5Publish.Publish_read fuel fixed_header bytes) (TraceV5Publish.Publish_read fuel fixed_header bytes)) /\
  (forall (fuel : nat) (self : V5Publish.PublishProperties), runs_silently (SrcV5Publish.PublishProperties_write fuel self) (TraceV5Publish.PublishProperties_write fuel self)) /\
  (forall (fuel : nat) (self : V5Publish.Publish), runs_silently (SrcV5Publish.Publish_write fuel self) (TraceV5Publish.Publish_write fuel self)).
Proof.
  split; [intros; apply return_q, qV5Publish_Publish_new|].
  split; [intros; apply return_q, qV5Publish_Publish_from_bytes|].
  split; [intros; apply return_q, qV5Publish_PublishProperties_len|].
  split; [intros; apply return_q, qV5Publish_Publish_len|].
  split; [intros; apply run_q, qV5Publish_PublishProperties_extract|].
  split; [intros; apply return_q, qV5Publish_Publish_read|].
  split; [intros; apply run_q, qV5Publish_PublishProperties_write|].
  intros; apply run_q, qV5Publish_Publish_write.
Qed.

(** src/v5/suback.rs *)
Theorem C76_v5_suback_silent :
  (forall (pkid : N) (return_codes : list V5SubAck.SubscribeReasonCode), returns_silently (SrcV5SubAck.SubAck_new pkid return_codes) (TraceV5SubAck.SubAck_new pkid return_codes)) /\
  (forall (self : V5SubAck.SubAckProperties), returns_silently (SrcV5SubAck.SubAckProperties_len self) (TraceV5SubAck.SubAckProperties_len self)) /\
  (forall (self : V5SubAck.SubAck), returns_silently (SrcV5SubAck.SubAck_len self) (TraceV5SubAck.SubAck_len self)) /\
  (forall (fuel : nat), runs_silently (SrcV5SubAck.SubAckProperties_extract fuel) (TraceV5SubAck.SubAckProperties_extract fuel)) /\
  (forall (value : N), returns_silently (SrcV5SubAck.SubscribeReasonCode_try_from value) (TraceV5SubAck.SubscribeReasonCode_try_from value)) /\
  (forall (fuel : nat) (fixed_header : Lib.FixedHeader) (bytes : list N), returns_silently (SrcV5SubAck.SubAck_read fuel fixed_header bytes) (TraceV5SubAck.SubAck_read fuel fixed_header bytes)) /\
  (forall (fuel : nat) (self : V5SubAck.SubAckProperties), runs_silently (SrcV5SubAck.SubAckProperties_write fuel self) (TraceV5SubAck.SubAckProperties_write fuel self)) /\
  (forall (fuel : nat) (self : V5SubAck.SubAck), runs_silently (SrcV5SubAck.SubAck_write fuel self) (TraceV5SubAck.SubAck_write fuel self)).
Proof.
  split; [intros; apply return_q, qV5SubAck_SubAck_new|].
  split; [intros; apply return_q, qV5SubAck_SubAckProperties_len|].
  split; [intros; apply return_q, qV5SubAck_SubAck_len|].
  split; [intros; apply run_q, qV5SubAck_SubAckProperties_extract|].
  split; [intros; apply return_q, qV5SubAck_SubscribeReasonCode_try_from|].
  split; [intros; apply return_q, qV5SubAck_SubAck_read|].
  split; [intros; apply run_q, qV5SubAck_SubAckProperties_write|].
  intros; apply run_q, qV5SubAck_SubAck_write.
Qed.

(** src/v5/subscribe.rs *)
Theorem C76_v5_subscribe_silent :
  (forall (path : list N) (qos : Base.QoS), returns_silently (SrcV5Subscribe.Subscribe_new path qos) (TraceV5Subscribe.Subscribe_new path qos)) /\
  (forall (topics : list V5Subscribe.SubscribeFilter), returns_silently (SrcV5Subscribe.Subscribe_new_many topics) (TraceV5Subscribe.Subscribe_new_many topics)) /\
  (returns_silently (SrcV5Subscribe.Subscribe_empty_subscribe ) (TraceV5Subscribe.Subscribe_empty_subscribe )) /\
  (forall (self : V5Subscribe.Subscribe) (path : list N) (qos : Base.QoS), returns_silently (SrcV5Subscribe.Subscribe_add self path qos) (TraceV5Subscribe.Subscribe_add self path qos)) /\
  (forall (self : V5Subscribe.SubscribeFilter), returns_silently (SrcV5Subscribe.SubscribeFilter_len self) (TraceV5Subscribe.SubscribeFilter_len self)) /\
  (forall (self : V5Subscribe.SubscribeProperties), returns_silently (SrcV5Subscribe.SubscribeProperties_len self) (TraceV5Subscribe.SubscribeProperties_len self)) /\
  (forall (self : V5Subscribe.Subscribe), returns_silently (SrcV5Subscribe.Subscribe_len self) (TraceV5Subscribe.Subscribe_len self)) /\
  (forall (fuel : nat), runs_silently (SrcV5Subscribe.SubscribeProperties_extract fuel) (TraceV5Subscribe.SubscribeProperties_extract fuel)) /\
  (forall (fuel : nat) (fixed_header : Lib.FixedHeader) (bytes : list N), returns_silently (SrcV5Subscribe.Subscribe_read fuel fixed_header bytes) (TraceV5Subscribe.Subscribe_read fuel fixed_header bytes)) /\
  (forall (fuel : nat) (self : V5Subscribe.SubscribeProperties), runs_silently (SrcV5Subscribe.SubscribeProperties_write fuel self) (TraceV5Subscribe.SubscribeProperties_write fuel self)) /\
  (forall (self : V5Subscribe.SubscribeFilter), runs_silently (SrcV5Subscribe.SubscribeFilter_write self) (TraceV5Subscribe.SubscribeFilter_write self)) /\
  (forall (fuel : nat) (self : V5Subscribe.Subscribe), runs_silently (SrcV5Subscribe.Subscribe_write fuel self) (TraceV5Subscribe.Subscribe_write fuel self)) /\
  (forall (path : list N) (qos : Base.QoS), returns_silently (SrcV5Subscribe.SubscribeFilter_new path qos) (TraceV5Subscribe.SubscribeFilter_new path qos)) /\
  (forall (self : V5Subscribe.SubscribeFilter) (flag : bool), returns_silently (SrcV5Subscribe.SubscribeFilter_set_nolocal self flag) (TraceV5Subscribe.SubscribeFilter_set_nolocal self flag)) /\
  (forall (self : V5Subscribe.SubscribeFilter) (flag : bool), returns_silently (SrcV5Subscribe.SubscribeFilter_set_preserve_retain self flag) (TraceV5Subscribe.SubscribeFilter_set_preserve_retain self flag)) /\
  (forall (self : V5Subscribe.SubscribeFilter) (rule : V5Subscribe.RetainForwardRule), returns_silently (SrcV5Subscribe.SubscribeFilter_set_retain_forward_rule self rule) (TraceV5Subscribe.SubscribeFilter_set_retain_forward_rule self rule)).
Proof.
  split; [intros; apply return_q, qV5Subscribe_Subscribe_new|].
  split; [intros; apply return_q, qV5Subscribe_Subscribe_new_many|].
  split; [intros; apply return_q, qV5Subscribe_Subscribe_empty_subscribe|].
  split; [intros; apply return_q, qV5Subscribe_Subscribe_add|].
  split; [intros; apply return_q, qV5Subscribe_SubscribeFilter_len|].
  split; [intros; apply return_q, qV5Subscribe_SubscribeProperties_len|].
  split; [intros; apply return_q, qV5Subscribe_Subscribe_len|].
  split; [intros; apply run_q, qV5Subscribe_SubscribeProperties_extract|].
  split; [intros; apply return_q, qV5Subscribe_Subscribe_read|].
  split; [intros; apply run_q, qV5Subscribe_SubscribeProperties_write|].
  split; [intros; apply run_q, qV5Subscribe_SubscribeFilter_write|].
  split; [intros; apply run_q, qV5Subscribe_Subscribe_write|].
  split; [intros; apply return_q, qV5Subscribe_SubscribeFilter_new|].
  split; [intros; apply return_q, qV5Subscribe_SubscribeFilter_set_nolocal|].
  split; [intros; apply return_q, qV5Subscribe_SubscribeFilter_set_preserve_retain|].
  intros; apply return_q, qV5Subscribe_SubscribeFilter_set_retain_forward_rule.
Qed.

(** src/v5/unsuback.rs *)
Theorem C76_v5_unsuback_silent :
  (forall (pkid : N), returns_silently (SrcV5UnsubAck.UnsubAck_new pkid) (TraceV5UnsubAck.UnsubAck_new pkid)) /\
  (forall (self : V5UnsubAck.UnsubAckProperties), returns_silently (SrcV5UnsubAck.UnsubAckProperties_len self) (TraceV5UnsubAck.UnsubAckProperties_len self)) /\
  (forall (self : V5UnsubAck.UnsubAck), returns_silently (SrcV5UnsubAck.UnsubAck_len self) (TraceV5UnsubAck.UnsubAck_len self)) /\
  (forall (fuel : nat), runs_silently (SrcV5UnsubAck.UnsubAckProperties_extract fuel) (TraceV5UnsubAck.UnsubAckProperties_extract fuel)) /\
  (forall (num : N), returns_silently (SrcV5UnsubAck.reason num) (TraceV5UnsubAck.reason num)) /\
  (forall (fuel : nat) (fixed_header : Lib.FixedHeader) (bytes : list N), returns_silently (SrcV5UnsubAck.UnsubAck_read fuel fixed_header bytes) (TraceV5UnsubAck.UnsubAck_read fuel fixed_header bytes)) /\
  (forall (fuel : nat) (self : V5UnsubAck.UnsubAckProperties), runs_silently (SrcV5UnsubAck.UnsubAckProperties_write fuel self) (TraceV5UnsubAck.UnsubAckProperties_write fuel self)) /\
  (forall (fuel : nat) (self : V5UnsubAck.UnsubAck), runs_silently (SrcV5UnsubAck.UnsubAck_write fuel self) (TraceV5UnsubAck.UnsubAck_write fuel self)).
Proof.
  split; [intros; apply return_q, qV5UnsubAck_UnsubAck_new|].
  split; [intros; apply return_q, qV5UnsubAck_UnsubAckProperties_len|].
  split; [intros; apply return_q, qV5UnsubAck_UnsubAck_len|].
  split; [intros; apply run_q, qV5UnsubAck_UnsubAckProperties_extract|].
  split; [intros; apply return_q, qV5UnsubAck_reason|].
  split; [intros; apply return_q, qV5UnsubAck_UnsubAck_read|].
  split; [intros; apply run_q, qV5UnsubAck_UnsubAckProperties_write|].
  intros; apply run_q, qV5UnsubAck_UnsubAck_write.
Qed.

(** src/v5/unsubscribe.rs *)
Theorem C76_v5_unsubscribe_silent :
  (forall (topic : list N), returns_silently (SrcV5Unsubscribe.Unsubscribe_new topic) (TraceV5Unsubscribe.Unsubscribe_new topic)) /\
  (forall (self : V5Unsubscribe.UnsubscribeProperties), returns_silently (SrcV5Unsubscribe.UnsubscribeProperties_len self) (TraceV5Unsubscribe.UnsubscribeProperties_len self)) /\
  (forall (self : V5Unsubscribe.Unsubscribe), returns_silently (SrcV5Unsubscribe.Unsubscribe_len self) (TraceV5Unsubscribe.Unsubscribe_len self)) /\
  (forall (fuel : nat), runs_silently (SrcV5Unsubscribe.UnsubscribeProperties_extract fuel) (TraceV5Unsubscribe.UnsubscribeProperties_extract fuel)) /\
  (forall (fuel : nat) (self : V5Unsubscribe.UnsubscribeProperties), runs_silently (SrcV5Unsubscribe.UnsubscribeProperties_write fuel self) (TraceV5Unsubscribe.UnsubscribeProperties_write fuel self)) /\
  (forall (fuel : nat) (self : V5Unsubscribe.Unsubscribe), runs_silently (SrcV5Unsubscribe.Unsubscribe_write fuel self) (TraceV5Unsubscribe.Unsubscribe_write fuel self)).
Proof.
  split; [intros; apply return_q, qV5Unsubscribe_Unsubscribe_new|].
  split; [intros; apply return_q, qV5Unsubscribe_UnsubscribeProperties_len|].
  split; [intros; apply return_q, qV5Unsubscribe_Unsubscribe_len|].
  split; [intros; apply run_q, qV5Unsubscribe_UnsubscribeProperties_extract|].
  split; [intros; apply run_q, qV5Unsubscribe_UnsubscribeProperties_write|].
  intros; apply run_q, qV5Unsubscribe_Unsubscribe_write.
Qed.

Example C76_silent_case : TraceLib.write_mqtt_string [97; 47] [9] = ((Ok tt, []), [9; 0; 2; 97; 47]) /\
  TraceV4Mod.read 20 100 [162; 5; 1; 2; 0; 1; 97; 192; 0] =
    ((Ok (V4Mod.Unsubscribe (V4Unsubscribe.mkUnsubscribe 258 [[97]])), []), [192; 0]) /\
  TraceTopic.matches [97; 47; 98] [97; 47; 35] = (Ok true, []).
Proof. split; [|split]; vm_compute; reflexivity. Qed.

Print Assumptions C76_lib_silent.
Print Assumptions C76_topic_silent.
Print Assumptions C76_v4_connack_silent.
Print Assumptions C76_v4_connect_silent.
Print Assumptions C76_v4_disconnect_silent.
Print Assumptions C76_v4_ping_silent.
Print Assumptions C76_v4_puback_silent.
Print Assumptions C76_v4_pubcomp_silent.
Print Assumptions C76_v4_pubrec_silent.
Print Assumptions C76_v4_pubrel_silent.
Print Assumptions C76_v4_publish_silent.
Print Assumptions C76_v4_suback_silent.
Print Assumptions C76_v4_subscribe_silent.
Print Assumptions C76_v4_unsuback_silent.
Print Assumptions C76_v4_unsubscribe_silent.
Print Assumptions C76_v4_mod_silent.
Print Assumptions C76_v5_ping_silent.
Print Assumptions C76_v5_mod_silent.
Print Assumptions C76_v5_connack_silent.
Print Assumptions C76_v5_connect_silent.
Print Assumptions C76_v5_disconnect_silent.
Print Assumptions C76_v5_puback_silent.
Print Assumptions C76_v5_pubcomp_silent.
Print Assumptions C76_v5_pubrec_silent.
Print Assumptions C76_v5_pubrel_silent.
Print Assumptions C76_v5_publish_silent.
Print Assumptions C76_v5_suback_silent.
Print Assumptions C76_v5_subscribe_silent.
Print Assumptions C76_v5_unsuback_silent.
Print Assumptions C76_v5_unsubscribe_silent.

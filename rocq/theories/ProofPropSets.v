(** ProofPropSets.v -- generated by tools/gen_v5_props.py.  Instances of ProofProps for
    each property record of the v5 module. *)
From Verif Require Import ProofBase ProofLib ProofRead ProofV4Read SpecProps SpecPropSets V5Property ProofProps.
From Verif Require V5Connect V5ConnAck V5Publish V5PubAck V5PubRec V5PubRel V5PubComp
  V5Subscribe V5SubAck V5Unsubscribe V5UnsubAck V5Disconnect.

Ltac set_step step rec :=
  intros ty its s; destruct ty; cbn [property_u8]; try reflexivity;
  cbv [step];
  cbv [ty_type ptype_of property_u8 read_val];
  match goal with |- context [mem ?a ?b] => change (mem a b) with true end; cbv iota;
  unfold rbind, rlift, peek_length, rret;
  repeat match goal with
  | |- context [match ?m s with _ => _ end] => destruct (m s) as [[? ?]|?| |]; cbn [fst snd]; try reflexivity
  | |- context [match ?m ?t with Ok _ => _ | _ => _ end] => destruct (m t) as [[? ?]|?| |]; cbn [fst snd]; try reflexivity
  end;
  unfold rec; rewrite ?last_num_snoc, ?last_bytes_snoc, ?all_pairs_snoc, ?all_ids_snoc; reflexivity.

(** *** ConnectProperties *)
Lemma connect_step : forall ty its s,
  V5Connect.cp_props_step ty (property_u8 ty) (connect_record its) s =
  (if mem (property_u8 ty) (allowed_at InConnect)
   then (vd <-r read_val (ty_type ty) ;;
         rret (connect_record (its ++ [(property_u8 ty, fst vd)]), snd vd))
   else rerr (InvalidPropertyType (property_u8 ty))) s.
Proof. set_step V5Connect.cp_props_step connect_record. Qed.
Lemma wp_connect_extract s (Q : _ -> _ -> Prop) : bytes_ok s -> blen s <= huge ->
  (forall o bs s', s = bs ++ s' -> decodes_props (allowed_at InConnect) connect_record o bs -> bytes_ok s' -> Q o s') ->
  wp E5 (V5Connect.cp_extract s) Q.
Proof. exact (wp_extract _ connect_record _ connect_step s Q). Qed.
Lemma connect_extract_ok o bs s : blen bs <= huge -> decodes_props (allowed_at InConnect) connect_record o bs ->
  V5Connect.cp_extract (bs ++ s) = Ok (o, s).
Proof. exact (extract_ok _ connect_record _ connect_step o bs s). Qed.
Lemma connect_extract_bad f plen its bs c id s : lenfield f plen -> blen f <= 4 -> blen bs <= huge ->
  reads (allowed_at InConnect) plen 0 its bs c -> c < plen -> ~ In id (allowed_at InConnect) ->
  V5Connect.cp_extract (f ++ bs ++ id :: s) = Err (InvalidPropertyType id).
Proof. exact (extract_bad _ connect_record _ connect_step f plen its bs c id s). Qed.
Lemma connect_record_items p : connect_record (connect_items p) = p.
Proof.
  destruct p as [x0 x1 x2 x3 x4 x5 x6 x7 x8]. set (its := connect_items _).
  assert (Ex0 : last_num 17 its = x0)
    by (subst its; unfold connect_items; cbn [V5Connect.cp_session_expiry_interval V5Connect.cp_receive_maximum V5Connect.cp_max_packet_size V5Connect.cp_topic_alias_max V5Connect.cp_request_response_info V5Connect.cp_request_problem_info V5Connect.cp_user_properties V5Connect.cp_authentication_method V5Connect.cp_authentication_data]; set_lookup).
  assert (Ex1 : last_num 33 its = x1)
    by (subst its; unfold connect_items; cbn [V5Connect.cp_session_expiry_interval V5Connect.cp_receive_maximum V5Connect.cp_max_packet_size V5Connect.cp_topic_alias_max V5Connect.cp_request_response_info V5Connect.cp_request_problem_info V5Connect.cp_user_properties V5Connect.cp_authentication_method V5Connect.cp_authentication_data]; set_lookup).
  assert (Ex2 : last_num 39 its = x2)
    by (subst its; unfold connect_items; cbn [V5Connect.cp_session_expiry_interval V5Connect.cp_receive_maximum V5Connect.cp_max_packet_size V5Connect.cp_topic_alias_max V5Connect.cp_request_response_info V5Connect.cp_request_problem_info V5Connect.cp_user_properties V5Connect.cp_authentication_method V5Connect.cp_authentication_data]; set_lookup).
  assert (Ex3 : last_num 34 its = x3)
    by (subst its; unfold connect_items; cbn [V5Connect.cp_session_expiry_interval V5Connect.cp_receive_maximum V5Connect.cp_max_packet_size V5Connect.cp_topic_alias_max V5Connect.cp_request_response_info V5Connect.cp_request_problem_info V5Connect.cp_user_properties V5Connect.cp_authentication_method V5Connect.cp_authentication_data]; set_lookup).
  assert (Ex4 : last_num 25 its = x4)
    by (subst its; unfold connect_items; cbn [V5Connect.cp_session_expiry_interval V5Connect.cp_receive_maximum V5Connect.cp_max_packet_size V5Connect.cp_topic_alias_max V5Connect.cp_request_response_info V5Connect.cp_request_problem_info V5Connect.cp_user_properties V5Connect.cp_authentication_method V5Connect.cp_authentication_data]; set_lookup).
  assert (Ex5 : last_num 23 its = x5)
    by (subst its; unfold connect_items; cbn [V5Connect.cp_session_expiry_interval V5Connect.cp_receive_maximum V5Connect.cp_max_packet_size V5Connect.cp_topic_alias_max V5Connect.cp_request_response_info V5Connect.cp_request_problem_info V5Connect.cp_user_properties V5Connect.cp_authentication_method V5Connect.cp_authentication_data]; set_lookup).
  assert (Ex6 : all_pairs its = x6)
    by (subst its; unfold connect_items; cbn [V5Connect.cp_session_expiry_interval V5Connect.cp_receive_maximum V5Connect.cp_max_packet_size V5Connect.cp_topic_alias_max V5Connect.cp_request_response_info V5Connect.cp_request_problem_info V5Connect.cp_user_properties V5Connect.cp_authentication_method V5Connect.cp_authentication_data]; set_lookup).
  assert (Ex7 : last_bytes 21 its = x7)
    by (subst its; unfold connect_items; cbn [V5Connect.cp_session_expiry_interval V5Connect.cp_receive_maximum V5Connect.cp_max_packet_size V5Connect.cp_topic_alias_max V5Connect.cp_request_response_info V5Connect.cp_request_problem_info V5Connect.cp_user_properties V5Connect.cp_authentication_method V5Connect.cp_authentication_data]; set_lookup).
  assert (Ex8 : last_bytes 22 its = x8)
    by (subst its; unfold connect_items; cbn [V5Connect.cp_session_expiry_interval V5Connect.cp_receive_maximum V5Connect.cp_max_packet_size V5Connect.cp_topic_alias_max V5Connect.cp_request_response_info V5Connect.cp_request_problem_info V5Connect.cp_user_properties V5Connect.cp_authentication_method V5Connect.cp_authentication_data]; set_lookup).
  unfold connect_record. rewrite Ex0, Ex1, Ex2, Ex3, Ex4, Ex5, Ex6, Ex7, Ex8. reflexivity.
Qed.
Lemma connect_items_incl its : Forall item_typed its -> incl (connect_items (connect_record its)) its.
Proof. intros HF. unfold connect_record, connect_items. cbn [V5Connect.cp_session_expiry_interval V5Connect.cp_receive_maximum V5Connect.cp_max_packet_size V5Connect.cp_topic_alias_max V5Connect.cp_request_response_info V5Connect.cp_request_problem_info V5Connect.cp_user_properties V5Connect.cp_authentication_method V5Connect.cp_authentication_data]. set_incl HF. Qed.
Lemma connect_place p : Forall (has_place InConnect) (connect_items p).
Proof. unfold connect_items. set_place. Qed.
Lemma connect_props_len p : V5Connect.cp_props_len p = blen (items_bytes (connect_items p)).
Proof. cbv beta delta [V5Connect.cp_props_len connect_items]. set_len. Qed.
Lemma connect_props_write p b : V5Connect.cp_props_write p b = put_section (blen (items_bytes (connect_items p))) (connect_items p) b.
Proof.
  unfold V5Connect.cp_props_write. cbv zeta. rewrite connect_props_len. apply put_section_eq.
  cbv beta delta [connect_items]. set_write.
Qed.

(** *** WillProperties *)
Lemma will_step : forall ty its s,
  V5Connect.wp_props_step ty (property_u8 ty) (will_record its) s =
  (if mem (property_u8 ty) (allowed_at InWill)
   then (vd <-r read_val (ty_type ty) ;;
         rret (will_record (its ++ [(property_u8 ty, fst vd)]), snd vd))
   else rerr (InvalidPropertyType (property_u8 ty))) s.
Proof. set_step V5Connect.wp_props_step will_record. Qed.
Lemma wp_will_extract s (Q : _ -> _ -> Prop) : bytes_ok s -> blen s <= huge ->
  (forall o bs s', s = bs ++ s' -> decodes_props (allowed_at InWill) will_record o bs -> bytes_ok s' -> Q o s') ->
  wp E5 (V5Connect.wp_extract s) Q.
Proof. exact (wp_extract _ will_record _ will_step s Q). Qed.
Lemma will_extract_ok o bs s : blen bs <= huge -> decodes_props (allowed_at InWill) will_record o bs ->
  V5Connect.wp_extract (bs ++ s) = Ok (o, s).
Proof. exact (extract_ok _ will_record _ will_step o bs s). Qed.
Lemma will_extract_bad f plen its bs c id s : lenfield f plen -> blen f <= 4 -> blen bs <= huge ->
  reads (allowed_at InWill) plen 0 its bs c -> c < plen -> ~ In id (allowed_at InWill) ->
  V5Connect.wp_extract (f ++ bs ++ id :: s) = Err (InvalidPropertyType id).
Proof. exact (extract_bad _ will_record _ will_step f plen its bs c id s). Qed.
Lemma will_record_items p : will_record (will_items p) = p.
Proof.
  destruct p as [x0 x1 x2 x3 x4 x5 x6]. set (its := will_items _).
  assert (Ex0 : last_num 24 its = x0)
    by (subst its; unfold will_items; cbn [V5Connect.wp_delay_interval V5Connect.wp_payload_format_indicator V5Connect.wp_message_expiry_interval V5Connect.wp_content_type V5Connect.wp_response_topic V5Connect.wp_correlation_data V5Connect.wp_user_properties]; set_lookup).
  assert (Ex1 : last_num 1 its = x1)
    by (subst its; unfold will_items; cbn [V5Connect.wp_delay_interval V5Connect.wp_payload_format_indicator V5Connect.wp_message_expiry_interval V5Connect.wp_content_type V5Connect.wp_response_topic V5Connect.wp_correlation_data V5Connect.wp_user_properties]; set_lookup).
  assert (Ex2 : last_num 2 its = x2)
    by (subst its; unfold will_items; cbn [V5Connect.wp_delay_interval V5Connect.wp_payload_format_indicator V5Connect.wp_message_expiry_interval V5Connect.wp_content_type V5Connect.wp_response_topic V5Connect.wp_correlation_data V5Connect.wp_user_properties]; set_lookup).
  assert (Ex3 : last_bytes 3 its = x3)
    by (subst its; unfold will_items; cbn [V5Connect.wp_delay_interval V5Connect.wp_payload_format_indicator V5Connect.wp_message_expiry_interval V5Connect.wp_content_type V5Connect.wp_response_topic V5Connect.wp_correlation_data V5Connect.wp_user_properties]; set_lookup).
  assert (Ex4 : last_bytes 8 its = x4)
    by (subst its; unfold will_items; cbn [V5Connect.wp_delay_interval V5Connect.wp_payload_format_indicator V5Connect.wp_message_expiry_interval V5Connect.wp_content_type V5Connect.wp_response_topic V5Connect.wp_correlation_data V5Connect.wp_user_properties]; set_lookup).
  assert (Ex5 : last_bytes 9 its = x5)
    by (subst its; unfold will_items; cbn [V5Connect.wp_delay_interval V5Connect.wp_payload_format_indicator V5Connect.wp_message_expiry_interval V5Connect.wp_content_type V5Connect.wp_response_topic V5Connect.wp_correlation_data V5Connect.wp_user_properties]; set_lookup).
  assert (Ex6 : all_pairs its = x6)
    by (subst its; unfold will_items; cbn [V5Connect.wp_delay_interval V5Connect.wp_payload_format_indicator V5Connect.wp_message_expiry_interval V5Connect.wp_content_type V5Connect.wp_response_topic V5Connect.wp_correlation_data V5Connect.wp_user_properties]; set_lookup).
  unfold will_record. rewrite Ex0, Ex1, Ex2, Ex3, Ex4, Ex5, Ex6. reflexivity.
Qed.
Lemma will_items_incl its : Forall item_typed its -> incl (will_items (will_record its)) its.
Proof. intros HF. unfold will_record, will_items. cbn [V5Connect.wp_delay_interval V5Connect.wp_payload_format_indicator V5Connect.wp_message_expiry_interval V5Connect.wp_content_type V5Connect.wp_response_topic V5Connect.wp_correlation_data V5Connect.wp_user_properties]. set_incl HF. Qed.
Lemma will_place p : Forall (has_place InWill) (will_items p).
Proof. unfold will_items. set_place. Qed.
Lemma will_props_len p : V5Connect.wp_props_len p = blen (items_bytes (will_items p)).
Proof. cbv beta delta [V5Connect.wp_props_len will_items]. set_len. Qed.
Lemma will_props_write p b : V5Connect.wp_props_write p b = put_section (blen (items_bytes (will_items p))) (will_items p) b.
Proof.
  unfold V5Connect.wp_props_write. cbv zeta. rewrite will_props_len. apply put_section_eq.
  cbv beta delta [will_items]. set_write.
Qed.

(** *** ConnAckProperties *)
Lemma connack_step : forall ty its s,
  V5ConnAck.props_step ty (property_u8 ty) (connack_record its) s =
  (if mem (property_u8 ty) (allowed_at InConnAck)
   then (vd <-r read_val (ty_type ty) ;;
         rret (connack_record (its ++ [(property_u8 ty, fst vd)]), snd vd))
   else rerr (InvalidPropertyType (property_u8 ty))) s.
Proof. set_step V5ConnAck.props_step connack_record. Qed.
Lemma wp_connack_extract s (Q : _ -> _ -> Prop) : bytes_ok s -> blen s <= huge ->
  (forall o bs s', s = bs ++ s' -> decodes_props (allowed_at InConnAck) connack_record o bs -> bytes_ok s' -> Q o s') ->
  wp E5 (V5ConnAck.extract s) Q.
Proof. exact (wp_extract _ connack_record _ connack_step s Q). Qed.
Lemma connack_extract_ok o bs s : blen bs <= huge -> decodes_props (allowed_at InConnAck) connack_record o bs ->
  V5ConnAck.extract (bs ++ s) = Ok (o, s).
Proof. exact (extract_ok _ connack_record _ connack_step o bs s). Qed.
Lemma connack_extract_bad f plen its bs c id s : lenfield f plen -> blen f <= 4 -> blen bs <= huge ->
  reads (allowed_at InConnAck) plen 0 its bs c -> c < plen -> ~ In id (allowed_at InConnAck) ->
  V5ConnAck.extract (f ++ bs ++ id :: s) = Err (InvalidPropertyType id).
Proof. exact (extract_bad _ connack_record _ connack_step f plen its bs c id s). Qed.
Lemma connack_record_items p : connack_record (connack_items p) = p.
Proof.
  destruct p as [x0 x1 x2 x3 x4 x5 x6 x7 x8 x9 x10 x11 x12 x13 x14 x15 x16]. set (its := connack_items _).
  assert (Ex0 : last_num 17 its = x0)
    by (subst its; unfold connack_items; cbn [V5ConnAck.session_expiry_interval V5ConnAck.receive_max V5ConnAck.max_qos V5ConnAck.retain_available V5ConnAck.max_packet_size V5ConnAck.assigned_client_identifier V5ConnAck.topic_alias_max V5ConnAck.reason_string V5ConnAck.user_properties V5ConnAck.wildcard_subscription_available V5ConnAck.subscription_identifiers_available V5ConnAck.shared_subscription_available V5ConnAck.server_keep_alive V5ConnAck.response_information V5ConnAck.server_reference V5ConnAck.authentication_method V5ConnAck.authentication_data]; set_lookup).
  assert (Ex1 : last_num 33 its = x1)
    by (subst its; unfold connack_items; cbn [V5ConnAck.session_expiry_interval V5ConnAck.receive_max V5ConnAck.max_qos V5ConnAck.retain_available V5ConnAck.max_packet_size V5ConnAck.assigned_client_identifier V5ConnAck.topic_alias_max V5ConnAck.reason_string V5ConnAck.user_properties V5ConnAck.wildcard_subscription_available V5ConnAck.subscription_identifiers_available V5ConnAck.shared_subscription_available V5ConnAck.server_keep_alive V5ConnAck.response_information V5ConnAck.server_reference V5ConnAck.authentication_method V5ConnAck.authentication_data]; set_lookup).
  assert (Ex2 : last_num 36 its = x2)
    by (subst its; unfold connack_items; cbn [V5ConnAck.session_expiry_interval V5ConnAck.receive_max V5ConnAck.max_qos V5ConnAck.retain_available V5ConnAck.max_packet_size V5ConnAck.assigned_client_identifier V5ConnAck.topic_alias_max V5ConnAck.reason_string V5ConnAck.user_properties V5ConnAck.wildcard_subscription_available V5ConnAck.subscription_identifiers_available V5ConnAck.shared_subscription_available V5ConnAck.server_keep_alive V5ConnAck.response_information V5ConnAck.server_reference V5ConnAck.authentication_method V5ConnAck.authentication_data]; set_lookup).
  assert (Ex3 : last_num 37 its = x3)
    by (subst its; unfold connack_items; cbn [V5ConnAck.session_expiry_interval V5ConnAck.receive_max V5ConnAck.max_qos V5ConnAck.retain_available V5ConnAck.max_packet_size V5ConnAck.assigned_client_identifier V5ConnAck.topic_alias_max V5ConnAck.reason_string V5ConnAck.user_properties V5ConnAck.wildcard_subscription_available V5ConnAck.subscription_identifiers_available V5ConnAck.shared_subscription_available V5ConnAck.server_keep_alive V5ConnAck.response_information V5ConnAck.server_reference V5ConnAck.authentication_method V5ConnAck.authentication_data]; set_lookup).
  assert (Ex4 : last_num 39 its = x4)
    by (subst its; unfold connack_items; cbn [V5ConnAck.session_expiry_interval V5ConnAck.receive_max V5ConnAck.max_qos V5ConnAck.retain_available V5ConnAck.max_packet_size V5ConnAck.assigned_client_identifier V5ConnAck.topic_alias_max V5ConnAck.reason_string V5ConnAck.user_properties V5ConnAck.wildcard_subscription_available V5ConnAck.subscription_identifiers_available V5ConnAck.shared_subscription_available V5ConnAck.server_keep_alive V5ConnAck.response_information V5ConnAck.server_reference V5ConnAck.authentication_method V5ConnAck.authentication_data]; set_lookup).
  assert (Ex5 : last_bytes 18 its = x5)
    by (subst its; unfold connack_items; cbn [V5ConnAck.session_expiry_interval V5ConnAck.receive_max V5ConnAck.max_qos V5ConnAck.retain_available V5ConnAck.max_packet_size V5ConnAck.assigned_client_identifier V5ConnAck.topic_alias_max V5ConnAck.reason_string V5ConnAck.user_properties V5ConnAck.wildcard_subscription_available V5ConnAck.subscription_identifiers_available V5ConnAck.shared_subscription_available V5ConnAck.server_keep_alive V5ConnAck.response_information V5ConnAck.server_reference V5ConnAck.authentication_method V5ConnAck.authentication_data]; set_lookup).
  assert (Ex6 : last_num 34 its = x6)
    by (subst its; unfold connack_items; cbn [V5ConnAck.session_expiry_interval V5ConnAck.receive_max V5ConnAck.max_qos V5ConnAck.retain_available V5ConnAck.max_packet_size V5ConnAck.assigned_client_identifier V5ConnAck.topic_alias_max V5ConnAck.reason_string V5ConnAck.user_properties V5ConnAck.wildcard_subscription_available V5ConnAck.subscription_identifiers_available V5ConnAck.shared_subscription_available V5ConnAck.server_keep_alive V5ConnAck.response_information V5ConnAck.server_reference V5ConnAck.authentication_method V5ConnAck.authentication_data]; set_lookup).
  assert (Ex7 : last_bytes 31 its = x7)
    by (subst its; unfold connack_items; cbn [V5ConnAck.session_expiry_interval V5ConnAck.receive_max V5ConnAck.max_qos V5ConnAck.retain_available V5ConnAck.max_packet_size V5ConnAck.assigned_client_identifier V5ConnAck.topic_alias_max V5ConnAck.reason_string V5ConnAck.user_properties V5ConnAck.wildcard_subscription_available V5ConnAck.subscription_identifiers_available V5ConnAck.shared_subscription_available V5ConnAck.server_keep_alive V5ConnAck.response_information V5ConnAck.server_reference V5ConnAck.authentication_method V5ConnAck.authentication_data]; set_lookup).
  assert (Ex8 : all_pairs its = x8)
    by (subst its; unfold connack_items; cbn [V5ConnAck.session_expiry_interval V5ConnAck.receive_max V5ConnAck.max_qos V5ConnAck.retain_available V5ConnAck.max_packet_size V5ConnAck.assigned_client_identifier V5ConnAck.topic_alias_max V5ConnAck.reason_string V5ConnAck.user_properties V5ConnAck.wildcard_subscription_available V5ConnAck.subscription_identifiers_available V5ConnAck.shared_subscription_available V5ConnAck.server_keep_alive V5ConnAck.response_information V5ConnAck.server_reference V5ConnAck.authentication_method V5ConnAck.authentication_data]; set_lookup).
  assert (Ex9 : last_num 40 its = x9)
    by (subst its; unfold connack_items; cbn [V5ConnAck.session_expiry_interval V5ConnAck.receive_max V5ConnAck.max_qos V5ConnAck.retain_available V5ConnAck.max_packet_size V5ConnAck.assigned_client_identifier V5ConnAck.topic_alias_max V5ConnAck.reason_string V5ConnAck.user_properties V5ConnAck.wildcard_subscription_available V5ConnAck.subscription_identifiers_available V5ConnAck.shared_subscription_available V5ConnAck.server_keep_alive V5ConnAck.response_information V5ConnAck.server_reference V5ConnAck.authentication_method V5ConnAck.authentication_data]; set_lookup).
  assert (Ex10 : last_num 41 its = x10)
    by (subst its; unfold connack_items; cbn [V5ConnAck.session_expiry_interval V5ConnAck.receive_max V5ConnAck.max_qos V5ConnAck.retain_available V5ConnAck.max_packet_size V5ConnAck.assigned_client_identifier V5ConnAck.topic_alias_max V5ConnAck.reason_string V5ConnAck.user_properties V5ConnAck.wildcard_subscription_available V5ConnAck.subscription_identifiers_available V5ConnAck.shared_subscription_available V5ConnAck.server_keep_alive V5ConnAck.response_information V5ConnAck.server_reference V5ConnAck.authentication_method V5ConnAck.authentication_data]; set_lookup).
  assert (Ex11 : last_num 42 its = x11)
    by (subst its; unfold connack_items; cbn [V5ConnAck.session_expiry_interval V5ConnAck.receive_max V5ConnAck.max_qos V5ConnAck.retain_available V5ConnAck.max_packet_size V5ConnAck.assigned_client_identifier V5ConnAck.topic_alias_max V5ConnAck.reason_string V5ConnAck.user_properties V5ConnAck.wildcard_subscription_available V5ConnAck.subscription_identifiers_available V5ConnAck.shared_subscription_available V5ConnAck.server_keep_alive V5ConnAck.response_information V5ConnAck.server_reference V5ConnAck.authentication_method V5ConnAck.authentication_data]; set_lookup).
  assert (Ex12 : last_num 19 its = x12)
    by (subst its; unfold connack_items; cbn [V5ConnAck.session_expiry_interval V5ConnAck.receive_max V5ConnAck.max_qos V5ConnAck.retain_available V5ConnAck.max_packet_size V5ConnAck.assigned_client_identifier V5ConnAck.topic_alias_max V5ConnAck.reason_string V5ConnAck.user_properties V5ConnAck.wildcard_subscription_available V5ConnAck.subscription_identifiers_available V5ConnAck.shared_subscription_available V5ConnAck.server_keep_alive V5ConnAck.response_information V5ConnAck.server_reference V5ConnAck.authentication_method V5ConnAck.authentication_data]; set_lookup).
  assert (Ex13 : last_bytes 26 its = x13)
    by (subst its; unfold connack_items; cbn [V5ConnAck.session_expiry_interval V5ConnAck.receive_max V5ConnAck.max_qos V5ConnAck.retain_available V5ConnAck.max_packet_size V5ConnAck.assigned_client_identifier V5ConnAck.topic_alias_max V5ConnAck.reason_string V5ConnAck.user_properties V5ConnAck.wildcard_subscription_available V5ConnAck.subscription_identifiers_available V5ConnAck.shared_subscription_available V5ConnAck.server_keep_alive V5ConnAck.response_information V5ConnAck.server_reference V5ConnAck.authentication_method V5ConnAck.authentication_data]; set_lookup).
  assert (Ex14 : last_bytes 28 its = x14)
    by (subst its; unfold connack_items; cbn [V5ConnAck.session_expiry_interval V5ConnAck.receive_max V5ConnAck.max_qos V5ConnAck.retain_available V5ConnAck.max_packet_size V5ConnAck.assigned_client_identifier V5ConnAck.topic_alias_max V5ConnAck.reason_string V5ConnAck.user_properties V5ConnAck.wildcard_subscription_available V5ConnAck.subscription_identifiers_available V5ConnAck.shared_subscription_available V5ConnAck.server_keep_alive V5ConnAck.response_information V5ConnAck.server_reference V5ConnAck.authentication_method V5ConnAck.authentication_data]; set_lookup).
  assert (Ex15 : last_bytes 21 its = x15)
    by (subst its; unfold connack_items; cbn [V5ConnAck.session_expiry_interval V5ConnAck.receive_max V5ConnAck.max_qos V5ConnAck.retain_available V5ConnAck.max_packet_size V5ConnAck.assigned_client_identifier V5ConnAck.topic_alias_max V5ConnAck.reason_string V5ConnAck.user_properties V5ConnAck.wildcard_subscription_available V5ConnAck.subscription_identifiers_available V5ConnAck.shared_subscription_available V5ConnAck.server_keep_alive V5ConnAck.response_information V5ConnAck.server_reference V5ConnAck.authentication_method V5ConnAck.authentication_data]; set_lookup).
  assert (Ex16 : last_bytes 22 its = x16)
    by (subst its; unfold connack_items; cbn [V5ConnAck.session_expiry_interval V5ConnAck.receive_max V5ConnAck.max_qos V5ConnAck.retain_available V5ConnAck.max_packet_size V5ConnAck.assigned_client_identifier V5ConnAck.topic_alias_max V5ConnAck.reason_string V5ConnAck.user_properties V5ConnAck.wildcard_subscription_available V5ConnAck.subscription_identifiers_available V5ConnAck.shared_subscription_available V5ConnAck.server_keep_alive V5ConnAck.response_information V5ConnAck.server_reference V5ConnAck.authentication_method V5ConnAck.authentication_data]; set_lookup).
  unfold connack_record. rewrite Ex0, Ex1, Ex2, Ex3, Ex4, Ex5, Ex6, Ex7, Ex8, Ex9, Ex10, Ex11, Ex12, Ex13, Ex14, Ex15, Ex16. reflexivity.
Qed.
Lemma connack_items_incl its : Forall item_typed its -> incl (connack_items (connack_record its)) its.
Proof. intros HF. unfold connack_record, connack_items. cbn [V5ConnAck.session_expiry_interval V5ConnAck.receive_max V5ConnAck.max_qos V5ConnAck.retain_available V5ConnAck.max_packet_size V5ConnAck.assigned_client_identifier V5ConnAck.topic_alias_max V5ConnAck.reason_string V5ConnAck.user_properties V5ConnAck.wildcard_subscription_available V5ConnAck.subscription_identifiers_available V5ConnAck.shared_subscription_available V5ConnAck.server_keep_alive V5ConnAck.response_information V5ConnAck.server_reference V5ConnAck.authentication_method V5ConnAck.authentication_data]. set_incl HF. Qed.
Lemma connack_place p : Forall (has_place InConnAck) (connack_items p).
Proof. unfold connack_items. set_place. Qed.
Lemma connack_props_len p : V5ConnAck.props_len p = blen (items_bytes (connack_items p)).
Proof. cbv beta delta [V5ConnAck.props_len connack_items]. set_len. Qed.
Lemma connack_props_write p b : V5ConnAck.props_write p b = put_section (blen (items_bytes (connack_items p))) (connack_items p) b.
Proof.
  unfold V5ConnAck.props_write. cbv zeta. rewrite connack_props_len. apply put_section_eq.
  cbv beta delta [connack_items]. set_write.
Qed.

(** *** PublishProperties *)
Lemma publish_step : forall ty its s,
  V5Publish.props_step ty (property_u8 ty) (publish_record its) s =
  (if mem (property_u8 ty) (allowed_at InPublish)
   then (vd <-r read_val (ty_type ty) ;;
         rret (publish_record (its ++ [(property_u8 ty, fst vd)]), snd vd))
   else rerr (InvalidPropertyType (property_u8 ty))) s.
Proof. set_step V5Publish.props_step publish_record. Qed.
Lemma wp_publish_extract s (Q : _ -> _ -> Prop) : bytes_ok s -> blen s <= huge ->
  (forall o bs s', s = bs ++ s' -> decodes_props (allowed_at InPublish) publish_record o bs -> bytes_ok s' -> Q o s') ->
  wp E5 (V5Publish.extract s) Q.
Proof. exact (wp_extract _ publish_record _ publish_step s Q). Qed.
Lemma publish_extract_ok o bs s : blen bs <= huge -> decodes_props (allowed_at InPublish) publish_record o bs ->
  V5Publish.extract (bs ++ s) = Ok (o, s).
Proof. exact (extract_ok _ publish_record _ publish_step o bs s). Qed.
Lemma publish_extract_bad f plen its bs c id s : lenfield f plen -> blen f <= 4 -> blen bs <= huge ->
  reads (allowed_at InPublish) plen 0 its bs c -> c < plen -> ~ In id (allowed_at InPublish) ->
  V5Publish.extract (f ++ bs ++ id :: s) = Err (InvalidPropertyType id).
Proof. exact (extract_bad _ publish_record _ publish_step f plen its bs c id s). Qed.
Lemma publish_record_items p : publish_record (publish_items p) = p.
Proof.
  destruct p as [x0 x1 x2 x3 x4 x5 x6 x7]. set (its := publish_items _).
  assert (Ex0 : last_num 1 its = x0)
    by (subst its; unfold publish_items; cbn [V5Publish.payload_format_indicator V5Publish.message_expiry_interval V5Publish.topic_alias V5Publish.response_topic V5Publish.correlation_data V5Publish.user_properties V5Publish.subscription_identifiers V5Publish.content_type]; set_lookup).
  assert (Ex1 : last_num 2 its = x1)
    by (subst its; unfold publish_items; cbn [V5Publish.payload_format_indicator V5Publish.message_expiry_interval V5Publish.topic_alias V5Publish.response_topic V5Publish.correlation_data V5Publish.user_properties V5Publish.subscription_identifiers V5Publish.content_type]; set_lookup).
  assert (Ex2 : last_num 35 its = x2)
    by (subst its; unfold publish_items; cbn [V5Publish.payload_format_indicator V5Publish.message_expiry_interval V5Publish.topic_alias V5Publish.response_topic V5Publish.correlation_data V5Publish.user_properties V5Publish.subscription_identifiers V5Publish.content_type]; set_lookup).
  assert (Ex3 : last_bytes 8 its = x3)
    by (subst its; unfold publish_items; cbn [V5Publish.payload_format_indicator V5Publish.message_expiry_interval V5Publish.topic_alias V5Publish.response_topic V5Publish.correlation_data V5Publish.user_properties V5Publish.subscription_identifiers V5Publish.content_type]; set_lookup).
  assert (Ex4 : last_bytes 9 its = x4)
    by (subst its; unfold publish_items; cbn [V5Publish.payload_format_indicator V5Publish.message_expiry_interval V5Publish.topic_alias V5Publish.response_topic V5Publish.correlation_data V5Publish.user_properties V5Publish.subscription_identifiers V5Publish.content_type]; set_lookup).
  assert (Ex5 : all_pairs its = x5)
    by (subst its; unfold publish_items; cbn [V5Publish.payload_format_indicator V5Publish.message_expiry_interval V5Publish.topic_alias V5Publish.response_topic V5Publish.correlation_data V5Publish.user_properties V5Publish.subscription_identifiers V5Publish.content_type]; set_lookup).
  assert (Ex6 : all_ids its = x6)
    by (subst its; unfold publish_items; cbn [V5Publish.payload_format_indicator V5Publish.message_expiry_interval V5Publish.topic_alias V5Publish.response_topic V5Publish.correlation_data V5Publish.user_properties V5Publish.subscription_identifiers V5Publish.content_type]; set_lookup).
  assert (Ex7 : last_bytes 3 its = x7)
    by (subst its; unfold publish_items; cbn [V5Publish.payload_format_indicator V5Publish.message_expiry_interval V5Publish.topic_alias V5Publish.response_topic V5Publish.correlation_data V5Publish.user_properties V5Publish.subscription_identifiers V5Publish.content_type]; set_lookup).
  unfold publish_record. rewrite Ex0, Ex1, Ex2, Ex3, Ex4, Ex5, Ex6, Ex7. reflexivity.
Qed.
Lemma publish_items_incl its : Forall item_typed its -> incl (publish_items (publish_record its)) its.
Proof. intros HF. unfold publish_record, publish_items. cbn [V5Publish.payload_format_indicator V5Publish.message_expiry_interval V5Publish.topic_alias V5Publish.response_topic V5Publish.correlation_data V5Publish.user_properties V5Publish.subscription_identifiers V5Publish.content_type]. set_incl HF. Qed.
Lemma publish_place p : Forall (has_place InPublish) (publish_items p).
Proof. unfold publish_items. set_place. Qed.
Lemma publish_props_len p : V5Publish.props_len p = blen (items_bytes (publish_items p)).
Proof. cbv beta delta [V5Publish.props_len publish_items]. set_len. Qed.
Lemma publish_props_write p b : V5Publish.props_write p b = put_section (blen (items_bytes (publish_items p))) (publish_items p) b.
Proof.
  unfold V5Publish.props_write. cbv zeta. rewrite publish_props_len. apply put_section_eq.
  cbv beta delta [publish_items]. set_write.
Qed.

(** *** PubAckProperties *)
Lemma puback_step : forall ty its s,
  V5PubAck.props_step ty (property_u8 ty) (puback_record its) s =
  (if mem (property_u8 ty) (allowed_at InPubAck)
   then (vd <-r read_val (ty_type ty) ;;
         rret (puback_record (its ++ [(property_u8 ty, fst vd)]), snd vd))
   else rerr (InvalidPropertyType (property_u8 ty))) s.
Proof. set_step V5PubAck.props_step puback_record. Qed.
Lemma wp_puback_extract s (Q : _ -> _ -> Prop) : bytes_ok s -> blen s <= huge ->
  (forall o bs s', s = bs ++ s' -> decodes_props (allowed_at InPubAck) puback_record o bs -> bytes_ok s' -> Q o s') ->
  wp E5 (V5PubAck.extract s) Q.
Proof. exact (wp_extract _ puback_record _ puback_step s Q). Qed.
Lemma puback_extract_ok o bs s : blen bs <= huge -> decodes_props (allowed_at InPubAck) puback_record o bs ->
  V5PubAck.extract (bs ++ s) = Ok (o, s).
Proof. exact (extract_ok _ puback_record _ puback_step o bs s). Qed.
Lemma puback_extract_bad f plen its bs c id s : lenfield f plen -> blen f <= 4 -> blen bs <= huge ->
  reads (allowed_at InPubAck) plen 0 its bs c -> c < plen -> ~ In id (allowed_at InPubAck) ->
  V5PubAck.extract (f ++ bs ++ id :: s) = Err (InvalidPropertyType id).
Proof. exact (extract_bad _ puback_record _ puback_step f plen its bs c id s). Qed.
Lemma puback_record_items p : puback_record (puback_items p) = p.
Proof.
  destruct p as [x0 x1]. set (its := puback_items _).
  assert (Ex0 : last_bytes 31 its = x0)
    by (subst its; unfold puback_items; cbn [V5PubAck.reason_string V5PubAck.user_properties]; set_lookup).
  assert (Ex1 : all_pairs its = x1)
    by (subst its; unfold puback_items; cbn [V5PubAck.reason_string V5PubAck.user_properties]; set_lookup).
  unfold puback_record. rewrite Ex0, Ex1. reflexivity.
Qed.
Lemma puback_items_incl its : Forall item_typed its -> incl (puback_items (puback_record its)) its.
Proof. intros HF. unfold puback_record, puback_items. cbn [V5PubAck.reason_string V5PubAck.user_properties]. set_incl HF. Qed.
Lemma puback_place p : Forall (has_place InPubAck) (puback_items p).
Proof. unfold puback_items. set_place. Qed.
Lemma puback_props_len p : V5PubAck.props_len p = blen (items_bytes (puback_items p)).
Proof. cbv beta delta [V5PubAck.props_len puback_items]. set_len. Qed.
Lemma puback_props_write p b : V5PubAck.props_write p b = put_section (blen (items_bytes (puback_items p))) (puback_items p) b.
Proof.
  unfold V5PubAck.props_write. cbv zeta. rewrite puback_props_len. apply put_section_eq.
  cbv beta delta [puback_items]. set_write.
Qed.

(** *** PubRecProperties *)
Lemma pubrec_step : forall ty its s,
  V5PubRec.props_step ty (property_u8 ty) (pubrec_record its) s =
  (if mem (property_u8 ty) (allowed_at InPubRec)
   then (vd <-r read_val (ty_type ty) ;;
         rret (pubrec_record (its ++ [(property_u8 ty, fst vd)]), snd vd))
   else rerr (InvalidPropertyType (property_u8 ty))) s.
Proof. set_step V5PubRec.props_step pubrec_record. Qed.
Lemma wp_pubrec_extract s (Q : _ -> _ -> Prop) : bytes_ok s -> blen s <= huge ->
  (forall o bs s', s = bs ++ s' -> decodes_props (allowed_at InPubRec) pubrec_record o bs -> bytes_ok s' -> Q o s') ->
  wp E5 (V5PubRec.extract s) Q.
Proof. exact (wp_extract _ pubrec_record _ pubrec_step s Q). Qed.
Lemma pubrec_extract_ok o bs s : blen bs <= huge -> decodes_props (allowed_at InPubRec) pubrec_record o bs ->
  V5PubRec.extract (bs ++ s) = Ok (o, s).
Proof. exact (extract_ok _ pubrec_record _ pubrec_step o bs s). Qed.
Lemma pubrec_extract_bad f plen its bs c id s : lenfield f plen -> blen f <= 4 -> blen bs <= huge ->
  reads (allowed_at InPubRec) plen 0 its bs c -> c < plen -> ~ In id (allowed_at InPubRec) ->
  V5PubRec.extract (f ++ bs ++ id :: s) = Err (InvalidPropertyType id).
Proof. exact (extract_bad _ pubrec_record _ pubrec_step f plen its bs c id s). Qed.
Lemma pubrec_record_items p : pubrec_record (pubrec_items p) = p.
Proof.
  destruct p as [x0 x1]. set (its := pubrec_items _).
  assert (Ex0 : last_bytes 31 its = x0)
    by (subst its; unfold pubrec_items; cbn [V5PubRec.reason_string V5PubRec.user_properties]; set_lookup).
  assert (Ex1 : all_pairs its = x1)
    by (subst its; unfold pubrec_items; cbn [V5PubRec.reason_string V5PubRec.user_properties]; set_lookup).
  unfold pubrec_record. rewrite Ex0, Ex1. reflexivity.
Qed.
Lemma pubrec_items_incl its : Forall item_typed its -> incl (pubrec_items (pubrec_record its)) its.
Proof. intros HF. unfold pubrec_record, pubrec_items. cbn [V5PubRec.reason_string V5PubRec.user_properties]. set_incl HF. Qed.
Lemma pubrec_place p : Forall (has_place InPubRec) (pubrec_items p).
Proof. unfold pubrec_items. set_place. Qed.
Lemma pubrec_props_len p : V5PubRec.props_len p = blen (items_bytes (pubrec_items p)).
Proof. cbv beta delta [V5PubRec.props_len pubrec_items]. set_len. Qed.
Lemma pubrec_props_write p b : V5PubRec.props_write p b = put_section (blen (items_bytes (pubrec_items p))) (pubrec_items p) b.
Proof.
  unfold V5PubRec.props_write. cbv zeta. rewrite pubrec_props_len. apply put_section_eq.
  cbv beta delta [pubrec_items]. set_write.
Qed.

(** *** PubRelProperties *)
Lemma pubrel_step : forall ty its s,
  V5PubRel.props_step ty (property_u8 ty) (pubrel_record its) s =
  (if mem (property_u8 ty) (allowed_at InPubRel)
   then (vd <-r read_val (ty_type ty) ;;
         rret (pubrel_record (its ++ [(property_u8 ty, fst vd)]), snd vd))
   else rerr (InvalidPropertyType (property_u8 ty))) s.
Proof. set_step V5PubRel.props_step pubrel_record. Qed.
Lemma wp_pubrel_extract s (Q : _ -> _ -> Prop) : bytes_ok s -> blen s <= huge ->
  (forall o bs s', s = bs ++ s' -> decodes_props (allowed_at InPubRel) pubrel_record o bs -> bytes_ok s' -> Q o s') ->
  wp E5 (V5PubRel.extract s) Q.
Proof. exact (wp_extract _ pubrel_record _ pubrel_step s Q). Qed.
Lemma pubrel_extract_ok o bs s : blen bs <= huge -> decodes_props (allowed_at InPubRel) pubrel_record o bs ->
  V5PubRel.extract (bs ++ s) = Ok (o, s).
Proof. exact (extract_ok _ pubrel_record _ pubrel_step o bs s). Qed.
Lemma pubrel_extract_bad f plen its bs c id s : lenfield f plen -> blen f <= 4 -> blen bs <= huge ->
  reads (allowed_at InPubRel) plen 0 its bs c -> c < plen -> ~ In id (allowed_at InPubRel) ->
  V5PubRel.extract (f ++ bs ++ id :: s) = Err (InvalidPropertyType id).
Proof. exact (extract_bad _ pubrel_record _ pubrel_step f plen its bs c id s). Qed.
Lemma pubrel_record_items p : pubrel_record (pubrel_items p) = p.
Proof.
  destruct p as [x0 x1]. set (its := pubrel_items _).
  assert (Ex0 : last_bytes 31 its = x0)
    by (subst its; unfold pubrel_items; cbn [V5PubRel.reason_string V5PubRel.user_properties]; set_lookup).
  assert (Ex1 : all_pairs its = x1)
    by (subst its; unfold pubrel_items; cbn [V5PubRel.reason_string V5PubRel.user_properties]; set_lookup).
  unfold pubrel_record. rewrite Ex0, Ex1. reflexivity.
Qed.
Lemma pubrel_items_incl its : Forall item_typed its -> incl (pubrel_items (pubrel_record its)) its.
Proof. intros HF. unfold pubrel_record, pubrel_items. cbn [V5PubRel.reason_string V5PubRel.user_properties]. set_incl HF. Qed.
Lemma pubrel_place p : Forall (has_place InPubRel) (pubrel_items p).
Proof. unfold pubrel_items. set_place. Qed.
Lemma pubrel_props_len p : V5PubRel.props_len p = blen (items_bytes (pubrel_items p)).
Proof. cbv beta delta [V5PubRel.props_len pubrel_items]. set_len. Qed.
Lemma pubrel_props_write p b : V5PubRel.props_write p b = put_section (blen (items_bytes (pubrel_items p))) (pubrel_items p) b.
Proof.
  unfold V5PubRel.props_write. cbv zeta. rewrite pubrel_props_len. apply put_section_eq.
  cbv beta delta [pubrel_items]. set_write.
Qed.

(** *** PubCompProperties *)
Lemma pubcomp_step : forall ty its s,
  V5PubComp.props_step ty (property_u8 ty) (pubcomp_record its) s =
  (if mem (property_u8 ty) (allowed_at InPubComp)
   then (vd <-r read_val (ty_type ty) ;;
         rret (pubcomp_record (its ++ [(property_u8 ty, fst vd)]), snd vd))
   else rerr (InvalidPropertyType (property_u8 ty))) s.
Proof. set_step V5PubComp.props_step pubcomp_record. Qed.
Lemma wp_pubcomp_extract s (Q : _ -> _ -> Prop) : bytes_ok s -> blen s <= huge ->
  (forall o bs s', s = bs ++ s' -> decodes_props (allowed_at InPubComp) pubcomp_record o bs -> bytes_ok s' -> Q o s') ->
  wp E5 (V5PubComp.extract s) Q.
Proof. exact (wp_extract _ pubcomp_record _ pubcomp_step s Q). Qed.
Lemma pubcomp_extract_ok o bs s : blen bs <= huge -> decodes_props (allowed_at InPubComp) pubcomp_record o bs ->
  V5PubComp.extract (bs ++ s) = Ok (o, s).
Proof. exact (extract_ok _ pubcomp_record _ pubcomp_step o bs s). Qed.
Lemma pubcomp_extract_bad f plen its bs c id s : lenfield f plen -> blen f <= 4 -> blen bs <= huge ->
  reads (allowed_at InPubComp) plen 0 its bs c -> c < plen -> ~ In id (allowed_at InPubComp) ->
  V5PubComp.extract (f ++ bs ++ id :: s) = Err (InvalidPropertyType id).
Proof. exact (extract_bad _ pubcomp_record _ pubcomp_step f plen its bs c id s). Qed.
Lemma pubcomp_record_items p : pubcomp_record (pubcomp_items p) = p.
Proof.
  destruct p as [x0 x1]. set (its := pubcomp_items _).
  assert (Ex0 : last_bytes 31 its = x0)
    by (subst its; unfold pubcomp_items; cbn [V5PubComp.reason_string V5PubComp.user_properties]; set_lookup).
  assert (Ex1 : all_pairs its = x1)
    by (subst its; unfold pubcomp_items; cbn [V5PubComp.reason_string V5PubComp.user_properties]; set_lookup).
  unfold pubcomp_record. rewrite Ex0, Ex1. reflexivity.
Qed.
Lemma pubcomp_items_incl its : Forall item_typed its -> incl (pubcomp_items (pubcomp_record its)) its.
Proof. intros HF. unfold pubcomp_record, pubcomp_items. cbn [V5PubComp.reason_string V5PubComp.user_properties]. set_incl HF. Qed.
Lemma pubcomp_place p : Forall (has_place InPubComp) (pubcomp_items p).
Proof. unfold pubcomp_items. set_place. Qed.
Lemma pubcomp_props_len p : V5PubComp.props_len p = blen (items_bytes (pubcomp_items p)).
Proof. cbv beta delta [V5PubComp.props_len pubcomp_items]. set_len. Qed.
Lemma pubcomp_props_write p b : V5PubComp.props_write p b = put_section (blen (items_bytes (pubcomp_items p))) (pubcomp_items p) b.
Proof.
  unfold V5PubComp.props_write. cbv zeta. rewrite pubcomp_props_len. apply put_section_eq.
  cbv beta delta [pubcomp_items]. set_write.
Qed.

(** *** SubscribeProperties *)
Lemma subscribe_step : forall ty its s,
  V5Subscribe.props_step ty (property_u8 ty) (subscribe_record its) s =
  (if mem (property_u8 ty) (allowed_at InSubscribe)
   then (vd <-r read_val (ty_type ty) ;;
         rret (subscribe_record (its ++ [(property_u8 ty, fst vd)]), snd vd))
   else rerr (InvalidPropertyType (property_u8 ty))) s.
Proof. set_step V5Subscribe.props_step subscribe_record. Qed.
Lemma wp_subscribe_extract s (Q : _ -> _ -> Prop) : bytes_ok s -> blen s <= huge ->
  (forall o bs s', s = bs ++ s' -> decodes_props (allowed_at InSubscribe) subscribe_record o bs -> bytes_ok s' -> Q o s') ->
  wp E5 (V5Subscribe.extract s) Q.
Proof. exact (wp_extract _ subscribe_record _ subscribe_step s Q). Qed.
Lemma subscribe_extract_ok o bs s : blen bs <= huge -> decodes_props (allowed_at InSubscribe) subscribe_record o bs ->
  V5Subscribe.extract (bs ++ s) = Ok (o, s).
Proof. exact (extract_ok _ subscribe_record _ subscribe_step o bs s). Qed.
Lemma subscribe_extract_bad f plen its bs c id s : lenfield f plen -> blen f <= 4 -> blen bs <= huge ->
  reads (allowed_at InSubscribe) plen 0 its bs c -> c < plen -> ~ In id (allowed_at InSubscribe) ->
  V5Subscribe.extract (f ++ bs ++ id :: s) = Err (InvalidPropertyType id).
Proof. exact (extract_bad _ subscribe_record _ subscribe_step f plen its bs c id s). Qed.
Lemma subscribe_record_items p : subscribe_record (subscribe_items p) = p.
Proof.
  destruct p as [x0 x1]. set (its := subscribe_items _).
  assert (Ex0 : last_num 11 its = x0)
    by (subst its; unfold subscribe_items; cbn [V5Subscribe.id V5Subscribe.user_properties]; set_lookup).
  assert (Ex1 : all_pairs its = x1)
    by (subst its; unfold subscribe_items; cbn [V5Subscribe.id V5Subscribe.user_properties]; set_lookup).
  unfold subscribe_record. rewrite Ex0, Ex1. reflexivity.
Qed.
Lemma subscribe_items_incl its : Forall item_typed its -> incl (subscribe_items (subscribe_record its)) its.
Proof. intros HF. unfold subscribe_record, subscribe_items. cbn [V5Subscribe.id V5Subscribe.user_properties]. set_incl HF. Qed.
Lemma subscribe_place p : Forall (has_place InSubscribe) (subscribe_items p).
Proof. unfold subscribe_items. set_place. Qed.
Lemma subscribe_props_len p : V5Subscribe.props_len p = blen (items_bytes (subscribe_items p)).
Proof. cbv beta delta [V5Subscribe.props_len subscribe_items]. set_len. Qed.
Lemma subscribe_props_write p b : V5Subscribe.props_write p b = put_section (blen (items_bytes (subscribe_items p))) (subscribe_items p) b.
Proof.
  unfold V5Subscribe.props_write. cbv zeta. rewrite subscribe_props_len. apply put_section_eq.
  cbv beta delta [subscribe_items]. set_write.
Qed.

(** *** SubAckProperties *)
Lemma suback_step : forall ty its s,
  V5SubAck.props_step ty (property_u8 ty) (suback_record its) s =
  (if mem (property_u8 ty) (allowed_at InSubAck)
   then (vd <-r read_val (ty_type ty) ;;
         rret (suback_record (its ++ [(property_u8 ty, fst vd)]), snd vd))
   else rerr (InvalidPropertyType (property_u8 ty))) s.
Proof. set_step V5SubAck.props_step suback_record. Qed.
Lemma wp_suback_extract s (Q : _ -> _ -> Prop) : bytes_ok s -> blen s <= huge ->
  (forall o bs s', s = bs ++ s' -> decodes_props (allowed_at InSubAck) suback_record o bs -> bytes_ok s' -> Q o s') ->
  wp E5 (V5SubAck.extract s) Q.
Proof. exact (wp_extract _ suback_record _ suback_step s Q). Qed.
Lemma suback_extract_ok o bs s : blen bs <= huge -> decodes_props (allowed_at InSubAck) suback_record o bs ->
  V5SubAck.extract (bs ++ s) = Ok (o, s).
Proof. exact (extract_ok _ suback_record _ suback_step o bs s). Qed.
Lemma suback_extract_bad f plen its bs c id s : lenfield f plen -> blen f <= 4 -> blen bs <= huge ->
  reads (allowed_at InSubAck) plen 0 its bs c -> c < plen -> ~ In id (allowed_at InSubAck) ->
  V5SubAck.extract (f ++ bs ++ id :: s) = Err (InvalidPropertyType id).
Proof. exact (extract_bad _ suback_record _ suback_step f plen its bs c id s). Qed.
Lemma suback_record_items p : suback_record (suback_items p) = p.
Proof.
  destruct p as [x0 x1]. set (its := suback_items _).
  assert (Ex0 : last_bytes 31 its = x0)
    by (subst its; unfold suback_items; cbn [V5SubAck.reason_string V5SubAck.user_properties]; set_lookup).
  assert (Ex1 : all_pairs its = x1)
    by (subst its; unfold suback_items; cbn [V5SubAck.reason_string V5SubAck.user_properties]; set_lookup).
  unfold suback_record. rewrite Ex0, Ex1. reflexivity.
Qed.
Lemma suback_items_incl its : Forall item_typed its -> incl (suback_items (suback_record its)) its.
Proof. intros HF. unfold suback_record, suback_items. cbn [V5SubAck.reason_string V5SubAck.user_properties]. set_incl HF. Qed.
Lemma suback_place p : Forall (has_place InSubAck) (suback_items p).
Proof. unfold suback_items. set_place. Qed.
Lemma suback_props_len p : V5SubAck.props_len p = blen (items_bytes (suback_items p)).
Proof. cbv beta delta [V5SubAck.props_len suback_items]. set_len. Qed.
Lemma suback_props_write p b : V5SubAck.props_write p b = put_section (blen (items_bytes (suback_items p))) (suback_items p) b.
Proof.
  unfold V5SubAck.props_write. cbv zeta. rewrite suback_props_len. apply put_section_eq.
  cbv beta delta [suback_items]. set_write.
Qed.

(** *** UnsubscribeProperties *)
Lemma unsubscribe_step : forall ty its s,
  V5Unsubscribe.props_step ty (property_u8 ty) (unsubscribe_record its) s =
  (if mem (property_u8 ty) (allowed_at InUnsubscribe)
   then (vd <-r read_val (ty_type ty) ;;
         rret (unsubscribe_record (its ++ [(property_u8 ty, fst vd)]), snd vd))
   else rerr (InvalidPropertyType (property_u8 ty))) s.
Proof. set_step V5Unsubscribe.props_step unsubscribe_record. Qed.
Lemma wp_unsubscribe_extract s (Q : _ -> _ -> Prop) : bytes_ok s -> blen s <= huge ->
  (forall o bs s', s = bs ++ s' -> decodes_props (allowed_at InUnsubscribe) unsubscribe_record o bs -> bytes_ok s' -> Q o s') ->
  wp E5 (V5Unsubscribe.extract s) Q.
Proof. exact (wp_extract _ unsubscribe_record _ unsubscribe_step s Q). Qed.
Lemma unsubscribe_extract_ok o bs s : blen bs <= huge -> decodes_props (allowed_at InUnsubscribe) unsubscribe_record o bs ->
  V5Unsubscribe.extract (bs ++ s) = Ok (o, s).
Proof. exact (extract_ok _ unsubscribe_record _ unsubscribe_step o bs s). Qed.
Lemma unsubscribe_extract_bad f plen its bs c id s : lenfield f plen -> blen f <= 4 -> blen bs <= huge ->
  reads (allowed_at InUnsubscribe) plen 0 its bs c -> c < plen -> ~ In id (allowed_at InUnsubscribe) ->
  V5Unsubscribe.extract (f ++ bs ++ id :: s) = Err (InvalidPropertyType id).
Proof. exact (extract_bad _ unsubscribe_record _ unsubscribe_step f plen its bs c id s). Qed.
Lemma unsubscribe_record_items p : unsubscribe_record (unsubscribe_items p) = p.
Proof.
  destruct p as [x0]. set (its := unsubscribe_items _).
  assert (Ex0 : all_pairs its = x0)
    by (subst its; unfold unsubscribe_items; cbn [V5Unsubscribe.user_properties]; set_lookup).
  unfold unsubscribe_record. rewrite Ex0. reflexivity.
Qed.
Lemma unsubscribe_items_incl its : Forall item_typed its -> incl (unsubscribe_items (unsubscribe_record its)) its.
Proof. intros HF. unfold unsubscribe_record, unsubscribe_items. cbn [V5Unsubscribe.user_properties]. set_incl HF. Qed.
Lemma unsubscribe_place p : Forall (has_place InUnsubscribe) (unsubscribe_items p).
Proof. unfold unsubscribe_items. set_place. Qed.
Lemma unsubscribe_props_len p : V5Unsubscribe.props_len p = blen (items_bytes (unsubscribe_items p)).
Proof. cbv beta delta [V5Unsubscribe.props_len unsubscribe_items]. set_len. Qed.
Lemma unsubscribe_props_write p b : V5Unsubscribe.props_write p b = put_section (blen (items_bytes (unsubscribe_items p))) (unsubscribe_items p) b.
Proof.
  unfold V5Unsubscribe.props_write. cbv zeta. rewrite unsubscribe_props_len. apply put_section_eq.
  cbv beta delta [unsubscribe_items]. set_write.
Qed.

(** *** UnsubAckProperties *)
Lemma unsuback_step : forall ty its s,
  V5UnsubAck.props_step ty (property_u8 ty) (unsuback_record its) s =
  (if mem (property_u8 ty) (allowed_at InUnsubAck)
   then (vd <-r read_val (ty_type ty) ;;
         rret (unsuback_record (its ++ [(property_u8 ty, fst vd)]), snd vd))
   else rerr (InvalidPropertyType (property_u8 ty))) s.
Proof. set_step V5UnsubAck.props_step unsuback_record. Qed.
Lemma wp_unsuback_extract s (Q : _ -> _ -> Prop) : bytes_ok s -> blen s <= huge ->
  (forall o bs s', s = bs ++ s' -> decodes_props (allowed_at InUnsubAck) unsuback_record o bs -> bytes_ok s' -> Q o s') ->
  wp E5 (V5UnsubAck.extract s) Q.
Proof. exact (wp_extract _ unsuback_record _ unsuback_step s Q). Qed.
Lemma unsuback_extract_ok o bs s : blen bs <= huge -> decodes_props (allowed_at InUnsubAck) unsuback_record o bs ->
  V5UnsubAck.extract (bs ++ s) = Ok (o, s).
Proof. exact (extract_ok _ unsuback_record _ unsuback_step o bs s). Qed.
Lemma unsuback_extract_bad f plen its bs c id s : lenfield f plen -> blen f <= 4 -> blen bs <= huge ->
  reads (allowed_at InUnsubAck) plen 0 its bs c -> c < plen -> ~ In id (allowed_at InUnsubAck) ->
  V5UnsubAck.extract (f ++ bs ++ id :: s) = Err (InvalidPropertyType id).
Proof. exact (extract_bad _ unsuback_record _ unsuback_step f plen its bs c id s). Qed.
Lemma unsuback_record_items p : unsuback_record (unsuback_items p) = p.
Proof.
  destruct p as [x0 x1]. set (its := unsuback_items _).
  assert (Ex0 : last_bytes 31 its = x0)
    by (subst its; unfold unsuback_items; cbn [V5UnsubAck.reason_string V5UnsubAck.user_properties]; set_lookup).
  assert (Ex1 : all_pairs its = x1)
    by (subst its; unfold unsuback_items; cbn [V5UnsubAck.reason_string V5UnsubAck.user_properties]; set_lookup).
  unfold unsuback_record. rewrite Ex0, Ex1. reflexivity.
Qed.
Lemma unsuback_items_incl its : Forall item_typed its -> incl (unsuback_items (unsuback_record its)) its.
Proof. intros HF. unfold unsuback_record, unsuback_items. cbn [V5UnsubAck.reason_string V5UnsubAck.user_properties]. set_incl HF. Qed.
Lemma unsuback_place p : Forall (has_place InUnsubAck) (unsuback_items p).
Proof. unfold unsuback_items. set_place. Qed.
Lemma unsuback_props_len p : V5UnsubAck.props_len p = blen (items_bytes (unsuback_items p)).
Proof. cbv beta delta [V5UnsubAck.props_len unsuback_items]. set_len. Qed.
Lemma unsuback_props_write p b : V5UnsubAck.props_write p b = put_section (blen (items_bytes (unsuback_items p))) (unsuback_items p) b.
Proof.
  unfold V5UnsubAck.props_write. cbv zeta. rewrite unsuback_props_len. apply put_section_eq.
  cbv beta delta [unsuback_items]. set_write.
Qed.

(** *** DisconnectProperties *)
Lemma disconnect_step : forall ty its s,
  V5Disconnect.props_step ty (property_u8 ty) (disconnect_record its) s =
  (if mem (property_u8 ty) (allowed_at InDisconnect)
   then (vd <-r read_val (ty_type ty) ;;
         rret (disconnect_record (its ++ [(property_u8 ty, fst vd)]), snd vd))
   else rerr (InvalidPropertyType (property_u8 ty))) s.
Proof. set_step V5Disconnect.props_step disconnect_record. Qed.
Lemma wp_disconnect_extract s (Q : _ -> _ -> Prop) : bytes_ok s -> blen s <= huge ->
  (forall o bs s', s = bs ++ s' -> decodes_props (allowed_at InDisconnect) disconnect_record o bs -> bytes_ok s' -> Q o s') ->
  wp E5 (V5Disconnect.extract s) Q.
Proof. exact (wp_extract _ disconnect_record _ disconnect_step s Q). Qed.
Lemma disconnect_extract_ok o bs s : blen bs <= huge -> decodes_props (allowed_at InDisconnect) disconnect_record o bs ->
  V5Disconnect.extract (bs ++ s) = Ok (o, s).
Proof. exact (extract_ok _ disconnect_record _ disconnect_step o bs s). Qed.
Lemma disconnect_extract_bad f plen its bs c id s : lenfield f plen -> blen f <= 4 -> blen bs <= huge ->
  reads (allowed_at InDisconnect) plen 0 its bs c -> c < plen -> ~ In id (allowed_at InDisconnect) ->
  V5Disconnect.extract (f ++ bs ++ id :: s) = Err (InvalidPropertyType id).
Proof. exact (extract_bad _ disconnect_record _ disconnect_step f plen its bs c id s). Qed.
Lemma disconnect_record_items p : disconnect_record (disconnect_items p) = p.
Proof.
  destruct p as [x0 x1 x2 x3]. set (its := disconnect_items _).
  assert (Ex0 : last_num 17 its = x0)
    by (subst its; unfold disconnect_items; cbn [V5Disconnect.session_expiry_interval V5Disconnect.reason_string V5Disconnect.user_properties V5Disconnect.server_reference]; set_lookup).
  assert (Ex1 : last_bytes 31 its = x1)
    by (subst its; unfold disconnect_items; cbn [V5Disconnect.session_expiry_interval V5Disconnect.reason_string V5Disconnect.user_properties V5Disconnect.server_reference]; set_lookup).
  assert (Ex2 : all_pairs its = x2)
    by (subst its; unfold disconnect_items; cbn [V5Disconnect.session_expiry_interval V5Disconnect.reason_string V5Disconnect.user_properties V5Disconnect.server_reference]; set_lookup).
  assert (Ex3 : last_bytes 28 its = x3)
    by (subst its; unfold disconnect_items; cbn [V5Disconnect.session_expiry_interval V5Disconnect.reason_string V5Disconnect.user_properties V5Disconnect.server_reference]; set_lookup).
  unfold disconnect_record. rewrite Ex0, Ex1, Ex2, Ex3. reflexivity.
Qed.
Lemma disconnect_items_incl its : Forall item_typed its -> incl (disconnect_items (disconnect_record its)) its.
Proof. intros HF. unfold disconnect_record, disconnect_items. cbn [V5Disconnect.session_expiry_interval V5Disconnect.reason_string V5Disconnect.user_properties V5Disconnect.server_reference]. set_incl HF. Qed.
Lemma disconnect_place p : Forall (has_place InDisconnect) (disconnect_items p).
Proof. unfold disconnect_items. set_place. Qed.
Lemma disconnect_props_len p : V5Disconnect.props_len p = blen (items_bytes (disconnect_items p)).
Proof. cbv beta delta [V5Disconnect.props_len disconnect_items]. set_len. Qed.
Lemma disconnect_props_write p b : V5Disconnect.props_write p b = put_section (blen (items_bytes (disconnect_items p))) (disconnect_items p) b.
Proof.
  unfold V5Disconnect.props_write. cbv zeta. rewrite disconnect_props_len. apply put_section_eq.
  cbv beta delta [disconnect_items]. set_write.
Qed.

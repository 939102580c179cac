(** mercurio-packets/src: the property structures of the packets.
    For every structure: the record, the fields in the order of [encode], the
    fields in the order of [encoded_size] (transcribed separately), the default,
    and the match of the decoder. *)
From Verif Require Import Base Utf8 Codec Property.

(** connect.rs 92-103 *)
Record connect_props := Mk_connect_props {
  cp_session_expiry_interval : option N;
  cp_receive_maximum : option N;
  cp_maximum_packet_size : option N;
  cp_topic_alias_maximum : option N;
  cp_request_response_information : option N;
  cp_request_problem_information : option N;
  cp_user_property : option user_props;
  cp_authentication_method : option bytes;
  cp_authentication_data : option bytes
}.

(** [default()] of that structure *)
Definition connect_props_default : connect_props := Mk_connect_props None None None None None None None None None.

(** connect.rs 106-116 [encode] *)
Definition connect_props_list (a : connect_props) : list property :=
  olist PSessionExpiryInterval (cp_session_expiry_interval a)
  ++ olist PReceiveMaximum (cp_receive_maximum a)
  ++ olist PMaximumPacketSize (cp_maximum_packet_size a)
  ++ olist PTopicAliasMaximum (cp_topic_alias_maximum a)
  ++ olist PRequestResponseInformation (cp_request_response_information a)
  ++ olist PRequestProblemInformation (cp_request_problem_information a)
  ++ ulist (cp_user_property a)
  ++ olist PAuthenticationMethod (cp_authentication_method a)
  ++ olist PAuthenticationData (cp_authentication_data a).

(** connect.rs 118-132 [encoded_size] *)
Definition connect_props_size_list (a : connect_props) : list property :=
  olist PSessionExpiryInterval (cp_session_expiry_interval a)
  ++ olist PReceiveMaximum (cp_receive_maximum a)
  ++ olist PMaximumPacketSize (cp_maximum_packet_size a)
  ++ olist PTopicAliasMaximum (cp_topic_alias_maximum a)
  ++ olist PRequestResponseInformation (cp_request_response_information a)
  ++ olist PRequestProblemInformation (cp_request_problem_information a)
  ++ ulist (cp_user_property a)
  ++ olist PAuthenticationMethod (cp_authentication_method a)
  ++ olist PAuthenticationData (cp_authentication_data a).

(** connect.rs 136-173 [decode]: the match arms *)
Definition connect_props_step (a : connect_props) (q : property) : option connect_props :=
  match q with
  | PSessionExpiryInterval v => Some (Mk_connect_props (Some v) (cp_receive_maximum a) (cp_maximum_packet_size a) (cp_topic_alias_maximum a) (cp_request_response_information a) (cp_request_problem_information a) (cp_user_property a) (cp_authentication_method a) (cp_authentication_data a))
  | PReceiveMaximum v => Some (Mk_connect_props (cp_session_expiry_interval a) (Some v) (cp_maximum_packet_size a) (cp_topic_alias_maximum a) (cp_request_response_information a) (cp_request_problem_information a) (cp_user_property a) (cp_authentication_method a) (cp_authentication_data a))
  | PMaximumPacketSize v => Some (Mk_connect_props (cp_session_expiry_interval a) (cp_receive_maximum a) (Some v) (cp_topic_alias_maximum a) (cp_request_response_information a) (cp_request_problem_information a) (cp_user_property a) (cp_authentication_method a) (cp_authentication_data a))
  | PTopicAliasMaximum v => Some (Mk_connect_props (cp_session_expiry_interval a) (cp_receive_maximum a) (cp_maximum_packet_size a) (Some v) (cp_request_response_information a) (cp_request_problem_information a) (cp_user_property a) (cp_authentication_method a) (cp_authentication_data a))
  | PRequestProblemInformation v => Some (Mk_connect_props (cp_session_expiry_interval a) (cp_receive_maximum a) (cp_maximum_packet_size a) (cp_topic_alias_maximum a) (cp_request_response_information a) (Some v) (cp_user_property a) (cp_authentication_method a) (cp_authentication_data a))
  | PUserProperty k v => Some (Mk_connect_props (cp_session_expiry_interval a) (cp_receive_maximum a) (cp_maximum_packet_size a) (cp_topic_alias_maximum a) (cp_request_response_information a) (cp_request_problem_information a) (push_user (cp_user_property a) k v) (cp_authentication_method a) (cp_authentication_data a))
  | PAuthenticationMethod v => Some (Mk_connect_props (cp_session_expiry_interval a) (cp_receive_maximum a) (cp_maximum_packet_size a) (cp_topic_alias_maximum a) (cp_request_response_information a) (cp_request_problem_information a) (cp_user_property a) (Some v) (cp_authentication_data a))
  | PAuthenticationData v => Some (Mk_connect_props (cp_session_expiry_interval a) (cp_receive_maximum a) (cp_maximum_packet_size a) (cp_topic_alias_maximum a) (cp_request_response_information a) (cp_request_problem_information a) (cp_user_property a) (cp_authentication_method a) (Some v))
  | _ => None
  end.

(** connect.rs 175-184 *)
Record will_props := Mk_will_props {
  wp_will_delay_interval : option N;
  wp_payload_format_indicator : option N;
  wp_message_expiry_interval : option N;
  wp_content_type : option bytes;
  wp_response_topic : option bytes;
  wp_correlation_data : option bytes;
  wp_user_property : option user_props
}.

(** [default()] of that structure *)
Definition will_props_default : will_props := Mk_will_props None None None None None None None.

(** connect.rs 187-195 [encode] *)
Definition will_props_list (a : will_props) : list property :=
  olist PWillDelayInterval (wp_will_delay_interval a)
  ++ olist PPayloadFormatIndicator (wp_payload_format_indicator a)
  ++ olist PMessageExpiryInterval (wp_message_expiry_interval a)
  ++ olist PContentType (wp_content_type a)
  ++ olist PResponseTopic (wp_response_topic a)
  ++ olist PCorrelationData (wp_correlation_data a)
  ++ ulist (wp_user_property a).

(** connect.rs 197-209 [encoded_size] *)
Definition will_props_size_list (a : will_props) : list property :=
  olist PWillDelayInterval (wp_will_delay_interval a)
  ++ olist PPayloadFormatIndicator (wp_payload_format_indicator a)
  ++ olist PMessageExpiryInterval (wp_message_expiry_interval a)
  ++ olist PContentType (wp_content_type a)
  ++ olist PResponseTopic (wp_response_topic a)
  ++ olist PCorrelationData (wp_correlation_data a)
  ++ ulist (wp_user_property a).

(** connect.rs 213-250 [decode]: the match arms *)
Definition will_props_step (a : will_props) (q : property) : option will_props :=
  match q with
  | PWillDelayInterval v => Some (Mk_will_props (Some v) (wp_payload_format_indicator a) (wp_message_expiry_interval a) (wp_content_type a) (wp_response_topic a) (wp_correlation_data a) (wp_user_property a))
  | PPayloadFormatIndicator v => Some (Mk_will_props (wp_will_delay_interval a) (Some v) (wp_message_expiry_interval a) (wp_content_type a) (wp_response_topic a) (wp_correlation_data a) (wp_user_property a))
  | PMessageExpiryInterval v => Some (Mk_will_props (wp_will_delay_interval a) (wp_payload_format_indicator a) (Some v) (wp_content_type a) (wp_response_topic a) (wp_correlation_data a) (wp_user_property a))
  | PContentType v => Some (Mk_will_props (wp_will_delay_interval a) (wp_payload_format_indicator a) (wp_message_expiry_interval a) (Some v) (wp_response_topic a) (wp_correlation_data a) (wp_user_property a))
  | PResponseTopic v => Some (Mk_will_props (wp_will_delay_interval a) (wp_payload_format_indicator a) (wp_message_expiry_interval a) (wp_content_type a) (Some v) (wp_correlation_data a) (wp_user_property a))
  | PCorrelationData v => Some (Mk_will_props (wp_will_delay_interval a) (wp_payload_format_indicator a) (wp_message_expiry_interval a) (wp_content_type a) (wp_response_topic a) (Some v) (wp_user_property a))
  | PUserProperty k v => Some (Mk_will_props (wp_will_delay_interval a) (wp_payload_format_indicator a) (wp_message_expiry_interval a) (wp_content_type a) (wp_response_topic a) (wp_correlation_data a) (push_user (wp_user_property a) k v))
  | _ => None
  end.

(** connack.rs 46-65 *)
Record connack_props := Mk_connack_props {
  cap_session_expiry_interval : option N;
  cap_receive_maximum : option N;
  cap_maximum_qos : option N;
  cap_retain_available : option bool;
  cap_maximum_packet_size : option N;
  cap_assigned_client_id : option bytes;
  cap_topic_alias_max : option N;
  cap_reason_string : option bytes;
  cap_user_property : option user_props;
  cap_wildcard_subscription_available : option bool;
  cap_subscription_identifier_available : option bool;
  cap_shared_subscription_available : option bool;
  cap_server_keepalive : option N;
  cap_response_information : option bytes;
  cap_server_reference : option bytes;
  cap_authentication_method : option bytes;
  cap_authentication_data : option bytes
}.

(** [default()] of that structure *)
Definition connack_props_default : connack_props := Mk_connack_props None None None None None None None None None None None None None None None None None.

(** connack.rs 68-86 [encode] *)
Definition connack_props_list (a : connack_props) : list property :=
  olist PSessionExpiryInterval (cap_session_expiry_interval a)
  ++ olist PReceiveMaximum (cap_receive_maximum a)
  ++ olist PMaximumQoS (cap_maximum_qos a)
  ++ olist PRetainAvailable (cap_retain_available a)
  ++ olist PMaximumPacketSize (cap_maximum_packet_size a)
  ++ olist PAssignedClientIdentifier (cap_assigned_client_id a)
  ++ olist PTopicAliasMaximum (cap_topic_alias_max a)
  ++ olist PReasonString (cap_reason_string a)
  ++ ulist (cap_user_property a)
  ++ olist PWildcardSubscriptionAvailable (cap_wildcard_subscription_available a)
  ++ olist PSubscriptionIdentifierAvailable (cap_subscription_identifier_available a)
  ++ olist PSharedSubscriptionAvailable (cap_shared_subscription_available a)
  ++ olist PServerKeepAlive (cap_server_keepalive a)
  ++ olist PResponseInformation (cap_response_information a)
  ++ olist PServerReference (cap_server_reference a)
  ++ olist PAuthenticationMethod (cap_authentication_method a)
  ++ olist PAuthenticationData (cap_authentication_data a).

(** connack.rs 88-110 [encoded_size] *)
Definition connack_props_size_list (a : connack_props) : list property :=
  olist PSessionExpiryInterval (cap_session_expiry_interval a)
  ++ olist PReceiveMaximum (cap_receive_maximum a)
  ++ olist PMaximumQoS (cap_maximum_qos a)
  ++ olist PRetainAvailable (cap_retain_available a)
  ++ olist PMaximumPacketSize (cap_maximum_packet_size a)
  ++ olist PAssignedClientIdentifier (cap_assigned_client_id a)
  ++ olist PTopicAliasMaximum (cap_topic_alias_max a)
  ++ olist PReasonString (cap_reason_string a)
  ++ ulist (cap_user_property a)
  ++ olist PWildcardSubscriptionAvailable (cap_wildcard_subscription_available a)
  ++ olist PSubscriptionIdentifierAvailable (cap_subscription_identifier_available a)
  ++ olist PSharedSubscriptionAvailable (cap_shared_subscription_available a)
  ++ olist PServerKeepAlive (cap_server_keepalive a)
  ++ olist PResponseInformation (cap_response_information a)
  ++ olist PServerReference (cap_server_reference a)
  ++ olist PAuthenticationMethod (cap_authentication_method a)
  ++ olist PAuthenticationData (cap_authentication_data a).

(** connack.rs 114-166 [decode]: the match arms *)
Definition connack_props_step (a : connack_props) (q : property) : option connack_props :=
  match q with
  | PSessionExpiryInterval v => Some (Mk_connack_props (Some v) (cap_receive_maximum a) (cap_maximum_qos a) (cap_retain_available a) (cap_maximum_packet_size a) (cap_assigned_client_id a) (cap_topic_alias_max a) (cap_reason_string a) (cap_user_property a) (cap_wildcard_subscription_available a) (cap_subscription_identifier_available a) (cap_shared_subscription_available a) (cap_server_keepalive a) (cap_response_information a) (cap_server_reference a) (cap_authentication_method a) (cap_authentication_data a))
  | PReceiveMaximum v => Some (Mk_connack_props (cap_session_expiry_interval a) (Some v) (cap_maximum_qos a) (cap_retain_available a) (cap_maximum_packet_size a) (cap_assigned_client_id a) (cap_topic_alias_max a) (cap_reason_string a) (cap_user_property a) (cap_wildcard_subscription_available a) (cap_subscription_identifier_available a) (cap_shared_subscription_available a) (cap_server_keepalive a) (cap_response_information a) (cap_server_reference a) (cap_authentication_method a) (cap_authentication_data a))
  | PMaximumQoS v => Some (Mk_connack_props (cap_session_expiry_interval a) (cap_receive_maximum a) (Some v) (cap_retain_available a) (cap_maximum_packet_size a) (cap_assigned_client_id a) (cap_topic_alias_max a) (cap_reason_string a) (cap_user_property a) (cap_wildcard_subscription_available a) (cap_subscription_identifier_available a) (cap_shared_subscription_available a) (cap_server_keepalive a) (cap_response_information a) (cap_server_reference a) (cap_authentication_method a) (cap_authentication_data a))
  | PRetainAvailable v => Some (Mk_connack_props (cap_session_expiry_interval a) (cap_receive_maximum a) (cap_maximum_qos a) (Some v) (cap_maximum_packet_size a) (cap_assigned_client_id a) (cap_topic_alias_max a) (cap_reason_string a) (cap_user_property a) (cap_wildcard_subscription_available a) (cap_subscription_identifier_available a) (cap_shared_subscription_available a) (cap_server_keepalive a) (cap_response_information a) (cap_server_reference a) (cap_authentication_method a) (cap_authentication_data a))
  | PMaximumPacketSize v => Some (Mk_connack_props (cap_session_expiry_interval a) (cap_receive_maximum a) (cap_maximum_qos a) (cap_retain_available a) (Some v) (cap_assigned_client_id a) (cap_topic_alias_max a) (cap_reason_string a) (cap_user_property a) (cap_wildcard_subscription_available a) (cap_subscription_identifier_available a) (cap_shared_subscription_available a) (cap_server_keepalive a) (cap_response_information a) (cap_server_reference a) (cap_authentication_method a) (cap_authentication_data a))
  | PAssignedClientIdentifier v => Some (Mk_connack_props (cap_session_expiry_interval a) (cap_receive_maximum a) (cap_maximum_qos a) (cap_retain_available a) (cap_maximum_packet_size a) (Some v) (cap_topic_alias_max a) (cap_reason_string a) (cap_user_property a) (cap_wildcard_subscription_available a) (cap_subscription_identifier_available a) (cap_shared_subscription_available a) (cap_server_keepalive a) (cap_response_information a) (cap_server_reference a) (cap_authentication_method a) (cap_authentication_data a))
  | PTopicAliasMaximum v => Some (Mk_connack_props (cap_session_expiry_interval a) (cap_receive_maximum a) (cap_maximum_qos a) (cap_retain_available a) (cap_maximum_packet_size a) (cap_assigned_client_id a) (Some v) (cap_reason_string a) (cap_user_property a) (cap_wildcard_subscription_available a) (cap_subscription_identifier_available a) (cap_shared_subscription_available a) (cap_server_keepalive a) (cap_response_information a) (cap_server_reference a) (cap_authentication_method a) (cap_authentication_data a))
  | PReasonString v => Some (Mk_connack_props (cap_session_expiry_interval a) (cap_receive_maximum a) (cap_maximum_qos a) (cap_retain_available a) (cap_maximum_packet_size a) (cap_assigned_client_id a) (cap_topic_alias_max a) (Some v) (cap_user_property a) (cap_wildcard_subscription_available a) (cap_subscription_identifier_available a) (cap_shared_subscription_available a) (cap_server_keepalive a) (cap_response_information a) (cap_server_reference a) (cap_authentication_method a) (cap_authentication_data a))
  | PUserProperty k v => Some (Mk_connack_props (cap_session_expiry_interval a) (cap_receive_maximum a) (cap_maximum_qos a) (cap_retain_available a) (cap_maximum_packet_size a) (cap_assigned_client_id a) (cap_topic_alias_max a) (cap_reason_string a) (push_user (cap_user_property a) k v) (cap_wildcard_subscription_available a) (cap_subscription_identifier_available a) (cap_shared_subscription_available a) (cap_server_keepalive a) (cap_response_information a) (cap_server_reference a) (cap_authentication_method a) (cap_authentication_data a))
  | PWildcardSubscriptionAvailable v => Some (Mk_connack_props (cap_session_expiry_interval a) (cap_receive_maximum a) (cap_maximum_qos a) (cap_retain_available a) (cap_maximum_packet_size a) (cap_assigned_client_id a) (cap_topic_alias_max a) (cap_reason_string a) (cap_user_property a) (Some v) (cap_subscription_identifier_available a) (cap_shared_subscription_available a) (cap_server_keepalive a) (cap_response_information a) (cap_server_reference a) (cap_authentication_method a) (cap_authentication_data a))
  | PSubscriptionIdentifierAvailable v => Some (Mk_connack_props (cap_session_expiry_interval a) (cap_receive_maximum a) (cap_maximum_qos a) (cap_retain_available a) (cap_maximum_packet_size a) (cap_assigned_client_id a) (cap_topic_alias_max a) (cap_reason_string a) (cap_user_property a) (cap_wildcard_subscription_available a) (Some v) (cap_shared_subscription_available a) (cap_server_keepalive a) (cap_response_information a) (cap_server_reference a) (cap_authentication_method a) (cap_authentication_data a))
  | PSharedSubscriptionAvailable v => Some (Mk_connack_props (cap_session_expiry_interval a) (cap_receive_maximum a) (cap_maximum_qos a) (cap_retain_available a) (cap_maximum_packet_size a) (cap_assigned_client_id a) (cap_topic_alias_max a) (cap_reason_string a) (cap_user_property a) (cap_wildcard_subscription_available a) (cap_subscription_identifier_available a) (Some v) (cap_server_keepalive a) (cap_response_information a) (cap_server_reference a) (cap_authentication_method a) (cap_authentication_data a))
  | PServerKeepAlive v => Some (Mk_connack_props (cap_session_expiry_interval a) (cap_receive_maximum a) (cap_maximum_qos a) (cap_retain_available a) (cap_maximum_packet_size a) (cap_assigned_client_id a) (cap_topic_alias_max a) (cap_reason_string a) (cap_user_property a) (cap_wildcard_subscription_available a) (cap_subscription_identifier_available a) (cap_shared_subscription_available a) (Some v) (cap_response_information a) (cap_server_reference a) (cap_authentication_method a) (cap_authentication_data a))
  | PResponseInformation v => Some (Mk_connack_props (cap_session_expiry_interval a) (cap_receive_maximum a) (cap_maximum_qos a) (cap_retain_available a) (cap_maximum_packet_size a) (cap_assigned_client_id a) (cap_topic_alias_max a) (cap_reason_string a) (cap_user_property a) (cap_wildcard_subscription_available a) (cap_subscription_identifier_available a) (cap_shared_subscription_available a) (cap_server_keepalive a) (Some v) (cap_server_reference a) (cap_authentication_method a) (cap_authentication_data a))
  | PServerReference v => Some (Mk_connack_props (cap_session_expiry_interval a) (cap_receive_maximum a) (cap_maximum_qos a) (cap_retain_available a) (cap_maximum_packet_size a) (cap_assigned_client_id a) (cap_topic_alias_max a) (cap_reason_string a) (cap_user_property a) (cap_wildcard_subscription_available a) (cap_subscription_identifier_available a) (cap_shared_subscription_available a) (cap_server_keepalive a) (cap_response_information a) (Some v) (cap_authentication_method a) (cap_authentication_data a))
  | PAuthenticationMethod v => Some (Mk_connack_props (cap_session_expiry_interval a) (cap_receive_maximum a) (cap_maximum_qos a) (cap_retain_available a) (cap_maximum_packet_size a) (cap_assigned_client_id a) (cap_topic_alias_max a) (cap_reason_string a) (cap_user_property a) (cap_wildcard_subscription_available a) (cap_subscription_identifier_available a) (cap_shared_subscription_available a) (cap_server_keepalive a) (cap_response_information a) (cap_server_reference a) (Some v) (cap_authentication_data a))
  | PAuthenticationData v => Some (Mk_connack_props (cap_session_expiry_interval a) (cap_receive_maximum a) (cap_maximum_qos a) (cap_retain_available a) (cap_maximum_packet_size a) (cap_assigned_client_id a) (cap_topic_alias_max a) (cap_reason_string a) (cap_user_property a) (cap_wildcard_subscription_available a) (cap_subscription_identifier_available a) (cap_shared_subscription_available a) (cap_server_keepalive a) (cap_response_information a) (cap_server_reference a) (cap_authentication_method a) (Some v))
  | _ => None
  end.

(** publish.rs 14-24 *)
Record publish_props := Mk_publish_props {
  pp_payload_format_indicator : option N;
  pp_message_expiry_interval : option N;
  pp_topic_alias : option N;
  pp_response_topic : option bytes;
  pp_correlation_data : option bytes;
  pp_user_property : option user_props;
  pp_subscription_identifier : option N;
  pp_content_type : option bytes
}.

(** [default()] of that structure *)
Definition publish_props_default : publish_props := Mk_publish_props None None None None None None None None.

(** publish.rs 27-36 [encode] *)
Definition publish_props_list (a : publish_props) : list property :=
  olist PPayloadFormatIndicator (pp_payload_format_indicator a)
  ++ olist PMessageExpiryInterval (pp_message_expiry_interval a)
  ++ olist PTopicAlias (pp_topic_alias a)
  ++ olist PResponseTopic (pp_response_topic a)
  ++ olist PCorrelationData (pp_correlation_data a)
  ++ ulist (pp_user_property a)
  ++ olist PSubscriptionIdentifier (pp_subscription_identifier a)
  ++ olist PContentType (pp_content_type a).

(** publish.rs 38-50 [encoded_size] *)
Definition publish_props_size_list (a : publish_props) : list property :=
  olist PPayloadFormatIndicator (pp_payload_format_indicator a)
  ++ olist PMessageExpiryInterval (pp_message_expiry_interval a)
  ++ olist PTopicAlias (pp_topic_alias a)
  ++ olist PResponseTopic (pp_response_topic a)
  ++ olist PCorrelationData (pp_correlation_data a)
  ++ ulist (pp_user_property a)
  ++ olist PSubscriptionIdentifier (pp_subscription_identifier a)
  ++ olist PContentType (pp_content_type a).

(** publish.rs 53-91 [decode]: the match arms *)
Definition publish_props_step (a : publish_props) (q : property) : option publish_props :=
  match q with
  | PPayloadFormatIndicator v => Some (Mk_publish_props (Some v) (pp_message_expiry_interval a) (pp_topic_alias a) (pp_response_topic a) (pp_correlation_data a) (pp_user_property a) (pp_subscription_identifier a) (pp_content_type a))
  | PMessageExpiryInterval v => Some (Mk_publish_props (pp_payload_format_indicator a) (Some v) (pp_topic_alias a) (pp_response_topic a) (pp_correlation_data a) (pp_user_property a) (pp_subscription_identifier a) (pp_content_type a))
  | PTopicAlias v => Some (Mk_publish_props (pp_payload_format_indicator a) (pp_message_expiry_interval a) (Some v) (pp_response_topic a) (pp_correlation_data a) (pp_user_property a) (pp_subscription_identifier a) (pp_content_type a))
  | PResponseTopic v => Some (Mk_publish_props (pp_payload_format_indicator a) (pp_message_expiry_interval a) (pp_topic_alias a) (Some v) (pp_correlation_data a) (pp_user_property a) (pp_subscription_identifier a) (pp_content_type a))
  | PCorrelationData v => Some (Mk_publish_props (pp_payload_format_indicator a) (pp_message_expiry_interval a) (pp_topic_alias a) (pp_response_topic a) (Some v) (pp_user_property a) (pp_subscription_identifier a) (pp_content_type a))
  | PUserProperty k v => Some (Mk_publish_props (pp_payload_format_indicator a) (pp_message_expiry_interval a) (pp_topic_alias a) (pp_response_topic a) (pp_correlation_data a) (push_user (pp_user_property a) k v) (pp_subscription_identifier a) (pp_content_type a))
  | PSubscriptionIdentifier v => Some (Mk_publish_props (pp_payload_format_indicator a) (pp_message_expiry_interval a) (pp_topic_alias a) (pp_response_topic a) (pp_correlation_data a) (pp_user_property a) (Some v) (pp_content_type a))
  | PContentType v => Some (Mk_publish_props (pp_payload_format_indicator a) (pp_message_expiry_interval a) (pp_topic_alias a) (pp_response_topic a) (pp_correlation_data a) (pp_user_property a) (pp_subscription_identifier a) (Some v))
  | _ => None
  end.

(** puback.rs 13-17 (also pubrec.rs, pubrel.rs, pubcomp.rs, suback.rs 14-18, unsuback.rs 14-18: identical structures) *)
Record ack_props := Mk_ack_props {
  akp_reason_string : option bytes;
  akp_user_property : option user_props
}.

(** [default()] of that structure *)
Definition ack_props_default : ack_props := Mk_ack_props None None.

(** puback.rs 20-23 [encode] *)
Definition ack_props_list (a : ack_props) : list property :=
  olist PReasonString (akp_reason_string a)
  ++ ulist (akp_user_property a).

(** puback.rs 25-32 [encoded_size] *)
Definition ack_props_size_list (a : ack_props) : list property :=
  olist PReasonString (akp_reason_string a)
  ++ ulist (akp_user_property a).

(** puback.rs 36-67 [decode]: the match arms *)
Definition ack_props_step (a : ack_props) (q : property) : option ack_props :=
  match q with
  | PReasonString v => Some (Mk_ack_props (Some v) (akp_user_property a))
  | PUserProperty k v => Some (Mk_ack_props (akp_reason_string a) (push_user (akp_user_property a) k v))
  | _ => None
  end.

(** subscribe.rs 15-19 *)
Record subscribe_props := Mk_subscribe_props {
  sbp_subscription_id : option N;
  sbp_user_property : option user_props
}.

(** [default()] of that structure *)
Definition subscribe_props_default : subscribe_props := Mk_subscribe_props None None.

(** subscribe.rs 22-25 [encode] *)
Definition subscribe_props_list (a : subscribe_props) : list property :=
  olist PSubscriptionIdentifier (sbp_subscription_id a)
  ++ ulist (sbp_user_property a).

(** subscribe.rs 27-34 [encoded_size] *)
Definition subscribe_props_size_list (a : subscribe_props) : list property :=
  olist PSubscriptionIdentifier (sbp_subscription_id a)
  ++ ulist (sbp_user_property a).

(** subscribe.rs 38-69 [decode]: the match arms *)
Definition subscribe_props_step (a : subscribe_props) (q : property) : option subscribe_props :=
  match q with
  | PSubscriptionIdentifier v => Some (Mk_subscribe_props (Some v) (sbp_user_property a))
  | PUserProperty k v => Some (Mk_subscribe_props (sbp_subscription_id a) (push_user (sbp_user_property a) k v))
  | _ => None
  end.

(** unsubscribe.rs 13-16 *)
Record unsubscribe_props := Mk_unsubscribe_props {
  usp_user_property : option user_props
}.

(** [default()] of that structure *)
Definition unsubscribe_props_default : unsubscribe_props := Mk_unsubscribe_props None.

(** unsubscribe.rs 19-21 [encode] *)
Definition unsubscribe_props_list (a : unsubscribe_props) : list property :=
  ulist (usp_user_property a).

(** unsubscribe.rs 23-29 [encoded_size] *)
Definition unsubscribe_props_size_list (a : unsubscribe_props) : list property :=
  ulist (usp_user_property a).

(** unsubscribe.rs 33-63 [decode]: the match arms *)
Definition unsubscribe_props_step (a : unsubscribe_props) (q : property) : option unsubscribe_props :=
  match q with
  | PUserProperty k v => Some (Mk_unsubscribe_props (push_user (usp_user_property a) k v))
  | _ => None
  end.

(** disconnect.rs 13-19 *)
Record disconnect_props := Mk_disconnect_props {
  dp_session_expiry_interval : option N;
  dp_reason_string : option bytes;
  dp_user_property : option user_props;
  dp_server_reference : option bytes
}.

(** [default()] of that structure *)
Definition disconnect_props_default : disconnect_props := Mk_disconnect_props None None None None.

(** disconnect.rs 22-27 [encode] *)
Definition disconnect_props_list (a : disconnect_props) : list property :=
  olist PSessionExpiryInterval (dp_session_expiry_interval a)
  ++ olist PReasonString (dp_reason_string a)
  ++ ulist (dp_user_property a)
  ++ olist PServerReference (dp_server_reference a).

(** disconnect.rs 29-38 [encoded_size] *)
Definition disconnect_props_size_list (a : disconnect_props) : list property :=
  olist PSessionExpiryInterval (dp_session_expiry_interval a)
  ++ olist PReasonString (dp_reason_string a)
  ++ ulist (dp_user_property a)
  ++ olist PServerReference (dp_server_reference a).

(** disconnect.rs 42-75 [decode]: the match arms *)
Definition disconnect_props_step (a : disconnect_props) (q : property) : option disconnect_props :=
  match q with
  | PSessionExpiryInterval v => Some (Mk_disconnect_props (Some v) (dp_reason_string a) (dp_user_property a) (dp_server_reference a))
  | PReasonString v => Some (Mk_disconnect_props (dp_session_expiry_interval a) (Some v) (dp_user_property a) (dp_server_reference a))
  | PUserProperty k v => Some (Mk_disconnect_props (dp_session_expiry_interval a) (dp_reason_string a) (push_user (dp_user_property a) k v) (dp_server_reference a))
  | PServerReference v => Some (Mk_disconnect_props (dp_session_expiry_interval a) (dp_reason_string a) (dp_user_property a) (Some v))
  | _ => None
  end.

(** auth.rs 13-19 *)
Record auth_props := Mk_auth_props {
  aup_auth_method : option bytes;
  aup_auth_data : option bytes;
  aup_reason_string : option bytes;
  aup_user_property : option user_props
}.

(** [default()] of that structure *)
Definition auth_props_default : auth_props := Mk_auth_props None None None None.

(** auth.rs 22-27 [encode] *)
Definition auth_props_list (a : auth_props) : list property :=
  olist PAuthenticationMethod (aup_auth_method a)
  ++ olist PAuthenticationData (aup_auth_data a)
  ++ olist PReasonString (aup_reason_string a)
  ++ ulist (aup_user_property a).

(** auth.rs 29-38 [encoded_size] *)
Definition auth_props_size_list (a : auth_props) : list property :=
  olist PAuthenticationMethod (aup_auth_method a)
  ++ olist PAuthenticationData (aup_auth_data a)
  ++ olist PReasonString (aup_reason_string a)
  ++ ulist (aup_user_property a).

(** auth.rs 42-75 [decode]: the match arms *)
Definition auth_props_step (a : auth_props) (q : property) : option auth_props :=
  match q with
  | PAuthenticationMethod v => Some (Mk_auth_props (Some v) (aup_auth_data a) (aup_reason_string a) (aup_user_property a))
  | PAuthenticationData v => Some (Mk_auth_props (aup_auth_method a) (Some v) (aup_reason_string a) (aup_user_property a))
  | PReasonString v => Some (Mk_auth_props (aup_auth_method a) (aup_auth_data a) (Some v) (aup_user_property a))
  | PUserProperty k v => Some (Mk_auth_props (aup_auth_method a) (aup_auth_data a) (aup_reason_string a) (push_user (aup_user_property a) k v))
  | _ => None
  end.


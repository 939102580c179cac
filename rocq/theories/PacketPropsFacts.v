(** The property list written by an encoder, replayed through the decoder's match,
    rebuilds the structure. *)
From Verif Require Import Base Utf8 Codec Property PacketProps Tac PropertyFacts.

Lemma connect_props_size_list_eq a : connect_props_size_list a = connect_props_list a.
Proof. reflexivity. Qed.

Lemma connect_props_fold a :
  cp_request_response_information a = None -> cp_user_property a <> Some [] ->
  foldo connect_props_step connect_props_default (connect_props_list a) = Some a.
Proof.
  destruct a as [x0 x1 x2 x3 x4 x5 x6 x7 x8]; unfold connect_props_list; cbn [cp_session_expiry_interval cp_receive_maximum cp_maximum_packet_size cp_topic_alias_maximum cp_request_response_information cp_request_problem_information cp_user_property cp_authentication_method cp_authentication_data].
  intros H0 H1.
  etransitivity; [apply (foldo_olist connect_props_step (fun u => Mk_connect_props u None None None None None None None None) PSessionExpiryInterval x0); intros; reflexivity|].
  etransitivity; [apply (foldo_olist connect_props_step (fun u => Mk_connect_props x0 u None None None None None None None) PReceiveMaximum x1); intros; reflexivity|].
  etransitivity; [apply (foldo_olist connect_props_step (fun u => Mk_connect_props x0 x1 u None None None None None None) PMaximumPacketSize x2); intros; reflexivity|].
  etransitivity; [apply (foldo_olist connect_props_step (fun u => Mk_connect_props x0 x1 x2 u None None None None None) PTopicAliasMaximum x3); intros; reflexivity|].
  subst x4.
  change (olist PRequestResponseInformation None) with (@nil property); cbn [app].
  etransitivity; [apply (foldo_olist connect_props_step (fun u => Mk_connect_props x0 x1 x2 x3 None u None None None) PRequestProblemInformation x5); intros; reflexivity|].
  etransitivity; [apply (foldo_ulist connect_props_step (fun u => Mk_connect_props x0 x1 x2 x3 None x5 u None None) x6); [intros; reflexivity|exact H1]|].
  etransitivity; [apply (foldo_olist connect_props_step (fun u => Mk_connect_props x0 x1 x2 x3 None x5 x6 u None) PAuthenticationMethod x7); intros; reflexivity|].
  rewrite <- (app_nil_r (olist _ _)).
  etransitivity; [apply (foldo_olist connect_props_step (fun u => Mk_connect_props x0 x1 x2 x3 None x5 x6 x7 u) PAuthenticationData x8); intros; reflexivity|].
  reflexivity.
Qed.

Lemma will_props_size_list_eq a : will_props_size_list a = will_props_list a.
Proof. reflexivity. Qed.

Lemma will_props_fold a :
  wp_user_property a <> Some [] ->
  foldo will_props_step will_props_default (will_props_list a) = Some a.
Proof.
  destruct a as [x0 x1 x2 x3 x4 x5 x6]; unfold will_props_list; cbn [wp_will_delay_interval wp_payload_format_indicator wp_message_expiry_interval wp_content_type wp_response_topic wp_correlation_data wp_user_property].
  intros H0.
  etransitivity; [apply (foldo_olist will_props_step (fun u => Mk_will_props u None None None None None None) PWillDelayInterval x0); intros; reflexivity|].
  etransitivity; [apply (foldo_olist will_props_step (fun u => Mk_will_props x0 u None None None None None) PPayloadFormatIndicator x1); intros; reflexivity|].
  etransitivity; [apply (foldo_olist will_props_step (fun u => Mk_will_props x0 x1 u None None None None) PMessageExpiryInterval x2); intros; reflexivity|].
  etransitivity; [apply (foldo_olist will_props_step (fun u => Mk_will_props x0 x1 x2 u None None None) PContentType x3); intros; reflexivity|].
  etransitivity; [apply (foldo_olist will_props_step (fun u => Mk_will_props x0 x1 x2 x3 u None None) PResponseTopic x4); intros; reflexivity|].
  etransitivity; [apply (foldo_olist will_props_step (fun u => Mk_will_props x0 x1 x2 x3 x4 u None) PCorrelationData x5); intros; reflexivity|].
  rewrite <- (app_nil_r (ulist _)).
  etransitivity; [apply (foldo_ulist will_props_step (fun u => Mk_will_props x0 x1 x2 x3 x4 x5 u) x6); [intros; reflexivity|exact H0]|].
  reflexivity.
Qed.

Lemma connack_props_size_list_eq a : connack_props_size_list a = connack_props_list a.
Proof. reflexivity. Qed.

Lemma connack_props_fold a :
  cap_user_property a <> Some [] ->
  foldo connack_props_step connack_props_default (connack_props_list a) = Some a.
Proof.
  destruct a as [x0 x1 x2 x3 x4 x5 x6 x7 x8 x9 x10 x11 x12 x13 x14 x15 x16]; unfold connack_props_list; cbn [cap_session_expiry_interval cap_receive_maximum cap_maximum_qos cap_retain_available cap_maximum_packet_size cap_assigned_client_id cap_topic_alias_max cap_reason_string cap_user_property cap_wildcard_subscription_available cap_subscription_identifier_available cap_shared_subscription_available cap_server_keepalive cap_response_information cap_server_reference cap_authentication_method cap_authentication_data].
  intros H0.
  etransitivity; [apply (foldo_olist connack_props_step (fun u => Mk_connack_props u None None None None None None None None None None None None None None None None) PSessionExpiryInterval x0); intros; reflexivity|].
  etransitivity; [apply (foldo_olist connack_props_step (fun u => Mk_connack_props x0 u None None None None None None None None None None None None None None None) PReceiveMaximum x1); intros; reflexivity|].
  etransitivity; [apply (foldo_olist connack_props_step (fun u => Mk_connack_props x0 x1 u None None None None None None None None None None None None None None) PMaximumQoS x2); intros; reflexivity|].
  etransitivity; [apply (foldo_olist connack_props_step (fun u => Mk_connack_props x0 x1 x2 u None None None None None None None None None None None None None) PRetainAvailable x3); intros; reflexivity|].
  etransitivity; [apply (foldo_olist connack_props_step (fun u => Mk_connack_props x0 x1 x2 x3 u None None None None None None None None None None None None) PMaximumPacketSize x4); intros; reflexivity|].
  etransitivity; [apply (foldo_olist connack_props_step (fun u => Mk_connack_props x0 x1 x2 x3 x4 u None None None None None None None None None None None) PAssignedClientIdentifier x5); intros; reflexivity|].
  etransitivity; [apply (foldo_olist connack_props_step (fun u => Mk_connack_props x0 x1 x2 x3 x4 x5 u None None None None None None None None None None) PTopicAliasMaximum x6); intros; reflexivity|].
  etransitivity; [apply (foldo_olist connack_props_step (fun u => Mk_connack_props x0 x1 x2 x3 x4 x5 x6 u None None None None None None None None None) PReasonString x7); intros; reflexivity|].
  etransitivity; [apply (foldo_ulist connack_props_step (fun u => Mk_connack_props x0 x1 x2 x3 x4 x5 x6 x7 u None None None None None None None None) x8); [intros; reflexivity|exact H0]|].
  etransitivity; [apply (foldo_olist connack_props_step (fun u => Mk_connack_props x0 x1 x2 x3 x4 x5 x6 x7 x8 u None None None None None None None) PWildcardSubscriptionAvailable x9); intros; reflexivity|].
  etransitivity; [apply (foldo_olist connack_props_step (fun u => Mk_connack_props x0 x1 x2 x3 x4 x5 x6 x7 x8 x9 u None None None None None None) PSubscriptionIdentifierAvailable x10); intros; reflexivity|].
  etransitivity; [apply (foldo_olist connack_props_step (fun u => Mk_connack_props x0 x1 x2 x3 x4 x5 x6 x7 x8 x9 x10 u None None None None None) PSharedSubscriptionAvailable x11); intros; reflexivity|].
  etransitivity; [apply (foldo_olist connack_props_step (fun u => Mk_connack_props x0 x1 x2 x3 x4 x5 x6 x7 x8 x9 x10 x11 u None None None None) PServerKeepAlive x12); intros; reflexivity|].
  etransitivity; [apply (foldo_olist connack_props_step (fun u => Mk_connack_props x0 x1 x2 x3 x4 x5 x6 x7 x8 x9 x10 x11 x12 u None None None) PResponseInformation x13); intros; reflexivity|].
  etransitivity; [apply (foldo_olist connack_props_step (fun u => Mk_connack_props x0 x1 x2 x3 x4 x5 x6 x7 x8 x9 x10 x11 x12 x13 u None None) PServerReference x14); intros; reflexivity|].
  etransitivity; [apply (foldo_olist connack_props_step (fun u => Mk_connack_props x0 x1 x2 x3 x4 x5 x6 x7 x8 x9 x10 x11 x12 x13 x14 u None) PAuthenticationMethod x15); intros; reflexivity|].
  rewrite <- (app_nil_r (olist _ _)).
  etransitivity; [apply (foldo_olist connack_props_step (fun u => Mk_connack_props x0 x1 x2 x3 x4 x5 x6 x7 x8 x9 x10 x11 x12 x13 x14 x15 u) PAuthenticationData x16); intros; reflexivity|].
  reflexivity.
Qed.

Lemma publish_props_size_list_eq a : publish_props_size_list a = publish_props_list a.
Proof. reflexivity. Qed.

Lemma publish_props_fold a :
  pp_user_property a <> Some [] ->
  foldo publish_props_step publish_props_default (publish_props_list a) = Some a.
Proof.
  destruct a as [x0 x1 x2 x3 x4 x5 x6 x7]; unfold publish_props_list; cbn [pp_payload_format_indicator pp_message_expiry_interval pp_topic_alias pp_response_topic pp_correlation_data pp_user_property pp_subscription_identifier pp_content_type].
  intros H0.
  etransitivity; [apply (foldo_olist publish_props_step (fun u => Mk_publish_props u None None None None None None None) PPayloadFormatIndicator x0); intros; reflexivity|].
  etransitivity; [apply (foldo_olist publish_props_step (fun u => Mk_publish_props x0 u None None None None None None) PMessageExpiryInterval x1); intros; reflexivity|].
  etransitivity; [apply (foldo_olist publish_props_step (fun u => Mk_publish_props x0 x1 u None None None None None) PTopicAlias x2); intros; reflexivity|].
  etransitivity; [apply (foldo_olist publish_props_step (fun u => Mk_publish_props x0 x1 x2 u None None None None) PResponseTopic x3); intros; reflexivity|].
  etransitivity; [apply (foldo_olist publish_props_step (fun u => Mk_publish_props x0 x1 x2 x3 u None None None) PCorrelationData x4); intros; reflexivity|].
  etransitivity; [apply (foldo_ulist publish_props_step (fun u => Mk_publish_props x0 x1 x2 x3 x4 u None None) x5); [intros; reflexivity|exact H0]|].
  etransitivity; [apply (foldo_olist publish_props_step (fun u => Mk_publish_props x0 x1 x2 x3 x4 x5 u None) PSubscriptionIdentifier x6); intros; reflexivity|].
  rewrite <- (app_nil_r (olist _ _)).
  etransitivity; [apply (foldo_olist publish_props_step (fun u => Mk_publish_props x0 x1 x2 x3 x4 x5 x6 u) PContentType x7); intros; reflexivity|].
  reflexivity.
Qed.

Lemma ack_props_size_list_eq a : ack_props_size_list a = ack_props_list a.
Proof. reflexivity. Qed.

Lemma ack_props_fold a :
  akp_user_property a <> Some [] ->
  foldo ack_props_step ack_props_default (ack_props_list a) = Some a.
Proof.
  destruct a as [x0 x1]; unfold ack_props_list; cbn [akp_reason_string akp_user_property].
  intros H0.
  etransitivity; [apply (foldo_olist ack_props_step (fun u => Mk_ack_props u None) PReasonString x0); intros; reflexivity|].
  rewrite <- (app_nil_r (ulist _)).
  etransitivity; [apply (foldo_ulist ack_props_step (fun u => Mk_ack_props x0 u) x1); [intros; reflexivity|exact H0]|].
  reflexivity.
Qed.

Lemma subscribe_props_size_list_eq a : subscribe_props_size_list a = subscribe_props_list a.
Proof. reflexivity. Qed.

Lemma subscribe_props_fold a :
  sbp_user_property a <> Some [] ->
  foldo subscribe_props_step subscribe_props_default (subscribe_props_list a) = Some a.
Proof.
  destruct a as [x0 x1]; unfold subscribe_props_list; cbn [sbp_subscription_id sbp_user_property].
  intros H0.
  etransitivity; [apply (foldo_olist subscribe_props_step (fun u => Mk_subscribe_props u None) PSubscriptionIdentifier x0); intros; reflexivity|].
  rewrite <- (app_nil_r (ulist _)).
  etransitivity; [apply (foldo_ulist subscribe_props_step (fun u => Mk_subscribe_props x0 u) x1); [intros; reflexivity|exact H0]|].
  reflexivity.
Qed.

Lemma unsubscribe_props_size_list_eq a : unsubscribe_props_size_list a = unsubscribe_props_list a.
Proof. reflexivity. Qed.

Lemma unsubscribe_props_fold a :
  usp_user_property a <> Some [] ->
  foldo unsubscribe_props_step unsubscribe_props_default (unsubscribe_props_list a) = Some a.
Proof.
  destruct a as [x0]; unfold unsubscribe_props_list; cbn [usp_user_property].
  intros H0.
  rewrite <- (app_nil_r (ulist _)).
  etransitivity; [apply (foldo_ulist unsubscribe_props_step (fun u => Mk_unsubscribe_props u) x0); [intros; reflexivity|exact H0]|].
  reflexivity.
Qed.

Lemma disconnect_props_size_list_eq a : disconnect_props_size_list a = disconnect_props_list a.
Proof. reflexivity. Qed.

Lemma disconnect_props_fold a :
  dp_user_property a <> Some [] ->
  foldo disconnect_props_step disconnect_props_default (disconnect_props_list a) = Some a.
Proof.
  destruct a as [x0 x1 x2 x3]; unfold disconnect_props_list; cbn [dp_session_expiry_interval dp_reason_string dp_user_property dp_server_reference].
  intros H0.
  etransitivity; [apply (foldo_olist disconnect_props_step (fun u => Mk_disconnect_props u None None None) PSessionExpiryInterval x0); intros; reflexivity|].
  etransitivity; [apply (foldo_olist disconnect_props_step (fun u => Mk_disconnect_props x0 u None None) PReasonString x1); intros; reflexivity|].
  etransitivity; [apply (foldo_ulist disconnect_props_step (fun u => Mk_disconnect_props x0 x1 u None) x2); [intros; reflexivity|exact H0]|].
  rewrite <- (app_nil_r (olist _ _)).
  etransitivity; [apply (foldo_olist disconnect_props_step (fun u => Mk_disconnect_props x0 x1 x2 u) PServerReference x3); intros; reflexivity|].
  reflexivity.
Qed.

Lemma auth_props_size_list_eq a : auth_props_size_list a = auth_props_list a.
Proof. reflexivity. Qed.

Lemma auth_props_fold a :
  aup_user_property a <> Some [] ->
  foldo auth_props_step auth_props_default (auth_props_list a) = Some a.
Proof.
  destruct a as [x0 x1 x2 x3]; unfold auth_props_list; cbn [aup_auth_method aup_auth_data aup_reason_string aup_user_property].
  intros H0.
  etransitivity; [apply (foldo_olist auth_props_step (fun u => Mk_auth_props u None None None) PAuthenticationMethod x0); intros; reflexivity|].
  etransitivity; [apply (foldo_olist auth_props_step (fun u => Mk_auth_props x0 u None None) PAuthenticationData x1); intros; reflexivity|].
  etransitivity; [apply (foldo_olist auth_props_step (fun u => Mk_auth_props x0 x1 u None) PReasonString x2); intros; reflexivity|].
  rewrite <- (app_nil_r (ulist _)).
  etransitivity; [apply (foldo_ulist auth_props_step (fun u => Mk_auth_props x0 x1 x2 u) x3); [intros; reflexivity|exact H0]|].
  reflexivity.
Qed.


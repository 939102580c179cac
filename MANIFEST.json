{
 "claims": [
  {
   "property": "C01",
   "status": "proved",
   "theorems": [
    "C01_vbi_round_trip"
   ],
   "note": ""
  },
  {
   "property": "C02",
   "status": "partial",
   "theorems": [
    "C02_vbi_decode_safe_partial",
    "C02_vbi_debug_panics_exactly",
    "C02_vbi_decode_safe_refuted"
   ],
   "note": "True of release builds. False of builds with overflow checks: the debug build panics on exactly the five-byte inputs characterised by C02_vbi_debug_panics_exactly."
  },
  {
   "property": "C03",
   "status": "partial",
   "theorems": [
    "C03_vbi_canonical_refuted",
    "C03_vbi_canonical_partial",
    "C03_every_overlong_form_accepted"
   ],
   "note": "False of the code: every overlong form of at most four bytes is accepted. What remains true is that two accepted encodings of the same value and length are equal."
  },
  {
   "property": "C04",
   "status": "proved",
   "theorems": [
    "C04_string_binary_round_trip",
    "C04_too_long_is_corrupted"
   ],
   "note": "Values longer than the 16-bit length field are covered by C04_too_long_is_corrupted."
  },
  {
   "property": "C05",
   "status": "proved",
   "theorems": [
    "C05_strings_are_utf8",
    "C05_otherwise_reported"
   ],
   "note": ""
  },
  {
   "property": "C06",
   "status": "partial",
   "theorems": [
    "C06_properties_round_trip_partial",
    "C06_properties_round_trip_refuted",
    "C06_request_response_information_becomes_problem_information",
    "C06_connect_never_carries_request_response_information"
   ],
   "note": "True of 26 properties; false of Request Response Information, which always decodes as Request Problem Information."
  },
  {
   "property": "C07",
   "status": "proved",
   "theorems": [
    "C07_remaining_length_truthful",
    "C07_encoding_total"
   ],
   "note": ""
  },
  {
   "property": "C08",
   "status": "partial",
   "theorems": [
    "C08_packets_round_trip_partial",
    "C08_auth_never_round_trips_refuted",
    "C08_disconnect_properties_never_round_trip_refuted",
    "C08_ping_leaves_a_byte_refuted"
   ],
   "note": "True (up to what the wire format can express, [canon]) of every packet except AUTH, DISCONNECT with properties, PINGREQ/PINGRESP and CONNECT with Request Response Information; for those it is false."
  },
  {
   "property": "C09",
   "status": "partial",
   "theorems": [
    "C09_parse_consumes_prefix_partial",
    "C09_encoder_output_consumed_exactly_partial",
    "C09_parse_consumes_one_frame_refuted"
   ],
   "note": "False of arbitrary frames (over- and under-reads exist); true of frames the encoder writes; on all bytes parsing consumes a prefix."
  },
  {
   "property": "C10",
   "status": "partial",
   "theorems": [
    "C10_parse_panic_free_partial",
    "C10_parse_panic_free_any_bytes_partial",
    "C10_panics_exactly_partial",
    "C10_parse_panic_free_refuted"
   ],
   "note": "False: CONNACK, PUBACK-like, SUBSCRIBE and AUTH frames that are too short panic even a release build. True of every other complete frame in a release build, and of all byte strings of the other packet types."
  },
  {
   "property": "C11",
   "status": "partial",
   "theorems": [
    "C11_reason_codes_partial",
    "C11_only_codes_accepted",
    "C11_reason_codes_refuted"
   ],
   "note": "False of the three reasons sharing code 0; exact description proved."
  },
  {
   "property": "C12",
   "status": "proved",
   "theorems": [
    "C12_connect_flags_faithful",
    "C12_connect_flags_round_trip"
   ],
   "note": ""
  },
  {
   "property": "C13",
   "status": "proved",
   "theorems": [
    "C13_version_negotiation",
    "C13_connect_version"
   ],
   "note": ""
  },
  {
   "property": "C14",
   "status": "partial",
   "theorems": [
    "C14_v311_publish_never_understood_refuted",
    "C14_v311_packets_refuted",
    "C14_v311_packets_partial",
    "C14_v311_disconnect_partial"
   ],
   "note": "False: no 3.1.1 PUBLISH is ever parsed to its payload, and SUBSCRIBE/UNSUBSCRIBE fail. True of CONNECT, DISCONNECT and the acknowledgements."
  },
  {
   "property": "C15",
   "status": "partial",
   "theorems": [
    "C15_server_framing_partial",
    "C15_server_framing_truncated_partial",
    "C15_server_reads_deterministic",
    "C15_server_framing_refuted"
   ],
   "note": "Proved for all sequences of packets that round trip (C08) and all chunkings, including streams cut inside a packet; false of packets whose parse over-reads."
  },
  {
   "property": "C16",
   "status": "partial",
   "theorems": [
    "C16_ping_kills_connection_refuted"
   ],
   "note": "False: proved for all streams that after a PINGREQ nothing more is read and the connection ends with an error."
  },
  {
   "property": "C17",
   "status": "partial",
   "theorems": [
    "C17_client_framing_partial",
    "C17_client_framing_refuted"
   ],
   "note": "False when a read ends inside a packet; proved when every read ends at a packet boundary."
  },
  {
   "property": "C18",
   "status": "proved",
   "theorems": [
    "C18_check_exact",
    "C18_check_prefix",
    "C18_check_noncanonical_refuted"
   ],
   "note": "For canonical headers; for overlong length fields it is refuted."
  },
  {
   "property": "C19",
   "status": "proved",
   "theorems": [
    "C19_publish_topic_validation"
   ],
   "note": "Both directions against an independent specification over Unicode characters."
  },
  {
   "property": "C20",
   "status": "proved",
   "theorems": [
    "C20_filter_validation"
   ],
   "note": "Both directions against an independent specification over Unicode characters."
  },
  {
   "property": "C21",
   "status": "proved",
   "theorems": [
    "C21_routing_exact",
    "C21_routing_total"
   ],
   "note": "For all histories of subscriptions and publishes; the walk also never fails."
  },
  {
   "property": "C22",
   "status": "partial",
   "theorems": [
    "C22_dollar_topics_partial",
    "C22_dollar_topics_refuted"
   ],
   "note": "False: \"#\" and \"+...\" receive $-topics, live and retained. True when the topic does not start with $ or the filter does not start with a wildcard."
  },
  {
   "property": "C23",
   "status": "proved",
   "theorems": [
    "C23_retained_live_same_matching"
   ],
   "note": "For every valid filter and topic, over any set of earlier subscriptions."
  },
  {
   "property": "C24",
   "status": "proved",
   "theorems": [
    "C24_retained_last_per_topic",
    "C24_retained_unique"
   ],
   "note": "For all histories of broker calls, against an inductive specification of the retained message of a topic."
  },
  {
   "property": "C25",
   "status": "proved",
   "theorems": [
    "C25_no_lost_retained"
   ],
   "note": "For all interleavings of any number of publishes with one subscribe, from any reachable broker."
  },
  {
   "property": "C26",
   "status": "partial",
   "theorems": [
    "C26_retained_is_last_live_partial",
    "C26_retained_is_last_live_refuted"
   ],
   "note": "False for overlapping publishes; proved for publishes that do not overlap."
  },
  {
   "property": "C27",
   "status": "partial",
   "theorems": [
    "C27_in_order_no_duplicates",
    "C27_no_loss_partial",
    "C27_loss_refuted"
   ],
   "note": "Order and absence of duplicates proved for all interleavings; no loss proved when at most 16 messages wait; false with 17."
  },
  {
   "property": "C51",
   "status": "proved",
   "theorems": [
    "C51_memory_store_is_maps",
    "C51_spec_unique"
   ],
   "note": "For all operation sequences whose retained lookups use valid filters."
  },
  {
   "property": "C52",
   "status": "partial",
   "theorems": [
    "C52_sqlite_like_memory_partial",
    "C52_sqlite_rows_partial",
    "C52_sqlite_like_memory_refuted"
   ],
   "note": "False for filters containing a comma and for packet identifiers of retained messages; proved for all other operation sequences."
  },
  {
   "property": "C31",
   "status": "proved",
   "theorems": [
    "C31_suback_mirrors_subscribe"
   ],
   "note": "For all session states and SUBSCRIBE packets whose filters are UTF-8 (the parser guarantees it)."
  },
  {
   "property": "C32",
   "status": "proved",
   "theorems": [
    "C32_unsuback_mirrors_unsubscribe",
    "C32_no_delivery_afterwards"
   ],
   "note": "The answer and the new subscriptions for all session states; no later delivery for all later histories without restart, reopening of the connection or new subscription to the filter."
  },
  {
   "property": "C33",
   "status": "proved",
   "theorems": [
    "C33_publish_acknowledged",
    "C33_release_acknowledged"
   ],
   "note": "For all reachable states; also that the message is routed exactly once to every matching subscription."
  },
  {
   "property": "C34",
   "status": "proved",
   "theorems": [
    "C34_invalid_topic_no_effect",
    "C34_nothing_published"
   ],
   "note": "A PUBLISH on an invalid topic is the same as losing the connection; without a will nothing is routed, retained or stored."
  },
  {
   "property": "C35",
   "status": "partial",
   "theorems": [
    "C35_each_publish_routed_once_partial",
    "C35_exactly_once_refuted"
   ],
   "note": "False: a retransmitted QoS 2 PUBLISH is delivered again. Proved: each received PUBLISH is routed once and PUBREL routes nothing."
  },
  {
   "property": "C36",
   "status": "partial",
   "theorems": [
    "C36_outgoing_released_partial",
    "C36_state_released_refuted"
   ],
   "note": "False for messages the client publishes: every completed exchange leaves its message in the session. Proved for messages sent to the client."
  },
  {
   "property": "C37",
   "status": "proved",
   "theorems": [
    "C37_packet_types"
   ],
   "note": "For all session states."
  },
  {
   "property": "C53",
   "status": "proved",
   "theorems": [
    "C53_plain",
    "C53_plain_single_step",
    "C53_plain_refusals",
    "C53_plain_wrong_credentials",
    "C53_plain_by_name",
    "C53_unknown_method"
   ],
   "note": ""
  },
  {
   "property": "C54",
   "status": "partial",
   "theorems": [
    "C54_success_only_if_accepted",
    "C54_accepted_is_reported",
    "C54_continue_needs_exchange",
    "C54_exchange_was_started",
    "C54_failed_exchange_ends_partial",
    "C54_exchange_per_connection_refuted"
   ],
   "note": "Success only if accepted, and CONTINUE only in an exchange: proved. False: a failed re-authentication leaves the exchange in progress, and it survives the connection."
  },
  {
   "property": "C55",
   "status": "proved",
   "theorems": [
    "C55_simple_validator",
    "C55_hashed_validator"
   ],
   "note": "For every hash verification function."
  },
  {
   "property": "C28",
   "status": "partial",
   "theorems": [
    "C28_delivered_message_partial",
    "C28_delivered_topic_refuted"
   ],
   "note": "Payload and matching topic proved for every PUBLISH of every history, the exact topic for filters without wildcards. False otherwise: the filter is sent as topic."
  },
  {
   "property": "C29",
   "status": "partial",
   "theorems": [
    "C29_qos_of_publication_partial",
    "C29_granted_qos_refuted"
   ],
   "note": "False: QoS 0 is granted and the QoS of the publication delivered. Proved: the QoS delivered is always that of the publication."
  },
  {
   "property": "C30",
   "status": "partial",
   "theorems": [
    "C30_identifiers_partial",
    "C30_identifiers_refuted"
   ],
   "note": "False: identifiers of the publishers are reused, wills have none. Proved when the publishers choose different identifiers."
  },
  {
   "property": "C62",
   "status": "proved",
   "theorems": [
    "C62_no_panic"
   ],
   "note": "For all histories whose packets came out of the parser; the events in which a task panics for another reason (the decoder, C10; the timer, C50) are excluded, but may occur before."
  },
  {
   "property": "C63",
   "status": "proved",
   "theorems": [
    "C63_delivery_in_order",
    "C63_delivery_complete",
    "C63_waiting_is_sent"
   ],
   "note": "While the connection is the only one using its session."
  },
  {
   "property": "C38",
   "status": "proved",
   "theorems": [
    "C38_refused",
    "C38_accepted",
    "C38_served_was_accepted",
    "C38_served_has_credentials"
   ],
   "note": "For all configurations and histories."
  },
  {
   "property": "C39",
   "status": "proved",
   "theorems": [
    "C39_no_effect_before_connect"
   ],
   "note": "Removing the events of a connection that never sent CONNECT changes neither the state nor what others receive."
  },
  {
   "property": "C40",
   "status": "partial",
   "theorems": [
    "C40_shared_identifier_partial",
    "C40_clean_start_own_session",
    "C40_own_session_refuted"
   ],
   "note": "False for clients without an identifier, which share one session. Proved: sharing needs equal presented identifiers; a clean start always gets its own session."
  },
  {
   "property": "C41",
   "status": "partial",
   "theorems": [
    "C41_session_present_sound",
    "C41_session_present_complete",
    "C41_empty_identifier_refuted"
   ],
   "note": "False for clients without an identifier. Proved in both directions otherwise."
  },
  {
   "property": "C42",
   "status": "partial",
   "theorems": [
    "C42_clean_start_partial",
    "C42_nothing_used_again_refuted"
   ],
   "note": "False: messages in flight of the old session survive in the store and are sent after a restart. Proved for subscriptions, will and the session itself."
  },
  {
   "property": "C43",
   "status": "partial",
   "theorems": [
    "C43_reconnect_partial",
    "C43_restart_partial",
    "C43_resume_keeps_subscriptions_refuted"
   ],
   "note": "False: resuming in memory stores an empty list of subscriptions, lost at the next restart. Proved for a reconnect in memory, and for restarts when the list was stored since."
  },
  {
   "property": "C44",
   "status": "partial",
   "theorems": [
    "C44_redelivered_after_restart_partial",
    "C44_acknowledged_not_resent",
    "C44_redelivered_refuted"
   ],
   "note": "False when the session is still in memory: nothing is sent again. Proved after a restart; acknowledged messages are not sent again."
  },
  {
   "property": "C45",
   "status": "partial",
   "theorems": [
    "C45_lost_connection",
    "C45_disconnect",
    "C45_nothing_else",
    "C45_will_published_partial",
    "C45_will_published_refuted",
    "C45_own_will_refuted"
   ],
   "note": "False when the identifier connects again (will lost) and after a restart (old will published). Proved: the will of the session is published once when the connection is lost, never after DISCONNECT, and nothing else publishes; the will is the one of the CONNECT unless the identifier is presented again or the broker restarted."
  },
  {
   "property": "C46",
   "status": "partial",
   "theorems": [
    "C46_live_will_partial",
    "C46_live_will_refuted"
   ],
   "note": "False when two connections use one identifier. Proved otherwise."
  },
  {
   "property": "C47",
   "status": "partial",
   "theorems": [
    "C47_connections_kept",
    "C47_one_connection_refuted"
   ],
   "note": "False: the older connection stays. Proved that no first packet ever ends another connection."
  },
  {
   "property": "C64",
   "status": "proved",
   "theorems": [
    "C64_isolation",
    "C64_stored_isolation"
   ],
   "note": "For all histories; what is stored, for identifiers the broker has not also assigned."
  },
  {
   "property": "C65",
   "status": "partial",
   "theorems": [
    "C65_routed_topics_partial",
    "C65_will_topic_refuted"
   ],
   "note": "False: the topic of a will is not checked. Proved for everything but wills."
  },
  {
   "property": "C57",
   "status": "partial",
   "theorems": [
    "C57_identifiers_partial",
    "C57_no_early_reuse",
    "C57_nonzero_at_first",
    "C57_identifier_zero_refuted"
   ],
   "note": "False: the 65536th request uses identifier 0. Proved: the exact sequence of identifiers, no reuse among 65535, none of the first 65535 is 0."
  },
  {
   "property": "C58",
   "status": "proved",
   "theorems": [
    "C58_connect_reflects_options"
   ],
   "note": "For all options that fit the wire format."
  },
  {
   "property": "C59",
   "status": "partial",
   "theorems": [
    "C59_qos1_acknowledged_partial",
    "C59_lost_only_unacknowledged",
    "C59_qos2_never_acknowledged",
    "C59_acknowledged_once_refuted"
   ],
   "note": "False for QoS 2, which is never acknowledged and is reported again when resent. Proved for QoS 0 and 1."
  },
  {
   "property": "C60",
   "status": "partial",
   "theorems": [
    "C60_success_means_sent_partial",
    "C60_subscribe_result_refuted"
   ],
   "note": "False: the SUBACK is ignored. Proved: success means the SUBSCRIBE was written."
  },
  {
   "property": "C66",
   "status": "partial",
   "theorems": [
    "C66_publish_on_wire_partial",
    "C66_subscribe_on_wire_partial",
    "C66_unsubscribe_on_wire_partial",
    "C66_long_topic_never_arrives",
    "C66_requests_on_wire_refuted"
   ],
   "note": "False for topics over 65535 bytes and for empty lists of filters. Proved for all other arguments."
  },
  {
   "property": "C67",
   "status": "partial",
   "theorems": [
    "C67_end_reported",
    "C67_reported_once_partial",
    "C67_reported_once_refuted",
    "C67_nothing_after_end",
    "C67_recv_none_is_final"
   ],
   "note": "False: a DISCONNECT from the broker followed by the close is reported twice. Proved: the end is always reported and last, one event for the end plus one for each DISCONNECT, and recv() is exact."
  },
  {
   "property": "C68",
   "status": "proved",
   "theorems": [
    "C68_one_answer_each",
    "C68_success_iff_written"
   ],
   "note": "For all histories of the client."
  },
  {
   "property": "C69",
   "status": "partial",
   "theorems": [
    "C69_calls_served_partial",
    "C69_calls_served_refuted"
   ],
   "note": "False with more than 256 unread events. Proved up to that number."
  },
  {
   "property": "C70",
   "status": "partial",
   "theorems": [
    "C70_drop_keeps_connection_refuted",
    "C70_disconnect_ends_connection"
   ],
   "note": "False: the event loop keeps the connection alive. Proved that disconnect() ends it."
  },
  {
   "property": "C71",
   "status": "partial",
   "theorems": [
    "C71_connect_result_partial",
    "C71_believes_the_answer",
    "C71_says_why",
    "C71_identifier_refuted"
   ],
   "note": "False for the identifier of an MQTT 3 client that leaves it to the broker: connect() returns an empty one. Everything else proved."
  },
  {
   "property": "C72",
   "status": "partial",
   "theorems": [
    "C72_publish_to_recv_partial",
    "C72_topic_refuted"
   ],
   "note": "False for the topic under a wildcard filter: the application is told the filter. Proved: order, no gap and no duplicate between what the broker routed and what the application is told, and that everything published is routed, while at most 16 messages wait and writes succeed."
  },
  {
   "property": "C56",
   "status": "partial",
   "theorems": [
    "C56_add_partial",
    "C56_add_succeeds",
    "C56_other_names_never_load",
    "C56_delete",
    "C56_delete_succeeds",
    "C56_separator_refuted",
    "C56_comment_refuted",
    "C56_line_feed_refuted",
    "C56_bad_line_refuted"
   ],
   "note": "Proved for names the format can hold (no ':', no line feed, no leading '#' or white space) and files that load; those names are exactly the ones a file can hold. False otherwise: refuted for names with ':' (overwrites another user), '#', line feed (file no longer loads), and for files with one bad line (all other users are lost)."
  },
  {
   "property": "C61",
   "status": "partial",
   "theorems": [
    "C61_anonymous_refused_partial",
    "C61_disabled_accepts_all",
    "C61_no_file_refuses_all",
    "C61_allow_anonymous_refuted"
   ],
   "note": "False of the code: allow_anonymous is never read, so an anonymous client is refused although it is set (refuted). Proved: refused when authentication is enabled, accepted when it is not, whatever allow_anonymous says."
  },
  {
   "property": "C73",
   "status": "partial",
   "theorems": [
    "C73_interrupted_partial",
    "C73_atomic_refuted",
    "C73_empty_password_refuted"
   ],
   "note": "False of the code: the file is truncated and rewritten in place, so an interruption loses users, and can leave an account with the empty password (both refuted). Proved: after any interruption each user that loads has a prefix of its right hash."
  },
  {
   "property": "C74",
   "status": "proved",
   "theorems": [
    "C74_loads_iff",
    "C74_loaded"
   ],
   "note": "For all texts, as lists of Unicode characters; reading and decoding the file is not modelled."
  },
  {
   "property": "C75",
   "status": "proved",
   "theorems": [
    "C75_accepts_file_users",
    "C75_bad_file_stops",
    "C75_passwd_then_connect"
   ],
   "note": "For every hash verification function (argon2 is a parameter)."
  },
  {
   "property": "C76",
   "status": "partial",
   "theorems": [
    "C76_max_connections_refuted"
   ],
   "note": "False of the code: the setting is never read. Refuted for every limit."
  },
  {
   "property": "C48",
   "status": "partial",
   "theorems": [
    "C48_refines",
    "C48_suback_partial",
    "C48_crash_points",
    "C48_crash_is_a_restart",
    "C48_failing_store_refuted",
    "C48_failing_load_refuted",
    "C48_later_resume_refuted"
   ],
   "note": "Proved at every crash point of every event while storage calls succeed. False with a failing store (the error is dropped), with a failing load (the stored list is replaced by an empty one) and over histories (a resumed connection stores an empty list): all three refuted. Takes one handler at a time; C107 has interleaved handlers."
  },
  {
   "property": "C49",
   "status": "partial",
   "theorems": [
    "C49_only_twins_block",
    "C49_only_subscribers_block",
    "C49_publishers_answered",
    "C49_comes_to_rest",
    "C49_answered_partial",
    "C49_never_waits_partial",
    "C49_refuted"
   ],
   "note": "False when a second connection without clean start uses the identifier of an idle, subscribed connection: every later CONNECT waits until that connection hears of something (refuted). Proved: only such twins block, only if one of them has subscribed, and every CONNECT is answered when there are none. Assumes that packet writes complete."
  },
  {
   "property": "C50",
   "status": "partial",
   "theorems": [
    "C50_served_is_live",
    "C50_not_before",
    "C50_ends",
    "C50_regular_client_partial",
    "C50_silent_client",
    "C50_one_second_refuted",
    "C50_zero_refuted",
    "C50_zero_timer_partial",
    "C50_untimed",
    "C50_untimed_always"
   ],
   "note": "False for an interval of 1 (the timeout is rounded down to 1 s) and of 0 (the connection panics): both refuted. Proved for all other intervals and all arrival times."
  },
  {
   "property": "C77",
   "status": "proved",
   "theorems": [
    "C77_acknowledged_retained"
   ],
   "note": "At every crash point and whatever storage calls fail. A failed call is assumed to leave the store unchanged."
  },
  {
   "property": "C78",
   "status": "partial",
   "theorems": [
    "C78_sent_message_survives_partial",
    "C78_failing_store_refuted",
    "C78_acknowledged_message_lost_refuted"
   ],
   "note": "Proved at every crash point while storage calls succeed. False with a failing store; and a message acknowledged to its publisher but not yet sent to a subscriber is lost: both refuted."
  },
  {
   "property": "C79",
   "status": "partial",
   "theorems": [
    "C79_success_means_sent_partial",
    "C79_nothing_else_sent",
    "C79_bad_arguments",
    "C79_on_wire_partial",
    "C79_connect_from_arguments",
    "C79_acknowledged_refuted",
    "C79_accepted_refuted",
    "C79_failure_means_unsent_refuted"
   ],
   "note": "False of the code: success does not mean acknowledged (QoS 1 without a PUBACK) or accepted (invalid topic), and failure does not mean unsent: all refuted. Proved: what is sent, at most once, for all runs; on the wire for topics and payloads that fit."
  },
  {
   "property": "C80",
   "status": "partial",
   "theorems": [
    "C80_prints_in_order_partial",
    "C80_prints_all_partial",
    "C80_subscribes",
    "C80_connect_from_arguments",
    "C80_payload_exact_iff",
    "C80_payload_refuted",
    "C80_one_line_per_message_refuted",
    "C80_refused_subscription_refuted",
    "C80_lost_connection_refuted"
   ],
   "note": "Proved for UTF-8 payloads: the lines printed are those of the messages that arrived, in order, and all of them when the program ends by itself. False otherwise (refuted): payloads that are not UTF-8 are changed, a payload with line ends looks like several messages, a refused subscription and a lost connection are not reported by the exit status."
  },
  {
   "property": "C81",
   "status": "partial",
   "theorems": [
    "C81_tls_protects_partial",
    "C81_insecure_takes_anyone",
    "C81_tls_never_plain",
    "C81_programs_use_it",
    "C81_cafile_protects_refuted",
    "C81_version_partial",
    "C81_version_refuted"
   ],
   "note": "Proved with --tls. False for --cafile without --tls (plain connection) and for unknown version names (version 5 is used): both refuted. The TLS library is not modelled."
  },
  {
   "property": "C82",
   "status": "partial",
   "theorems": [
    "C82_stops_iff",
    "C82_accepts_all",
    "C82_waits_bounded",
    "C82_error_spell_refuted"
   ],
   "note": "False: after errors for 127 seconds the broker stops and all clients lose their connections (refuted). Proved: it stops exactly after eight errors in a row, and takes every connection until then."
  },
  {
   "property": "C83",
   "status": "proved",
   "theorems": [
    "C83_server_reads_on",
    "C83_client_reads_on",
    "C83_packets_arrive_partial"
   ],
   "note": "For all streams of bytes and all interruptions, with the framing as it is (C15 and C17 say what it is)."
  },
  {
   "property": "C84",
   "status": "partial",
   "theorems": [
    "C84_wills_published_partial",
    "C84_served_connection_ends",
    "C84_daemon_waits_refuted",
    "C84_silent_connection_refuted"
   ],
   "note": "Proved for connections with sessions of their own and wills on valid topics. False of the daemon: it exits without waiting, so wills are lost; a connection that has not sent its CONNECT is not told (both refuted)."
  },
  {
   "property": "C85",
   "status": "partial",
   "theorems": [
    "C85_nothing_survives_refuted",
    "C85_session_lost_refuted"
   ],
   "note": "False: every run of the broker starts with an empty store."
  },
  {
   "property": "C86",
   "status": "partial",
   "theorems": [
    "C86_tls_as_configured",
    "C86_serves_if_possible",
    "C86_failure_reported_refuted"
   ],
   "note": "False for the exit status: a certificate that does not load is a normal end (refuted). The rest is proved; the TLS library is not modelled."
  },
  {
   "property": "C87",
   "status": "proved",
   "theorems": [
    "C87_answered_in_order",
    "C87_alone_is_step",
    "C87_histories_are_schedules"
   ],
   "note": "Every interleaving at the operations on locks, store, topic tree and sessions; strings are UTF-8. The handlers that are interleaved are shown to be those of the sequential model."
  },
  {
   "property": "C88",
   "status": "proved",
   "theorems": [
    "C88_once_to_every_match",
    "C88_publisher_order"
   ],
   "note": "For every filter that is valid; the queue of a filter is what its subscribers read (C27, C28)."
  },
  {
   "property": "C90",
   "status": "proved",
   "theorems": [
    "C90_session_isolation",
    "C90_used_was_created",
    "C90_shared_session"
   ],
   "note": ""
  },
  {
   "property": "C91",
   "status": "proved",
   "theorems": [
    "C91_somebody_moves",
    "C91_no_endless_schedule",
    "C91_all_finish"
   ],
   "note": "Of handlers that have something to do; a connection that waits for messages with its session locked is C49."
  },
  {
   "property": "C89",
   "status": "proved",
   "theorems": [
    "C89_delivered_from_suback_on"
   ],
   "note": "For connections that share their client identifier with nobody. Messages whose QoS is not 0, 1 or 2 are excluded; none is parsed."
  },
  {
   "property": "C92",
   "status": "partial",
   "theorems": [
    "C92_will_once_partial",
    "C92_will_once_kept_partial",
    "C92_normal_disconnect_partial",
    "C92_will_of_the_living_refuted"
   ],
   "note": "Proved for connections that share their client identifier with nobody (the end without DISCONNECT: after a clean start, or if no earlier life has left a will of the client; C108_left_will_refuted has the other case). False if the identifier is used again meanwhile (refuted): the will of the living connection is published."
  },
  {
   "property": "C93",
   "status": "partial",
   "theorems": [
    "C93_later_is_later_partial",
    "C93_same_order_refuted"
   ],
   "note": "False for messages handled at the same time (refuted): publishers only share the read lock, so two subscriptions can get them in opposite orders. Proved if one was handled before the other arrived."
  },
  {
   "property": "C94",
   "status": "partial",
   "theorems": [
    "C94_sent_packets_conform_partial",
    "C94_auth_never_conforms_refuted",
    "C94_disconnect_with_properties_never_conforms_refuted",
    "C94_sent_bytes_are_no_packet_refuted"
   ],
   "note": "Proved for all types but AUTH, in all versions. False (refuted) for AUTH, DISCONNECT with properties, a CONNECT with the retain flag of a will and no will, and the codes of a SUBACK of version 3."
  },
  {
   "property": "C95",
   "status": "partial",
   "theorems": [
    "C95_conforming_packets_understood_partial",
    "C95_reason_without_properties_refuted",
    "C95_short_packets_refuted",
    "C95_request_response_information_refuted",
    "C95_version_3_refuted",
    "C95_several_identifiers_refuted"
   ],
   "note": "Proved up to the three reasons that share code 0. False (refuted) for PINGREQ and PINGRESP, AUTH without a reason, acknowledgements with a reason and no properties, CONNECT with Request Response Information, PUBLISH, SUBSCRIBE and UNSUBSCRIBE of version 3, and every PUBLISH with several subscription identifiers."
  },
  {
   "property": "C96",
   "status": "partial",
   "theorems": [
    "C96_only_packets_accepted_partial",
    "C96_strings_are_utf8",
    "C96_no_invalid_options",
    "C96_malformed_packets_refuted",
    "C96_forbidden_values_refuted"
   ],
   "note": "Proved: what is accepted is a packet of the standard but for nine liberties, written out in SpecWire.lenient. That the liberties are taken, and that forbidden values are not looked at, is refuted by witnesses."
  },
  {
   "property": "C97",
   "status": "partial",
   "theorems": [
    "C97_written_packets_conform_partial",
    "C97_version_3_payload_refuted",
    "C97_will_without_identifier_refuted",
    "C97_auth_refuted",
    "C97_refused_filter_version_3_refuted",
    "C97_empty_subscribe_refuted",
    "C97_mixed_versions_refuted",
    "C97_too_long_refuted"
   ],
   "note": "Proved if all clients speak the same version, for everything not too long but AUTH, PUBLISH in version 3, PUBLISH of a will with a QoS, refused filters in version 3 and answers to SUBSCRIBE or UNSUBSCRIBE without filters; all of these, mixed versions and too long packets are reached (refuted). A PUBLISH of version 3 has one byte more in the payload, always."
  },
  {
   "property": "C98",
   "status": "partial",
   "theorems": [
    "C98_client_packets_conform_partial",
    "C98_connect_conforms",
    "C98_version_3_payload_refuted",
    "C98_version_3_subscribe_refuted",
    "C98_no_forbidden_values_partial",
    "C98_wildcard_topic_refuted"
   ],
   "note": "CONNECT is proved in all versions, everything else in version 5. False (refuted) in version 3: a PUBLISH always has one byte more in the payload, a SUBSCRIBE can be no packet at all. Forbidden values are excluded for topics without wildcards and fewer than 65536 requests; publish() takes wildcards (refuted) and the 65536th request has identifier 0 (C57)."
  },
  {
   "property": "C99",
   "status": "partial",
   "theorems": [
    "C99_pings_keep_connection_partial",
    "C99_first_ping_partial",
    "C99_ping_rate",
    "C99_only_first_ping_heard_refuted",
    "C99_idle_client_cut_refuted",
    "C99_one_second_refuted",
    "C99_zero_refuted"
   ],
   "note": "Proved at the level of packets for keep-alive intervals of at least 2 seconds: the client pings in time, and the broker's timer does not fire while it is given every ping. False (refuted): the broker's connection loses every byte after the first PINGREQ (C16), so that it hears only the first ping and cuts an idle client of any interval; false as well for an interval of 1 second, and with 0 the first request of the client ends the connection."
  },
  {
   "property": "C100",
   "status": "partial",
   "theorems": [
    "C100_address",
    "C100_tls",
    "C100_auth",
    "C100_malformed_stops",
    "C100_incomplete_stops",
    "C100_unreadable_stops",
    "C100_starts",
    "C100_only_settings",
    "C100_misspelt_refuted",
    "C100_missing_default_open",
    "C100_missing_file_refuted",
    "C100_failure_status_refuted"
   ],
   "note": "Proved: address, transport, log level and accepted users are those of the document or the defaults; wrong types, missing certificate or key and bad password files stop the daemon with status 1, and nothing else does. False (refuted): names that are no setting are ignored ('enable = true' leaves the broker open), the missing file of the service unit is replaced by defaults that let everyone in, and TLS files that do not load end the daemon with status 0. Sections written as arrays are not modelled."
  },
  {
   "property": "C101",
   "status": "proved",
   "theorems": [
    "C101_session_bounded",
    "C101_stored_bounded",
    "C101_step_bounded"
   ],
   "note": "For events that are not interleaved. The number of sessions, subscriptions, retained messages and wills has no such bound."
  },
  {
   "property": "C102",
   "status": "partial",
   "theorems": [
    "C102_delivered_was_sent",
    "C102_delivered_was_asked",
    "C102_asked_itself_partial",
    "C102_asked_itself_refuted"
   ],
   "note": "Proved for every schedule: what is written was sent before by an accepted client to a matching topic, and the filter was asked for on a connection joined to this one by client identifiers; with an identifier that nobody else uses, by the client itself. False (refuted): clients that come without an identifier share a session, so that one which asked for nothing is sent messages for the filter of another."
  },
  {
   "property": "C103",
   "status": "partial",
   "theorems": [
    "C103_reasons",
    "C103_flags",
    "C103_options",
    "C103_own_faults_partial",
    "C103_own_faults_refuted"
   ],
   "note": "Proved: the reasons, and that the encoder's packets are judged for themselves. False (refuted): a SUBSCRIBE without filters is refused when it comes alone and accepted when another packet follows in the same read; a too short acknowledgement is refused, accepted or panics, depending on what follows."
  },
  {
   "property": "C104",
   "status": "partial",
   "theorems": [
    "C104_crash_own_bytes",
    "C104_panic_isolated",
    "C104_as_if_lost",
    "C104_stream_panics",
    "C104_split_matters_refuted",
    "C104_will_published_refuted"
   ],
   "note": "Proved: only its own bytes (or, C50, its own keep-alive of 0) make the task of a connection panic; nothing but the connection is lost; without a will the state is as if the connection had been lost; every stream that ends in a panicking frame panics, however it arrives. False (refuted): the will of the client is not published; and the same bytes panic or not depending on how they arrive."
  },
  {
   "property": "C105",
   "status": "partial",
   "theorems": [
    "C105_handled_in_order",
    "C105_handled_prefix",
    "C105_sent_handled",
    "C105_next_handled",
    "C105_histories",
    "C105_spelled",
    "C105_reading_ends",
    "C105_deaf_after_ping_refuted"
   ],
   "note": "Proved, for every schedule and all bytes, with the bytes of packets spelled out by the format accepted (C96). False (refuted): after a PINGREQ nothing is handled any more (C16)."
  },
  {
   "property": "C106",
   "status": "partial",
   "theorems": [
    "C106_calls_handled",
    "C106_arrived_handled",
    "C106_publish_calls_handled",
    "C106_after_ping_refuted",
    "C106_publish_to_recv_partial"
   ],
   "note": "Proved: the publisher's calls are handled in order and as made, for all pieces of bytes; a poll handles the next one that has arrived in full; from there to the application of the subscriber as in C72 (same gaps: told the filter instead of the topic, more than 16 waiting, QoS 2), with the reads of the subscriber ending between packets (C17). False (refuted): after a keep-alive ping of the library nothing it publishes is handled any more."
  },
  {
   "property": "C107",
   "status": "proved",
   "theorems": [
    "C107_subscriptions",
    "C107_messages",
    "C107_retained"
   ],
   "note": "In the interleaved model of handlers (Conc), for a client whose identifier nobody else uses. Storage calls succeed; C48 has what happens when they fail and when a second connection uses the identifier. The store may come from any earlier lives."
  },
  {
   "property": "C108",
   "status": "partial",
   "theorems": [
    "C108_not_lost_partial",
    "C108_once_refuted",
    "C108_clean_start_refuted",
    "C108_connack_refuted",
    "C108_left_will_refuted"
   ],
   "note": "Proved: the will is sent before the stop or found again after it, for every schedule and stopping point, for a client whose CONNECT was handled to its end, with clean start or if no life before has left a will of it. False (refuted): from the CONNACK on (the will is stored after it), at most once (the broker stops between sending the will and deleting it from the store), and at least once (the client comes back with clean start and is lost again: the stored will is deleted unpublished). Also false (refuted) if a life before has left a will and the client returns without clean start: the old will is published, the new one deleted."
  },
  {
   "property": "C109",
   "status": "partial",
   "theorems": [
    "C109_delivered_was_sent",
    "C109_delivered_was_asked",
    "C109_asked_itself_partial",
    "C109_histories_are_lives"
   ],
   "note": "Proved for every number of lives, schedules and stopping points. That the filter was asked for by the client itself is proved when the connections that use its identifier use no other one, in whatever life; false for clients without an identifier (C102_asked_itself_refuted). C109_histories_are_lives: histories of one event after the other, with restarts, are lives."
  },
  {
   "property": "C110",
   "status": "partial",
   "theorems": [
    "C110_subscriptions",
    "C110_messages",
    "C110_will_partial"
   ],
   "note": "Proved for subscriptions and for unacknowledged messages, for a client whose identifier nobody else uses, through any number of lives. The will is proved for a client that connected with clean start or had no will stored, whose CONNECT was handled to its end, and that does not come in the lives between; C108 has the counterexamples for the other cases."
  },
  {
   "property": "C111",
   "status": "proved",
   "theorems": [
    "C111_delivered_from_return_on",
    "C111_published_reaches"
   ],
   "note": "For a client whose identifier nobody else uses. The queue holds 16 messages (C27 has what happens to the 17th); messages published between the stop and the return are only kept if the client had already been sent them (C48)."
  },
  {
   "property": "C112",
   "status": "proved",
   "theorems": [
    "C112_schedules",
    "C112_handled_in_order",
    "C112_sent_handled",
    "C112_next_handled",
    "C112_conversation",
    "C112_answered",
    "C112_published",
    "C112_panic_own_bytes",
    "C112_sequential"
   ],
   "note": "With the readers of C105 and the handlers of C87-C93; the histories of C105 are shown to be among the runs. Each process is followed from its start on any store to its stop; C107-C111 have what follows."
  },
  {
   "property": "C113",
   "status": "partial",
   "theorems": [
    "C113_written_packets_conform_partial",
    "C113_fed_with_bytes_partial",
    "C113_read_by_the_library_partial"
   ],
   "note": "C97 for every schedule and life, with clients of several versions. As in C97 the packets called exceptional are excepted (PUBLISH in version 3, PUBLISH of a will with a QoS, AUTH, a SUBACK or UNSUBACK without codes, a SUBACK that refuses a filter in version 3), and so are clients that share an identifier and speak different versions: C97 has counterexamples for both. The reading library is that of C17: each of its reads ends between packets, and it speaks version 5."
  },
  {
   "property": "C114",
   "status": "partial",
   "theorems": [
    "C114_calls_handled",
    "C114_publish_calls_handled",
    "C114_publish_to_recv_partial"
   ],
   "note": "C72 and C106 for interleaved handlers and any earlier lives. Missing: the application is told the filter instead of the topic (C72_topic_refuted), QoS 2, a publisher that pings (C106_after_ping_refuted), reads of the subscriber that end inside a packet (C17), packets to the subscriber that no client can read (C97), and a subscriber whose identifier others use. The part about the calls that are handled needs none of these but the pings."
  },
  {
   "property": "C115",
   "status": "partial",
   "theorems": [
    "C115_parse",
    "C115_check",
    "C115_release_panics",
    "C115_difference",
    "C115_same_refuted",
    "C115_server_reads",
    "C115_client_reads",
    "C115_broker",
    "C115_libraries"
   ],
   "note": "Proved for all byte strings, streams, pieces and schedules. The last sentence is false of four packets (refuted): a SUBSCRIBE, SUBACK, UNSUBSCRIBE or UNSUBACK with a length that is longer than what follows is read by the release build as one without entries; for the other eleven packets it is proved."
  },
  {
   "property": "C116",
   "status": "partial",
   "theorems": [
    "C116_ignored",
    "C116_ignored_over_lives",
    "C116_nothing_passed_on",
    "C116_no_local_refuted",
    "C116_retain_handling_refuted",
    "C116_session_expiry_refuted",
    "C116_receive_maximum_refuted",
    "C116_disconnect_with_will_refuted"
   ],
   "note": "False of the code, in full: proved for all schedules and lives that none of these wishes is looked at (the same turns, the same packets and the same store are possible with any others in their place) and that no property, failure reason, retain flag or DISCONNECT is ever written. Refuted one by one for No Local, Retain Handling, Session Expiry Interval, Receive Maximum and Disconnect with Will Message. At the level of packets: whether the bytes of the properties are well formed is C96."
  },
  {
   "property": "C117",
   "status": "partial",
   "theorems": [
    "C117_places",
    "C117_places_asked",
    "C117_publishers_take_none",
    "C117_sessions",
    "C117_places_stay",
    "C117_given_back_refuted"
   ],
   "note": "The last sentence is false of the code (refuted): places and sessions stay until the process ends; C117_places_stay proves it for places and all schedules. The first two are proved for all schedules and lives. Not counted: the channel at each place (its capacity is fixed, topic_tree.rs 18) and what a session holds (C101)."
  },
  {
   "property": "C118",
   "status": "proved",
   "theorems": [
    "C118_session_bounded",
    "C118_stored_bounded",
    "C118_handler_bounded",
    "C118_fed_with_bytes"
   ],
   "note": "C101 for interleaved handlers, bytes and any earlier lives. The bounds count messages, not bytes. Retained messages and wills are one for each topic and each client, which nothing bounds."
  },
  {
   "property": "C119",
   "status": "proved",
   "theorems": [
    "C119_only_refused",
    "C119_no_trace",
    "C119_over_lives",
    "C119_bytes"
   ],
   "note": "For all schedules, bytes and lives. Not counted: the connection itself, with its buffer and its place among max_connections (C76)."
  },
  {
   "property": "C120",
   "status": "partial",
   "theorems": [
    "C120_sqlite_answers_partial",
    "C120_bytes_partial",
    "C120_comma_refuted",
    "C120_identifier_refuted"
   ],
   "note": "False of the code in two cases, both refuted with runs of the broker: a filter with a comma comes back as two, and a retained message comes back without its packet identifier. Proved for everything else: if no client asks for a filter with a comma, all answers over all lives and schedules are alike but for those identifiers. That a handler depends on the store by its answers only is how the model is built (Conc.v). SQLite itself is modelled as tables (Storage.v) whose operations do not fail."
  },
  {
   "property": "C121",
   "status": "proved",
   "theorems": [
    "C121_kept",
    "C121_kept_over_lives",
    "C121_sent_later",
    "C121_sent_over_lives",
    "C121_unsettled_refuted"
   ],
   "note": "For all schedules and lives. Those who asked before for a message to be retained for the topic must have been served when this one comes (C121_unsettled_refuted: of two that are handled at the same time either may be kept, whichever came first), and no client may have declared a will to be retained for this topic. What the subscriber has to do is C89's: nobody else uses its identifier, it keeps up and keeps the subscription. It is sent the filter as the topic and no retain flag (C72, C116)."
  },
  {
   "property": "C122",
   "status": "proved",
   "theorems": [
    "C122_silence",
    "C122_after_reconnecting",
    "C122_over_lives",
    "C122_nothing_at_all_refuted"
   ],
   "note": "For all schedules and lives, for a client whose identifier nobody else uses and whose UNSUBACK was sent. A reconnection within one life is modelled as a new CONNECT under the same number of connection. A PUBLISH is one for the filter if it carries it as its topic, which is how the broker sends them (C72). The exception for duplicates is needed (C122_nothing_at_all_refuted)."
  },
  {
   "property": "C123",
   "status": "partial",
   "theorems": [
    "C123_bounded",
    "C123_waiting",
    "C123_before_login_refuted"
   ],
   "note": "The first sentence is proved for all schedules, pieces and lives. The second is false of the code (refuted, for every size up to the largest): a stranger who announces a packet of 268435460 bytes makes the broker hold all but the last of them, and no handler ever sees them. Counted are the bytes in the read buffer, not the capacity that BytesMut reserves; one read is what one arrival brings."
  },
  {
   "property": "C124",
   "status": "partial",
   "theorems": [
    "C124_whole_packets_partial",
    "C124_bounded_partial",
    "C124_keeps_everything_refuted",
    "C124_nothing_more_refuted"
   ],
   "note": "False of the code as stated (refuted for every topic and payload, both versions and profiles): when a property section that has arrived in full ends in the middle of a property, the parser reports the packet as incomplete, and the library waits for ever, keeping whatever arrives. Proved is the claim for packets as the encoder writes them: the library never waits while it holds one whole, and holds less than one packet. connect() gives up waiting for the CONNACK after its timeout; the event loop afterwards has none."
  },
  {
   "property": "C125",
   "status": "proved",
   "theorems": [
    "C125_over_lives",
    "C125_received_refuted"
   ],
   "note": "For all schedules and lives, for a client whose identifier nobody else uses. The hypothesis on the lives between says that the client was sent no other PUBLISH with the identifier and that none was being prepared for it when the broker stopped. Within one life nothing is sent again at all when a client comes back (see C44), so the theorem speaks of later lives. A PUBREC does not have the effect (C125_received_refuted): a QoS 2 message whose PUBREL has been sent is published again after a restart, which MQTT 5.0 forbids in 4.3.3."
  },
  {
   "property": "C126",
   "status": "proved",
   "theorems": [
    "C126_silence",
    "C126_after_reconnecting",
    "C126_over_lives",
    "C126_nothing_at_all_refuted"
   ],
   "note": "C42 for all schedules and lives, as far as subscriptions go, for a client whose identifier nobody else uses. C126_silence speaks of the time after the CONNECT has been handled to its end, the others of the time after the CONNACK. The exception for duplicates is needed (C126_nothing_at_all_refuted, C42)."
  },
  {
   "property": "C127",
   "status": "proved",
   "theorems": [
    "C127_sound",
    "C127_complete",
    "C127_complete_over_lives",
    "C127_after_a_crash_refuted"
   ],
   "note": "C41 for all schedules and lives, for a client whose identifier nobody else uses at the same time. A CONNECT has to be handled to its end for the client to be told so after a restart: the session is stored only after the CONNACK has been sent, and the broker may stop in between (C127_after_a_crash_refuted)."
  }
 ]
}
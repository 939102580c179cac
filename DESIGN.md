# Formal model of mercurio in Rocq (Coq 8.16.1)

Everything is in `rocq/theories` (logical name `Verif`). The model is read off the
Rust text in /repo (frenzox/mercurio at the pinned commit); the code itself is
never built or run.

## Conventions of the model

* A byte is an `N` below 256, a byte buffer is a `list N`, a Rust `String` is
  the byte list of its UTF-8 encoding; `Utf8.v` has a real validator.
* Rust `Result` is data: `res A := Ok a | Err e | Panic`. Every `unwrap`,
  `get_u8` on an empty buffer, `split_to` out of range, `unreachable!()` and
  overflow under overflow checks is an explicit `Panic`.
* `profile := Debug | Release` selects overflow-checked or wrapping arithmetic
  at the places where input can trigger an overflow. Theorems quantify over it.
* A decoder is `profile -> bytes -> res (A * bytes)`; the second component is
  the rest of the buffer. After an error the buffer is never used again (the
  server closes the connection, the client works on a clone), so an error
  carries no buffer.
* Loops are structural recursion or recursion on fuel with a distinct
  out-of-fuel value that the theorems exclude.
* Maps are association lists / functions with an explicit lookup; where the
  iteration order of a Rust `HashMap` or `StreamMap` is observable, the
  theorems quantify over it (the scheduler chooses).
* Each concurrent component (retained race, broadcast channel, session lock,
  connection tasks) is a transition system; theorems are about all event lists.

## Plan per property (written before the proofs)

| id | model | planned result |
|---|---|---|
| C01 | `Codec.v` VBI encode/decode over N | round trip with suffix, minimality and size, by case split on the four ranges |
| C02 | same, with profile | total characterisation in Release; panic on a 5-byte input in Debug refutes the full claim |
| C03 | same | refuted: overlong encodings accepted (whole family); consequence for `check` |
| C04 | `Codec.v` String/Bytes | round trip up to 65535 bytes, refuted beyond (length wraps) |
| C05 | `Utf8.v` decoder automaton vs. spec encoder of scalar values | iff |
| C06 | `Property.v` 27 properties | round trip for 26, refuted for 0x19 |
| C07 | every `encode`/`encoded_size` pair | remaining length = bytes that follow |
| C08 | `Packets_*.v` | round trip per packet type under well-formedness; refuted for DISCONNECT with properties, AUTH, CONNECT with request-response-information |
| C09 | `Frame.v` | holds on encodings; refuted on arbitrary frames (ping, PUBACK with 3-byte body, over-reading) |
| C10 | all decoders with explicit panics | refuted with witnesses per packet type; positive theorem for the packet types that never panic |
| C11, C12, C13 | finite tables | sweeps lifted to all bytes; name/level over all strings |
| C14 | decoders under version 4 | refuted, plus what is parsed instead |
| C15, C16, C18 | `Frame.v` server read loop over chunk lists | induction over chunks; ping refuted |
| C17 | client read loop | refuted for split PUBLISH payloads; positive for whole-frame arrival |
| C19, C20 | `Topic.v` | iff with a declarative grammar |
| C21–C23 | `TopicTree.v` tree with channels, stack loop | exact characterisation against declarative MQTT matching, by induction on the tree; `$` refuted |
| C24 | `Broker.v` + `Storage.v` | refinement to "last retained publish" over histories |
| C25, C26 | small-step interleaving model | invariant over all schedules; refuted for C26 |
| C27 | broadcast channel of capacity 16 with lag | order-preserving subsequence; lossless when backlog ≤ 16; loss refuted beyond |
| C28–C30 | `Session.v` outgoing | refuted in general, positive for exact filters / single publisher |
| C31–C37 | `Session.v` | per-packet characterisation over all states, induction over filter lists |
| C38–C41, C44–C47 | `Server.v` world of sessions, manager map, stores, connections | invariants over all event histories; refutations by witness histories |
| C42, C43, C48 | manager + durable store with restart/crash steps | same |
| C49 | lock model | refuted liveness (deadlocked reachable state) |
| C50 | timer automaton | all arrival times; interval 0 treated separately |
| C51, C52 | `Storage.v` memory and SQLite | refinement to maps; refuted for ',' in filters |
| C53–C55 | `Auth.v` | iff; state machine over AUTH sequences |
| C56 | `Passwd.v` text file model | round trip for plain names; refuted otherwise |
| C57–C60 | `Client.v` | counters by induction; composition with packet round trip; refuted ones by witness |
| C61 | configuration function | refuted |

(The table above is the plan as first written. C62–C127 were added while the model grew; what
was proved in the end is in the table "Results".)

## Trusted base

* Coq 8.16.1's kernel, including `vm_compute` (used for witnesses and finite sweeps).
  `native_compute`, CoqHammer, Equations, Program and plugins are not used.
* `Print Assumptions` follows every property theorem in the `Properties_*.v` files. For every one of
  them it prints `Closed under the global context`: no axiom is used, neither from the
  standard library nor from anywhere else. The seven `Coq.ssr.ssrunder` constants that a
  whole-library listing shows are parameters of a module type in the standard library; no theorem
  here depends on them.
* The reading of the Rust text. Each definition cites the lines it models. Nothing was
  extracted from or run against the code, so a misreading would not be caught by Coq; the
  witnesses in the `_refuted` theorems and the examples are small enough to be replayed against
  the code by hand.
* What is assumed of libraries: see the next two sections.

## What is modelled

| code | model |
|---|---|
| mercurio-core: codec, qos, reason, protocol, properties, topic, message, error | `Base`, `Utf8`, `Codec`, `Property`, `Topic`, `Storage` (message) |
| mercurio-packets: all fifteen packet types, `check`, `parse`, encoders and sizes | `PacketProps`, `Packets`; `SpecWire` is the format of the MQTT standards, written without the model's functions |
| mercurio-server/connection.rs, mercurio-client/connection.rs: framing | `Frame`; `Network` feeds `Server` with the bytes that arrive |
| mercurio-server/topic_tree.rs, broker.rs | `TopicTree`, `Broker` (one step per call, and a small-step version in which publishes and subscribes interleave) |
| mercurio-storage: memory.rs, sqlite.rs | `Storage` |
| mercurio-server/auth.rs | `Auth` |
| mercurio-server/session.rs | `Session` |
| mercurio-server/session_manager.rs, server.rs | `Server` (events of connections and restarts), `Crash` (the storage calls and writes inside an event), `Locks` (who waits for which lock), `Timer` (keep-alive) |
| the handlers of server.rs, session_manager.rs and session.rs again, interleaved at every operation on a lock, the store, the topic tree or a session | `Conc` (shown to agree with `Server` for handlers that run alone) |
| the readers of all connections (server.rs 153-190 and 317-352, connection.rs 55-94) in front of these handlers | `Network` (handlers one after the other), `ConcNet` (interleaved) |
| mercurio-client/client.rs, options.rs | `Client` |
| mercurio-server/server.rs 73-209 and shutdown.rs, cancellation of reads, TLS start-up of mercuriod | `Listener` |
| mercuriod: password file, credentials, use of the configuration | `Passwd`, `Credentials` |
| mercuriod/config.rs and main.rs 62-168: configuration document, defaults, command line, start | `Daemon` |
| mercurio: the command line client, from parsed arguments to standard output and exit status | `Cli` |

Assumptions about libraries, each in a comment at the definition that uses it:

* `bytes::{Buf, BufMut}`: `get_u8`, `split_to` and `advance` panic when out of range.
* `tokio::sync::broadcast`: capacity 16, a slow receiver gets `Lagged` once and continues at the
  oldest kept message (`Broker.v`).
* `tokio::sync::Mutex`: mutual exclusion; any waiting task may be next (`Locks.v`).
* `tokio_stream::StreamMap`: polls its streams in any order, `insert` replaces.
* `tokio::time`: `Instant + Duration` panics on overflow, `sleep` with an overflow takes 30 years.
* SQLite: a table is a list of rows with a unique key; `INSERT OR REPLACE`, `DELETE` and `SELECT`
  do what they say.
* argon2: an arbitrary function from hash and password to bool; theorems hold for all such functions.

## What is not modelled

* TCP, TLS and their certificates, DNS, signals, logging, command line parsing, TOML parsing.
* I/O errors, other than: a failing write of the server (the end of the connection), failing
  storage calls in `Crash.v`, and interruption while writing the password file.
* Memory exhaustion and stack overflow.
* Lock poisoning: it needs a panic while a lock is held, and no modelled operation panics
  inside a storage lock.
* Authentication methods with internal state: a method is a pair of functions (`Auth.v`).
* A panic outside the session's code (decoder, keep-alive 0) is an event of `Server.v`; `Network.v` produces it from bytes and
  `Timer.v` (C50) from the clock. `Network.v` has no clock: a timeout is an event of its own.
* In `Crash.v` the storage calls of other connections do not run between those of one event. In
  `Server.v` events are atomic; `Conc.v` interleaves them, from the start of a process to its stop (C107–C111 have several in a row, `SpecLives.lives`); C25–C27 treat the interleaving inside the broker, C49 the locks.
* In `Conc.v` one call of the store, one walk of the topic tree, one send to a queue and one use of a locked session
  are single steps; a poll of the subscriptions is one step (the real one holds the session's lock meanwhile).
* `Locks.v` assumes that writes to the network complete and that the short locks inside broker, store and connection are fair.
* Events of a connection between the shutdown signal and the moment it notices it (`Listener.v`; they are ordinary events of `Server.v`).

## How to read the files

* `X.v` is a model, `SpecX.v` a specification that does not use the model's functions, `XFacts.v`
  lemmas, `Properties_*.v` the theorems. Every property theorem starts with its identifier.
  A theorem that ends in `_partial` is weaker than the property; the comment above it says what
  is missing. A theorem that ends in `_refuted` shows that the property does not hold of the
  code as it is.
* An `Example` named `Cnn_ex` after a theorem gives a concrete state that meets the theorem's
  hypotheses.

## Results

| id | property | status | result | theorems |
|---|---|---|---|---|
| C01 | Variable byte integer round trip | proved | As stated. | `C01_vbi_round_trip` |
| C02 | Variable byte integer decoding is safe on any bytes | partial | True of release builds. False of builds with overflow checks: the debug build panics on exactly the five-byte inputs characterised by C02_vbi_debug_panics_exactly. | `C02_vbi_decode_safe_partial`, `C02_vbi_debug_panics_exactly`, `C02_vbi_decode_safe_refuted` |
| C03 | Variable byte integers are canonical | partial | False of the code: every overlong form of at most four bytes is accepted. What remains true is that two accepted encodings of the same value and length are equal. | `C03_vbi_canonical_refuted`, `C03_vbi_canonical_partial`, `C03_every_overlong_form_accepted` |
| C04 | String and binary data round trip | proved | Values longer than the 16-bit length field are covered by C04_too_long_is_corrupted. | `C04_string_binary_round_trip`, `C04_too_long_is_corrupted` |
| C05 | Strings accepted from the wire are exactly well-formed UTF-8 | proved | As stated. | `C05_strings_are_utf8`, `C05_otherwise_reported` |
| C06 | Every MQTT 5 property round trips | partial | True of 26 properties; false of Request Response Information, which always decodes as Request Problem Information. | `C06_properties_round_trip_partial`, `C06_properties_round_trip_refuted`, `C06_request_response_information_becomes_problem_information`, `C06_connect_never_carries_request_response_information` |
| C07 | Remaining length is truthful | proved | As stated. | `C07_remaining_length_truthful`, `C07_encoding_total` |
| C08 | Control packets round trip | partial | True (up to what the wire format can express, [canon]) of every packet except AUTH, DISCONNECT with properties, PINGREQ/PINGRESP and CONNECT with Request Response Information; for those it is false. | `C08_packets_round_trip_partial`, `C08_auth_never_round_trips_refuted`, `C08_disconnect_properties_never_round_trip_refuted`, `C08_ping_leaves_a_byte_refuted` |
| C09 | Parsing consumes exactly one frame | partial | False of arbitrary frames (over- and under-reads exist); true of frames the encoder writes; on all bytes parsing consumes a prefix. | `C09_parse_consumes_prefix_partial`, `C09_encoder_output_consumed_exactly_partial`, `C09_parse_consumes_one_frame_refuted` |
| C10 | No input bytes can panic the parser | partial | False: CONNACK, PUBACK-like, SUBSCRIBE and AUTH frames that are too short panic even a release build. True of every other complete frame in a release build, and of all byte strings of the other packet types. | `C10_parse_panic_free_partial`, `C10_parse_panic_free_any_bytes_partial`, `C10_panics_exactly_partial`, `C10_parse_panic_free_refuted` |
| C11 | Reason codes round trip | partial | False of the three reasons sharing code 0; exact description proved. | `C11_reason_codes_partial`, `C11_only_codes_accepted`, `C11_reason_codes_refuted` |
| C12 | CONNECT flag byte is decoded faithfully | proved | As stated. | `C12_connect_flags_faithful`, `C12_connect_flags_round_trip` |
| C13 | Protocol version negotiation | proved | As stated. | `C13_version_negotiation`, `C13_connect_version` |
| C14 | MQTT 3.1.1 packets are understood | partial | False: no 3.1.1 PUBLISH is ever parsed to its payload, and SUBSCRIBE/UNSUBSCRIBE fail. True of CONNECT, DISCONNECT and the acknowledgements. | `C14_v311_publish_never_understood_refuted`, `C14_v311_packets_refuted`, `C14_v311_packets_partial`, `C14_v311_disconnect_partial` |
| C15 | Server framing is independent of chunking | partial | Proved for all sequences of packets that round trip (C08) and all chunkings, including streams cut inside a packet; false of packets whose parse over-reads. | `C15_server_framing_partial`, `C15_server_framing_truncated_partial`, `C15_server_reads_deterministic`, `C15_server_framing_refuted` |
| C16 | The connection survives a PINGREQ | partial | False: proved for all streams that after a PINGREQ nothing more is read and the connection ends with an error. | `C16_ping_kills_connection_refuted` |
| C17 | Client framing is independent of chunking | partial | False when a read ends inside a packet; proved when every read ends at a packet boundary. | `C17_client_framing_partial`, `C17_client_framing_refuted` |
| C18 | Completeness check is exact | proved | For canonical headers; for overlong length fields it is refuted. | `C18_check_exact`, `C18_check_prefix`, `C18_check_noncanonical_refuted` |
| C19 | Publish topic validation | proved | Both directions against an independent specification over Unicode characters. | `C19_publish_topic_validation` |
| C20 | Subscription filter validation | proved | Both directions against an independent specification over Unicode characters. | `C20_filter_validation` |
| C21 | Routing delivers to exactly the matching subscriptions | proved | For all histories of subscriptions and publishes; the walk also never fails. | `C21_routing_exact`, `C21_routing_total` |
| C22 | Wildcards do not match $-topics | partial | False: "#" and "+..." receive $-topics, live and retained. True when the topic does not start with $ or the filter does not start with a wildcard. | `C22_dollar_topics_partial`, `C22_dollar_topics_refuted` |
| C23 | Retained and live delivery use the same matching | proved | For every valid filter and topic, over any set of earlier subscriptions. | `C23_retained_live_same_matching` |
| C24 | Retained store holds the last retained publish per topic | proved | For all histories of broker calls, against an inductive specification of the retained message of a topic. | `C24_retained_last_per_topic`, `C24_retained_unique` |
| C25 | A subscriber racing with a retained publish does not miss it | proved | For all interleavings of any number of publishes with one subscribe, from any reachable broker. | `C25_no_lost_retained` |
| C26 | Retained value agrees with the last live message | partial | False for overlapping publishes; proved for publishes that do not overlap. | `C26_retained_is_last_live_partial`, `C26_retained_is_last_live_refuted` |
| C27 | Subscribers receive every matching message in order | partial | Order and absence of duplicates proved for all interleavings; no loss proved when at most 16 messages wait; false with 17. | `C27_in_order_no_duplicates`, `C27_no_loss_partial`, `C27_loss_refuted` |
| C28 | Delivered PUBLISH carries the publisher's topic | partial | Payload and matching topic proved for every PUBLISH of every history, the exact topic for filters without wildcards. False otherwise: the filter is sent as topic. | `C28_delivered_message_partial`, `C28_delivered_topic_refuted` |
| C29 | Delivery QoS never exceeds the granted QoS | partial | False: QoS 0 is granted and the QoS of the publication delivered. Proved: the QoS delivered is always that of the publication. | `C29_qos_of_publication_partial`, `C29_granted_qos_refuted` |
| C30 | Outgoing packet identifiers identify | partial | False: identifiers of the publishers are reused, wills have none. Proved when the publishers choose different identifiers. | `C30_identifiers_partial`, `C30_identifiers_refuted` |
| C31 | SUBACK mirrors SUBSCRIBE | proved | For all session states and SUBSCRIBE packets whose filters are UTF-8 (the parser guarantees it). | `C31_suback_mirrors_subscribe` |
| C32 | UNSUBACK mirrors UNSUBSCRIBE and stops delivery | proved | The answer and the new subscriptions for all session states; no later delivery for all later histories without restart, reopening of the connection or new subscription to the filter. | `C32_unsuback_mirrors_unsubscribe`, `C32_no_delivery_afterwards` |
| C33 | Publish acknowledgements match the publish | proved | For all reachable states; also that the message is routed exactly once to every matching subscription. | `C33_publish_acknowledged`, `C33_release_acknowledged` |
| C34 | A publish on an invalid topic has no effect | proved | A PUBLISH on an invalid topic is the same as losing the connection; without a will nothing is routed, retained or stored. | `C34_invalid_topic_no_effect`, `C34_nothing_published` |
| C35 | QoS 2 messages are delivered exactly once | partial | False: a retransmitted QoS 2 PUBLISH is delivered again. Proved: each received PUBLISH is routed once and PUBREL routes nothing. | `C35_each_publish_routed_once_partial`, `C35_exactly_once_refuted` |
| C36 | Completing the QoS 2 handshake releases state | partial | False for messages the client publishes: every completed exchange leaves its message in the session. Proved for messages sent to the client. | `C36_outgoing_released_partial`, `C36_state_released_refuted` |
| C37 | A session answers every packet type as specified | proved | For all session states. | `C37_packet_types` |
| C38 | No session without valid credentials | proved | For all configurations and histories. | `C38_refused`, `C38_accepted`, `C38_served_was_accepted`, `C38_served_has_credentials` |
| C39 | Only a CONNECT opens a session | proved | Removing the events of a connection that never sent CONNECT changes neither the state nor what others receive. | `C39_no_effect_before_connect` |
| C40 | Different clients never share a session | partial | False for clients without an identifier, which share one session. Proved: sharing needs equal presented identifiers; a clean start always gets its own session. | `C40_shared_identifier_partial`, `C40_clean_start_own_session`, `C40_own_session_refuted` |
| C41 | Session-present is truthful | partial | False for clients without an identifier. Proved in both directions otherwise. | `C41_session_present_sound`, `C41_session_present_complete`, `C41_empty_identifier_refuted` |
| C42 | Clean start discards the old session | partial | False: messages in flight of the old session survive in the store and are sent after a restart. Proved for subscriptions, will and the session itself. | `C42_clean_start_partial`, `C42_nothing_used_again_refuted` |
| C43 | Resuming keeps the subscriptions | partial | False: resuming in memory stores an empty list of subscriptions, lost at the next restart. Proved for a reconnect in memory, and for restarts when the list was stored since. | `C43_reconnect_partial`, `C43_restart_partial`, `C43_resume_keeps_subscriptions_refuted` |
| C44 | Unacknowledged messages are redelivered on reconnect | partial | False when the session is still in memory: nothing is sent again. Proved after a restart; acknowledged messages are not sent again. | `C44_redelivered_after_restart_partial`, `C44_acknowledged_not_resent`, `C44_redelivered_refuted` |
| C45 | Will is published exactly on abnormal disconnect | partial | False when the identifier connects again (will lost) and after a restart (old will published). Proved: the will of the session is published once when the connection is lost, never after DISCONNECT, and nothing else publishes; the will is the one of the CONNECT unless the identifier is presented again or the broker restarted. | `C45_lost_connection`, `C45_disconnect`, `C45_nothing_else`, `C45_will_published_partial`, `C45_will_published_refuted`, `C45_own_will_refuted` |
| C46 | A will is not published for a live connection | partial | False when two connections use one identifier. Proved otherwise. | `C46_live_will_partial`, `C46_live_will_refuted` |
| C47 | One connection per client | partial | False: the older connection stays. Proved that no first packet ever ends another connection. | `C47_connections_kept`, `C47_one_connection_refuted` |
| C48 | An acknowledged subscription is durable | partial | Proved at every crash point of every event while storage calls succeed. False with a failing store (the error is dropped), with a failing load (the stored list is replaced by an empty one) and over histories (a resumed connection stores an empty list): all three refuted. Takes one handler at a time; C107 has interleaved handlers. | `C48_refines`, `C48_suback_partial`, `C48_crash_points`, `C48_crash_is_a_restart`, `C48_failing_store_refuted`, `C48_failing_load_refuted`, `C48_later_resume_refuted` |
| C49 | Connecting cannot block the broker | partial | False when a second connection without clean start uses the identifier of an idle, subscribed connection: every later CONNECT waits until that connection hears of something (refuted). Proved: only such twins block, only if one of them has subscribed, and every CONNECT is answered when there are none. Assumes that packet writes complete. | `C49_only_twins_block`, `C49_only_subscribers_block`, `C49_publishers_answered`, `C49_comes_to_rest`, `C49_answered_partial`, `C49_never_waits_partial`, `C49_refuted` |
| C50 | Keep-alive | partial | False for an interval of 1 (the timeout is rounded down to 1 s) and of 0 (the connection panics): both refuted. Proved for all other intervals and all arrival times. | `C50_served_is_live`, `C50_not_before`, `C50_ends`, `C50_regular_client_partial`, `C50_silent_client`, `C50_one_second_refuted`, `C50_zero_refuted`, `C50_zero_timer_partial`, `C50_untimed`, `C50_untimed_always` |
| C51 | Memory store behaves like four maps | proved | For all operation sequences whose retained lookups use valid filters. | `C51_memory_store_is_maps`, `C51_spec_unique` |
| C52 | SQLite store behaves like the memory store | partial | False for filters containing a comma and for packet identifiers of retained messages; proved for all other operation sequences. | `C52_sqlite_like_memory_partial`, `C52_sqlite_rows_partial`, `C52_sqlite_like_memory_refuted` |
| C53 | PLAIN authentication | proved | As stated. | `C53_plain`, `C53_plain_single_step`, `C53_plain_refusals`, `C53_plain_wrong_credentials`, `C53_plain_by_name`, `C53_unknown_method` |
| C54 | Enhanced authentication exchange | partial | Success only if accepted, and CONTINUE only in an exchange: proved. False: a failed re-authentication leaves the exchange in progress, and it survives the connection. | `C54_success_only_if_accepted`, `C54_accepted_is_reported`, `C54_continue_needs_exchange`, `C54_exchange_was_started`, `C54_failed_exchange_ends_partial`, `C54_exchange_per_connection_refuted` |
| C55 | Credential validators | proved | For every hash verification function. | `C55_simple_validator`, `C55_hashed_validator` |
| C56 | Password file operations | partial | Proved for names the format can hold (no ':', no line feed, no leading '#' or white space) and files that load; those names are exactly the ones a file can hold. False otherwise: refuted for names with ':' (overwrites another user), '#', line feed (file no longer loads), and for files with one bad line (all other users are lost). | `C56_add_partial`, `C56_add_succeeds`, `C56_other_names_never_load`, `C56_delete`, `C56_delete_succeeds`, `C56_separator_refuted`, `C56_comment_refuted`, `C56_line_feed_refuted`, `C56_bad_line_refuted` |
| C57 | Client packet identifiers | partial | False: the 65536th request uses identifier 0. Proved: the exact sequence of identifiers, no reuse among 65535, none of the first 65535 is 0. | `C57_identifiers_partial`, `C57_no_early_reuse`, `C57_nonzero_at_first`, `C57_identifier_zero_refuted` |
| C58 | Client CONNECT reflects the options | proved | For all options that fit the wire format. | `C58_connect_reflects_options` |
| C59 | Client acknowledges what it receives | partial | False for QoS 2, which is never acknowledged and is reported again when resent. Proved for QoS 0 and 1. | `C59_qos1_acknowledged_partial`, `C59_lost_only_unacknowledged`, `C59_qos2_never_acknowledged`, `C59_acknowledged_once_refuted` |
| C60 | Client subscribe result is truthful | partial | False: the SUBACK is ignored. Proved: success means the SUBSCRIBE was written. | `C60_success_means_sent_partial`, `C60_subscribe_result_refuted` |
| C61 | allow_anonymous is honoured | partial | False of the code: allow_anonymous is never read, so an anonymous client is refused although it is set (refuted). Proved: refused when authentication is enabled, accepted when it is not, whatever allow_anonymous says. | `C61_anonymous_refused_partial`, `C61_disabled_accepts_all`, `C61_no_file_refuses_all`, `C61_allow_anonymous_refuted` |
| C62 | The server never panics on what it reads | proved | For all histories whose packets came out of the parser; the events in which a task panics for another reason (the decoder, C10; the timer, C50) are excluded, but may occur before. | `C62_no_panic` |
| C63 | Per-subscription delivery order | proved | While the connection is the only one using its session. | `C63_delivery_in_order`, `C63_delivery_complete`, `C63_waiting_is_sent` |
| C64 | Clients do not disturb each other's sessions | proved | For all histories; what is stored, for identifiers the broker has not also assigned. | `C64_isolation`, `C64_stored_isolation` |
| C65 | Messages are published on valid topics only | partial | False: the topic of a will is not checked. Proved for everything but wills. | `C65_routed_topics_partial`, `C65_will_topic_refuted` |
| C66 | Client requests reach the wire as given | partial | False for topics over 65535 bytes and for empty lists of filters. Proved for all other arguments. | `C66_publish_on_wire_partial`, `C66_subscribe_on_wire_partial`, `C66_unsubscribe_on_wire_partial`, `C66_long_topic_never_arrives`, `C66_requests_on_wire_refuted` |
| C67 | The end of a connection is reported once | partial | False: a DISCONNECT from the broker followed by the close is reported twice. Proved: the end is always reported and last, one event for the end plus one for each DISCONNECT, and recv() is exact. | `C67_end_reported`, `C67_reported_once_partial`, `C67_reported_once_refuted`, `C67_nothing_after_end`, `C67_recv_none_is_final` |
| C68 | Every call is answered | proved | For all histories of the client. | `C68_one_answer_each`, `C68_success_iff_written` |
| C69 | Calls do not depend on recv() | partial | False with more than 256 unread events. Proved up to that number. | `C69_calls_served_partial`, `C69_calls_served_refuted` |
| C70 | Dropping the client ends the connection | partial | False: the event loop keeps the connection alive. Proved that disconnect() ends it. | `C70_drop_keeps_connection_refuted`, `C70_disconnect_ends_connection` |
| C71 | connect() tells the truth | partial | False for the identifier of an MQTT 3 client that leaves it to the broker: connect() returns an empty one. Everything else proved. | `C71_connect_result_partial`, `C71_believes_the_answer`, `C71_says_why`, `C71_identifier_refuted` |
| C72 | From publish() to recv() | partial | False for the topic under a wildcard filter: the application is told the filter. Proved: order, no gap and no duplicate between what the broker routed and what the application is told, and that everything published is routed, while at most 16 messages wait and writes succeed. | `C72_publish_to_recv_partial`, `C72_topic_refuted` |
| C73 | An interrupted passwd command loses nothing | partial | False of the code: the file is truncated and rewritten in place, so an interruption loses users, and can leave an account with the empty password (both refuted). Proved: after any interruption each user that loads has a prefix of its right hash. | `C73_interrupted_partial`, `C73_atomic_refuted`, `C73_empty_password_refuted` |
| C74 | Password file format | proved | For all texts, as lists of Unicode characters; reading and decoding the file is not modelled. | `C74_loads_iff`, `C74_loaded` |
| C75 | The broker accepts exactly the users of its password file | proved | For every hash verification function (argon2 is a parameter). | `C75_accepts_file_users`, `C75_bad_file_stops`, `C75_passwd_then_connect` |
| C76 | max_connections is honoured | partial | False of the code: the setting is never read. Refuted for every limit. | `C76_max_connections_refuted` |
| C77 | An acknowledged retained message survives a crash | proved | At every crash point and whatever storage calls fail. A failed call is assumed to leave the store unchanged. | `C77_acknowledged_retained` |
| C78 | A message sent with QoS 1 or 2 is sent again after a crash | partial | Proved at every crash point while storage calls succeed. False with a failing store; and a message acknowledged to its publisher but not yet sent to a subscriber is lost: both refuted. | `C78_sent_message_survives_partial`, `C78_failing_store_refuted`, `C78_acknowledged_message_lost_refuted` |
| C79 | mercurio pub sends exactly the message asked for | partial | False of the code: success does not mean acknowledged (QoS 1 without a PUBACK) or accepted (invalid topic), and failure does not mean unsent: all refuted. Proved: what is sent, at most once, for all runs; on the wire for topics and payloads that fit. | `C79_success_means_sent_partial`, `C79_nothing_else_sent`, `C79_bad_arguments`, `C79_on_wire_partial`, `C79_connect_from_arguments`, `C79_acknowledged_refuted`, `C79_accepted_refuted`, `C79_failure_means_unsent_refuted` |
| C80 | mercurio sub prints every message received | partial | Proved for UTF-8 payloads: the lines printed are those of the messages that arrived, in order, and all of them when the program ends by itself. False otherwise (refuted): payloads that are not UTF-8 are changed, a payload with line ends looks like several messages, a refused subscription and a lost connection are not reported by the exit status. | `C80_prints_in_order_partial`, `C80_prints_all_partial`, `C80_subscribes`, `C80_connect_from_arguments`, `C80_payload_exact_iff`, `C80_payload_refuted`, `C80_one_line_per_message_refuted`, `C80_refused_subscription_refuted`, `C80_lost_connection_refuted` |
| C81 | Transport and protocol version follow the arguments | partial | Proved with --tls. False for --cafile without --tls (plain connection) and for unknown version names (version 5 is used): both refuted. The TLS library is not modelled. | `C81_tls_protects_partial`, `C81_insecure_takes_anyone`, `C81_tls_never_plain`, `C81_programs_use_it`, `C81_cafile_protects_refuted`, `C81_version_partial`, `C81_version_refuted` |
| C82 | The listener survives errors of accept | partial | False: after errors for 127 seconds the broker stops and all clients lose their connections (refuted). Proved: it stops exactly after eight errors in a row, and takes every connection until then. | `C82_stops_iff`, `C82_accepts_all`, `C82_waits_bounded`, `C82_error_spell_refuted` |
| C83 | Interrupted reads lose nothing | proved | For all streams of bytes and all interruptions, with the framing as it is (C15 and C17 say what it is). | `C83_server_reads_on`, `C83_client_reads_on`, `C83_packets_arrive_partial` |
| C84 | Orderly shutdown | partial | Proved for connections with sessions of their own and wills on valid topics. False of the daemon: it exits without waiting, so wills are lost; a connection that has not sent its CONNECT is not told (both refuted). | `C84_wills_published_partial`, `C84_served_connection_ends`, `C84_daemon_waits_refuted`, `C84_silent_connection_refuted` |
| C85 | State survives a restart of the daemon | partial | False: every run of the broker starts with an empty store. | `C85_nothing_survives_refuted`, `C85_session_lost_refuted` |
| C86 | TLS as configured | partial | False for the exit status: a certificate that does not load is a normal end (refuted). The rest is proved; the TLS library is not modelled. | `C86_tls_as_configured`, `C86_serves_if_possible`, `C86_failure_reported_refuted` |
| C87 | Answered in order under concurrency | proved | Every interleaving at the operations on locks, store, topic tree and sessions; strings are UTF-8. The handlers that are interleaved are shown to be those of the sequential model. | `C87_answered_in_order`, `C87_alone_is_step`, `C87_histories_are_schedules` |
| C88 | Published once under concurrency | proved | For every filter that is valid; the queue of a filter is what its subscribers read (C27, C28). | `C88_once_to_every_match`, `C88_publisher_order` |
| C89 | Delivered from the SUBACK on | proved | For connections that share their client identifier with nobody. Messages whose QoS is not 0, 1 or 2 are excluded; none is parsed. | `C89_delivered_from_suback_on` |
| C90 | Sessions are isolated under concurrency | proved | As stated. | `C90_session_isolation`, `C90_used_was_created`, `C90_shared_session` |
| C91 | Handlers always finish | proved | Of handlers that have something to do; a connection that waits for messages with its session locked is C49. | `C91_somebody_moves`, `C91_no_endless_schedule`, `C91_all_finish` |
| C92 | Wills and concurrent handlers | partial | Proved for connections that share their client identifier with nobody (the end without DISCONNECT: after a clean start, or if no earlier life has left a will of the client; C108_left_will_refuted has the other case). False if the identifier is used again meanwhile (refuted): the will of the living connection is published. | `C92_will_once_partial`, `C92_will_once_kept_partial`, `C92_normal_disconnect_partial`, `C92_will_of_the_living_refuted` |
| C93 | One order for all subscribers | partial | False for messages handled at the same time (refuted): publishers only share the read lock, so two subscriptions can get them in opposite orders. Proved if one was handled before the other arrived. | `C93_later_is_later_partial`, `C93_same_order_refuted` |
| C94 | Sent packets are MQTT packets | partial | Proved for all types but AUTH, in all versions. False (refuted) for AUTH, DISCONNECT with properties, a CONNECT with the retain flag of a will and no will, and the codes of a SUBACK of version 3. | `C94_sent_packets_conform_partial`, `C94_auth_never_conforms_refuted`, `C94_disconnect_with_properties_never_conforms_refuted`, `C94_sent_bytes_are_no_packet_refuted` |
| C95 | MQTT packets are understood | partial | Proved up to the three reasons that share code 0. False (refuted) for PINGREQ and PINGRESP, AUTH without a reason, acknowledgements with a reason and no properties, CONNECT with Request Response Information, PUBLISH, SUBSCRIBE and UNSUBSCRIBE of version 3, and every PUBLISH with several subscription identifiers. | `C95_conforming_packets_understood_partial`, `C95_reason_without_properties_refuted`, `C95_short_packets_refuted`, `C95_request_response_information_refuted`, `C95_version_3_refuted`, `C95_several_identifiers_refuted` |
| C96 | Malformed packets are refused | partial | Proved: what is accepted is a packet of the standard but for nine liberties, written out in SpecWire.lenient. That the liberties are taken, and that forbidden values are not looked at, is refuted by witnesses. | `C96_only_packets_accepted_partial`, `C96_strings_are_utf8`, `C96_no_invalid_options`, `C96_malformed_packets_refuted`, `C96_forbidden_values_refuted` |
| C97 | The broker writes packets of the client's version | partial | Proved if all clients speak the same version, for everything not too long but AUTH, PUBLISH in version 3, PUBLISH of a will with a QoS, refused filters in version 3 and answers to SUBSCRIBE or UNSUBSCRIBE without filters; all of these, mixed versions and too long packets are reached (refuted). A PUBLISH of version 3 has one byte more in the payload, always. | `C97_written_packets_conform_partial`, `C97_version_3_payload_refuted`, `C97_will_without_identifier_refuted`, `C97_auth_refuted`, `C97_refused_filter_version_3_refuted`, `C97_empty_subscribe_refuted`, `C97_mixed_versions_refuted`, `C97_too_long_refuted` |
| C98 | The client library writes packets of the version chosen | partial | CONNECT is proved in all versions, everything else in version 5. False (refuted) in version 3: a PUBLISH always has one byte more in the payload, a SUBSCRIBE can be no packet at all. Forbidden values are excluded for topics without wildcards and fewer than 65536 requests; publish() takes wildcards (refuted) and the 65536th request has identifier 0 (C57). | `C98_client_packets_conform_partial`, `C98_connect_conforms`, `C98_version_3_payload_refuted`, `C98_version_3_subscribe_refuted`, `C98_no_forbidden_values_partial`, `C98_wildcard_topic_refuted` |
| C99 | The pings of the client library keep an idle connection | partial | Proved at the level of packets for keep-alive intervals of at least 2 seconds: the client pings in time, and the broker's timer does not fire while it is given every ping. False (refuted): the broker's connection loses every byte after the first PINGREQ (C16), so that it hears only the first ping and cuts an idle client of any interval; false as well for an interval of 1 second, and with 0 the first request of the client ends the connection. | `C99_pings_keep_connection_partial`, `C99_first_ping_partial`, `C99_ping_rate`, `C99_only_first_ping_heard_refuted`, `C99_idle_client_cut_refuted`, `C99_one_second_refuted`, `C99_zero_refuted` |
| C100 | The daemon runs as its configuration file says, or not at all | partial | Proved: address, transport, log level and accepted users are those of the document or the defaults; wrong types, missing certificate or key and bad password files stop the daemon with status 1, and nothing else does. False (refuted): names that are no setting are ignored ('enable = true' leaves the broker open), the missing file of the service unit is replaced by defaults that let everyone in, and TLS files that do not load end the daemon with status 0. Sections written as arrays are not modelled. | `C100_address`, `C100_tls`, `C100_auth`, `C100_malformed_stops`, `C100_incomplete_stops`, `C100_unreadable_stops`, `C100_starts`, `C100_only_settings`, `C100_misspelt_refuted`, `C100_missing_default_open`, `C100_missing_file_refuted`, `C100_failure_status_refuted` |
| C101 | Messages in flight need bounded room | proved | For events that are not interleaved. The number of sessions, subscriptions, retained messages and wills has no such bound. | `C101_session_bounded`, `C101_stored_bounded`, `C101_step_bounded` |
| C102 | What is delivered was sent and asked for, in every schedule | partial | Proved for every schedule: what is written was sent before by an accepted client to a matching topic, and the filter was asked for on a connection joined to this one by client identifiers; with an identifier that nobody else uses, by the client itself. False (refuted): clients that come without an identifier share a session, so that one which asked for nothing is sent messages for the filter of another. | `C102_delivered_was_sent`, `C102_delivered_was_asked`, `C102_asked_itself_partial`, `C102_asked_itself_refuted` |
| C103 | Packets are refused for their own faults and with the right reason | partial | Proved: the reasons, and that the encoder's packets are judged for themselves. False (refuted): a SUBSCRIBE without filters is refused when it comes alone and accepted when another packet follows in the same read; a too short acknowledgement is refused, accepted or panics, depending on what follows. | `C103_reasons`, `C103_flags`, `C103_options`, `C103_own_faults_partial`, `C103_own_faults_refuted` |
| C104 | A panicking connection harms nobody else | partial | Proved: only its own bytes (or, C50, its own keep-alive of 0) make the task of a connection panic; nothing but the connection is lost; without a will the state is as if the connection had been lost; every stream that ends in a panicking frame panics, however it arrives. False (refuted): the will of the client is not published; and the same bytes panic or not depending on how they arrive. | `C104_crash_own_bytes`, `C104_panic_isolated`, `C104_as_if_lost`, `C104_stream_panics`, `C104_split_matters_refuted`, `C104_will_published_refuted` |
| C105 | What the broker handles is what the bytes say | partial | Proved, for every schedule and all bytes, with the bytes of packets spelled out by the format accepted (C96). False (refuted): after a PINGREQ nothing is handled any more (C16). | `C105_handled_in_order`, `C105_handled_prefix`, `C105_sent_handled`, `C105_next_handled`, `C105_histories`, `C105_spelled`, `C105_reading_ends`, `C105_deaf_after_ping_refuted` |
| C106 | From publish() to recv(), over bytes | partial | Proved: the publisher's calls are handled in order and as made, for all pieces of bytes; a poll handles the next one that has arrived in full; from there to the application of the subscriber as in C72 (same gaps: told the filter instead of the topic, more than 16 waiting, QoS 2), with the reads of the subscriber ending between packets (C17). False (refuted): after a keep-alive ping of the library nothing it publishes is handled any more. | `C106_calls_handled`, `C106_arrived_handled`, `C106_publish_calls_handled`, `C106_after_ping_refuted`, `C106_publish_to_recv_partial` |
| C107 | What a client was told is found again, whatever the schedule | proved | In the interleaved model of handlers (Conc), for a client whose identifier nobody else uses. Storage calls succeed; C48 has what happens when they fail and when a second connection uses the identifier. The store may come from any earlier lives. | `C107_subscriptions`, `C107_messages`, `C107_retained` |
| C108 | The will of a client survives a stop of the broker | partial | Proved: the will is sent before the stop or found again after it, for every schedule and stopping point, for a client whose CONNECT was handled to its end, with clean start or if no life before has left a will of it. False (refuted): from the CONNACK on (the will is stored after it), at most once (the broker stops between sending the will and deleting it from the store), and at least once (the client comes back with clean start and is lost again: the stored will is deleted unpublished). Also false (refuted) if a life before has left a will and the client returns without clean start: the old will is published, the new one deleted. | `C108_not_lost_partial`, `C108_once_refuted`, `C108_clean_start_refuted`, `C108_connack_refuted`, `C108_left_will_refuted` |
| C109 | What is delivered was sent and asked for, over all lives of the broker | partial | Proved for every number of lives, schedules and stopping points. That the filter was asked for by the client itself is proved when the connections that use its identifier use no other one, in whatever life; false for clients without an identifier (C102_asked_itself_refuted). C109_histories_are_lives: histories of one event after the other, with restarts, are lives. | `C109_delivered_was_sent`, `C109_delivered_was_asked`, `C109_asked_itself_partial`, `C109_histories_are_lives` |
| C110 | A client that comes back finds what it was told, whatever others do at the same time | partial | Proved for subscriptions and for unacknowledged messages, for a client whose identifier nobody else uses, through any number of lives. The will is proved for a client that connected with clean start or had no will stored, whose CONNECT was handled to its end, and that does not come in the lives between; C108 has the counterexamples for the other cases. | `C110_subscriptions`, `C110_messages`, `C110_will_partial` |
| C111 | A client that comes back is sent what is published from then on, without subscribing again | proved | For a client whose identifier nobody else uses. The queue holds 16 messages (C27 has what happens to the 17th); messages published between the stop and the return are only kept if the client had already been sent them (C48). | `C111_delivered_from_return_on`, `C111_published_reaches` |
| C112 | Bytes from any number of clients, in any pieces, with the handlers of all connections interleaved | proved | With the readers of C105 and the handlers of C87-C93; the histories of C105 are shown to be among the runs. Each process is followed from its start on any store to its stop; C107-C111 have what follows. | `C112_schedules`, `C112_handled_in_order`, `C112_sent_handled`, `C112_next_handled`, `C112_conversation`, `C112_answered`, `C112_published`, `C112_panic_own_bytes`, `C112_sequential` |
| C113 | What is written to a client are packets of its version, whatever runs at the same time | partial | C97 for every schedule and life, with clients of several versions. As in C97 the packets called exceptional are excepted (PUBLISH in version 3, PUBLISH of a will with a QoS, AUTH, a SUBACK or UNSUBACK without codes, a SUBACK that refuses a filter in version 3), and so are clients that share an identifier and speak different versions: C97 has counterexamples for both. The reading library is that of C17: each of its reads ends between packets, and it speaks version 5. | `C113_written_packets_conform_partial`, `C113_fed_with_bytes_partial`, `C113_read_by_the_library_partial` |
| C114 | From publish() to recv() while everything happens at once | partial | C72 and C106 for interleaved handlers and any earlier lives. Missing: the application is told the filter instead of the topic (C72_topic_refuted), QoS 2, a publisher that pings (C106_after_ping_refuted), reads of the subscriber that end inside a packet (C17), packets to the subscriber that no client can read (C97), and a subscriber whose identifier others use. The part about the calls that are handled needs none of these but the pings. | `C114_calls_handled`, `C114_publish_calls_handled`, `C114_publish_to_recv_partial` |
| C115 | A release build does what the debug build does, unless that one panics | partial | Proved for all byte strings, streams, pieces and schedules. The last sentence is false of four packets (refuted): a SUBSCRIBE, SUBACK, UNSUBSCRIBE or UNSUBACK with a length that is longer than what follows is read by the release build as one without entries; for the other eleven packets it is proved. | `C115_parse`, `C115_check`, `C115_release_panics`, `C115_difference`, `C115_same_refuted`, `C115_server_reads`, `C115_client_reads`, `C115_broker`, `C115_libraries` |
| C116 | What version 5 clients ask for in properties and options is honoured | partial | False of the code, in full: proved for all schedules and lives that none of these wishes is looked at (the same turns, the same packets and the same store are possible with any others in their place) and that no property, failure reason, retain flag or DISCONNECT is ever written. Refuted one by one for No Local, Retain Handling, Session Expiry Interval, Receive Maximum and Disconnect with Will Message. At the level of packets: whether the bytes of the properties are well formed is C96. | `C116_ignored`, `C116_ignored_over_lives`, `C116_nothing_passed_on`, `C116_no_local_refuted`, `C116_retain_handling_refuted`, `C116_session_expiry_refuted`, `C116_receive_maximum_refuted`, `C116_disconnect_with_will_refuted` |
| C117 | The broker takes room only for what it was asked to keep, and gives it back | partial | The last sentence is false of the code (refuted): places and sessions stay until the process ends; C117_places_stay proves it for places and all schedules. The first two are proved for all schedules and lives. Not counted: the channel at each place (its capacity is fixed, topic_tree.rs 18) and what a session holds (C101). | `C117_places`, `C117_places_asked`, `C117_publishers_take_none`, `C117_sessions`, `C117_places_stay`, `C117_given_back_refuted` |
| C118 | Messages in flight take bounded room whatever runs at the same time | proved | C101 for interleaved handlers, bytes and any earlier lives. The bounds count messages, not bytes. Retained messages and wills are one for each topic and each client, which nothing bounds. | `C118_session_bounded`, `C118_stored_bounded`, `C118_handler_bounded`, `C118_fed_with_bytes` |
| C119 | Who is not let in changes nothing | proved | For all schedules, bytes and lives. Not counted: the connection itself, with its buffer and its place among max_connections (C76). | `C119_only_refused`, `C119_no_trace`, `C119_over_lives`, `C119_bytes` |
| C120 | The broker may be put on SQLite | partial | False of the code in two cases, both refuted with runs of the broker: a filter with a comma comes back as two, and a retained message comes back without its packet identifier. Proved for everything else: if no client asks for a filter with a comma, all answers over all lives and schedules are alike but for those identifiers. That a handler depends on the store by its answers only is how the model is built (Conc.v). SQLite itself is modelled as tables (Storage.v) whose operations do not fail. | `C120_sqlite_answers_partial`, `C120_bytes_partial`, `C120_comma_refuted`, `C120_identifier_refuted` |
| C121 | An acknowledged retained message reaches every later subscriber | proved | For all schedules and lives. Those who asked before for a message to be retained for the topic must have been served when this one comes (C121_unsettled_refuted: of two that are handled at the same time either may be kept, whichever came first), and no client may have declared a will to be retained for this topic. What the subscriber has to do is C89's: nobody else uses its identifier, it keeps up and keeps the subscription. It is sent the filter as the topic and no retain flag (C72, C116). | `C121_kept`, `C121_kept_over_lives`, `C121_sent_later`, `C121_sent_over_lives`, `C121_unsettled_refuted` |
| C122 | What was unsubscribed from stays silent | proved | For all schedules and lives, for a client whose identifier nobody else uses and whose UNSUBACK was sent. A reconnection within one life is modelled as a new CONNECT under the same number of connection. A PUBLISH is one for the filter if it carries it as its topic, which is how the broker sends them (C72). The exception for duplicates is needed (C122_nothing_at_all_refuted). | `C122_silence`, `C122_after_reconnecting`, `C122_over_lives`, `C122_nothing_at_all_refuted` |
| C123 | Unread bytes take bounded room, and little before a client is let in | partial | The first sentence is proved for all schedules, pieces and lives. The second is false of the code (refuted, for every size up to the largest): a stranger who announces a packet of 268435460 bytes makes the broker hold all but the last of them, and no handler ever sees them. Counted are the bytes in the read buffer, not the capacity that BytesMut reserves; one read is what one arrival brings. | `C123_bounded`, `C123_waiting`, `C123_before_login_refuted` |
| C124 | The client library does not wait with a packet in hand | partial | False of the code as stated (refuted for every topic and payload, both versions and profiles): when a property section that has arrived in full ends in the middle of a property, the parser reports the packet as incomplete, and the library waits for ever, keeping whatever arrives. Proved is the claim for packets as the encoder writes them: the library never waits while it holds one whole, and holds less than one packet. connect() gives up waiting for the CONNACK after its timeout; the event loop afterwards has none. | `C124_whole_packets_partial`, `C124_bounded_partial`, `C124_keeps_everything_refuted`, `C124_nothing_more_refuted` |
| C125 | What a client has acknowledged is not sent again | proved | For all schedules and lives, for a client whose identifier nobody else uses. The hypothesis on the lives between says that the client was sent no other PUBLISH with the identifier and that none was being prepared for it when the broker stopped. Within one life nothing is sent again at all when a client comes back (see C44), so the theorem speaks of later lives. A PUBREC does not have the effect (C125_received_refuted): a QoS 2 message whose PUBREL has been sent is published again after a restart, which MQTT 5.0 forbids in 4.3.3. | `C125_over_lives`, `C125_received_refuted` |
| C126 | After a clean start the old subscriptions are gone, whatever runs at the same time | proved | C42 for all schedules and lives, as far as subscriptions go, for a client whose identifier nobody else uses. C126_silence speaks of the time after the CONNECT has been handled to its end, the others of the time after the CONNACK. The exception for duplicates is needed (C126_nothing_at_all_refuted, C42). | `C126_silence`, `C126_after_reconnecting`, `C126_over_lives`, `C126_nothing_at_all_refuted` |
| C127 | What the CONNACK says about an earlier session is true, whatever runs at the same time | proved | C41 for all schedules and lives, for a client whose identifier nobody else uses at the same time. A CONNECT has to be handled to its end for the client to be told so after a restart: the session is stored only after the CONNACK has been sent, and the broker may stop in between (C127_after_a_crash_refuted). | `C127_sound`, `C127_complete`, `C127_complete_over_lives`, `C127_after_a_crash_refuted` |

## Where the code departs from a property

Each item is a `_refuted` theorem with a witness. In short:

* Wire format (C02, C03, C06, C08–C11, C14–C18): five-byte lengths overflow in debug builds; overlong
  lengths are accepted; Request Response Information decodes as another property; AUTH,
  DISCONNECT with properties and pings do not round trip; short CONNACK, PUBACK-like,
  SUBSCRIBE and AUTH frames panic the parser; MQTT 3.1.1 PUBLISH, SUBSCRIBE and
  UNSUBSCRIBE are parsed as MQTT 5; a PINGREQ leaves a byte that ends the connection;
  the client loses packets that are split between reads.
* Routing and delivery (C22, C26–C30): wildcards receive `$` topics; overlapping retained publishes
  can leave the older one; 17 waiting messages lose one; the filter is sent as topic; the
  granted QoS is ignored; packet identifiers are the publisher's.
* Sessions (C35, C36, C40–C44, C47): QoS 2 retransmissions are delivered again; completed QoS 2
  exchanges are not forgotten; clients without identifier share a session; old messages
  in flight survive a clean start in the store; resuming in memory stores an empty list
  of subscriptions, and does not send unacknowledged messages again; the older of two
  connections stays.
* Wills (C45, C46, C65): connecting again loses the will; after a restart an old stored will can be
  published; a will can be published for a live connection; the topic of a will is not
  checked.
* Authentication and configuration (C54, C61, C76): a failed exchange stays open;
  `allow_anonymous` and `max_connections` are never read.
* Crashes and failures (C48, C78): errors of the store are dropped before SUBACK; a failing load
  replaces the stored session; a message is acknowledged before it is stored for its subscribers.
* Locks and timers (C49, C50): a second connection with the identifier of an idle one blocks all
  later connections; keep-alive 1 times out after 1 s, keep-alive 0 panics.
* Client (C57, C59, C60, C66, C67, C69–C72): identifier 0 after 65535 requests; QoS 2 is never acknowledged;
  SUBACK is ignored; over-long topics and empty filter lists are written; DISCONNECT is
  reported twice; 257 unread events block all calls; dropping the client keeps the
  connection; the assigned identifier is lost for MQTT 3; the filter is reported as topic.
* Password file (C56, C73): names with `:`, `#` or line feed corrupt it; one bad line loses the other
  users on the next write; an interrupted write loses users or leaves an empty password hash.
* Command line client (C79–C81): `mercurio pub` succeeds although the message was not acknowledged or not
  accepted, and can fail after it was sent; `mercurio sub` changes payloads that are not UTF-8 and hides
  a refused subscription and a lost connection; `--cafile` without `--tls` connects in the clear; an unknown
  version name means version 5.
* Listener and daemon (C82, C84–C86): 127 seconds of errors of accept stop the broker; the daemon exits before
  wills are published; a connection without CONNECT ignores the shutdown and is never timed out; nothing
  survives a restart; a certificate that does not load ends the daemon with status 0.
* Concurrent handlers (C92, C93): a client that disconnects and comes back at once with a will has this will
  published while it is connected; messages published at the same time reach subscribers in different orders.
* The format of packets (C94–C96): AUTH and DISCONNECT with properties are written wrongly; an acknowledgement with
  a reason and no properties, an empty AUTH and Request Response Information are not understood; the payload of a PUBLISH with
  several subscription identifiers runs on into the next packet; reserved bits,
  over-long lengths, superfluous bytes, repeated properties and forbidden values (identifier 0, alias 0,
  wildcards in topics) are accepted.
* What the broker writes (C97): clients of version 3 get a zero byte before every payload and version 5 codes for
  refused filters; a will with QoS 1 or 2 is sent without packet identifier; a message of maximal size on a short topic is
  sent too long under a longer filter.
* What the client library writes (C98): the protocol version in the options only changes the CONNECT; with version 3
  everything else is still written as version 5. publish() takes topics with wildcards.
* Keep-alive end to end (C99): the client library pings in time (every half interval), but the broker's connection
  hears only the first PINGREQ of a connection (C16), so it cuts an idle client about one and a half intervals after
  that ping; with an interval of 1 s it can do so although the pings arrive, and with 0 the first request of
  the client makes the broker's task panic.
* Configuration of the daemon (C100): names that are no setting are ignored without a word, so that `enable = true` for
  `enabled = true` leaves the broker open; `--config /etc/mercurio/config.toml`, as in the service file, starts an open
  broker if that file is missing; TLS files that do not load end the daemon with status 0 (no restart by systemd).
* Provenance under concurrency (C102): clients that come without an identifier share one session, so one that asked for
  nothing can be sent messages for the filter of another.
* Refusals (C103): a SUBSCRIBE without filters is refused when it comes alone, and accepted when another packet is already in
  the buffer.
* Panics (C104): a frame that panics the decoder costs its sender the connection and nobody else anything, but the sender's will
  is not published; an empty AUTH panics the decoder if it arrives alone and is skipped over if a packet follows at once.
* From library to library (C106): once the client library has sent its keep-alive ping, no later publish() through it is
  handled by the broker, whatever bytes arrive.
* Wills and stops (C108): the will is stored after the CONNACK, so a stop in between loses it; it is deleted after it was sent, so a
  stop in between publishes it twice; nothing publishes the stored wills of clients that do not come back, and a client that comes back with clean start
  has its stored will deleted unpublished.
* Builds (C115): a SUBSCRIBE whose length is written with a leading zero and is longer than what follows passes
  the completeness check; the debug build panics on it, the release build handles a SUBSCRIBE without filters.
* Wishes (C116): the broker looks at no version 5 property of CONNECT, PUBLISH, SUBSCRIBE, UNSUBSCRIBE or DISCONNECT, at no
  subscription option and at no reason of an acknowledgement, and passes no property on; it never writes a DISCONNECT.
* Room (C117): places in the tree of topics and sessions in the table of sessions are never given back while the
  process runs, though nobody is subscribed and nobody will return; a client that subscribes to ever new filters
  and unsubscribes from them makes the tree grow without bound. Publishing alone makes it no bigger.
* SQLite (C120): a persistent client that subscribed to "a,b" is subscribed to "a" and "b" after it returns to a broker on SQLite.
- Nobody needs to log in to make the broker hold 256 MB (C123): the read buffer grows to whatever length the first packet announces.
- A broker can silence the client library with one malformed PUBLISH (C124): a property cut off by the end of its section is reported as an incomplete packet, and the library waits for ever while its read buffer grows; the application gets no error.
- A QoS 2 message is published again although its PUBREL has been sent (C125): PUBREC removes it from the session's memory only, so that after a restart it is still in flight in the store until the PUBCOMP.
- The CONNACK is sent before the session is stored (C127): if the broker stops in between, a client that has been let in finds no session when it comes back.

## Tests against wrong programs

`seeded/LOG.jsonl` lists edits of the model that a realistic bug would make, the claim each breaks and the
theorems that failed (or were tightened).

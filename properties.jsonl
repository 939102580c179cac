{"id": "C01", "title": "Variable byte integer round trip", "statement": "Encoding any value 0..268435455 as a variable byte integer and decoding the result, whatever bytes follow, gives back the same value and leaves exactly the following bytes; the encoding has between 1 and 4 bytes, is the shortest one, and its length is what encoded_size reports.", "quantifier": "all values up to 268435455 and all suffixes", "why_tests_cant": "2^28 values times all suffixes; boundary bugs hide between sampled values", "anchors": ["mercurio-core/src/codec.rs: encode_var_byte_integer, decode_var_byte_integer, VariableByteInteger"]}
{"id": "C02", "title": "Variable byte integer decoding is safe on any bytes", "statement": "Decoding a variable byte integer from an arbitrary byte string either reports an incomplete packet, reports a malformed packet, or returns a value of at most 268435455 after consuming at most four bytes; it never panics.", "quantifier": "all byte strings, both build profiles (overflow checks on and off)", "why_tests_cant": "attacker-controlled bytes; arithmetic overflow behaves differently in debug and release builds", "anchors": ["mercurio-core/src/codec.rs: decode_var_byte_integer"]}
{"id": "C03", "title": "Variable byte integers are canonical", "statement": "Only the shortest encoding of a length is accepted, so two different byte strings never denote the same length and a frame's extent is determined by its bytes (MQTT-1.5.5-1).", "quantifier": "all byte strings", "why_tests_cant": "needs a statement about every accepted byte string, not examples", "anchors": ["mercurio-core/src/codec.rs: decode_var_byte_integer", "mercurio-packets/src/lib.rs: ControlPacket::check"]}
{"id": "C04", "title": "String and binary data round trip", "statement": "Encoding any string or binary value that the MQTT length field can carry and decoding it, whatever bytes follow, gives back the same value and leaves exactly the following bytes.", "quantifier": "all strings and byte values, all suffixes", "why_tests_cant": "unbounded data; the 16-bit length is a boundary tests rarely reach", "anchors": ["mercurio-core/src/codec.rs: Encoder/Decoder for String, Bytes"]}
{"id": "C05", "title": "Strings accepted from the wire are exactly well-formed UTF-8", "statement": "A string field is accepted if and only if its length prefix fits the buffer and its bytes are the UTF-8 encoding of some sequence of Unicode scalar values; anything else is reported as malformed or incomplete.", "quantifier": "all byte strings", "why_tests_cant": "the set of ill-formed sequences (overlong, surrogate, truncated) is unbounded", "anchors": ["mercurio-core/src/codec.rs: Decoder for String"]}
{"id": "C06", "title": "Every MQTT 5 property round trips", "statement": "Encoding any single MQTT 5 property and decoding it gives back the same property with the same value.", "quantifier": "all 27 properties and all their values, all suffixes", "why_tests_cant": "values are unbounded strings; a single swapped case in the identifier table is enough to break one property silently", "anchors": ["mercurio-core/src/properties.rs: def_prop!, decode_with_id"]}
{"id": "C07", "title": "Remaining length is truthful", "statement": "In the bytes written for any control packet, the remaining-length field equals the number of bytes that follow it, so any receiver that frames by that field stays in sync.", "quantifier": "all control packets whose body fits in 268435455 bytes", "why_tests_cant": "every combination of optional fields and lengths; size and encode code are separate functions that can drift", "anchors": ["mercurio-packets/src/*.rs: encode, encoded_size"]}
{"id": "C08", "title": "Control packets round trip", "statement": "Encoding any well-formed control packet and parsing the bytes, whatever bytes follow, gives back an equal packet and leaves exactly the following bytes.", "quantifier": "all control packets of all 15 types, all suffixes, both protocol families", "why_tests_cant": "unbounded combinations of optional properties, flags and lengths", "anchors": ["mercurio-packets/src/lib.rs: ControlPacket::parse_with_version, encode", "mercurio-packets/src/*.rs"]}
{"id": "C09", "title": "Parsing consumes exactly one frame", "statement": "When parsing succeeds on a buffer that starts with a complete frame, exactly the bytes of that frame are consumed, so the next parse starts at the next frame.", "quantifier": "all byte buffers accepted by the completeness check", "why_tests_cant": "attacker-chosen bytes; the decoders do not use the remaining length as a limit", "anchors": ["mercurio-packets/src/lib.rs: check, parse_with_version", "mercurio-packets/src/publish.rs: decode", "mercurio-packets/src/puback.rs: decode", "mercurio-packets/src/pingreq.rs: decode"]}
{"id": "C10", "title": "No input bytes can panic the parser", "statement": "For every byte buffer accepted by the completeness check, parsing returns a packet or an error; it never panics.", "quantifier": "all byte buffers, both build profiles", "why_tests_cant": "a single crafted byte string out of an unbounded set takes down the connection task", "anchors": ["mercurio-packets/src/lib.rs: ControlPacket::parse", "mercurio-packets/src/subscribe.rs: SubscriptionOptions::decode", "mercurio-core/src/reason.rs: ReasonCode::decode"]}
{"id": "C11", "title": "Reason codes round trip", "statement": "Every reason code decodes back to itself after encoding, and no byte is accepted that is not the code of some reason.", "quantifier": "all reason codes and all 256 bytes", "why_tests_cant": "finite but never enumerated by the tests", "anchors": ["mercurio-core/src/reason.rs: get_code, decode"]}
{"id": "C12", "title": "CONNECT flag byte is decoded faithfully", "statement": "For every flag byte: it is rejected if the reserved bit is set or the will QoS is 3; otherwise every flag equals its bit, and re-encoding reproduces the byte up to will bits that are meaningless without a will.", "quantifier": "all 256 flag bytes and all flag structures", "why_tests_cant": "the tests try a couple of bytes", "anchors": ["mercurio-packets/src/connect.rs: ConnectFlags"]}
{"id": "C13", "title": "Protocol version negotiation", "statement": "A CONNECT is accepted only for protocol name/level MQIsdp/3, MQTT/4 or MQTT/5, any other pair is refused as an unsupported version, and an accepted packet carries the matching version.", "quantifier": "all protocol names and levels", "why_tests_cant": "unbounded strings", "anchors": ["mercurio-core/src/protocol.rs: from_name_and_level", "mercurio-packets/src/connect.rs: decode"]}
{"id": "C14", "title": "MQTT 3.1.1 packets are understood", "statement": "A PUBLISH, SUBSCRIBE or UNSUBSCRIBE laid out as MQTT 3.1.1 prescribes (no property length) is parsed as the packet the 3.1.1 client sent.", "quantifier": "all MQTT 3.1.1 packets", "why_tests_cant": "version-specific layouts are not covered by any test", "anchors": ["mercurio-packets/src/lib.rs: parse_with_version", "mercurio-packets/src/publish.rs", "mercurio-packets/src/subscribe.rs"]}
{"id": "C15", "title": "Server framing is independent of chunking", "statement": "However the bytes of a sequence of packets are split into reads, the broker's connection yields exactly that sequence of packets, each once and in order.", "quantifier": "all packet sequences and all ways of splitting their bytes into chunks", "why_tests_cant": "the number of splits is exponential; TCP chooses them", "anchors": ["mercurio-server/src/connection.rs: read_packet, parse_packet", "mercurio-packets/src/lib.rs: check"]}
{"id": "C16", "title": "The connection survives a PINGREQ", "statement": "After a client sends PINGREQ and then any other packet, the broker answers the ping and then processes the other packet.", "quantifier": "all packets sent after a ping", "why_tests_cant": "depends on leftover bytes in the buffer, which single-packet tests never look at", "anchors": ["mercurio-packets/src/pingreq.rs: decode", "mercurio-server/src/connection.rs"]}
{"id": "C17", "title": "Client framing is independent of chunking", "statement": "However the bytes the broker sends are split into reads, the client library yields exactly the sequence of packets sent.", "quantifier": "all packet sequences and all ways of splitting their bytes", "why_tests_cant": "exponentially many splits", "anchors": ["mercurio-client/src/connection.rs: read_packet, calculate_packet_size"]}
{"id": "C18", "title": "Completeness check is exact", "statement": "On a buffer holding a canonical fixed header, the completeness check succeeds if and only if the whole frame has arrived, and it keeps succeeding when more bytes arrive.", "quantifier": "all buffers", "why_tests_cant": "needs every prefix of every frame", "anchors": ["mercurio-packets/src/lib.rs: ControlPacket::check"]}
{"id": "C19", "title": "Publish topic validation", "statement": "A topic is accepted for publishing if and only if it is non-empty, at most 65535 bytes, and contains no NUL, '+' or '#'.", "quantifier": "all strings", "why_tests_cant": "unbounded strings", "anchors": ["mercurio-core/src/topic.rs: validate_publish_topic"]}
{"id": "C20", "title": "Subscription filter validation", "statement": "A filter is accepted if and only if it is non-empty, at most 65535 bytes, has no NUL, every '+' is a whole level, and every '#' is a whole level and the last one.", "quantifier": "all strings", "why_tests_cant": "unbounded strings", "anchors": ["mercurio-core/src/topic.rs: validate_subscribe_filter"]}
{"id": "C21", "title": "Routing delivers to exactly the matching subscriptions", "statement": "After any sequence of subscriptions, a message published on a valid topic name is handed exactly once to every subscribed filter that matches the topic under the level-matching rules of MQTT 4.7.1 (the rule for topics starting with '$' is C22) and to no other filter, and existing messages on the filters are kept in order.", "quantifier": "all subscription/publish histories, all filters and topics of any depth", "why_tests_cant": "matching combines wildcards at every depth with every other subscription in the tree", "anchors": ["mercurio-server/src/topic_tree.rs: TopicTree::subscribe, publish"]}
{"id": "C22", "title": "Wildcards do not match $-topics", "statement": "A filter starting with a wildcard does not match a topic starting with '$' (MQTT-4.7.2-1), neither for live nor for retained messages.", "quantifier": "all topics and filters", "why_tests_cant": "a rule about all topics of a class", "anchors": ["mercurio-server/src/topic_tree.rs: publish", "mercurio-storage/src/memory.rs: topic_matches_filter"]}
{"id": "C23", "title": "Retained and live delivery use the same matching", "statement": "For every valid filter and topic, the retained-message lookup returns the topic's message if and only if a live message on that topic would be routed to that filter.", "quantifier": "all filters and topics", "why_tests_cant": "two independent matching algorithms must agree everywhere", "anchors": ["mercurio-storage/src/memory.rs: topic_matches_filter", "mercurio-storage/src/sqlite.rs: topic_matches_filter", "mercurio-server/src/topic_tree.rs: publish"]}
{"id": "C24", "title": "Retained store holds the last retained publish per topic", "statement": "After any history of publishes, a new subscriber is given, for each topic matching its filter, the most recent retained non-empty payload published on that topic, unless a later retained publish with an empty payload cleared it; messages without the retain flag never change it.", "quantifier": "all publish histories, all filters", "why_tests_cant": "state depends on the whole history", "anchors": ["mercurio-server/src/broker.rs: publish, subscribe", "mercurio-storage/src/memory.rs: store_retained, get_retained"]}
{"id": "C25", "title": "A subscriber racing with a retained publish does not miss it", "statement": "For every interleaving of one client's subscribe with other clients' retained publishes on a matching topic, the subscriber receives, as a retained or live message, the publish (or a newer retained value for the same topic).", "quantifier": "all interleavings of the store/route steps of any number of publishes with the register/lookup steps of a subscribe", "why_tests_cant": "a race: tests exercise one schedule", "anchors": ["mercurio-server/src/broker.rs: publish, subscribe"]}
{"id": "C26", "title": "Retained value agrees with the last live message", "statement": "After concurrent retained publishes on one topic have finished, the stored retained message is the last one subscribers saw live.", "quantifier": "all interleavings of two or more publishes", "why_tests_cant": "a race: tests exercise one schedule", "anchors": ["mercurio-server/src/broker.rs: publish"]}
{"id": "C27", "title": "Subscribers receive every matching message in order", "statement": "A subscriber receives the messages routed to its filter in publish order, without duplicates, and none is lost.", "quantifier": "all interleavings of sends and receives on a subscription", "why_tests_cant": "loss depends on the relative speed of publisher and subscriber (channel of 16)", "anchors": ["mercurio-server/src/topic_tree.rs: TopicNode::new", "mercurio-server/src/session.rs: handle_subscribe (Lagged arm)"]}
{"id": "C28", "title": "Delivered PUBLISH carries the publisher's topic", "statement": "A PUBLISH sent to a subscriber names the topic the message was published on and carries the same payload.", "quantifier": "all subscriptions and publishes", "why_tests_cant": "wildcard subscriptions to all topics", "anchors": ["mercurio-server/src/session.rs: process_outgoing"]}
{"id": "C29", "title": "Delivery QoS never exceeds the granted QoS", "statement": "A message is never delivered to a subscriber with a QoS above the QoS granted in the SUBACK for the matching filter.", "quantifier": "all subscription and publish histories", "why_tests_cant": "relates the SUBACK of the past to every later delivery", "anchors": ["mercurio-server/src/session.rs: handle_subscribe, process_outgoing"]}
{"id": "C30", "title": "Outgoing packet identifiers identify", "statement": "Messages awaiting acknowledgement by one client carry different, non-zero packet identifiers, and every QoS>0 PUBLISH sent has an identifier.", "quantifier": "all publish histories from any number of publishers", "why_tests_cant": "collisions need two publishers that happen to use the same identifier", "anchors": ["mercurio-server/src/session.rs: process_outgoing", "mercurio-server/src/server.rs: publish_will"]}
{"id": "C31", "title": "SUBACK mirrors SUBSCRIBE", "statement": "Every SUBSCRIBE is answered by exactly one SUBACK with the same packet identifier and one reason code per requested filter, in order; the code is a failure exactly for invalid filters; valid filters are subscribed afterwards and nothing else changes.", "quantifier": "all SUBSCRIBE packets and session states", "why_tests_cant": "lists of any length with valid, invalid and repeated filters", "anchors": ["mercurio-server/src/session.rs: handle_subscribe"]}
{"id": "C32", "title": "UNSUBACK mirrors UNSUBSCRIBE and stops delivery", "statement": "Every UNSUBSCRIBE is answered by one UNSUBACK with the same identifier and one code per filter: Success if the session was subscribed at that point, NoSubscriptionExisted otherwise; afterwards none of the filters is subscribed, all others are, and no message is delivered for a removed filter.", "quantifier": "all UNSUBSCRIBE packets, session states and later histories", "why_tests_cant": "relates the packet to all later deliveries", "anchors": ["mercurio-server/src/session.rs: handle_unsubscribe"]}
{"id": "C33", "title": "Publish acknowledgements match the publish", "statement": "A QoS 1 publish on a valid topic is answered by exactly one PUBACK and a QoS 2 one by exactly one PUBREC, with the same identifier; QoS 0 is not answered; PUBREL is answered by PUBCOMP and PUBREC by PUBREL with the same identifier.", "quantifier": "all PUBLISH/PUBREL/PUBREC packets and session states", "why_tests_cant": "all identifiers and states", "anchors": ["mercurio-server/src/session.rs: handle_publish, handle_pubrel, handle_pubrec"]}
{"id": "C34", "title": "A publish on an invalid topic has no effect", "statement": "A PUBLISH whose topic is not a valid topic name ends in an error and is neither routed to any subscriber nor stored as a retained message.", "quantifier": "all invalid topics, all broker states", "why_tests_cant": "unbounded strings and states", "anchors": ["mercurio-server/src/session.rs: handle_publish"]}
{"id": "C35", "title": "QoS 2 messages are delivered exactly once", "statement": "Within one QoS 2 exchange, re-sending the PUBLISH with the same packet identifier before PUBREL does not deliver the message to subscribers a second time.", "quantifier": "all retransmission schedules", "why_tests_cant": "duplicates appear only under retransmission", "anchors": ["mercurio-server/src/session.rs: handle_publish, handle_pubrel"]}
{"id": "C36", "title": "Completing the QoS 2 handshake releases state", "statement": "After PUBREL/PUBCOMP for an identifier, the session keeps no stored message for that identifier, so stored state is bounded by the number of open exchanges.", "quantifier": "all packet histories", "why_tests_cant": "leak shows only over long histories", "anchors": ["mercurio-server/src/session.rs: handle_publish, handle_pubrel"]}
{"id": "C37", "title": "A session answers every packet type as specified", "statement": "Once connected: PINGREQ is answered by PINGRESP; a second CONNECT and server-only packets are protocol errors that end the connection; PUBACK and PUBCOMP are not answered.", "quantifier": "all packets and session states", "why_tests_cant": "all packet kinds times all states", "anchors": ["mercurio-server/src/session.rs: process_incoming"]}
{"id": "C38", "title": "No session without valid credentials", "statement": "When authentication is required, a connection whose credentials the validator does not accept (or that has none, or when no validator is configured) gets a CONNACK with BadUserNameOrPassword and has no effect on any session, subscription, retained message or will; an accepted one is served.", "quantifier": "all CONNECT packets, validators and broker states", "why_tests_cant": "security property over all states and histories", "anchors": ["mercurio-server/src/server.rs: Handler::run"]}
{"id": "C39", "title": "Only a CONNECT opens a session", "statement": "Until a CONNECT has been read on a connection, no packet it sends has any effect on the broker.", "quantifier": "all first packets and broker states", "why_tests_cant": "all packet kinds and states", "anchors": ["mercurio-server/src/server.rs: Listener::handle_connection"]}
{"id": "C40", "title": "Different clients never share a session", "statement": "Two connections share subscriptions, unacknowledged messages or wills only if both presented the same non-empty client identifier; a client without an identifier always gets a session of its own.", "quantifier": "all histories of connections", "why_tests_cant": "needs at least two clients and a particular order", "anchors": ["mercurio-server/src/session_manager.rs: start_session", "mercurio-server/src/session.rs: begin"]}
{"id": "C41", "title": "Session-present is truthful", "statement": "The CONNACK session-present flag is set if and only if the client asked to resume and the broker holds a session for its identifier, i.e. an earlier accepted CONNECT used that identifier.", "quantifier": "all histories of connections", "why_tests_cant": "depends on the whole history", "anchors": ["mercurio-server/src/session_manager.rs: start_session"]}
{"id": "C42", "title": "Clean start discards the old session", "statement": "After a CONNECT with clean start, nothing of a previous session of that client is ever used again: no subscription, no will, no unacknowledged message.", "quantifier": "all histories including broker restart on a durable store", "why_tests_cant": "stale data appears only after later reconnects", "anchors": ["mercurio-server/src/session_manager.rs: start_session"]}
{"id": "C43", "title": "Resuming keeps the subscriptions", "statement": "A client that reconnects without clean start, or after a broker restart on a durable store, is subscribed to exactly the filters it was subscribed to before.", "quantifier": "all histories including restarts at any point", "why_tests_cant": "needs reconnect and crash schedules", "anchors": ["mercurio-server/src/session_manager.rs: start_session, save_subscriptions", "mercurio-server/src/session.rs: restore_subscriptions"]}
{"id": "C44", "title": "Unacknowledged messages are redelivered on reconnect", "statement": "A QoS 1/2 message sent to a client and not acknowledged is sent again, with DUP set, when the client resumes its session, until it is acknowledged; acknowledged ones are not.", "quantifier": "all histories of deliveries, acknowledgements and reconnects", "why_tests_cant": "depends on the whole history", "anchors": ["mercurio-server/src/server.rs: Handler::run", "mercurio-server/src/session_manager.rs"]}
{"id": "C45", "title": "Will is published exactly on abnormal disconnect", "statement": "When a connection ends without DISCONNECT, the will its CONNECT registered is published exactly once; after a DISCONNECT it is never published.", "quantifier": "all histories", "why_tests_cant": "depends on how every connection ended", "anchors": ["mercurio-server/src/server.rs: Handler::run, handle_connection, publish_will", "mercurio-server/src/session.rs: clear_will, take_will"]}
{"id": "C46", "title": "A will is not published for a live connection", "statement": "A will registered by a connection is not published while that connection is alive, whatever happens to other connections of the same client.", "quantifier": "all histories with several connections of one client", "why_tests_cant": "needs overlapping connections", "anchors": ["mercurio-server/src/session.rs: set_connect_packet, take_will"]}
{"id": "C47", "title": "One connection per client", "statement": "When a client identifier connects again, the older connection is closed, so at most one connection is served per client identifier.", "quantifier": "all histories", "why_tests_cant": "needs overlapping connections", "anchors": ["mercurio-server/src/session_manager.rs: start_session"]}
{"id": "C48", "title": "An acknowledged subscription is durable", "statement": "If the client has received the SUBACK, the subscription is in the session store, whatever the crash point.", "quantifier": "all crash points of the subscribe handling", "why_tests_cant": "crash points between storage and network writes", "anchors": ["mercurio-server/src/server.rs: handle_connection", "mercurio-server/src/session_manager.rs: save_subscriptions"]}
{"id": "C49", "title": "Connecting cannot block the broker", "statement": "A CONNECT is eventually answered whatever the other clients do; in particular one idle client cannot prevent other clients from connecting.", "quantifier": "all schedules", "why_tests_cant": "a deadlock: appears in one schedule", "anchors": ["mercurio-server/src/session_manager.rs: start_session", "mercurio-server/src/session.rs: process_outgoing"]}
{"id": "C50", "title": "Keep-alive", "statement": "A client that sends a packet at least every keep-alive interval is never disconnected by the keep-alive timer; a silent client is disconnected after at most one and a half intervals; an interval of 0 disables the timer without other effect.", "quantifier": "all packet arrival times and all keep-alive values", "why_tests_cant": "all timings", "anchors": ["mercurio-server/src/server.rs: handle_connection"]}
{"id": "C51", "title": "Memory store behaves like four maps", "statement": "For any sequence of operations, each read of the in-memory store returns what the last write (or delete/clear) for that key left, and operations on one key, client or kind of data never affect another.", "quantifier": "all operation sequences", "why_tests_cant": "whole histories", "anchors": ["mercurio-storage/src/memory.rs"]}
{"id": "C52", "title": "SQLite store behaves like the memory store", "statement": "For any sequence of storage operations, the SQLite store returns the same results as the in-memory store.", "quantifier": "all operation sequences and values", "why_tests_cant": "values with separator characters, whole histories", "anchors": ["mercurio-storage/src/sqlite.rs", "mercurio-storage/src/memory.rs"]}
{"id": "C53", "title": "PLAIN authentication", "statement": "PLAIN authentication succeeds if and only if the data is NUL user NUL password, with user and password valid UTF-8, and the password is the one registered for that user.", "quantifier": "all byte strings and credential maps", "why_tests_cant": "unbounded data", "anchors": ["mercurio-server/src/auth.rs: PlainAuth"]}
{"id": "C54", "title": "Enhanced authentication exchange", "statement": "An AUTH exchange reports success only if the configured method accepted the client's data; CONTINUE is accepted only while an exchange started on this connection is in progress; a failed exchange leaves none in progress.", "quantifier": "all AUTH packet sequences and method behaviours", "why_tests_cant": "sequences of packets across reconnects", "anchors": ["mercurio-server/src/session.rs: handle_auth", "mercurio-server/src/auth.rs: AuthManager"]}
{"id": "C55", "title": "Credential validators", "statement": "The validators accept a user/password pair exactly when the user is known and the password matches the stored entry (equal, or verified by the hash function for entries starting with '$').", "quantifier": "all credential maps, users and passwords", "why_tests_cant": "unbounded data", "anchors": ["mercurio-server/src/auth.rs: SimpleCredentialValidator", "mercuriod/src/credentials.rs: HashedCredentialValidator"]}
{"id": "C56", "title": "Password file operations", "statement": "Adding, updating or deleting a user with the passwd command changes exactly that user's entry: afterwards the loaded file maps that user to the new hash (or to nothing) and every other user as before.", "quantifier": "all file contents, user names and hashes", "why_tests_cant": "user names or lines with separator/comment characters", "anchors": ["mercuriod/src/main.rs: load_password_file, write_password_file, add_or_update_user, delete_user"]}
{"id": "C57", "title": "Client packet identifiers", "statement": "The client library never uses packet identifier 0 and never uses the same identifier for two requests among the last 65535.", "quantifier": "all sequences of requests of any length", "why_tests_cant": "needs 65536 requests", "anchors": ["mercurio-client/src/client.rs: event_loop, handle_publish"]}
{"id": "C58", "title": "Client CONNECT reflects the options", "statement": "The CONNECT sent by the client library, once parsed by the broker, has exactly the identifier, credentials, keep-alive, clean-start flag and will given in the options.", "quantifier": "all connect options that fit the wire format", "why_tests_cant": "unbounded option values and combinations", "anchors": ["mercurio-client/src/client.rs: build_connect_packet", "mercurio-packets/src/connect.rs", "mercurio-server/src/session.rs: WillMessage::from_connect_packet"]}
{"id": "C59", "title": "Client acknowledges what it receives", "statement": "Every QoS 1 or QoS 2 PUBLISH received by the client library is acknowledged with its identifier and reported once to the application.", "quantifier": "all received packets", "why_tests_cant": "all packets and identifiers", "anchors": ["mercurio-client/src/client.rs: handle_incoming_packet"]}
{"id": "C60", "title": "Client subscribe result is truthful", "statement": "subscribe() reports success for a filter only if the broker granted it.", "quantifier": "all broker answers", "why_tests_cant": "needs all possible broker answers", "anchors": ["mercurio-client/src/client.rs: handle_subscribe"]}
{"id": "C61", "title": "allow_anonymous is honoured", "statement": "With authentication enabled and allow_anonymous set, a client without credentials is accepted; with allow_anonymous unset it is refused.", "quantifier": "all configurations and CONNECT packets", "why_tests_cant": "configuration combinations", "anchors": ["mercuriod/src/main.rs", "mercuriod/src/config.rs", "mercurio-server/src/server.rs: Handler::run"]}
{"id": "C62", "title": "The server never panics on what it reads", "statement": "Whatever packets clients send in whatever order, handling a packet, delivering a message, opening and ending connections never panics: a connection ends only by an orderly close.", "quantifier": "all histories of events of any number of connections whose packets were accepted by the parser", "why_tests_cant": "an unreachable!() is reached only by particular messages meeting particular subscriptions; a test covers one history", "anchors": ["mercurio-server/src/session.rs: process_outgoing", "mercurio-server/src/session.rs: process_incoming", "mercurio-server/src/server.rs: Server::handle_connection"]}
{"id": "C63", "title": "Per-subscription delivery order", "statement": "What a connection is sent for a filter is first the retained messages of the subscription, then the matching messages in the order they were routed, none twice, and none missing as long as at most 16 wait; a waiting message is sent when the connection gets its turn.", "quantifier": "all histories of all other clients, any interleaving of publishes, polls and disconnects", "why_tests_cant": "depends on interleavings of publishers and subscriber and on the channel capacity", "anchors": ["mercurio-server/src/session.rs: handle_subscribe", "mercurio-server/src/session.rs: process_outgoing", "mercurio-server/src/broker.rs: Broker::subscribe"]}
{"id": "C64", "title": "Clients do not disturb each other's sessions", "statement": "The session of a served client - subscriptions and their position, messages in flight, will, client data - and what is stored under its identifier are changed only by its own connection or by a client presenting the same identifier.", "quantifier": "all histories, all events of other connections", "why_tests_cant": "every kind of event of every other client must be checked in every reachable state", "anchors": ["mercurio-server/src/server.rs: Handler::run, handle_connection", "mercurio-server/src/session_manager.rs: start_session", "mercurio-server/src/session.rs: Session"]}
{"id": "C65", "title": "Messages are published on valid topics only", "statement": "Every message routed to subscribers, whether from a PUBLISH or a will, has a valid topic name without wildcards.", "quantifier": "all histories, all CONNECT packets with a will", "why_tests_cant": "depends on every path by which a message can reach the broker", "anchors": ["mercurio-server/src/server.rs: publish_will", "mercurio-server/src/session.rs: handle_publish", "mercurio-core/src/topic.rs: validate_publish_topic", "mercurio-server/src/broker.rs: Broker::publish"]}
{"id": "C66", "title": "Client requests reach the wire as given", "statement": "What publish(), subscribe() and unsubscribe() send is parsed by the broker as exactly the topic, payload, QoS, retain flag or filters given, with the identifier returned.", "quantifier": "all argument values, all client states", "why_tests_cant": "unbounded strings and payloads, and every state of the identifier counter", "anchors": ["mercurio-client/src/client.rs: handle_publish, handle_subscribe, handle_unsubscribe", "mercurio-packets/src/publish.rs", "mercurio-packets/src/subscribe.rs", "mercurio-packets/src/unsubscribe.rs"]}
{"id": "C67", "title": "The end of a connection is reported once", "statement": "Whatever ends the connection, the application receives exactly one Disconnected event, after every message; recv() returns each event once and in order, and None only after the last one.", "quantifier": "all sequences of packets, failures and calls", "why_tests_cant": "every interleaving of network input, calls and receives", "anchors": ["mercurio-client/src/client.rs: event_loop, handle_incoming_packet, MqttClient::recv"]}
{"id": "C68", "title": "Every call is answered", "statement": "Every publish(), subscribe(), unsubscribe() or disconnect() that is served is answered exactly once, and reports success exactly when its packet was written.", "quantifier": "all sequences of calls, packets and write failures", "why_tests_cant": "every interleaving of calls and failures", "anchors": ["mercurio-client/src/client.rs: event_loop, handle_publish, handle_subscribe, handle_unsubscribe, handle_disconnect"]}
{"id": "C69", "title": "Calls do not depend on recv()", "statement": "publish(), subscribe(), unsubscribe(), disconnect() and keep-alive pings proceed however many received events the application has not yet taken with recv().", "quantifier": "all histories", "why_tests_cant": "needs more unread events than the channel holds, and every later schedule", "anchors": ["mercurio-client/src/client.rs: event_loop, handle_incoming_packet, MqttClient::connect"]}
{"id": "C70", "title": "Dropping the client ends the connection", "statement": "When the client object is dropped, its connection ends.", "quantifier": "all client states", "why_tests_cant": "absence of an end can be shown only for every continuation", "anchors": ["mercurio-client/src/client.rs: event_loop, MqttClient"]}
{"id": "C71", "title": "connect() tells the truth", "statement": "connect() succeeds exactly when the broker accepts the client and then serves its connection; otherwise it returns the broker's reason. The identifier it returns is the one the broker uses.", "quantifier": "all options that fit the wire format, all broker configurations and histories", "why_tests_cant": "needs every combination of options, credentials and broker state, over the wire in both directions", "anchors": ["mercurio-client/src/client.rs: MqttClient::connect, perform_connect, build_connect_packet", "mercurio-server/src/server.rs: Handler::run", "mercurio-server/src/session.rs: Session::begin"]}
{"id": "C72", "title": "From publish() to recv()", "statement": "A message given to publish() on one client is returned once, in order and with its topic, by recv() on another client subscribed to a matching filter, whatever all other clients do.", "quantifier": "all histories of the two clients, the broker and all other clients", "why_tests_cant": "needs every interleaving of three programs and the network between them", "anchors": ["mercurio-client/src/client.rs: MqttClient::publish, MqttClient::recv, event_loop", "mercurio-server/src/session.rs: handle_publish, process_outgoing", "mercurio-server/src/broker.rs: Broker::publish, Broker::subscribe", "mercurio-packets/src/publish.rs"]}
{"id": "C73", "title": "An interrupted passwd command loses nothing", "statement": "If the passwd command is stopped, or a write fails, at any point, the password file afterwards holds either the old entries or the new ones; in particular no account can be entered with a password that neither accepts.", "quantifier": "all files, users, hashes, map orders and crash points of the write", "why_tests_cant": "a crash point between two writes", "anchors": ["mercuriod/src/main.rs: write_password_file, add_or_update_user"]}
{"id": "C74", "title": "Password file format", "statement": "A password file loads if and only if every line is blank, a comment or user:hash; the loaded map gives each user the hash of the last line about that user, with the first ':' as separator and surrounding Unicode white space removed.", "quantifier": "all texts and user names", "why_tests_cant": "all texts: separators, white space, duplicate and comment lines in any combination", "anchors": ["mercuriod/src/main.rs: load_password_file"]}
{"id": "C75", "title": "The broker accepts exactly the users of its password file", "statement": "With authentication enabled and a password file, a CONNECT is accepted exactly if its user name is in the file and its password is accepted by that user's hash (or equals the entry if it is no hash); a file that does not load stops the daemon; after the passwd command and a restart the changed user logs in exactly with passwords that the new hash accepts and every other CONNECT is treated as before.", "quantifier": "all files, configurations, CONNECT packets and hash functions", "why_tests_cant": "all files and all CONNECT packets", "anchors": ["mercuriod/src/main.rs: main, load_password_file, add_or_update_user", "mercuriod/src/credentials.rs: HashedCredentialValidator", "mercurio-server/src/server.rs: Handler::run"]}
{"id": "C76", "title": "max_connections is honoured", "statement": "The broker never serves more connections at once than the configured max_connections.", "quantifier": "all configurations and histories", "why_tests_cant": "all histories with that many connections", "anchors": ["mercuriod/src/config.rs: ServerConfig", "mercuriod/src/main.rs: main", "mercurio-server/src/server.rs: Listener::run"]}
{"id": "C77", "title": "An acknowledged retained message survives a crash", "statement": "If a publisher has received the acknowledgement of a PUBLISH with the retain flag, the retained message of that topic in the session store is the published one (or none if the payload was empty), whatever the crash point and whatever storage calls failed.", "quantifier": "all worlds, packets, crash points and patterns of failing storage calls", "why_tests_cant": "crash points between storage and network writes, and storage failures", "anchors": ["mercurio-server/src/server.rs: handle_connection", "mercurio-server/src/broker.rs: publish"]}
{"id": "C78", "title": "A message sent with QoS 1 or 2 is sent again after a crash", "statement": "If the broker has sent a QoS 1 or 2 PUBLISH to a client with a stored session and crashes at any point, the client that comes back without clean start is sent it again with the DUP flag; and a message acknowledged to its publisher is not lost by a crash.", "quantifier": "all worlds, subscribers and crash points", "why_tests_cant": "crash points between storage and network writes", "anchors": ["mercurio-server/src/server.rs: handle_connection", "mercurio-server/src/session_manager.rs: store_inflight"]}
{"id": "C79", "title": "mercurio pub sends exactly the message asked for", "statement": "If `mercurio pub` exits with status 0, it has sent one PUBLISH with the topic, payload (the -m argument, or else the standard input), QoS and retain flag given, then a DISCONNECT, and no other request; and the broker has taken the message. With an invalid QoS or unreadable input it sends nothing. The CONNECT it sends carries the client id, user name, password and keep-alive given. A failure status means the message was not sent.", "quantifier": "all arguments, standard inputs, network behaviours and interleavings of the client's event loop with the program", "why_tests_cant": "The schedule of the event loop, the moment a write fails and the packets the broker sends meanwhile are unbounded; a test sees one.", "anchors": ["mercurio/src/main.rs: run_publish, parse_qos", "mercurio/src/common.rs: ConnectionArgs::to_connect_options", "mercurio-client/src/client.rs: connect, event_loop, handle_publish, handle_disconnect"]}
{"id": "C80", "title": "mercurio sub prints every message received", "statement": "`mercurio sub` subscribes to the topics given at the QoS given and prints, in order of arrival, one line per message received: its payload, after its topic with -T; when the connection ends it has printed all of them. The printed text determines the messages. A refused subscription or a lost connection is reported by the exit status. The CONNECT carries the will asked for.", "quantifier": "all arguments, sequences of packets received, payloads and interleavings, with Ctrl-C at any moment", "why_tests_cant": "Any number of messages with any payload may arrive before, between and after the calls of recv, and the connection may end at any point.", "anchors": ["mercurio/src/main.rs: run_subscribe", "mercurio-client/src/client.rs: event_loop, recv, handle_incoming_packet"]}
{"id": "C81", "title": "Transport and protocol version follow the arguments", "statement": "The command line client sends nothing, in particular no password, over a connection that is not TLS with an authenticated server when the user asked for TLS verification (--tls or --cafile, without --insecure); a custom CA file replaces the built-in roots. The MQTT version used is the one named; an unknown name is refused.", "quantifier": "all combinations of the arguments", "why_tests_cant": "The combinations of flags and the strings accepted as version are not enumerable by tests, and a wrong choice shows only on the wire.", "anchors": ["mercurio/src/common.rs: to_connect_options, parse_protocol_version", "mercurio-client/src/client.rs: MqttClient::connect", "mercurio-client/src/tls.rs: build_tls_connector"]}
{"id": "C82", "title": "The listener survives errors of accept", "statement": "The broker keeps accepting connections: an error of accept is retried after a pause that grows from 1 to 64 seconds and starts again at 1 after a success; every connection offered is taken; it gives up only after eight errors in a row. Errors of accept do not affect the clients that are connected.", "quantifier": "all sequences of results of accept, of any length", "why_tests_cant": "Errors such as too many open files come in any pattern and the pauses add up to minutes.", "anchors": ["mercurio-server/src/server.rs: Listener::accept, Listener::run, run_with_tls"]}
{"id": "C83", "title": "Interrupted reads lose nothing", "statement": "Sending messages, commands of the application, timers and pings interrupt the reading of a packet at any byte; no byte received is lost, duplicated or reordered: both the server and the client read exactly the packets they would read without interruption.", "quantifier": "all byte streams, ways to split them into reads, and numbers and places of interruptions", "why_tests_cant": "The interleaving of arriving bytes with other branches of the select is up to the scheduler and the network.", "anchors": ["mercurio-server/src/server.rs: Handler::handle_connection", "mercurio-server/src/connection.rs: read_packet, parse_packet", "mercurio-client/src/client.rs: event_loop", "mercurio-client/src/connection.rs: read_packet"]}
{"id": "C84", "title": "Orderly shutdown", "statement": "When the broker is told to shut down, every connection is closed and the will of every connected client is published once to every matching subscription, in whatever order the connections notice it; the process does not exit before.", "quantifier": "all reachable states of the broker, all wills and subscriptions, all orders in which connections notice the shutdown", "why_tests_cant": "Connections notice the signal in an order chosen by the scheduler, in any state.", "anchors": ["mercurio-server/src/server.rs: run_with_tls, Handler::run, Handler::handle_connection, publish_will", "mercurio-server/src/shutdown.rs: Shutdown", "mercuriod/src/main.rs: main"]}
{"id": "C85", "title": "State survives a restart of the daemon", "statement": "Sessions of clients that did not ask for a clean start, their subscriptions, retained messages and messages in flight survive a restart of mercuriod.", "quantifier": "all histories before the restart and all behaviours of clients after it", "why_tests_cant": "What was acknowledged before the restart must be there after any history.", "anchors": ["mercurio-server/src/server.rs: run_with_tls", "mercuriod/src/main.rs: main"]}
{"id": "C86", "title": "TLS as configured", "statement": "With TLS enabled mercuriod serves no client in the clear, uses the certificate and key configured, and demands a client certificate if and only if a CA is configured; if that is not possible it does not serve, and says so by its exit status. Without TLS it serves in the clear.", "quantifier": "all TLS sections of the configuration and all outcomes of loading the files", "why_tests_cant": "Every combination of missing and unreadable files matters, and falling back to plain TCP would show only on the wire.", "anchors": ["mercuriod/src/main.rs: main", "mercurio-server/src/server.rs: run_with_tls, Listener::run", "mercurio-server/src/tls.rs: build_acceptor"]}
{"id": "C87", "title": "Answered in order under concurrency", "statement": "However the broker's tasks are interleaved with each other, inside and between handlers, every packet of a client is answered by what the protocol calls for and by nothing else, in the order in which the client sent them; a connection is answered as if it were alone with the broker.", "quantifier": "all interleavings of the handlers of any number of connections at every lock, storage and broker operation; all histories of packets; whatever the store holds when the broker starts", "why_tests_cant": "The answers of a handler must not depend on what other tasks do between two of its operations; tests see a few schedules.", "anchors": ["mercurio-server/src/server.rs: Handler::run, Handler::handle_connection", "mercurio-server/src/session.rs: Session::process_incoming, Session::process_outgoing", "mercurio-server/src/session_manager.rs: SessionManager::start_session"]}
{"id": "C88", "title": "Published once under concurrency", "statement": "Whatever other clients do while a PUBLISH is handled, its message is passed on exactly once for every matching filter whose subscription was acknowledged before, and not at all for filters that do not match; this has happened when the acknowledgement is sent. Messages of one publisher keep their order for every subscription.", "quantifier": "all interleavings of the handlers of any number of connections, all topics, filters and histories; whatever the store holds when the broker starts", "why_tests_cant": "Publishing walks the topic tree while others subscribe, unsubscribe, publish and disconnect.", "anchors": ["mercurio-server/src/broker.rs: Broker::publish, Broker::subscribe", "mercurio-server/src/topic_tree.rs: TopicTree::publish, TopicTree::subscribe", "mercurio-server/src/session.rs: Session::handle_publish"]}
{"id": "C89", "title": "Delivered from the SUBACK on", "statement": "However handlers are interleaved, a connection whose client identifier nobody else uses and that was granted a subscription is sent the messages passed on for that filter since, in order and without repetition; if it keeps up (never more than 16 waiting) it is sent all of them, after the retained messages found when subscribing; and whenever one is waiting and the connection is idle, its next poll sends it.", "quantifier": "all interleavings of the handlers of any number of connections, all numbers of subscriptions and messages; whatever the store holds when the broker starts", "why_tests_cant": "Which message is next depends on how publishes, polls and other subscriptions interleave; tests see a few schedules only.", "anchors": ["mercurio-server/src/session.rs: Session::handle_subscribe, Session::process_outgoing", "mercurio-server/src/topic_tree.rs: TopicTree::subscribe, TopicTree::publish", "mercurio-server/src/broker.rs: Broker::subscribe, Broker::publish"]}
{"id": "C90", "title": "Sessions are isolated under concurrency", "statement": "However handlers are interleaved, the session created for a client identifier is read and changed only by connections whose CONNECT presented this identifier.", "quantifier": "all interleavings of the handlers of any number of connections, all identifiers and histories; whatever the store holds when the broker starts", "why_tests_cant": "A race in looking up, creating and replacing sessions would hand a session to the wrong client in rare schedules only.", "anchors": ["mercurio-server/src/session_manager.rs: SessionManager::start_session", "mercurio-server/src/server.rs: Handler::run, Handler::handle_connection"]}
{"id": "C91", "title": "Handlers always finish", "statement": "However handlers are interleaved, they never wait for each other in a circle: as long as a handler is at work some handler can go on, and all of them finish after finitely many steps.", "quantifier": "all interleavings of the handlers of any number of connections at every lock acquisition and release; whatever the store holds when the broker starts", "why_tests_cant": "Deadlocks depend on the order in which locks are taken in particular schedules.", "anchors": ["mercurio-server/src/server.rs: Handler::handle_connection, Handler::publish_will", "mercurio-server/src/session_manager.rs: SessionManager::start_session", "mercurio-server/src/session.rs: Session::process_incoming", "mercurio-server/src/topic_tree.rs: TopicTree::publish, TopicTree::subscribe"]}
{"id": "C92", "title": "Wills and concurrent handlers", "statement": "However handlers are interleaved, the will of a connection that ends without DISCONNECT is published once to every matching subscription granted before, a connection that disconnects normally publishes no will, and no will is published while the connection that declared it lives.", "quantifier": "all interleavings of the handlers of any number of connections, all wills, topics, filters and ways to end; whatever the store holds when the broker starts", "why_tests_cant": "Which will is in the session when a connection ends depends on what other connections do between two steps of its handler; tests cannot force these interleavings.", "anchors": ["mercurio-server/src/server.rs: Handler::run, Handler::handle_connection, Handler::publish_will", "mercurio-server/src/session.rs: Session::clear_will, Session::take_will, Session::set_connect_packet", "mercurio-server/src/session_manager.rs: SessionManager::start_session, delete_will", "mercurio-server/src/broker.rs: Broker::publish"]}
{"id": "C93", "title": "One order for all subscribers", "statement": "Two messages published to one topic reach all subscribers in the same order, whoever published them and however their handlers are interleaved; in particular one that was acknowledged before the other was sent comes first everywhere.", "quantifier": "all interleavings of the handlers of any number of connections, all pairs of publishers, topics and filters; whatever the store holds when the broker starts", "why_tests_cant": "The order depends on how two walks over the subscriptions interleave.", "anchors": ["mercurio-server/src/topic_tree.rs: TopicTree::publish", "mercurio-server/src/broker.rs: Broker::publish"]}
{"id": "C94", "title": "Sent packets are MQTT packets", "statement": "The bytes written for a packet are those the MQTT standard prescribes for it: first byte, remaining length, order and layout of the fields, identifiers and types of the properties, return codes of the protocol version in use.", "quantifier": "all packets of all fifteen types with all combinations of optional fields, flags, properties and lists, in all protocol versions", "why_tests_cant": "A round trip through the own parser cannot tell a wrong format from a right one, and tests against the standard cover single packets, not all combinations of fields and sizes.", "anchors": ["mercurio-packets/src/lib.rs: ControlPacket", "mercurio-packets/src/connect.rs: ConnectPacket", "mercurio-packets/src/publish.rs: PublishPacket", "mercurio-core/src/properties.rs: Property", "mercurio-core/src/reason.rs: ReasonCode"]}
{"id": "C95", "title": "MQTT packets are understood", "statement": "Every byte string that the MQTT standard describes as a packet is read as that packet, whatever follows it in the buffer, however its properties are ordered.", "quantifier": "all packets of the standard in all protocol versions, all orders of properties, all bytes that follow", "why_tests_cant": "Other implementations write packets that this one never writes (order of properties, omitted reasons); the set of such byte strings is unbounded.", "anchors": ["mercurio-packets/src/lib.rs: ControlPacket", "mercurio-packets/src/puback.rs: PubAckPacket", "mercurio-packets/src/auth.rs: AuthPacket", "mercurio-packets/src/connect.rs: ConnectProperties"]}
{"id": "C96", "title": "Malformed packets are refused", "statement": "A byte string that is not a packet of the MQTT standard, or that has a value the standard forbids, is refused and not taken for a packet.", "quantifier": "all byte strings and protocol versions", "why_tests_cant": "The strings that are not packets cannot be enumerated; a test shows only that some of them are refused.", "anchors": ["mercurio-packets/src/lib.rs: ControlPacket", "mercurio-core/src/codec.rs: VariableByteInteger", "mercurio-packets/src/publish.rs: PublishPacket"]}
{"id": "C97", "title": "The broker writes packets of the client's version", "statement": "Whatever bytes clients send, in whatever order, everything the broker writes to a client is a packet of the MQTT standard in the protocol version that the client announced in its CONNECT.", "quantifier": "all configurations, all histories of connections, received byte strings, deliveries, disconnections and restarts, all protocol versions", "why_tests_cant": "A test sees single exchanges; what is written depends on what other clients sent (topics, wills, payloads, identifiers) over the whole history.", "anchors": ["mercurio-server/src/session.rs: Session", "mercurio-server/src/server.rs: Server", "mercurio-packets/src/lib.rs: ControlPacket", "mercurio-server/src/session_manager.rs: SessionManager"]}
{"id": "C98", "title": "The client library writes packets of the version chosen", "statement": "Whatever an application asks of the client library, with arguments that fit into a packet, and whatever the server sends, everything the library writes (CONNECT, PUBLISH, SUBSCRIBE, UNSUBSCRIBE, PUBACK, PINGREQ, DISCONNECT) is a packet of the MQTT standard in the protocol version chosen in the options, and has no values that the standard forbids.", "quantifier": "all options, all histories of calls, received packets, ticks and failures of writing, all protocol versions", "why_tests_cant": "A test calls the library with a few arguments; the bytes depend on every argument and on the number of requests before.", "anchors": ["mercurio-client/src/client.rs: build_connect_packet", "mercurio-client/src/client.rs: handle_publish", "mercurio-client/src/client.rs: handle_incoming_packet", "mercurio-packets/src/lib.rs: ControlPacket"]}
{"id": "C99", "title": "The pings of the client library keep an idle connection", "statement": "A client of the client library with keep-alive interval k sends a PINGREQ before every k seconds have passed, so that the broker never ends the connection of an idle client that is running.", "quantifier": "all keep-alive intervals and all times", "why_tests_cant": "The interval is any 16-bit number and the connection lives for any time; a test waits a few seconds with one value.", "anchors": ["mercurio-client/src/client.rs: event_loop", "mercurio-server/src/server.rs: Handler", "mercurio-server/src/connection.rs: Connection"]}
{"id": "C100", "title": "The daemon runs as its configuration file says, or not at all", "statement": "mercuriod listens on the address, with the transport, the log level and the authentication that the configuration file and the command line ask for, with documented defaults for what they leave out; if the file asks for TLS or authentication no client is served without; and a configuration that cannot be honoured (missing or unreadable file, wrong types, unknown names, missing certificate, password file that does not load) stops the daemon with an error.", "quantifier": "all TOML documents, command lines and states of the file system", "why_tests_cant": "A configuration is any document; a test has a few, and the mistakes that matter are in the others.", "anchors": ["mercuriod/src/config.rs: Config", "mercuriod/src/config.rs: ServerConfig", "mercuriod/src/config.rs: AuthConfig", "mercuriod/src/main.rs: main", "mercuriod/contrib/config.toml", "mercuriod/contrib/mercuriod.service"]}
{"id": "C101", "title": "Messages in flight need bounded room", "statement": "However long the broker runs and whatever bytes clients send, a session holds at most one unacknowledged message and one PUBREC per packet identifier, the store at most 65536 messages per client, and one event makes the broker write at most 65537 packets.", "quantifier": "all histories of connections, packets, deliveries and restarts", "why_tests_cant": "The bound is about histories of any length.", "anchors": ["mercurio-server/src/session.rs: Session", "mercurio-storage/src/memory.rs: MemoryStore", "mercurio-server/src/server.rs: Handler"]}
{"id": "C102", "title": "What is delivered was sent and asked for, in every schedule", "statement": "Whatever the handlers of all connections do at the same time, every PUBLISH written to a client carries the payload, QoS and packet identifier of a message that an accepted client sent before (on an open connection or as its will) to a topic matching the one named in it, and that topic is a filter which the client subscribed to, itself or under the same client identifier.", "quantifier": "all traces of interleaved handler steps, of any length and number of connections", "why_tests_cant": "The steps of concurrently running handlers interleave in unboundedly many ways.", "anchors": ["mercurio-server/src/server.rs: Handler", "mercurio-server/src/broker.rs: Broker", "mercurio-server/src/session.rs: SessionDropGuard", "mercurio-storage/src/memory.rs: MemoryStore"]}
{"id": "C103", "title": "Packets are refused for their own faults and with the right reason", "statement": "Parsing refuses bytes only as incomplete or malformed, a CONNECT also for its protocol version and SUBSCRIBE, UNSUBSCRIBE, SUBACK and UNSUBACK also as a protocol error; wrong subscription options are a protocol error wherever they are in the packet; and whether a packet is refused does not depend on what follows it in the buffer.", "quantifier": "all byte strings, both build profiles, both protocol families", "why_tests_cant": "The claims are about all byte strings.", "anchors": ["mercurio-packets/src/lib.rs: parse_with_version", "mercurio-packets/src/subscribe.rs: SubscribePacket", "mercurio-packets/src/disconnect.rs: DisconnectPacket", "mercurio-packets/src/auth.rs: AuthPacket"]}
{"id": "C104", "title": "A panicking connection harms nobody else", "statement": "When the task of a connection panics (a frame that panics the decoder, a keep-alive of 0), its connection is no longer served and that is all: every other connection is served with the session it had, no message is routed, and sessions, subscriptions, retained messages, wills and unacknowledged messages stay as they were. The client can come back and is given its session. Its will is not published when the task dies.", "quantifier": "all configurations, all reachable broker states, all connections; all streams of packets ending in a frame that panics the decoder, however they arrive in pieces", "why_tests_cant": "the panic can occur in any state of the broker, with any other clients connected, and after any packets and split of the stream", "anchors": ["mercurio-server/src/server.rs: Handler::run", "mercurio-server/src/server.rs: Handler::handle_connection", "mercurio-server/src/connection.rs: Connection::parse_packet", "mercurio-server/src/connection.rs: Connection::read_packet"]}
{"id": "C105", "title": "What the broker handles is what the bytes say", "statement": "However the bytes of a connection arrive, and whenever its task reads, is interrupted while waiting for more bytes or serves subscriptions in between, the packets the broker handles on it are the ones its bytes spell out, each once and in order; if the bytes are those of packets, every packet is handled as long as the connection is served; reading never goes on forever; and no other connection's bytes have an influence.", "quantifier": "all configurations, all interleavings of arriving bytes, reads, deliveries, ends of connections and restarts, all bytes on all connections", "why_tests_cant": "the bytes of many connections arrive in any pieces and in any order relative to the reads, which select! may drop and repeat", "anchors": ["mercurio-server/src/connection.rs: Connection::read_packet", "mercurio-server/src/connection.rs: Connection::parse_packet", "mercurio-server/src/server.rs: Listener::handle_connection", "mercurio-server/src/server.rs: Handler::handle_connection"]}
{"id": "C106", "title": "From publish() to recv(), over bytes", "statement": "The calls of publish() made through one client library are handled by the broker in order and as they were made, however the bytes the library writes are cut into pieces on the way and whenever the broker reads; what the application behind another client library is told for a filter are, in order, the retained messages of that filter and the messages published since its SUBSCRIBE was handled, among them those of the first library.", "quantifier": "all configurations, all sequences of calls, all pieces of bytes, all interleavings of arriving bytes, reads, deliveries, ends of connections and restarts", "why_tests_cant": "the bytes of two libraries and a broker in any pieces and any interleaving with other connections", "anchors": ["mercurio-client/src/client.rs: event_loop", "mercurio-client/src/client.rs: MqttClient::publish", "mercurio-client/src/client.rs: MqttClient::recv", "mercurio-client/src/connection.rs: Connection::read_packet", "mercurio-server/src/connection.rs: Connection::read_packet", "mercurio-server/src/server.rs: Handler::handle_connection"]}
{"id": "C107", "title": "What a client was told is found again, whatever the schedule", "statement": "The broker may be stopped between any two steps of any handlers. If the client of an identifier used by no other connection was sent a SUBACK that grants a filter, and has not unsubscribed or started anew since, its next connection without clean start is subscribed to that filter. If it was sent a message with QoS 1 or 2 and has not acknowledged it, that connection is sent the message again, with the same identifier and marked as a duplicate, unless the identifier was given to another message in between. If a publisher was answered for a message to be retained, then what is found as retained message of the topic is what was stored for it last, that message or a later one.", "quantifier": "all configurations, all sequences of events of any number of connections, all interleavings of their handlers at every operation on a lock, the store, the topic tree or a session, all points at which the broker stops; all earlier lives of the broker, each stopped at any point", "why_tests_cant": "the number of interleavings and of stopping points is unbounded", "anchors": ["mercurio-server/src/server.rs: Handler::handle_connection", "mercurio-server/src/session.rs: Session::process_incoming", "mercurio-server/src/session.rs: Session::handle_subscribe", "mercurio-server/src/session.rs: Session::handle_publish", "mercurio-server/src/session_manager.rs: SessionManager::save_subscriptions", "mercurio-storage/src/sqlite.rs: SqliteStore"]}
{"id": "C108", "title": "The will of a client survives a stop of the broker", "statement": "A client with an identifier used by no other connection has connected with clean start and a will, and has neither disconnected nor started anew. However the handlers of all connections are interleaved, and wherever the broker is stopped, the will has been sent to every matching filter that was granted when the client connected, or the next connection of the client without clean start has that will again, to be published when that connection ends without DISCONNECT. The will is published at most once, and, if the client comes back and is lost again, at least once.", "quantifier": "all configurations, all sequences of events of any number of connections, all interleavings of their handlers at every operation on a lock, the store, the topic tree or a session, all points at which the broker stops; all earlier lives of the broker, each stopped at any point", "why_tests_cant": "the number of interleavings and of stopping points is unbounded", "anchors": ["mercurio-server/src/server.rs: Handler::handle_connection", "mercurio-server/src/session_manager.rs: SessionManager::start_session", "mercurio-server/src/server.rs: Handler::publish_will", "mercurio-server/src/session_manager.rs: SessionManager::delete_will", "mercurio-server/src/session.rs: Session::take_will", "mercurio-storage/src/sqlite.rs: SqliteStore"]}
{"id": "C109", "title": "What is delivered was sent and asked for, over all lives of the broker", "statement": "The broker is stopped any number of times, each time at any point, and started again on the store it left. A PUBLISH that is written to a connection is written by its own handler and carries the payload, QoS and packet identifier of a message that an accepted client sent before, in this life of the broker or an earlier one, to a topic matching the one named in the PUBLISH; and that topic is a filter which the client asked for itself, on this connection or on an earlier one with its identifier.", "quantifier": "all configurations, all numbers of lives, in each of them all sequences of events of any number of connections, all interleavings of their handlers and all points at which it stops", "why_tests_cant": "What comes out of the store after a restart was put there by handlers of earlier lives that were interleaved and cut off; the number of such pasts is unbounded.", "anchors": ["mercurio-server/src/session_manager.rs: SessionManager::start_session", "mercurio-server/src/session.rs: Session::process_incoming, Session::process_outgoing", "mercurio-server/src/server.rs: Handler::handle_connection", "mercurio-storage/src/sqlite.rs: SqliteStore"]}
{"id": "C110", "title": "A client that comes back finds what it was told, whatever others do at the same time", "statement": "A client has been sent a SUBACK that grants a filter, or a QoS 1 or QoS 2 PUBLISH that it has not acknowledged, or has connected with a will. The broker is then stopped any number of times, each time at any point of any interleaving, and started again on the store it left; the client may come back in between, unless it takes the thing back itself. When it comes back without clean start, while other connections are handled at the same time, it is sent a CONNACK that says the session is present and has the subscription, is sent the PUBLISH again with the duplicate flag set, and has its will, unless the will was sent before.", "quantifier": "all configurations, all earlier lives, all numbers of stops in between, all events of any number of connections in each life, all interleavings of their handlers, all points at which the broker stops", "why_tests_cant": "The handler of the returning CONNECT reads the store in several steps between which the handlers of other connections run, and the store is what any number of cut-off lives left.", "anchors": ["mercurio-server/src/session_manager.rs: SessionManager::start_session", "mercurio-server/src/session.rs: Session::begin, Session::process_incoming, Session::process_outgoing", "mercurio-server/src/server.rs: Handler::handle_connection", "mercurio-storage/src/sqlite.rs: SqliteStore"]}
{"id": "C111", "title": "A client that comes back is sent what is published from then on, without subscribing again", "statement": "A client was granted a filter in an earlier life of the broker and comes back without clean start after any number of stops. Every PUBLISH on a matching topic that begins to be handled after its return is put exactly once into the queue of the filter; what the client is sent for the filter after its return is, in order and without repetition, the retained messages of the filter and the messages routed to it since the subscription was taken up; nothing is skipped while at most 16 messages wait, and a poll sends one message whenever one waits.", "quantifier": "all configurations, all earlier lives and numbers of stops, all events of any number of connections, all interleavings of their handlers with the return of the client and with its polls", "why_tests_cant": "The subscription is taken up by a handler that is interleaved with the publishers; whether the queue is joined before or after each of them is a matter of the schedule.", "anchors": ["mercurio-server/src/server.rs: Handler::handle_connection", "mercurio-server/src/session_manager.rs: SessionManager::start_session", "mercurio-server/src/session.rs: Session::begin, Session::process_outgoing", "mercurio-storage/src/sqlite.rs: SqliteStore"]}
{"id": "C112", "title": "Bytes from any number of clients, in any pieces, with the handlers of all connections interleaved", "statement": "Whatever bytes arrive on the connections, in whatever pieces and at whatever moments, and however the reading tasks and the handlers of all connections are scheduled: the packets handled on a connection are those spelled by its own bytes, each once and in order; its first packet is the first thing handled and everything else is handled while the broker has accepted the connection and not closed it; each packet is answered in order; a PUBLISH among the packets is put exactly once into the queue of every matching filter granted before; polling an idle connection handles its next packet; a panic of the decoder on one connection comes from that connection's bytes only. All statements proved of interleaved handlers hold of the broker fed with bytes.", "quantifier": "all byte strings and all ways to cut them into pieces, any number of connections, all configurations and stores at the start, all interleavings of arrivals, reads and handlers", "why_tests_cant": "Reading, cancellation of reads and the handlers of other connections interleave; what is handled must not depend on any of it.", "anchors": ["mercurio-server/src/server.rs: Server::run, Handler::handle_connection", "mercurio-server/src/connection.rs: Connection::read_packet, Connection::parse_packet"]}
{"id": "C113", "title": "What is written to a client are packets of its version, whatever runs at the same time", "statement": "Whatever packets the clients send, however the handlers of all connections are interleaved, and through any number of stops and starts of the broker: every packet that the broker writes to a connection is encoded without error, and if it is not longer than a packet may be, the bytes are those of that packet in the MQTT version which the clients with this identifier speak, however many versions the other clients speak. If the client speaks version 5 and its reads end between packets, its library reads exactly these packets, in this order.", "quantifier": "all configurations, all lives of the broker, all schedules of the handlers in them, all packets from the network, all byte streams in all pieces, all connections and versions", "why_tests_cant": "tests look at the answers to a few clients of one version, one after the other; the fields of a written packet come from other clients, from the store and from earlier lives", "anchors": ["mercurio-server/src/server.rs: Handler::handle_connection", "mercurio-server/src/session.rs: Session::process_incoming, Session::process_outgoing, Session::begin", "mercurio-server/src/connection.rs: Connection::write_packet"]}
{"id": "C114", "title": "From publish() to recv() while everything happens at once", "statement": "A program publishes with the library, another one has subscribed with it. The bytes of all clients reach the broker in any pieces and at any times, the broker serves all connections at once in any order, and it may have been stopped and started before. The broker handles the first calls of publish() in order, each once, with the arguments given. What the subscribing application is told for its filter comes in order, each once, from what the broker had retained for the filter and what has been published on matching topics since; nothing is left out of it if never more than 16 messages wait. The calls of publish() on a matching topic that the broker handled since the answer to the subscription are among these messages, in order, and every one of these messages was sent by a client that the broker had let in, in this life of the broker or an earlier one.", "quantifier": "all configurations, all earlier lives of the broker, all schedules of readers and handlers, all byte streams of all other clients in all pieces, all calls of publish() without a ping in between, all filters and topics, all ways to deliver the broker's packets one or more at a time", "why_tests_cant": "the tests of the library and the broker run one exchange in one order; the interleavings of two libraries, the network, the readers and the handlers have no bound", "anchors": ["mercurio-client/src/client.rs: MqttClient::publish, MqttClient::recv, event_loop", "mercurio-client/src/connection.rs: Connection::read_packet", "mercurio-server/src/server.rs: Server::run, Handler::handle_connection", "mercurio-server/src/connection.rs: Connection::read_packet, Connection::write_packet", "mercurio-server/src/session.rs: Session::process_incoming, Session::process_outgoing", "mercurio-server/src/broker.rs: Broker::publish, Broker::subscribe"]}
{"id": "C115", "title": "A release build does what the debug build does, unless that one panics", "statement": "For every sequence of bytes: if a build with overflow checks does not panic on it, a build without them reads the same packets from it, leaves the same bytes and reports the same errors, in the broker and in the library, in whatever pieces the bytes arrive. So a broker to which no stream is sent that panics the debug build behaves the same in both builds, under every schedule of its readers and handlers; in particular one that is only spoken to by the library. Where only the debug build panics, the release build reads no packet but reports an error.", "quantifier": "all byte strings, all versions, all pieces, all schedules of readers and handlers, all configurations", "why_tests_cant": "tests are run in debug builds and users run release builds; the two differ on inputs at which an arithmetic operation overflows, and tests only have those inputs somebody thought of", "anchors": ["mercurio-core/src/codec.rs: decode_var_byte_integer", "mercurio-packets/src/lib.rs: ControlPacket::check, ControlPacket::parse_with_version", "mercurio-packets/src/publish.rs: PublishPacket", "mercurio-packets/src/subscribe.rs: SubscribePacket", "mercurio-server/src/connection.rs: Connection::read_packet, Connection::parse_packet", "mercurio-client/src/connection.rs: Connection::read_packet"]}
{"id": "C116", "title": "What version 5 clients ask for in properties and options is honoured", "statement": "What a client asks for with version 5 is done: a session ends when its expiry interval says, no more unacknowledged messages are sent than the receive maximum allows, nothing longer than the maximum packet size is sent, a client that asked for No Local is not sent its own messages, retained messages are sent as Retain Handling says, a DISCONNECT with the reason 'with will message' publishes the will, a failed acknowledgement ends the exchange; properties of a message (expiry, response topic, correlation data, content type, user properties) reach its subscribers, and a client that is disconnected is told the reason.", "quantifier": "all histories of any number of clients, all properties, options and reasons, all schedules, all earlier lives of the broker", "why_tests_cant": "that something is never looked at is a statement about two runs, for all pairs of inputs that differ in it only; a test compares single runs for single values", "anchors": ["mercurio-server/src/session.rs: Session::handle_subscribe, Session::handle_publish, Session::process_outgoing, Session::begin", "mercurio-server/src/server.rs: Handler::handle_connection", "mercurio-server/src/session_manager.rs: SessionManager::start_session", "mercurio-packets/src/connect.rs: ConnectProperties", "mercurio-packets/src/subscribe.rs: SubscriptionOptions"]}
{"id": "C117", "title": "The broker takes room only for what it was asked to keep, and gives it back", "statement": "Publishing, to however many topics, makes the tree of topics no bigger: it has a place only where a client asked with a SUBSCRIBE to be subscribed, and on the way there. There are never more sessions than there were CONNECTs with good credentials; connections that send anything else add none. What nobody needs any more, because clients have unsubscribed or their sessions are over, is given back.", "quantifier": "all schedules of any number of connections, all packets, all topics and filters, all earlier lives of the broker", "why_tests_cant": "leaks show only in what is left after all histories; a test can look at the memory after one", "anchors": ["mercurio-server/src/topic_tree.rs: TopicTree::subscribe, TopicTree::publish", "mercurio-server/src/broker.rs: Broker::subscribe, Broker::publish", "mercurio-server/src/session_manager.rs: SessionManager::start_session", "mercurio-server/src/session.rs: Session::handle_unsubscribe"]}
{"id": "C118", "title": "Messages in flight take bounded room whatever runs at the same time", "statement": "A session never holds more than one message waiting for its PUBACK or PUBREC, and one waiting for its PUBCOMP, for each of the 65536 packet identifiers; the store never has more than one message in flight for each identifier of a client. What a client sends makes its handler write at most 65537 packets. This holds however the work for different connections is interleaved, whatever bytes they send, and after any number of stops and starts of the broker.", "quantifier": "all schedules of any number of connections, all bytes, all lives of the broker", "why_tests_cant": "the bound is on what may pile up in all histories and interleavings; a test sees the sizes in one", "anchors": ["mercurio-server/src/session.rs: Session::handle_publish, Session::handle_pubrec, Session::process_outgoing", "mercurio-server/src/session_manager.rs: SessionManager::start_session", "mercurio-storage/src/memory.rs: MemoryStore::store_inflight, MemoryStore::get_all_inflight"]}
{"id": "C119", "title": "Who is not let in changes nothing", "statement": "A connection whose bytes do not begin with a CONNECT with good credentials has no effect: it is sent at most a CONNACK that refuses it and is closed, nothing is stored, published or subscribed for it, and everything else is as if it had not come: the same sessions, the same store, the same packets to all other clients. This holds whatever it sends, whatever runs at the same time, and over any number of stops and starts of the broker.", "quantifier": "all bytes, all pieces they arrive in, all schedules of any number of connections, all sets of connections that are not let in, all lives of the broker", "why_tests_cant": "it compares every run with another one, without the intruders; tests see single runs", "anchors": ["mercurio-server/src/server.rs: Handler::run", "mercurio-server/src/server.rs: Listener::run", "mercurio-server/src/connection.rs: Connection::read_packet"]}
{"id": "C120", "title": "The broker may be put on SQLite", "statement": "A broker on the SQLite store behaves as one on the memory store that is kept from life to life: whatever the broker asks of its store, over any number of stops and starts, the two stores answer alike, up to the order of listings.", "quantifier": "all configurations, all clients and packets, all schedules of all connections, all lives of the broker, all operations it makes on its store", "why_tests_cant": "C52 is false for some operations; whether a broker ever makes those depends on every packet and every history", "anchors": ["mercurio-storage/src/sqlite.rs: SqliteStore", "mercurio-storage/src/memory.rs: MemoryStore", "mercurio-server/src/session.rs: Session", "mercurio-server/src/server.rs: Handler::run", "mercuriod/src/main.rs: main"]}
{"id": "C121", "title": "An acknowledged retained message reaches every later subscriber", "statement": "Once a client has been sent the acknowledgement of a PUBLISH with the retain flag, everybody who subscribes to a matching filter is sent this message - or, if it was empty, none for its topic - whatever other clients do at the same time and however often the broker is stopped and started, until somebody publishes another retained message for this topic.", "quantifier": "all configurations, all clients and packets, all schedules of all connections, all points at which the broker is stopped after the acknowledgement, all later lives, all matching filters", "why_tests_cant": "the message is stored, routed and acknowledged in separate steps, between which any other handler may run and the broker may stop; a test sees a few of these schedules", "anchors": ["mercurio-server/src/broker.rs: Broker::publish, Broker::subscribe", "mercurio-server/src/session.rs: Session::handle_publish, Session::handle_subscribe, Session::process_outgoing", "mercurio-server/src/server.rs: Handler::run", "mercurio-storage/src/memory.rs: store_retained, get_retained"]}
{"id": "C122", "title": "What was unsubscribed from stays silent", "statement": "Once a client has been sent the UNSUBACK for a filter it is sent no message for this filter - neither what had been waiting for it nor what others publish at that moment or later - as long as it does not subscribe to it again. After it reconnects, and after the broker was stopped and started at any later point, it is sent at most what it had been sent before and has not acknowledged, marked as a duplicate.", "quantifier": "all configurations, all clients and packets, all filters, all schedules of all connections, all points at which the broker is stopped after the UNSUBACK, all later lives and connections of the client", "why_tests_cant": "the filter is taken from the session, the list is stored and the answer is written in separate steps, while publishers fill the client's queue and the broker may stop between any two; a test sees a few of these schedules", "anchors": ["mercurio-server/src/session.rs: Session::handle_unsubscribe, Session::process_outgoing", "mercurio-server/src/server.rs: Handler::run", "mercurio-server/src/session_manager.rs: SessionManager::start_session", "mercurio-storage/src/memory.rs: save_session, load_session"]}
{"id": "C123", "title": "Unread bytes take bounded room, and little before a client is let in", "statement": "Whatever a peer sends and in whatever pieces, the broker holds of its connection less than one packet of the largest size plus one read; when it waits for more, it holds no complete packet. Before a client is let in the limit is smaller, so that strangers cannot make it hold much.", "quantifier": "all configurations and both build profiles, all bytes, all pieces in which they arrive, all schedules of all connections, all stores the broker starts on", "why_tests_cant": "it is about every byte stream of every length and every way it is cut into pieces; a test sends a few", "anchors": ["mercurio-server/src/connection.rs: Connection::read_packet, Connection::parse_packet", "mercurio-packets/src/lib.rs: ControlPacket::check", "mercurio-server/src/server.rs: Handler::run"]}
{"id": "C124", "title": "The client library does not wait with a packet in hand", "statement": "When the client library has received a complete packet it hands it to the application or reports an error; it never waits for more bytes while it holds one, so that a bad packet ends the connection and unread bytes take bounded room.", "quantifier": "all byte streams, all ways of splitting them, all cancellations of the read, both versions and build profiles", "why_tests_cant": "Whether the reader waits depends on everything that is in the buffer, and how much it holds on everything that will come.", "anchors": ["mercurio-client/src/connection.rs: read_packet, calculate_packet_size", "mercurio-packets/src/lib.rs: ControlPacket::parse_with_version", "mercurio-packets/src/publish.rs: PublishPacket, PublishProperties"]}
{"id": "C125", "title": "What a client has acknowledged is not sent again", "statement": "Once the broker has handled a client's PUBACK or PUBCOMP for a packet identifier, the client is sent no PUBLISH with this identifier when it comes back after any number of stops of the broker, whatever other connections do meanwhile, unless the broker has used the identifier for another message for it since.", "quantifier": "all schedules of the handlers, all numbers of lives of the broker, all clients, packets and identifiers", "why_tests_cant": "Whether the message is still kept depends on every store operation of every connection in every interleaving since, and on where the broker was stopped.", "anchors": ["mercurio-server/src/session.rs: handle_puback, handle_pubcomp", "mercurio-server/src/server.rs: handle_connection", "mercurio-server/src/session_manager.rs: start_session, remove_inflight", "mercurio-storage/src/memory.rs: remove_inflight, get_all_inflight"]}
{"id": "C126", "title": "After a clean start the old subscriptions are gone, whatever runs at the same time", "statement": "Once a client that connects with clean start has been sent the CONNACK that lets it in, it is sent no message for a filter that it has not asked for since - neither what had been waiting for it nor what others publish at that moment or later. After it reconnects, and after the broker was stopped and started at any points, the only exception is a message it had not acknowledged, sent again as a duplicate.", "quantifier": "all schedules of the handlers, all numbers of lives of the broker and stopping points, all filters, clients and packets", "why_tests_cant": "The old session may be used by handlers of any interleaving while it is discarded, and the broker may stop between any two of its steps.", "anchors": ["mercurio-server/src/session_manager.rs: start_session", "mercurio-server/src/session.rs: process_outgoing", "mercurio-server/src/server.rs: run", "mercurio-storage/src/memory.rs: delete_session, save_session"]}
{"id": "C127", "title": "What the CONNACK says about an earlier session is true, whatever runs at the same time", "statement": "A client is told in its CONNACK that its session is there only if it did not ask for a clean start and either it has been let in before since the broker started or somebody with its identifier has been let in in an earlier life of the broker. A client that has been let in before since the broker started, and is let in again without clean start, is told that its session is there. So is a client that comes back after the broker has been stopped and started any number of times, if its CONNECT had been handled to the end and it has not asked for a clean start since.", "quantifier": "all schedules of the handlers, all numbers of lives of the broker and stopping points, all clients, identifiers and packets", "why_tests_cant": "The session manager and the store are used by the handlers of all connections in any interleaving between the two visits, and while the CONNECT is being handled.", "anchors": ["mercurio-server/src/session_manager.rs: start_session", "mercurio-server/src/session.rs: begin", "mercurio-storage/src/memory.rs: load_session, save_session"]}

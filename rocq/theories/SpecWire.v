(** The wire format of MQTT, transcribed from the OASIS standards (MQTT 5.0 chapters 1.5, 2 and 3; MQTT 3.1.1
    chapter 3): which bytes are which packet. Only the types of the packets are taken from the model; none of its
    encoders and decoders is used. The layout is described, not the ranges of values that a receiver has to
    reject as Protocol Errors (C96 is about these). *)
From Verif Require Import Base Codec SpecCodec Property PacketProps Packets SpecPackets.

(** ** Fields (1.5) *)
Definition int1 (bs : bytes) (n : N) : Prop := bs = [n] /\ n < 256.
Definition int2 (bs : bytes) (n : N) : Prop := exists a b, bs = [a; b] /\ a < 256 /\ b < 256 /\ n = a * 256 + b.
Definition int4 (bs : bytes) (n : N) : Prop := exists a b c d, bs = [a; b; c; d] /\ a < 256 /\ b < 256 /\ c < 256 /\ d < 256 /\
  n = ((a * 256 + b) * 256 + c) * 256 + d.
(** A variable byte integer: at most four bytes, and as few as possible. *)
Definition varint (bs : bytes) (n : N) : Prop :=
  vbi_denotes bs n /\ blen bs <= 4 /\ forall bs', vbi_denotes bs' n -> blen bs <= blen bs'.
Definition string_field (bs : bytes) (s : bytes) : Prop := exists l, bs = l ++ s /\ int2 l (blen s) /\ utf8 s.
Definition data_field (bs : bytes) (d : bytes) : Prop := exists l, bs = l ++ d /\ int2 l (blen d) /\ is_bytes d.
Definition flag_field (bs : bytes) (b : bool) : Prop := bs = [if b then 1 else 0].

(** ** Properties (2.2.2.2, table 2-4): identifier and type *)
Definition identifier (q : property) : N :=
  match q with
  | PPayloadFormatIndicator _ => 0x01 | PMessageExpiryInterval _ => 0x02 | PContentType _ => 0x03
  | PResponseTopic _ => 0x08 | PCorrelationData _ => 0x09 | PSubscriptionIdentifier _ => 0x0B
  | PSessionExpiryInterval _ => 0x11 | PAssignedClientIdentifier _ => 0x12 | PServerKeepAlive _ => 0x13
  | PAuthenticationMethod _ => 0x15 | PAuthenticationData _ => 0x16 | PRequestProblemInformation _ => 0x17
  | PWillDelayInterval _ => 0x18 | PRequestResponseInformation _ => 0x19 | PResponseInformation _ => 0x1A
  | PServerReference _ => 0x1C | PReasonString _ => 0x1F | PReceiveMaximum _ => 0x21
  | PTopicAliasMaximum _ => 0x22 | PTopicAlias _ => 0x23 | PMaximumQoS _ => 0x24
  | PRetainAvailable _ => 0x25 | PUserProperty _ _ => 0x26 | PMaximumPacketSize _ => 0x27
  | PWildcardSubscriptionAvailable _ => 0x28 | PSubscriptionIdentifierAvailable _ => 0x29
  | PSharedSubscriptionAvailable _ => 0x2A
  end.
Definition value_field (q : property) (bs : bytes) : Prop :=
  match q with
  | PPayloadFormatIndicator n | PRequestProblemInformation n | PRequestResponseInformation n | PMaximumQoS n => int1 bs n
  | PServerKeepAlive n | PReceiveMaximum n | PTopicAliasMaximum n | PTopicAlias n => int2 bs n
  | PMessageExpiryInterval n | PSessionExpiryInterval n | PWillDelayInterval n | PMaximumPacketSize n => int4 bs n
  | PSubscriptionIdentifier n => varint bs n
  | PContentType s | PResponseTopic s | PAssignedClientIdentifier s | PAuthenticationMethod s | PResponseInformation s
  | PServerReference s | PReasonString s => string_field bs s
  | PCorrelationData d | PAuthenticationData d => data_field bs d
  | PUserProperty k v => exists a b, bs = a ++ b /\ string_field a k /\ string_field b v
  | PRetainAvailable b | PWildcardSubscriptionAvailable b | PSubscriptionIdentifierAvailable b
  | PSharedSubscriptionAvailable b => flag_field bs b
  end.
Inductive properties_field : list property -> bytes -> Prop :=
| pf_nil : properties_field [] []
| pf_cons q l i v bs : varint i (identifier q) -> value_field q v -> properties_field l bs ->
    properties_field (q :: l) (i ++ v ++ bs).
(** The properties of a packet: their length, then the properties, in any order (2.2.2). *)
Definition section (l : list property) (bs : bytes) : Prop :=
  exists n body, bs = n ++ body /\ varint n (blen body) /\ properties_field l body.
(** No property but the user property may occur twice (a PUBLISH to a client may have several subscription
    identifiers; this is left out). *)
Definition is_user (q : property) : bool := match q with PUserProperty _ _ => true | _ => false end.
Definition once (l : list property) : Prop := NoDup (map identifier (filter (fun q => negb (is_user q)) l)).

(** What a list of properties says. *)
Fixpoint the {A} (f : property -> option A) (l : list property) : option A :=
  match l with
  | [] => None
  | q :: l => match the f l with Some a => Some a | None => f q end
  end.
Definition users (l : list property) : option user_props :=
  match flat_map (fun q => match q with PUserProperty k v => [(k, v)] | _ => [] end) l with [] => None | us => Some us end.

(** Which properties a packet may have (table 2-4) and what they are called in its structure. *)
Definition connect_says (l : list property) : connect_props := Mk_connect_props
  (the (fun q => match q with PSessionExpiryInterval v => Some v | _ => None end) l)
  (the (fun q => match q with PReceiveMaximum v => Some v | _ => None end) l)
  (the (fun q => match q with PMaximumPacketSize v => Some v | _ => None end) l)
  (the (fun q => match q with PTopicAliasMaximum v => Some v | _ => None end) l)
  (the (fun q => match q with PRequestResponseInformation v => Some v | _ => None end) l)
  (the (fun q => match q with PRequestProblemInformation v => Some v | _ => None end) l)
  (users l)
  (the (fun q => match q with PAuthenticationMethod v => Some v | _ => None end) l)
  (the (fun q => match q with PAuthenticationData v => Some v | _ => None end) l).
Definition connect_has (q : property) : Prop :=
  In (identifier q) [0x11; 0x21; 0x27; 0x22; 0x19; 0x17; 0x26; 0x15; 0x16].
Definition will_says (l : list property) : will_props := Mk_will_props
  (the (fun q => match q with PWillDelayInterval v => Some v | _ => None end) l)
  (the (fun q => match q with PPayloadFormatIndicator v => Some v | _ => None end) l)
  (the (fun q => match q with PMessageExpiryInterval v => Some v | _ => None end) l)
  (the (fun q => match q with PContentType v => Some v | _ => None end) l)
  (the (fun q => match q with PResponseTopic v => Some v | _ => None end) l)
  (the (fun q => match q with PCorrelationData v => Some v | _ => None end) l)
  (users l).
Definition will_has (q : property) : Prop := In (identifier q) [0x18; 0x01; 0x02; 0x03; 0x08; 0x09; 0x26].
Definition connack_says (l : list property) : connack_props := Mk_connack_props
  (the (fun q => match q with PSessionExpiryInterval v => Some v | _ => None end) l)
  (the (fun q => match q with PReceiveMaximum v => Some v | _ => None end) l)
  (the (fun q => match q with PMaximumQoS v => Some v | _ => None end) l)
  (the (fun q => match q with PRetainAvailable v => Some v | _ => None end) l)
  (the (fun q => match q with PMaximumPacketSize v => Some v | _ => None end) l)
  (the (fun q => match q with PAssignedClientIdentifier v => Some v | _ => None end) l)
  (the (fun q => match q with PTopicAliasMaximum v => Some v | _ => None end) l)
  (the (fun q => match q with PReasonString v => Some v | _ => None end) l)
  (users l)
  (the (fun q => match q with PWildcardSubscriptionAvailable v => Some v | _ => None end) l)
  (the (fun q => match q with PSubscriptionIdentifierAvailable v => Some v | _ => None end) l)
  (the (fun q => match q with PSharedSubscriptionAvailable v => Some v | _ => None end) l)
  (the (fun q => match q with PServerKeepAlive v => Some v | _ => None end) l)
  (the (fun q => match q with PResponseInformation v => Some v | _ => None end) l)
  (the (fun q => match q with PServerReference v => Some v | _ => None end) l)
  (the (fun q => match q with PAuthenticationMethod v => Some v | _ => None end) l)
  (the (fun q => match q with PAuthenticationData v => Some v | _ => None end) l).
Definition connack_has (q : property) : Prop :=
  In (identifier q) [0x11; 0x21; 0x24; 0x25; 0x27; 0x12; 0x22; 0x1F; 0x26; 0x28; 0x29; 0x2A; 0x13; 0x1A; 0x1C; 0x15; 0x16].
Definition publish_says (l : list property) : publish_props := Mk_publish_props
  (the (fun q => match q with PPayloadFormatIndicator v => Some v | _ => None end) l)
  (the (fun q => match q with PMessageExpiryInterval v => Some v | _ => None end) l)
  (the (fun q => match q with PTopicAlias v => Some v | _ => None end) l)
  (the (fun q => match q with PResponseTopic v => Some v | _ => None end) l)
  (the (fun q => match q with PCorrelationData v => Some v | _ => None end) l)
  (users l)
  (the (fun q => match q with PSubscriptionIdentifier v => Some v | _ => None end) l)
  (the (fun q => match q with PContentType v => Some v | _ => None end) l).
Definition publish_has (q : property) : Prop := In (identifier q) [0x01; 0x02; 0x23; 0x08; 0x09; 0x26; 0x0B; 0x03].
(** PUBACK, PUBREC, PUBREL, PUBCOMP, SUBACK, UNSUBACK *)
Definition ack_says (l : list property) : ack_props := Mk_ack_props
  (the (fun q => match q with PReasonString v => Some v | _ => None end) l) (users l).
Definition ack_has (q : property) : Prop := In (identifier q) [0x1F; 0x26].
Definition subscribe_says (l : list property) : subscribe_props := Mk_subscribe_props
  (the (fun q => match q with PSubscriptionIdentifier v => Some v | _ => None end) l) (users l).
Definition subscribe_has (q : property) : Prop := In (identifier q) [0x0B; 0x26].
Definition unsubscribe_says (l : list property) : unsubscribe_props := Mk_unsubscribe_props (users l).
Definition unsubscribe_has (q : property) : Prop := In (identifier q) [0x26].
Definition disconnect_says (l : list property) : disconnect_props := Mk_disconnect_props
  (the (fun q => match q with PSessionExpiryInterval v => Some v | _ => None end) l)
  (the (fun q => match q with PReasonString v => Some v | _ => None end) l)
  (users l)
  (the (fun q => match q with PServerReference v => Some v | _ => None end) l).
Definition disconnect_has (q : property) : Prop := In (identifier q) [0x11; 0x1F; 0x26; 0x1C].
Definition auth_says (l : list property) : auth_props := Mk_auth_props
  (the (fun q => match q with PAuthenticationMethod v => Some v | _ => None end) l)
  (the (fun q => match q with PAuthenticationData v => Some v | _ => None end) l)
  (the (fun q => match q with PReasonString v => Some v | _ => None end) l)
  (users l).
Definition auth_has (q : property) : Prop := In (identifier q) [0x15; 0x16; 0x1F; 0x26].

(** The properties of a packet of version 5; versions 3.1 and 3.1.1 have none. *)
Definition props_part {A} (has : property -> Prop) (says : list property -> A) (v : version) (o : option A) (bs : bytes) : Prop :=
  match v with
  | V5 => exists l, section l bs /\ Forall has l /\ once l /\ o = Some (says l)
  | _ => bs = [] /\ o = None
  end.

(** ** Reason codes (2.4, table 2-6) *)
Definition code (r : reason) : N :=
  match r with
  | Success | NormalDisconnection | GrantedQoS0 => 0x00
  | GrantedQoS1 => 0x01 | GrantedQoS2 => 0x02 | DisconnectWithWillMessage => 0x04
  | NoMatchingSubscribers => 0x10 | NoSubscriptionExisted => 0x11
  | ContinueAuthentication => 0x18 | ReAuthenticate => 0x19
  | UnspecifiedError => 0x80 | MalformedPacket => 0x81 | ProtocolError => 0x82 | ImplementationSpecificError => 0x83
  | UnsupportedProtocolVersion => 0x84 | ClientIdentifierNotValid => 0x85 | BadUserNameOrPassword => 0x86
  | NotAuthorized => 0x87 | ServerUnavailable => 0x88 | ServerBusy => 0x89 | Banned => 0x8A
  | ServerShuttingDown => 0x8B | BadAuthenticationMethod => 0x8C | KeepAliveTimeout => 0x8D
  | SessionTakenOver => 0x8E | TopicFilterInvalid => 0x8F | TopicNameInvalid => 0x90
  | PacketIdentifierInUse => 0x91 | PacketIdentifierNotFound => 0x92 | ReceiveMaximumExceeded => 0x93
  | TopicAliasInvalid => 0x94 | PacketTooLarge => 0x95 | MessageRateTooHigh => 0x96 | QuotaExceeded => 0x97
  | AdministrativeAction => 0x98 | PayloadFormatInvalid => 0x99 | RetainNotSupported => 0x9A
  | QoSNotSupported => 0x9B | UseAnotherServer => 0x9C | ServerMoved => 0x9D
  | SharedSubscriptionsNotSupported => 0x9E | ConnectionRateExceeded => 0x9F | MaximumConnectTime => 0xA0
  | SubscriptionIdentifiersNotSupported => 0xA1 | WildcardSubscriptionsNotSupported => 0xA2
  end.
(** CONNACK of MQTT 3.1.1 (3.2.2.3, table 3.1). *)
Definition connect_code (v : version) (r : reason) (n : N) : Prop :=
  match v with
  | V5 => n = code r
  | _ => In (r, n) [(Success, 0); (UnsupportedProtocolVersion, 1); (ClientIdentifierNotValid, 2); (ServerUnavailable, 3);
                    (BadUserNameOrPassword, 4); (NotAuthorized, 5)]
  end.
(** SUBACK of MQTT 3.1.1 (3.9.3). *)
Definition subscribe_code (v : version) (r : reason) (n : N) : Prop :=
  match v with
  | V5 => n = code r
  | _ => In (r, n) [(GrantedQoS0, 0); (GrantedQoS1, 1); (GrantedQoS2, 2); (UnspecifiedError, 0x80)]
  end.

(** ** Packets (chapter 3) *)
(** Fixed header: type and flags, the remaining length, the rest. *)
Definition frame (h : N) (body bs : bytes) : Prop := exists n, bs = h :: n ++ body /\ varint n (blen body).
Definition qos_bits (q : qos) (n : N) : Prop := In (q, n) [(AtMostOnce, 0); (AtLeastOnce, 1); (ExactlyOnce, 2)].
Definition bit (b : bool) : N := if b then 1 else 0.
(** 3.1.2.1, 3.1.2.2 *)
Definition protocol (v : version) : bytes * N :=
  match v with
  | V3_1 => ([77; 81; 73; 115; 100; 112], 3)   (* "MQIsdp" *)
  | V3_1_1 => ([77; 81; 84; 84], 4)            (* "MQTT" *)
  | V5 => ([77; 81; 84; 84], 5)
  end.
(** 3.1.2.3: bit 0 is reserved, bit 1 is clean start, bit 2 the will flag, bits 3 and 4 the QoS and bit 5 the retain flag of
    the will, bits 6 and 7 say that password and user name are there. *)
Definition connect_flags_field (f : connect_flags) (n : N) : Prop := exists q, qos_bits (cf_will_qos f) q /\
  n = 2 * bit (cf_clean_start f) + 4 * bit (cf_will_flag f) + 8 * q + 32 * bit (cf_will_retain f)
      + 64 * bit (cf_password f) + 128 * bit (cf_user_name f) /\
  (cf_will_flag f = false -> cf_will_qos f = AtMostOnce /\ cf_will_retain f = false).
Definition optional (flag : bool) (field : bytes -> bytes -> Prop) (o : option bytes) (bs : bytes) : Prop :=
  if flag then exists x, o = Some x /\ field bs x else o = None /\ bs = [].
(** 3.1.3 *)
Definition connect_payload_field (v : version) (f : connect_flags) (pl : connect_payload) (bs : bytes) : Prop :=
  exists id wp wt wd u pw, bs = id ++ (wp ++ wt ++ wd) ++ u ++ pw /\
    string_field id (cl_client_id pl) /\
    (if cf_will_flag f then props_part will_has will_says v (cl_will_properties pl) wp else wp = [] /\ cl_will_properties pl = None) /\
    optional (cf_will_flag f) string_field (cl_will_topic pl) wt /\
    optional (cf_will_flag f) data_field (cl_will_payload pl) wd /\
    optional (cf_user_name f) string_field (cl_user_name pl) u /\
    optional (cf_password f) data_field (cl_password pl) pw.
(** The packet types with an identifier, a reason and properties: PUBACK, PUBREC, PUBREL, PUBCOMP (3.4.2). Reason and
    properties can be left out if the reason is success and there are no properties, properties alone if there are none. *)
Definition ack_field (v : version) (a : ack_packet) (bs : bytes) : Prop :=
  exists id rest, bs = id ++ rest /\ int2 id (ak_packet_id a) /\
  ( (rest = [] /\ ak_reason a = Success /\ ak_properties a = None)
    \/ (v = V5 /\ rest = [code (ak_reason a)] /\ ak_properties a = None)
    \/ (v = V5 /\ exists ps, rest = code (ak_reason a) :: ps /\ props_part ack_has ack_says v (ak_properties a) ps) ).
(** 3.8.3.1 *)
Definition options_field (v : version) (o : sub_options) (n : N) : Prop := exists q h, qos_bits (so_qos o) q /\
  In (so_retain_handling o, h) [(SendRetained, 0); (SendRetainedIfNonExisting, 1); (DoNotSendRetained, 2)] /\
  n = q + 4 * bit (so_no_local o) + 8 * bit (so_retain_as_pub o) + 16 * h /\
  (v <> V5 -> n < 4).
Inductive many {A} (field : bytes -> A -> Prop) : bytes -> list A -> Prop :=
| many_nil : many field [] []
| many_cons a l x bs : field x a -> many field bs l -> many field (x ++ bs) (a :: l).

(** The version that the packets carry which are answers of the server. *)
Definition answer_version (v : version) : version := match v with V5 => V5 | _ => V3_1_1 end.

(** [wire v k bs]: in version [v] of the protocol the bytes [bs] are the packet [k]. *)
Definition wire (v : version) (k : packet) (bs : bytes) : Prop :=
  match k with
  | Connect c => c_protocol_version c = v /\ exists name flags ka ps pl,
      frame 0x10 (name ++ [snd (protocol v)] ++ [flags] ++ ka ++ ps ++ pl) bs /\
      string_field name (fst (protocol v)) /\ connect_flags_field (c_flags c) flags /\ int2 ka (c_keepalive c) /\
      props_part connect_has connect_says v (c_properties c) ps /\ connect_payload_field v (c_flags c) (c_payload c) pl
  | ConnAck c => ca_protocol_version c = answer_version v /\ exists n ps,
      frame 0x20 ([bit (ca_session_present c)] ++ [n] ++ ps) bs /\ connect_code v (ca_reason_code c) n /\
      props_part connack_has connack_says v (ca_properties c) ps
  | Publish b => exists q topic id ps d,
      frame (0x30 + 8 * bit (pb_dup b) + 2 * q + bit (pb_retain b)) (topic ++ id ++ ps ++ d) bs /\
      qos_bits (pb_qos b) q /\ string_field topic (pb_topic b) /\
      match pb_qos b with
      | AtMostOnce => id = [] /\ pb_packet_id b = None
      | _ => exists i, int2 id i /\ pb_packet_id b = Some i
      end /\
      props_part publish_has publish_says v (pb_properties b) ps /\ pb_payload b = Some d /\ is_bytes d
  | PubAck a => exists body, frame 0x40 body bs /\ ack_field v a body
  | PubRec a => exists body, frame 0x50 body bs /\ ack_field v a body
  | PubRel a => exists body, frame 0x62 body bs /\ ack_field v a body
  | PubComp a => exists body, frame 0x70 body bs /\ ack_field v a body
  | Subscribe s => exists id ps fs, frame 0x82 (id ++ ps ++ fs) bs /\ int2 id (sb_packet_id s) /\
      props_part subscribe_has subscribe_says v (sb_properties s) ps /\
      many (fun x fo => exists f n, x = f ++ [n] /\ string_field f (fst fo) /\ options_field v (snd fo) n) fs (sb_payload s) /\
      sb_payload s <> []
  | SubAck s => sa_protocol_version s = answer_version v /\ exists id ps rs, frame 0x90 (id ++ ps ++ rs) bs /\ int2 id (sa_packet_id s) /\
      props_part ack_has ack_says v (sa_properties s) ps /\
      many (fun x r => exists n, x = [n] /\ subscribe_code v r n) rs (sa_payload s) /\ sa_payload s <> []
  | Unsubscribe s => exists id ps fs, frame 0xA2 (id ++ ps ++ fs) bs /\ int2 id (us_packet_id s) /\
      props_part unsubscribe_has unsubscribe_says v (us_properties s) ps /\ many string_field fs (us_payload s) /\ us_payload s <> []
  | UnsubAck s => ua_protocol_version s = answer_version v /\ exists id ps rs, frame 0xB0 (id ++ ps ++ rs) bs /\ int2 id (ua_packet_id s) /\
      props_part ack_has ack_says v (ua_properties s) ps /\
      match v with
      | V5 => many (fun x r => x = [code r]) rs (ua_payload s) /\ ua_payload s <> []
      | _ => rs = [] /\ ua_payload s = []
      end
  | PingReq => frame 0xC0 [] bs
  | PingResp => frame 0xD0 [] bs
  | Disconnect d => exists body, frame 0xE0 body bs /\
      ( (body = [] /\ d_reason d = NormalDisconnection /\ d_properties d = None)
        \/ (v = V5 /\ body = [code (d_reason d)] /\ d_properties d = None)
        \/ (v = V5 /\ exists ps, body = code (d_reason d) :: ps /\ props_part disconnect_has disconnect_says v (d_properties d) ps) )
  | Auth a => v = V5 /\ exists body, frame 0xF0 body bs /\
      ( (body = [] /\ au_reason a = Success /\ au_properties a = auth_says [])
        \/ exists ps, body = code (au_reason a) :: ps /\ props_part auth_has auth_says v (Some (au_properties a)) ps )
  end.

(** Three reasons have code 0 and only the packet tells which is meant; a reader of this code base calls all of them success
    (canon_reason in SpecPackets). *)
Definition same_code (k k' : packet) : Prop :=
  match k, k' with
  | ConnAck c, ConnAck c' => code (ca_reason_code c) = code (ca_reason_code c') /\
      c' = Mk_connack_packet (ca_protocol_version c) (ca_session_present c) (ca_reason_code c') (ca_properties c)
  | PubAck a, PubAck a' | PubRec a, PubRec a' | PubRel a, PubRel a' | PubComp a, PubComp a' =>
      code (ak_reason a) = code (ak_reason a') /\ a' = Mk_ack_packet (ak_packet_id a) (ak_reason a') (ak_properties a)
  | SubAck s, SubAck s' => map code (sa_payload s) = map code (sa_payload s') /\
      s' = Mk_suback_packet (sa_protocol_version s) (sa_packet_id s) (sa_properties s) (sa_payload s')
  | UnsubAck s, UnsubAck s' => map code (ua_payload s) = map code (ua_payload s') /\
      s' = Mk_unsuback_packet (ua_protocol_version s) (ua_packet_id s) (ua_properties s) (ua_payload s')
  | Disconnect d, Disconnect d' => code (d_reason d) = code (d_reason d') /\ d' = Mk_disconnect_packet (d_reason d') (d_properties d)
  | Auth a, Auth a' => code (au_reason a) = code (au_reason a') /\ a' = Mk_auth_packet (au_reason a') (au_properties a)
  | _, _ => k = k'
  end.

(** ** Restrictions of C94 and C95 *)
Definition version_of (k : packet) : version :=
  match k with
  | Connect c => c_protocol_version c
  | ConnAck c => ca_protocol_version c
  | SubAck s => sa_protocol_version s
  | UnsubAck s => ua_protocol_version s
  | _ => V5
  end.
(** What wf_packet leaves open: a retained will without a will, the codes of a version 3 SUBACK, payloads that are no bytes; and
    the packets that are not written as the standard says (AUTH, DISCONNECT with properties). *)
Definition sendable (k : packet) : Prop :=
  match k with
  | Connect c => cf_will_flag (c_flags c) = false -> cf_will_retain (c_flags c) = false
  | Publish b => owf is_bytes (pb_payload b)
  | SubAck s => sa_protocol_version s <> V5 -> Forall (fun r => In (code r) [0; 1; 2; 0x80]) (sa_payload s)
  | Disconnect d => owf (fun a => a = disconnect_says []) (d_properties d)
  | Auth _ => False
  | _ => True
  end.

Definition no_rri (c : connect_packet) : Prop := owf (fun a => cp_request_response_information a = None) (c_properties c).
(** The packets that the parser takes for something else (each refuted separately), by their bytes or their type. *)
Definition readable (v : version) (k : packet) (bs : bytes) : Prop :=
  match k with
  | Connect c => no_rri c
  | Publish _ | Subscribe _ | Unsubscribe _ => v = V5
  | PubAck _ | PubRec _ | PubRel _ | PubComp _ => blen bs <> 5
  | PingReq | PingResp => False
  | Auth _ => blen bs <> 2
  | _ => True
  end.

(** ** Values that the standard forbids *)

(** 2.2.1 (packet identifiers), 3.1.2.11.3, 3.1.2.11.4, 3.1.2.11.6, 3.1.2.11.7, 3.2.2.3.4, 3.3.2.3.2, 3.3.2.3.4, 3.8.2.1.2: values of
    properties that are Protocol Errors; 3.3.1.1: a PUBLISH with QoS 0 is not repeated; 3.3.2.1: its topic has no wildcards. *)
Definition legal_property (q : property) : Prop :=
  match q with
  | PSubscriptionIdentifier n | PReceiveMaximum n | PMaximumPacketSize n | PTopicAlias n => n <> 0
  | PPayloadFormatIndicator n | PRequestProblemInformation n | PRequestResponseInformation n | PMaximumQoS n => n <= 1
  | _ => True
  end.
Definition legal (k : packet) : Prop :=
  match k with
  | Connect c => owf (fun a => Forall legal_property (connect_props_list a)) (c_properties c)
      /\ owf (fun a => Forall legal_property (will_props_list a)) (cl_will_properties (c_payload c))
  | ConnAck c => owf (fun a => Forall legal_property (connack_props_list a)) (ca_properties c)
  | Publish b => (pb_qos b = AtMostOnce -> pb_dup b = false) /\ ~ In 43 (pb_topic b) /\ ~ In 35 (pb_topic b) /\
      pb_packet_id b <> Some 0 /\ owf (fun a => Forall legal_property (publish_props_list a)) (pb_properties b)
  | PubAck a | PubRec a | PubRel a | PubComp a => ak_packet_id a <> 0
  | Subscribe s => sb_packet_id s <> 0 /\ owf (fun a => Forall legal_property (subscribe_props_list a)) (sb_properties s)
  | SubAck s => sa_packet_id s <> 0
  | Unsubscribe s => us_packet_id s <> 0
  | UnsubAck s => ua_packet_id s <> 0
  | _ => True
  end.

(** ** What is read besides

    [lenient v k bs]: the bytes that this code base takes for the packet [k]. They are laid out as in [wire] but
    for the liberties marked (1) to (9); everything else is refused. *)

(** (1) A variable byte integer can be longer than necessary. *)
Definition lax_int (bs : bytes) (n : N) : Prop := vbi_denotes bs n /\ blen bs <= 4.
(** (2) Every byte but 0 is a set flag. *)
Definition lax_flag (bs : bytes) (b : bool) : Prop := exists x, bs = [x] /\ x < 256 /\ (b = false <-> x = 0).
Definition lax_value (q : property) (bs : bytes) : Prop :=
  match q with
  | PRetainAvailable b | PWildcardSubscriptionAvailable b | PSubscriptionIdentifierAvailable b
  | PSharedSubscriptionAvailable b => lax_flag bs b
  | PSubscriptionIdentifier n => lax_int bs n
  | _ => value_field q bs
  end.
(** (3) Request Response Information is taken for Request Problem Information. *)
Definition lax_identifier (q : property) (i : N) : Prop :=
  match q with
  | PRequestProblemInformation _ => i = 0x17 \/ i = 0x19
  | PRequestResponseInformation _ => False
  | _ => i = identifier q
  end.
Inductive lax_properties : list property -> bytes -> Prop :=
| lp_nil : lax_properties [] []
| lp_cons q l i n v bs : lax_int i n -> lax_identifier q n -> lax_value q v -> lax_properties l bs ->
    lax_properties (q :: l) (i ++ v ++ bs).
(** (4) A property can be repeated; the last one counts. *)
Definition lax_section (l : list property) (bs : bytes) : Prop :=
  exists n body, bs = n ++ body /\ lax_int n (blen body) /\ lax_properties l body.
Definition lax_part {A} (has : property -> Prop) (says : list property -> A) (v : version) (o : option A) (bs : bytes) : Prop :=
  match v with
  | V5 => exists l, lax_section l bs /\ Forall has l /\ o = Some (says l)
  | _ => bs = [] /\ o = None
  end.
(** (5) The reserved bits of the first byte are not looked at (but in PUBLISH, DISCONNECT and AUTH), nor is the remaining length [m] compared
    with the length of what follows. *)
Definition lax_frame (h m : N) (body bs : bytes) : Prop := exists n, bs = h :: n ++ body /\ lax_int n m.
(** (6) In the flags of CONNECT, the QoS without a will does not matter, and the retain flag is kept. *)
Definition lax_connect_flags (f : connect_flags) (n : N) : Prop := exists q, q < 4 /\
  n = 2 * bit (cf_clean_start f) + 4 * bit (cf_will_flag f) + 8 * q + 32 * bit (cf_will_retain f)
      + 64 * bit (cf_password f) + 128 * bit (cf_user_name f) /\
  (if cf_will_flag f then qos_bits (cf_will_qos f) q else cf_will_qos f = AtMostOnce).
Definition lax_connect_payload (v : version) (f : connect_flags) (pl : connect_payload) (bs : bytes) : Prop :=
  exists id wp wt wd u pw, bs = id ++ (wp ++ wt ++ wd) ++ u ++ pw /\
    string_field id (cl_client_id pl) /\
    (if cf_will_flag f then lax_part will_has will_says v (cl_will_properties pl) wp else wp = [] /\ cl_will_properties pl = None) /\
    optional (cf_will_flag f) string_field (cl_will_topic pl) wt /\
    optional (cf_will_flag f) data_field (cl_will_payload pl) wd /\
    optional (cf_user_name f) string_field (cl_user_name pl) u /\
    optional (cf_password f) data_field (cl_password pl) pw.
(** (7) Return codes of version 3 that do not exist are taken for an unspecified error. *)
Definition lax_connect_code (v : version) (r : reason) (n : N) : Prop :=
  connect_code v r n \/ v <> V5 /\ 5 < n /\ r = UnspecifiedError.
Definition lax_subscribe_code (v : version) (r : reason) (n : N) : Prop :=
  subscribe_code v r n \/ v <> V5 /\ 2 < n /\ r = UnspecifiedError.
(** Fields until [n] bytes are read; the last field can be longer (see (5)). *)
Inductive until {A} (field : bytes -> A -> Prop) : N -> bytes -> list A -> Prop :=
| until_nil : until field 0 [] []
| until_cons n a l x bs : 0 < n -> field x a -> until field (n - blen x) bs l -> until field n (x ++ bs) (a :: l).
(** (8) A list whose remaining length is larger than everything received, or is used up before the list, is empty. *)
Definition lax_list {A} (field : bytes -> A -> Prop) (n : N) (bs : bytes) (l : list A) : Prop :=
  until field n bs l \/ bs = [] /\ l = [].
(** (9) Properties are expected in PUBLISH, SUBSCRIBE, UNSUBSCRIBE and after the reason of PUBACK, PUBREC, PUBREL, PUBCOMP and
    DISCONNECT in all versions, and AUTH is known in all; a reason without properties is not expected in the former four. *)
Definition lax_ack (m : N) (a : ack_packet) (bs : bytes) : Prop :=
  exists id rest, bs = id ++ rest /\ int2 id (ak_packet_id a) /\
  if m =? 2 then rest = [] /\ ak_reason a = Success /\ ak_properties a = None
  else exists ps, rest = code (ak_reason a) :: ps /\ lax_part ack_has ack_says V5 (ak_properties a) ps.

Definition lenient (v : version) (k : packet) (bs : bytes) : Prop :=
  match k with
  | Connect c => exists h m name flags ka ps pl, h / 16 = 1 /\
      lax_frame h m (name ++ [snd (protocol (c_protocol_version c))] ++ [flags] ++ ka ++ ps ++ pl) bs /\
      string_field name (fst (protocol (c_protocol_version c))) /\ lax_connect_flags (c_flags c) flags /\ int2 ka (c_keepalive c) /\
      lax_part connect_has connect_says (c_protocol_version c) (c_properties c) ps /\
      lax_connect_payload (c_protocol_version c) (c_flags c) (c_payload c) pl
  | ConnAck c => ca_protocol_version c = answer_version v /\ exists h m n ps, h / 16 = 2 /\
      lax_frame h m ([bit (ca_session_present c)] ++ [n] ++ ps) bs /\ lax_connect_code v (ca_reason_code c) n /\
      lax_part connack_has connack_says v (ca_properties c) ps
  | Publish b => exists m q topic id ps ps' d,
      lax_frame (0x30 + 8 * bit (pb_dup b) + 2 * q + bit (pb_retain b)) m (topic ++ id ++ ps ++ d) bs /\
      qos_bits (pb_qos b) q /\ string_field topic (pb_topic b) /\
      match pb_qos b with
      | AtMostOnce => id = [] /\ pb_packet_id b = None
      | _ => exists i, int2 id i /\ pb_packet_id b = Some i
      end /\
      lax_part publish_has publish_says V5 (pb_properties b) ps /\ pb_payload b = Some d /\ is_bytes d /\
      (* the payload is what the remaining length leaves if the properties [ps] were written as they should, [ps'] *)
      props_part publish_has publish_says V5 (pb_properties b) ps' /\ blen ps' <= blen ps /\ m = blen (topic ++ id ++ ps' ++ d)
  | PubAck a => exists h m body, h / 16 = 4 /\ lax_frame h m body bs /\ lax_ack m a body
  | PubRec a => exists h m body, h / 16 = 5 /\ lax_frame h m body bs /\ lax_ack m a body
  | PubRel a => exists h m body, h / 16 = 6 /\ lax_frame h m body bs /\ lax_ack m a body
  | PubComp a => exists h m body, h / 16 = 7 /\ lax_frame h m body bs /\ lax_ack m a body
  | Subscribe s => exists h m id ps fs, h / 16 = 8 /\ lax_frame h m (id ++ ps ++ fs) bs /\ int2 id (sb_packet_id s) /\
      lax_part subscribe_has subscribe_says V5 (sb_properties s) ps /\
      lax_list (fun x fo => exists f n, x = f ++ [n] /\ string_field f (fst fo) /\ options_field V5 (snd fo) n)
        (m - blen (id ++ ps)) fs (sb_payload s)
  | SubAck s => sa_protocol_version s = answer_version v /\ exists h m id ps rs, h / 16 = 9 /\
      lax_frame h m (id ++ ps ++ rs) bs /\ int2 id (sa_packet_id s) /\
      lax_part ack_has ack_says v (sa_properties s) ps /\
      lax_list (fun x r => exists n, x = [n] /\ lax_subscribe_code v r n) (m - blen (id ++ ps)) rs (sa_payload s)
  | Unsubscribe s => exists h m id ps fs, h / 16 = 10 /\ lax_frame h m (id ++ ps ++ fs) bs /\ int2 id (us_packet_id s) /\
      lax_part unsubscribe_has unsubscribe_says V5 (us_properties s) ps /\
      lax_list string_field (m - blen (id ++ ps)) fs (us_payload s)
  | UnsubAck s => ua_protocol_version s = answer_version v /\ exists h m id ps rs, h / 16 = 11 /\
      lax_frame h m (id ++ ps ++ rs) bs /\ int2 id (ua_packet_id s) /\
      lax_part ack_has ack_says v (ua_properties s) ps /\
      match v with
      | V5 => lax_list (fun x r => x = [code r]) (m - blen (id ++ ps)) rs (ua_payload s)
      | _ => rs = [] /\ ua_payload s = []
      end
  | PingReq => exists h, h / 16 = 12 /\ bs = [h]
  | PingResp => exists h, h / 16 = 13 /\ bs = [h]
  | Disconnect d => exists m body, lax_frame 0xE0 m body bs /\
      if m =? 0 then body = [] /\ d_reason d = NormalDisconnection /\ d_properties d = None
      else exists ps, body = code (d_reason d) :: ps /\
        if m =? 1 then ps = [] /\ d_properties d = None else lax_part disconnect_has disconnect_says V5 (d_properties d) ps
  | Auth a => exists m ps, lax_frame 0xF0 m (code (au_reason a) :: ps) bs /\
      lax_part auth_has auth_says V5 (Some (au_properties a)) ps
  end.

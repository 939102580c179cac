(** Independent vocabulary for statements about packets: what a frame is, which
    packets the wire format can carry, and what a receiver reconstructs. *)
From Verif Require Import Base Codec SpecCodec Property SpecProperty PacketProps Packets.

(** A frame (MQTT 2.1): one header byte, the length of the body as a variable byte
    integer of at most four bytes, the body. *)
Definition is_frame (bs : bytes) : Prop :=
  exists h len body, bs = h :: len ++ body /\ vbi_denotes len (blen body) /\ blen len <= 4.

(** The largest frame. *)
Definition max_frame : N := 1 + 4 + vbi_max.

(** ** Well-formed packets: every field is a value of its Rust type, strings and binary
    data fit their 16-bit length, vectors of user properties are not empty-but-present,
    and optional fields are present exactly when the flags say so. *)

Definition wf_user (o : option user_props) : Prop := o <> Some [].
Definition wf_id (i : N) : Prop := i < 65536.

Definition owf {A} (P : A -> Prop) (o : option A) : Prop :=
  match o with Some a => P a | None => True end.
Definition present {A} (flag : bool) (P : A -> Prop) (o : option A) : Prop :=
  match flag, o with
  | true, Some a => P a
  | true, None => False
  | false, _ => True
  end.

Definition wf_connect_props (a : connect_props) : Prop :=
  Forall wf_prop (connect_props_list a) /\ wf_user (cp_user_property a).
Definition wf_will_props (a : will_props) : Prop :=
  Forall wf_prop (will_props_list a) /\ wf_user (wp_user_property a).
Definition wf_connack_props (a : connack_props) : Prop :=
  Forall wf_prop (connack_props_list a) /\ wf_user (cap_user_property a).
Definition wf_publish_props (a : publish_props) : Prop :=
  Forall wf_prop (publish_props_list a) /\ wf_user (pp_user_property a).
Definition wf_ack_props (a : ack_props) : Prop :=
  Forall wf_prop (ack_props_list a) /\ wf_user (akp_user_property a).
Definition wf_subscribe_props (a : subscribe_props) : Prop :=
  Forall wf_prop (subscribe_props_list a) /\ wf_user (sbp_user_property a).
Definition wf_unsubscribe_props (a : unsubscribe_props) : Prop :=
  Forall wf_prop (unsubscribe_props_list a) /\ wf_user (usp_user_property a).

Definition wf_connect (c : connect_packet) : Prop :=
  let f := c_flags c in let pl := c_payload c in
  c_keepalive c < 65536 /\
  (cf_will_flag f = true -> cf_will_qos f <> QInvalid) /\
  owf wf_connect_props (c_properties c) /\
  wf_str (cl_client_id pl) /\
  owf wf_will_props (cl_will_properties pl) /\
  present (cf_will_flag f) wf_str (cl_will_topic pl) /\
  present (cf_will_flag f) wf_bin (cl_will_payload pl) /\
  present (cf_user_name f) wf_str (cl_user_name pl) /\
  present (cf_password f) wf_bin (cl_password pl).

Definition wf_publish (b : publish_packet) : Prop :=
  pb_qos b <> QInvalid /\
  wf_str (pb_topic b) /\
  (match pb_qos b, pb_packet_id b with
   | AtMostOnce, None => True
   | AtMostOnce, Some _ => False
   | _, Some i => wf_id i
   | _, None => False
   end) /\
  owf wf_publish_props (pb_properties b).

Definition wf_options (o : sub_options) : Prop :=
  so_qos o <> QInvalid /\ so_retain_handling o <> RInvalid.

Definition wf_packet (k : packet) : Prop :=
  match k with
  | Connect c => wf_connect c
  | ConnAck c => owf wf_connack_props (ca_properties c)
  | Publish b => wf_publish b
  | PubAck a | PubRec a | PubRel a | PubComp a =>
      wf_id (ak_packet_id a) /\ owf wf_ack_props (ak_properties a)
  | Subscribe s =>
      wf_id (sb_packet_id s) /\ owf wf_subscribe_props (sb_properties s) /\
      sb_payload s <> [] /\ Forall (fun f => wf_str (fst f) /\ wf_options (snd f)) (sb_payload s)
  | SubAck s =>
      wf_id (sa_packet_id s) /\ owf wf_ack_props (sa_properties s) /\ sa_payload s <> []
  | Unsubscribe s =>
      wf_id (us_packet_id s) /\ owf wf_unsubscribe_props (us_properties s) /\
      us_payload s <> [] /\ Forall wf_str (us_payload s)
  | UnsubAck s =>
      wf_id (ua_packet_id s) /\ owf wf_ack_props (ua_properties s) /\ ua_payload s <> []
  | PingReq | PingResp => True
  | Disconnect d => True
  | Auth a => True
  end.

(** ** What the receiver reconstructs. The wire format does not distinguish absent from
    empty property sets, nor the three reasons with code 0, and MQTT 3 packets carry
    no properties and fewer codes. *)

Definition some_or {A} (d : A) (o : option A) : option A :=
  match o with Some a => Some a | None => Some d end.

Definition canon_reason (r : reason) : reason :=
  match r with NormalDisconnection | GrantedQoS0 => Success | _ => r end.

(** MQTT 3.1.1 section 3.2.2.3, table 3.1: six return codes; everything else is sent as
    "server unavailable". *)
Definition canon_connack_v3 (r : reason) : reason :=
  match r with
  | Success | UnsupportedProtocolVersion | ClientIdentifierNotValid | ServerUnavailable
  | BadUserNameOrPassword | NotAuthorized => r
  | _ => ServerUnavailable
  end.

(** MQTT 3.1.1 section 3.9.3: 0, 1, 2 or failure. *)
Definition canon_suback_v3 (r : reason) : reason :=
  match r with
  | Success | NormalDisconnection | GrantedQoS0 => GrantedQoS0
  | GrantedQoS1 => GrantedQoS1
  | GrantedQoS2 => GrantedQoS2
  | _ => UnspecifiedError
  end.

Definition canon_connect (c : connect_packet) : connect_packet :=
  let v5 := supports_properties (c_protocol_version c) in
  let f := c_flags c in let pl := c_payload c in
  let will := cf_will_flag f in
  Mk_connect_packet (c_protocol_version c)
    (Mk_connect_flags (cf_user_name f) (cf_password f) (cf_will_retain f)
       (if will then cf_will_qos f else AtMostOnce) will (cf_clean_start f))
    (c_keepalive c)
    (if v5 then some_or connect_props_default (c_properties c) else None)
    (Mk_connect_payload (cl_client_id pl)
       (if will && v5 then some_or will_props_default (cl_will_properties pl) else None)
       (if will then cl_will_topic pl else None)
       (if will then cl_will_payload pl else None)
       (if cf_user_name f then cl_user_name pl else None)
       (if cf_password f then cl_password pl else None)).

Definition canon_ack (a : ack_packet) : ack_packet :=
  match ak_properties a, ak_reason a with
  | None, Success => a
  | _, _ => Mk_ack_packet (ak_packet_id a) (canon_reason (ak_reason a))
              (some_or ack_props_default (ak_properties a))
  end.

Definition canon (k : packet) : packet :=
  match k with
  | Connect c => Connect (canon_connect c)
  | ConnAck c =>
      ConnAck (if supports_properties (ca_protocol_version c)
               then Mk_connack_packet V5 (ca_session_present c) (canon_reason (ca_reason_code c))
                      (some_or connack_props_default (ca_properties c))
               else Mk_connack_packet V3_1_1 (ca_session_present c)
                      (canon_connack_v3 (ca_reason_code c)) None)
  | Publish b =>
      Publish (Mk_publish_packet (pb_dup b) (pb_qos b) (pb_retain b) (pb_topic b)
                 (pb_packet_id b) (some_or publish_props_default (pb_properties b))
                 (some_or [] (pb_payload b)))
  | PubAck a => PubAck (canon_ack a)
  | PubRec a => PubRec (canon_ack a)
  | PubRel a => PubRel (canon_ack a)
  | PubComp a => PubComp (canon_ack a)
  | Subscribe s =>
      Subscribe (Mk_subscribe_packet (sb_packet_id s)
                   (some_or subscribe_props_default (sb_properties s)) (sb_payload s))
  | SubAck s =>
      SubAck (if supports_properties (sa_protocol_version s)
              then Mk_suback_packet V5 (sa_packet_id s) (some_or ack_props_default (sa_properties s))
                     (map canon_reason (sa_payload s))
              else Mk_suback_packet V3_1_1 (sa_packet_id s) None
                     (map canon_suback_v3 (sa_payload s)))
  | Unsubscribe s =>
      Unsubscribe (Mk_unsubscribe_packet (us_packet_id s)
                     (some_or unsubscribe_props_default (us_properties s)) (us_payload s))
  | UnsubAck s =>
      UnsubAck (if supports_properties (ua_protocol_version s)
                then Mk_unsuback_packet V5 (ua_packet_id s)
                       (some_or ack_props_default (ua_properties s))
                       (map canon_reason (ua_payload s))
                else Mk_unsuback_packet V3_1_1 (ua_packet_id s) None [])
  | PingReq => PingReq
  | PingResp => PingResp
  | Disconnect d =>
      Disconnect (Mk_disconnect_packet (canon_reason (d_reason d)) None)
  | Auth a => Auth a
  end.

(** The reader uses the layout of the packet's protocol version (only CONNACK, SUBACK
    and UNSUBACK have two layouts in this code base). *)
Definition reads (v : version) (k : packet) : Prop :=
  match k with
  | ConnAck c => supports_properties v = supports_properties (ca_protocol_version c)
  | SubAck s => supports_properties v = supports_properties (sa_protocol_version s)
  | UnsubAck s => supports_properties v = supports_properties (ua_protocol_version s)
  | _ => True
  end.

(** Packets whose round trip the code breaks (each refuted separately). *)
Definition roundtrippable (k : packet) : Prop :=
  match k with
  | Connect c =>
      match c_properties c with
      | Some a => cp_request_response_information a = None
      | None => True
      end
  | PingReq | PingResp => False
  | Disconnect d => oenc disconnect_props_list (d_properties d) = []
  | Auth _ => False
  | _ => True
  end.

(** A frame whose length field is as short as possible, which MQTT 1.5.5 requires. *)
Definition is_min_frame (bs : bytes) : Prop :=
  exists h len body, bs = h :: len ++ body /\ vbi_denotes len (blen body) /\ blen len <= 4 /\
    forall len', vbi_denotes len' (blen body) -> blen len <= blen len'.

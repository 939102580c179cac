(** Vocabulary for C116: two packets that ask the broker for different things in their properties, options and reasons,
    and are the same otherwise. No function of the model is used. *)
From Verif Require Import Base Codec Property PacketProps Packets Server SpecServer Conc SpecConc.
(* Conc is imported for the type of traces. *)

(** CONNECT: everything but its properties (session expiry, receive maximum, maximum packet size, topic alias maximum,
    request response information, request problem information, user properties, authentication method and data) and the
    properties of its will (delay, expiry, format, response topic, correlation data). *)
Definition same_connect (k k' : connect_packet) : Prop :=
  c_protocol_version k = c_protocol_version k' /\ c_flags k = c_flags k' /\ c_keepalive k = c_keepalive k'
  /\ cl_client_id (c_payload k) = cl_client_id (c_payload k') /\ cl_will_topic (c_payload k) = cl_will_topic (c_payload k')
  /\ cl_will_payload (c_payload k) = cl_will_payload (c_payload k') /\ cl_user_name (c_payload k) = cl_user_name (c_payload k')
  /\ cl_password (c_payload k) = cl_password (c_payload k').
(** PUBLISH: everything but its properties (message expiry, topic alias, response topic, correlation data, content type,
    format, user properties). *)
Definition same_publish (p p' : publish_packet) : Prop :=
  pb_dup p = pb_dup p' /\ pb_qos p = pb_qos p' /\ pb_retain p = pb_retain p' /\ pb_topic p = pb_topic p'
  /\ pb_packet_id p = pb_packet_id p' /\ pb_payload p = pb_payload p'.
Inductive same_packet : packet -> packet -> Prop :=
| sp_same k : same_packet k k
| sp_publish p p' : same_publish p p' -> same_packet (Publish p) (Publish p')
(* acknowledgements: the identifier, not the reason (which may be a failure) *)
| sp_puback a a' : ak_packet_id a = ak_packet_id a' -> same_packet (PubAck a) (PubAck a')
| sp_pubrec a a' : ak_packet_id a = ak_packet_id a' -> same_packet (PubRec a) (PubRec a')
| sp_pubrel a a' : ak_packet_id a = ak_packet_id a' -> same_packet (PubRel a) (PubRel a')
| sp_pubcomp a a' : ak_packet_id a = ak_packet_id a' -> same_packet (PubComp a) (PubComp a')
(* SUBSCRIBE: the filters, not their options (QoS, no local, retain as published, retain handling) or the subscription identifier *)
| sp_subscribe s s' : sb_packet_id s = sb_packet_id s' -> map fst (sb_payload s) = map fst (sb_payload s') -> same_packet (Subscribe s) (Subscribe s')
| sp_unsubscribe s s' : us_packet_id s = us_packet_id s' -> us_payload s = us_payload s' -> same_packet (Unsubscribe s) (Unsubscribe s')
(* DISCONNECT: nothing of it (reason, session expiry) *)
| sp_disconnect d d' : same_packet (Disconnect d) (Disconnect d')
| sp_auth a a' : au_reason a = au_reason a' -> aup_auth_method (au_properties a) = aup_auth_method (au_properties a') ->
    aup_auth_data (au_properties a) = aup_auth_data (au_properties a') -> same_packet (Auth a) (Auth a').
Inductive same_event : event -> event -> Prop :=
| se_same e : same_event e e
| se_first c k k' u a : same_connect k k' -> same_event (EFirst c (Some (Connect k)) u a) (EFirst c (Some (Connect k')) u a)
| se_packet c k k' : same_packet k k' -> same_event (EPacket c k) (EPacket c k').

(** What happens in a schedule, in order. *)
Definition starts_of (tr : list item) : list event := flat_map (fun i => match i with IStart e => [e] | _ => [] end) tr.
(** What is seen of it from outside, and which connection's turn it is. *)
Inductive seen := SStart (c : nat) | SStep (c : nat) (o : option output) | SEnd (c : nat).
Definition see (i : item) : seen :=
  match i with
  | IStart e => SStart (event_conn e)
  | IStep c (OOut o) => SStep c (Some o)
  | IStep c _ => SStep c None
  | IEnd c => SEnd c
  end.

(** A packet of the broker that says nothing but what the protocol makes it say: no property but the identifier given to the
    client in a CONNACK (AUTH, which is made of properties, excepted), no failure in an acknowledgement, no retain flag. *)
Definition plain (k : packet) : Prop :=
  match k with
  | ConnAck a => forall p, ca_properties a = Some p -> exists id, p = Mk_connack_props None None None None None (Some id) None None None None None None None None None None None
  | Publish q => pb_properties q = None /\ pb_retain q = false
  | PubAck a | PubRec a | PubRel a | PubComp a => ak_properties a = None /\ ak_reason a = Success
  | SubAck a => sa_properties a = None
  | UnsubAck a => ua_properties a = None
  | PingResp | Auth _ => True
  | _ => False
  end.

(** Model of mercurio-server/src/session.rs.

    The session lock makes each handler atomic. The [StreamMap] of subscriptions
    (tokio_stream) is an association list from filter to stream; the order in which
    it lists its keys and polls its streams is not modelled: polling picks any key. *)
From Verif Require Import Base Codec Maps Topic Property PacketProps Packets TopicTree Storage Broker Auth.

(** session.rs 54-70 *)
Definition will_of_connect (c : connect_packet) : option will :=
  if negb (cf_will_flag (c_flags c)) then None
  else match cl_will_topic (c_payload c) with
       | None => None
       | Some t =>
           Some (Mk_will t (match cl_will_payload (c_payload c) with Some p => p | None => [] end)
                         (cf_will_qos (c_flags c)) (cf_will_retain (c_flags c)))
       end.

(** session.rs 108-121 *)
Record session := Mk_session {
  se_connect : connect_packet;
  se_client_id : bytes;
  se_subs : list (bytes * stream);
  se_unacked : list (N * publish_packet);
  se_pubrecs : list (N * ack_packet);
  se_will : option will;
  se_auth : option bytes
}.

(** Field updates. *)
Definition set_subs x s := Mk_session (se_connect s) (se_client_id s) x (se_unacked s) (se_pubrecs s) (se_will s) (se_auth s).
Definition set_unacked x s := Mk_session (se_connect s) (se_client_id s) (se_subs s) x (se_pubrecs s) (se_will s) (se_auth s).
Definition set_pubrecs x s := Mk_session (se_connect s) (se_client_id s) (se_subs s) (se_unacked s) x (se_will s) (se_auth s).
Definition set_will x s := Mk_session (se_connect s) (se_client_id s) (se_subs s) (se_unacked s) (se_pubrecs s) x (se_auth s).
Definition set_auth x s := Mk_session (se_connect s) (se_client_id s) (se_subs s) (se_unacked s) (se_pubrecs s) (se_will s) x.

(** session.rs 136-153 *)
Definition session_new (c : connect_packet) : session :=
  Mk_session c (cl_client_id (c_payload c)) [] [] [] (will_of_connect c) None.

(** session.rs 155-160 *)
Definition set_connect_packet (c : connect_packet) (s : session) : session :=
  Mk_session c (cl_client_id (c_payload c)) (se_subs s) (se_unacked s) (se_pubrecs s)
             (will_of_connect c) (se_auth s).

(** session.rs 194-197 *)
Definition subscription_filters (s : session) : list bytes := akeys (se_subs s).

(** session.rs 201-231; [broker.subscribe] fails only if the store does, which the
    memory store never does. *)
Fixpoint restore_subscriptions (fs : list bytes) (s : session) (b : broker) : session * broker :=
  match fs with
  | [] => (s, b)
  | f :: fs =>
      let '(st, b) := broker_subscribe f b in
      restore_subscriptions fs (set_subs (aput bytes_eqb f st (se_subs s)) s) b
  end.

(** session.rs 233-276: the CONNACK and the session after [begin]; [uuid] is the
    generated identifier. *)
Definition with_client_id (i : bytes) (c : connect_packet) : connect_packet :=
  let p := c_payload c in
  Mk_connect_packet (c_protocol_version c) (c_flags c) (c_keepalive c) (c_properties c)
    (Mk_connect_payload i (cl_will_properties p) (cl_will_topic p) (cl_will_payload p)
                        (cl_user_name p) (cl_password p)).
Definition assigned_props (i : bytes) : connack_props :=
  Mk_connack_props None None None None None (Some i) None None None None None None None None None None None.
Definition begin (uuid : bytes) (resume : bool) (s : session) : packet * session :=
  let v := c_protocol_version (se_connect s) in
  match cl_client_id (c_payload (se_connect s)) with
  | [] =>
      (ConnAck (Mk_connack_packet v resume Success
                  (if supports_properties v then Some (assigned_props uuid) else None)),
       Mk_session (with_client_id uuid (se_connect s)) uuid (se_subs s) (se_unacked s) (se_pubrecs s)
                  (se_will s) (se_auth s))
  | _ => (ConnAck (Mk_connack_packet v resume Success None), s)
  end.

(** Result of a handler: response or error, new session, new broker. *)
Definition outcome := (res (option packet) * session * broker)%type.

(** session.rs 316-327 *)
Definition message_of (p : publish_packet) : message :=
  Mk_message (pb_packet_id p) (pb_topic p) (pb_dup p) (pb_qos p) (pb_retain p) (pb_payload p).

(** session.rs 278-335 *)
Definition handle_publish (p : publish_packet) (s : session) (b : broker) : outcome :=
  match validate_publish_topic (pb_topic p) with
  | Some _ => (Err (EReason TopicNameInvalid), s, b)
  | None =>
      let '(response, s) :=
        match pb_qos p with
        | AtMostOnce => (Ok None, s)
        | AtLeastOnce =>
            match pb_packet_id p with
            | Some i => (Ok (Some (PubAck (Mk_ack_packet i Success None))), s)
            | None => (Err (EReason ProtocolError), s)
            end
        | ExactlyOnce =>
            match pb_packet_id p with
            | Some i => (Ok (Some (PubRec (Mk_ack_packet i Success None))),
                         set_unacked (aput N.eqb i p (se_unacked s)) s)
            | None => (Err (EReason ProtocolError), s)
            end
        | QInvalid => (Err (EReason ProtocolError), s)
        end in
      (response, s, broker_publish (pb_topic p) (message_of p) b)
  end.

(** session.rs 337-342 *)
Definition handle_puback (a : ack_packet) (s : session) : res (option packet) * session :=
  (Ok None, set_unacked (adel N.eqb (ak_packet_id a) (se_unacked s)) s).

(** session.rs 344-358 *)
Definition handle_pubrec (a : ack_packet) (s : session) : res (option packet) * session :=
  let s := set_unacked (adel N.eqb (ak_packet_id a) (se_unacked s)) s in
  (Ok (Some (PubRel (Mk_ack_packet (ak_packet_id a) Success None))),
   set_pubrecs (aput N.eqb (ak_packet_id a) a (se_pubrecs s)) s).

(** session.rs 360-365 *)
Definition handle_pubcomp (a : ack_packet) (s : session) : res (option packet) * session :=
  (Ok None, set_pubrecs (adel N.eqb (ak_packet_id a) (se_pubrecs s)) s).

(** session.rs 367-377 *)
Definition handle_pubrel (a : ack_packet) (s : session) : res (option packet) * session :=
  (Ok (Some (PubComp (Mk_ack_packet (ak_packet_id a) Success None))),
   set_pubrecs (adel N.eqb (ak_packet_id a) (se_pubrecs s)) s).

(** session.rs 394-426: the loop over the requested filters. *)
Fixpoint subscribe_loop (fs : list sub_filter) (subs : list (bytes * stream)) (b : broker)
  : list reason * list (bytes * stream) * broker :=
  match fs with
  | [] => ([], subs, b)
  | (f, _) :: fs =>
      match validate_subscribe_filter f with
      | Some _ =>
          let '(rs, subs, b) := subscribe_loop fs subs b in (TopicFilterInvalid :: rs, subs, b)
      | None =>
          let '(st, b) := broker_subscribe f b in
          let '(rs, subs, b) := subscribe_loop fs (aput bytes_eqb f st subs) b in
          (GrantedQoS0 :: rs, subs, b)
      end
  end.
(** session.rs 379-431 *)
Definition handle_subscribe (p : subscribe_packet) (s : session) (b : broker) : outcome :=
  let '(rs, subs, b) := subscribe_loop (sb_payload p) (se_subs s) b in
  (Ok (Some (SubAck (Mk_suback_packet (c_protocol_version (se_connect s)) (sb_packet_id p) None rs))),
   set_subs subs s, b).

(** session.rs 445-455: the loop. *)
Fixpoint unsubscribe_loop (fs : list bytes) (subs : list (bytes * stream))
  : list reason * list (bytes * stream) :=
  match fs with
  | [] => ([], subs)
  | f :: fs =>
      let r := if is_some (aget bytes_eqb f subs) then Success else NoSubscriptionExisted in
      let '(rs, subs) := unsubscribe_loop fs (adel bytes_eqb f subs) in
      (r :: rs, subs)
  end.
(** session.rs 433-458 *)
Definition handle_unsubscribe (p : unsubscribe_packet) (s : session) : res (option packet) * session :=
  let '(rs, subs) := unsubscribe_loop (us_payload p) (se_subs s) in
  (Ok (Some (UnsubAck (Mk_unsuback_packet (c_protocol_version (se_connect s)) (us_packet_id p) None rs))),
   set_subs subs s).

(** session.rs 490-515 and 527-560: the AUTH packets sent. *)
Definition auth_success : packet := Auth (Mk_auth_packet Success auth_props_default).
Definition auth_challenge (name challenge : bytes) : packet :=
  Auth (Mk_auth_packet ContinueAuthentication (Mk_auth_props (Some name) (Some challenge) None None)).

(** session.rs 460-565 *)
Definition handle_auth (am : option auth_manager) (p : auth_packet) (s : session)
  : res (option packet) * session :=
  match am with
  | None => (Err (EReason BadAuthenticationMethod), s)
  | Some am =>
      match au_reason p with
      | ReAuthenticate =>
          match aup_auth_method (au_properties p) with
          | None => (Err (EReason ProtocolError), s)
          | Some name =>
              if negb (supports_method am name) then (Err (EReason BadAuthenticationMethod), s)
              else
                let s := set_auth (Some name) s in
                match start_auth am name (aup_auth_data (au_properties p)) with
                | AuthSuccess => (Ok (Some auth_success), set_auth None s)
                | AuthContinue ch => (Ok (Some (auth_challenge name ch)), s)
                | AuthFailed r => (Err (EReason r), s)
                end
          end
      | ContinueAuthentication =>
          match se_auth s with
          | None => (Err (EReason ProtocolError), s)
          | Some name =>
              match aup_auth_data (au_properties p) with
              | None => (Err (EReason ProtocolError), s)
              | Some data =>
                  match continue_auth am name data with
                  | AuthSuccess => (Ok (Some auth_success), set_auth None s)
                  | AuthContinue ch => (Ok (Some (auth_challenge name ch)), s)
                  | AuthFailed r => (Err (EReason r), set_auth None s)
                  end
              end
          end
      | _ => (Err (EReason ProtocolError), s)
      end
  end.

(** session.rs 567-590 *)
Definition process_incoming (am : option auth_manager) (k : packet) (s : session) (b : broker) : outcome :=
  match k with
  | Publish p => handle_publish p s b
  | PubAck a => let '(r, s) := handle_puback a s in (r, s, b)
  | PubRec a => let '(r, s) := handle_pubrec a s in (r, s, b)
  | PubRel a => let '(r, s) := handle_pubrel a s in (r, s, b)
  | PubComp a => let '(r, s) := handle_pubcomp a s in (r, s, b)
  | Subscribe p => handle_subscribe p s b
  | Unsubscribe p => let '(r, s) := handle_unsubscribe p s in (r, s, b)
  | PingReq => (Ok (Some PingResp), s, b)
  | Disconnect d => (Ok (Some (Disconnect d)), s, b)
  | Auth a => let '(r, s) := handle_auth am a s in (r, s, b)
  | _ => (Err (EReason ProtocolError), s, b)
  end.

(** session.rs 597-605 *)
Definition outgoing_publish (f : bytes) (m : message) : publish_packet :=
  Mk_publish_packet (mg_dup m) (mg_qos m) false f (mg_packet_id m) None (mg_payload m).

(** session.rs 592-625: [None] while the stream of filter [f] (the one the [StreamMap]
    polls) has nothing; [Panic] is the [unreachable!()] of line 617. *)
Definition process_outgoing (f : bytes) (s : session) (b : broker) : option (res publish_packet * session) :=
  match aget bytes_eqb f (se_subs s) with
  | None => None
  | Some st =>
      match stream_next (log_at (levels f) (bk_tree b)) st with
      | None => None
      | Some (m, st) =>
          let s := set_subs (aput bytes_eqb f st (se_subs s)) s in
          let p := outgoing_publish f m in
          match mg_packet_id m with
          | None => Some (Ok p, s)
          | Some i =>
              match mg_qos m with
              | AtMostOnce => Some (Ok p, s)
              | AtLeastOnce | ExactlyOnce => Some (Ok p, set_unacked (aput N.eqb i p (se_unacked s)) s)
              | QInvalid => Some (Panic, s)
              end
          end
      end
  end.

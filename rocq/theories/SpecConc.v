(** Vocabulary for the properties of concurrent handlers: what a schedule shows of a connection,
    and what each packet calls for. No handler of the model is used. *)
From Verif Require Import Base Utf8 Codec SpecCodec SpecTopic Maps Topic TopicTree Property PacketProps Packets Storage Broker Auth Session Server SpecServer Conc.
(* Conc is imported for the types of traces and configurations only. *)

(** The events of connection [c], the packets sent to it and what else its tasks did, in order. *)
Definition events_of (c : nat) (tr : list item) : list event :=
  flat_map (fun i => match i with IStart e => if event_of c e then [e] else [] | _ => [] end) tr.
Definition outputs_of (c : nat) (tr : list item) : list output :=
  flat_map (fun i => match i with IStep d (OOut o) => if Nat.eqb d c then [o] else [] | _ => [] end) tr.
(** Nothing of connection [c] is being handled. *)
Definition idle (c : nat) (x : conf) : Prop := aget Nat.eqb c (cn_tasks x) = None.

(** Strings are UTF-8 (they are of type String). *)
Definition texts (e : event) : Prop :=
  match e with
  | EPacket _ (Publish p) => utf8 (pb_topic p)
  | EPacket _ (Subscribe p) => Forall (fun fo => utf8 (fst fo)) (sb_payload p)
  | _ => True
  end.

(** What a client that sends this packet has to be sent. *)
Inductive reply (c : nat) : packet -> list output -> Prop :=
| rp_ping : reply c PingReq [Sent c PingResp]
| rp_publish0 p : topic_name (pb_topic p) -> pb_qos p = AtMostOnce -> reply c (Publish p) []
| rp_publish1 p n : topic_name (pb_topic p) -> pb_qos p = AtLeastOnce -> pb_packet_id p = Some n ->
    reply c (Publish p) [Sent c (PubAck (ack n))]
| rp_publish2 p n : topic_name (pb_topic p) -> pb_qos p = ExactlyOnce -> pb_packet_id p = Some n ->
    reply c (Publish p) [Sent c (PubRec (ack n))]
| rp_publish_bad p : ~ topic_name (pb_topic p) \/ pb_qos p = QInvalid \/ (pb_qos p <> AtMostOnce /\ pb_packet_id p = None) ->
    reply c (Publish p) [Closed c]
| rp_subscribe p v rs :
    Forall2 (fun fo r => (topic_filter (fst fo) /\ r = GrantedQoS0) \/ (~ topic_filter (fst fo) /\ r = TopicFilterInvalid)) (sb_payload p) rs ->
    reply c (Subscribe p) [Sent c (SubAck (Mk_suback_packet v (sb_packet_id p) None rs))]
| rp_unsubscribe p v rs :
    Forall2 (fun _ r => r = Success \/ r = NoSubscriptionExisted) (us_payload p) rs ->
    reply c (Unsubscribe p) [Sent c (UnsubAck (Mk_unsuback_packet v (us_packet_id p) None rs))]
| rp_puback a : reply c (PubAck a) []
| rp_pubcomp a : reply c (PubComp a) []
| rp_pubrec a : reply c (PubRec a) [Sent c (PubRel (ack (ak_packet_id a)))]
| rp_pubrel a : reply c (PubRel a) [Sent c (PubComp (ack (ak_packet_id a)))]
| rp_auth a b : reply c (Auth a) [Sent c (Auth b)]
| rp_auth_failed a : reply c (Auth a) [Closed c]
| rp_disconnect d : reply c (Disconnect d) [Closed c]
| rp_connect k : reply c (Connect k) [Closed c]
| rp_connack k : reply c (ConnAck k) [Closed c]
| rp_suback k : reply c (SubAck k) [Closed c]
| rp_unsuback k : reply c (UnsubAck k) [Closed c]
| rp_pingresp : reply c PingResp [Closed c].

(** What follows from an event on connection [c]; [open]: the connection has been accepted and not closed. *)
Definition answers (cfg : config) (c : nat) (open : bool) (e : event) (os : list output) : Prop :=
  match e with
  | EFirst _ (Some (Connect k)) _ a =>
      if open then os = []
      else (accepts cfg k /\ a = true /\ exists v present props qs, Forall (fun q => pb_dup q = true) qs /\
              os = Sent c (ConnAck (Mk_connack_packet v present Success props)) :: map (fun q => Sent c (Publish q)) qs)
        \/ (accepts cfg k /\ a = false /\ os = [Closed c])
        \/ (~ accepts cfg k /\ exists v, os = [Sent c (ConnAck (Mk_connack_packet v false BadUserNameOrPassword None)); Closed c])
  | EFirst _ _ _ _ => os = if open then [] else [Closed c]
  | EPacket _ k => if open then reply c k os else os = []
  | EOut _ f => os = [] \/ (open = true /\ ((exists q, pb_topic q = f /\ os = [Sent c (Publish q)]) \/ os = [Crashed c]))
  | EEnd _ => os = if open then [Closed c] else []
  | EPanic _ => os = if open then [Crashed c] else []
  | ERestart => False
  end.
(** Whether the connection is open after it was sent [os]. *)
Definition open_after (open : bool) (os : list output) : bool :=
  fold_left (fun b o => match o with
    | Sent _ (ConnAck a) => match ca_reason_code a with Success => true | _ => b end
    | Closed _ | Crashed _ => false
    | _ => b
    end) os open.
(** Each of the events in turn is followed by what it calls for, and nothing else is sent. *)
Inductive answered (cfg : config) (c : nat) : bool -> list event -> list output -> Prop :=
| an_nil b : answered cfg c b [] []
| an_cons b e es os oss : answers cfg c b e os -> answered cfg c (open_after b os) es oss ->
    answered cfg c b (e :: es) (os ++ oss).

(** ** Publishing *)
(** What the handlers of connection [c] did, in order. *)
Definition steps_of (c : nat) (tr : list item) : list obs :=
  flat_map (fun i => match i with IStep d o => if Nat.eqb d c then [o] else [] | _ => [] end) tr.
(** The messages sent to the subscribers of filter [f]; those that a handler of connection [c] sent. *)
Definition sent_by (f : bytes) (o : obs) : list message :=
  match o with OSend p m => if list_eq_dec (list_eq_dec N.eq_dec) p (levels f) then [m] else [] | _ => [] end.
Definition routed (f : bytes) (tr : list item) : list message :=
  flat_map (fun i => match i with IStep _ o => sent_by f o | _ => [] end) tr.
Definition routed_by (c : nat) (f : bytes) (tr : list item) : list message := flat_map (sent_by f) (steps_of c tr).
(** Connection [c] has been accepted and not closed. *)
Definition opened (c : nat) (tr : list item) : Prop := open_after false (outputs_of c tr) = true.
(** A PUBLISH that does not end the connection. *)
Definition valid_publish (p : publish_packet) : Prop :=
  topic_name (pb_topic p) /\ (pb_qos p = AtMostOnce \/ (pb_qos p <> QInvalid /\ pb_packet_id p <> None)).
(** Event [e] of connection [c] was handled while [mid] happened. *)
Definition handled (c : nat) (e : event) (pre mid post tr : list item) : Prop :=
  tr = pre ++ IStart e :: mid ++ IEnd c :: post /\ event_of c e = true /\ ~ In (IEnd c) mid.
(** A client has been sent the SUBACK for a subscription to [f]. *)
Definition granted (f : bytes) (tr : list item) : Prop :=
  exists d q pre mid post a, tr = pre ++ IStart (EPacket d (Subscribe q)) :: mid ++ IStep d (OOut (Sent d (SubAck a))) :: post
    /\ opened d pre /\ ~ In (IEnd d) mid /\ In f (map fst (sb_payload q)).

(** ** Sessions *)
(** Connection [c] sent a CONNECT with identifier [id]; session [i] was created for this identifier. *)
Definition came (c : nat) (id : bytes) (tr : list item) : Prop :=
  exists k u a, In (IStart (EFirst c (Some (Connect k)) u a)) tr /\ presented k = id.
Definition created (i : nat) (id : bytes) (tr : list item) : Prop := exists d s, In (IStep d (ONew id i s)) tr.
(** Connection [c] reads or changes session [i]. *)
Definition uses (c i : nat) (tr : list item) : Prop := exists s s', In (IStep c (OSess i s s')) tr.
(** No other connection presents an identifier that connection [c] presents. *)
Definition lone (c : nat) (tr : list item) : Prop := forall d id, came c id tr -> came d id tr -> d = c.
(** From here on connection [c] neither subscribes to [f] nor unsubscribes from it (nor starts anew). *)
Definition keeps_subscription (c : nat) (f : bytes) (tr : list item) : Prop :=
  forall e, In (IStart e) tr ->
    (forall p, e = EPacket c (Subscribe p) -> ~ In f (map fst (sb_payload p))) /\
    (forall p, e = EPacket c (Unsubscribe p) -> ~ In f (us_payload p)) /\
    (forall k u a, e <> EFirst c k u a).
(** Never more than 16 messages wait for the subscription during [tr]: [ret] and the messages in [before] and [tr]
    have to be sent. *)
Definition keeping_up (c : nat) (f : bytes) (ret before : list message) (tr : list item) : Prop :=
  forall a b, tr = a ++ b ->
    (length (before ++ routed f a) - (length (deliveries c f (outputs_of c a)) - length ret) <= 16)%nat.

(** ** Wills *)
(** Connection [c] is not closed in [tr]. *)
Definition unclosed (c : nat) (tr : list item) : Prop :=
  ~ In (Closed c) (outputs_of c tr) /\ ~ In (Crashed c) (outputs_of c tr).

(** ** Who sent what, who asked for what *)
(** Message [m] was sent by a client the broker had accepted: in a PUBLISH on an open connection, to
    a topic without wildcards, or as the will of a CONNECT with which the broker lets the client in. *)
Inductive sourced (cfg : config) (tr : list item) : message -> Prop :=
| so_publish pre post c p r : tr = pre ++ IStart (EPacket c (Publish p)) :: post -> opened c pre -> topic_name (pb_topic p) ->
    sourced cfg tr (Mk_message (pb_packet_id p) (pb_topic p) (pb_dup p) (pb_qos p) r (pb_payload p))
| so_will pre post c k u a t r : tr = pre ++ IStart (EFirst c (Some (Connect k)) u a) :: post -> ~ opened c pre -> accepts cfg k ->
    cf_will_flag (c_flags k) = true -> cl_will_topic (c_payload k) = Some t ->
    sourced cfg tr (Mk_message None t false (cf_will_qos (c_flags k)) r
      (Some (match cl_will_payload (c_payload k) with Some p => p | None => [] end))).
(** On connection [c] the client asked for [f]. *)
Definition asked (c : nat) (f : bytes) (tr : list item) : Prop :=
  exists pre post p, tr = pre ++ IStart (EPacket c (Subscribe p)) :: post /\ opened c pre
    /\ In f (map fst (sb_payload p)) /\ topic_filter f.
(** Connection [c] came with the identifier [id], or with none and [id] was made up for it. *)
Definition named (c : nat) (id : bytes) (tr : list item) : Prop :=
  exists k u a, In (IStart (EFirst c (Some (Connect k)) u a)) tr /\ (presented k = id \/ (presented k = [] /\ u = id)).
(** Connections of the same client: joined by identifiers that they share. *)
Inductive linked (tr : list item) : nat -> nat -> Prop :=
| lk_refl c : linked tr c c
| lk_step c d e id : linked tr c d -> named d id tr -> named e id tr -> linked tr c e.

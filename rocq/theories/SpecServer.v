(** Vocabulary for the properties of sessions and of the server: who is served, what a
    session is subscribed to, what counts as a change. No handler of the model is used. *)
From Verif Require Import Base Codec SpecTopic Maps Topic TopicTree Property PacketProps Packets Storage Broker Auth Session Server.
(* Session and Server are imported for the types of sessions, worlds and events only;
   [log_at] reads what has been sent to a filter's subscribers. *)

(** Connection [c] is served with session number [i] in state [s]. *)
Definition serves (w : world) (c i : nat) (s : session) : Prop :=
  aget Nat.eqb c (w_conns w) = Some i /\ nth_error (w_heap w) i = Some s.
Definition not_served (w : world) (c : nat) : Prop := aget Nat.eqb c (w_conns w) = None.

Definition subscribed (s : session) (f : bytes) : Prop := In f (map fst (se_subs s)).
(** The state of one subscription. *)
Definition subscription (s : session) (f : bytes) (st : stream) : Prop := aget bytes_eqb f (se_subs s) = Some st.

(** Everything in a session but the subscriptions. *)
Definition same_but_subs (s s' : session) : Prop :=
  se_connect s' = se_connect s /\ se_client_id s' = se_client_id s /\ se_unacked s' = se_unacked s /\
  se_pubrecs s' = se_pubrecs s /\ se_will s' = se_will s /\ se_auth s' = se_auth s.

(** No session but number [i] changed, nor the set of sessions and connections. *)
Definition only_session (i : nat) (w w' : world) : Prop :=
  w_manager w' = w_manager w /\ w_conns w' = w_conns w /\
  forall j, j <> i -> nth_error (w_heap w') j = nth_error (w_heap w) j.

(** The messages every subscriber has been or will be sent. *)
Definition sent_to (w : world) (f : bytes) : list message := log_at (levels f) (bk_tree (w_broker w)).
Definition nothing_routed (w w' : world) : Prop :=
  forall q, log_at q (bk_tree (w_broker w')) = log_at q (bk_tree (w_broker w)).
Definition same_retained (w w' : world) : Prop := ms_retained (w_store w') = ms_retained (w_store w).
Definition same_wills (w w' : world) : Prop := ms_wills (w_store w') = ms_wills (w_store w).
Definition same_inflight (w w' : world) : Prop := ms_inflight (w_store w') = ms_inflight (w_store w).
Definition same_stored_sessions (w w' : world) : Prop := ms_sessions (w_store w') = ms_sessions (w_store w).

(** Reachable worlds: a broker started with an empty store, any events. *)
Definition reachable (cfg : config) (w : world) : Prop :=
  exists es, fst (run cfg es world_new) = w.

(** [origin es m]: message [m], up to its retain flag, was published by a PUBLISH or as the
    will of a CONNECT among the events [es]. *)
Inductive origin (es : list event) : message -> Prop :=
| or_publish c p r : In (EPacket c (Publish p)) es ->
    origin es (Mk_message (pb_packet_id p) (pb_topic p) (pb_dup p) (pb_qos p) r (pb_payload p))
| or_will c k u a t r : In (EFirst c (Some (Connect k)) u a) es ->
    cf_will_flag (c_flags k) = true -> cl_will_topic (c_payload k) = Some t ->
    origin es (Mk_message None t false (cf_will_qos (c_flags k)) r
                 (Some (match cl_will_payload (c_payload k) with Some p => p | None => [] end))).

(** [delivers m q]: the PUBLISH [q] carries message [m] to a subscriber whose filter matches. *)
Definition delivers (m : message) (q : publish_packet) : Prop :=
  matches (pb_topic q) (mg_topic m) /\ pb_payload q = mg_payload m /\ pb_qos q = mg_qos m
  /\ pb_packet_id q = mg_packet_id m.

(** From [w] to [w'] message [m] on topic [t] is sent once to every subscription that matches
    and to no other. *)
Definition routes (t : bytes) (m : message) (w w' : world) : Prop :=
  forall j s f, nth_error (w_heap w) j = Some s -> subscribed s f ->
    (matches f t /\ sent_to w' f = sent_to w f ++ [m]) \/ (~ matches f t /\ sent_to w' f = sent_to w f).
(** The message a PUBLISH carries. *)
Definition carries (p : publish_packet) (m : message) : Prop :=
  mg_topic m = pb_topic p /\ mg_payload m = pb_payload p /\ mg_qos m = pb_qos p
  /\ mg_packet_id m = pb_packet_id p /\ mg_retain m = pb_retain p /\ mg_dup m = pb_dup p.

(** A packet with this type, identifier and plain success. *)
Definition ack (n : N) : ack_packet := Mk_ack_packet n Success None.

(** The PUBLISH packets sent to connection [c] for the subscription to [f]. *)
Fixpoint deliveries (c : nat) (f : bytes) (o : list output) : list publish_packet :=
  match o with
  | [] => []
  | Sent d (Publish q) :: o =>
      if Nat.eqb d c then if bytes_eqb (pb_topic q) f then q :: deliveries c f o else deliveries c f o
      else deliveries c f o
  | _ :: o => deliveries c f o
  end.
(** Packet [q] is message [m] sent for filter [f]. *)
Definition sent_as (f : bytes) (q : publish_packet) (m : message) : Prop :=
  pb_topic q = f /\ pb_payload q = mg_payload m /\ pb_qos q = mg_qos m /\ pb_packet_id q = mg_packet_id m
  /\ pb_dup q = mg_dup m /\ pb_retain q = false.

(** ** Histories of connections *)
(** The credentials a configuration accepts. *)
Definition accepts (cfg : config) (k : connect_packet) : Prop :=
  sv_require_auth cfg = false \/
  exists u p v, cl_user_name (c_payload k) = Some u /\ cl_password (c_payload k) = Some p
    /\ sv_validator cfg = Some v /\ v u p = true.
(** The broker after a history. *)
Definition state (cfg : config) (es : list event) : world := fst (run cfg es world_new).
(** During [es] connection [c] sent the CONNECT [k], which was accepted; [a]: the CONNACK
    could be written. *)
Definition connected (cfg : config) (es : list event) (c : nat) (k : connect_packet) (u : bytes) (a : bool) : Prop :=
  exists es1 es2, es = es1 ++ EFirst c (Some (Connect k)) u a :: es2 /\ not_served (state cfg es1) c /\ accepts cfg k.
(** Connection [c] has been served since it sent the CONNECT [k]. *)
Definition opened_by (cfg : config) (es : list event) (c : nat) (k : connect_packet) : Prop :=
  exists es1 u es2, es = es1 ++ EFirst c (Some (Connect k)) u true :: es2 /\ not_served (state cfg es1) c /\ accepts cfg k
    /\ forall p q, es2 = p ++ q -> ~ not_served (state cfg (es1 ++ EFirst c (Some (Connect k)) u true :: p)) c.
(** The identifier a CONNECT presents. *)
Definition presented (k : connect_packet) : bytes := cl_client_id (c_payload k).
(** The identifier the client has afterwards: its own, or [u] assigned by the broker. *)
Definition identifier (k : connect_packet) (u : bytes) : bytes :=
  match presented k with [] => u | id => id end.
(** The connection an event or an output belongs to. *)
Definition event_of (c : nat) (e : event) : bool :=
  match e with EFirst d _ _ _ | EPacket d _ | EOut d _ | EEnd d | EPanic d => Nat.eqb d c | ERestart => false end.
Definition output_of (c : nat) (o : output) : bool :=
  match o with Sent d _ | Closed d | Crashed d => Nat.eqb d c end.
(** Nobody else has the identifier [id]: no served connection presented it, and the broker
    has not made it up for somebody. *)
Definition alone (cfg : config) (es : list event) (id : bytes) : Prop :=
  (forall d q, opened_by cfg es d q -> presented q <> id) /\
  (forall d q v a, connected cfg es d q v a -> presented q = [] -> v <> id).
(** No client gets the identifier [id], and the broker is not restarted. *)
Definition avoids (id : bytes) (e : event) : Prop :=
  e <> ERestart /\ forall c k u a, e = EFirst c (Some (Connect k)) u a -> presented k <> id /\ identifier k u <> id.
(** The will a CONNECT declares. *)
Definition declares (k : connect_packet) (x : will) : Prop :=
  cf_will_flag (c_flags k) = true /\ cl_will_topic (c_payload k) = Some (wl_topic x) /\
  wl_payload x = match cl_will_payload (c_payload k) with Some p => p | None => [] end /\
  wl_qos x = cf_will_qos (c_flags k) /\ wl_retain x = cf_will_retain (c_flags k).
(** No client has used the identifier [id] since the broker was last started. *)
Definition unused_since_start (id : bytes) (es : list event) : Prop :=
  exists es0 es1, es = es0 ++ es1 /\ (es0 = [] \/ exists p, es0 = p ++ [ERestart]) /\ Forall (avoids id) es1.
(** The packets that change the subscriptions; the packets that acknowledge message [n]. *)
Definition changes_subscriptions (x : packet) : Prop :=
  (exists p, x = Subscribe p) \/ (exists p, x = Unsubscribe p).
Definition acknowledges (n : N) (x : packet) : Prop :=
  exists a, (x = PubAck a \/ x = PubComp a) /\ ak_packet_id a = n.
(** The message that publishes a will. *)
Definition announces (x : will) (m : message) : Prop :=
  mg_topic m = wl_topic x /\ mg_payload m = Some (wl_payload x) /\ mg_qos m = wl_qos x /\ mg_retain m = wl_retain x
  /\ mg_dup m = false /\ mg_packet_id m = None.
(** The broker has no will to publish for session [i] and identifier [id]. *)
Definition no_will (w : world) (i : nat) (id : bytes) : Prop :=
  (exists s, nth_error (w_heap w) i = Some s /\ se_will s = None) /\ aget bytes_eqb id (ms_wills (w_store w)) = None.

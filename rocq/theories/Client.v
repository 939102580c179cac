(** The client library: mercurio-client/src/client.rs and options.rs.

    The event loop (client.rs 210-320) is modelled as one transition per branch taken by
    its [select!]; what the network does (which packet is read, whether a write
    succeeds) is part of the transition's input. [connect] (57-126) without the TCP and
    TLS handshakes, which either fail with an error or give a stream. *)
From Verif Require Import Base Codec PacketProps Packets Frame.

(** ** Options and CONNECT *)

(** options.rs 5-11 [Will] *)
Record will_options := Mk_will_options {
  wo_topic : bytes;
  wo_payload : bytes;
  wo_qos : qos;
  wo_retain : bool
}.

(** options.rs 46-60 [ConnectOptions], without host, port, timeout and TLS settings, which
    do not reach the MQTT layer. *)
Record connect_options := Mk_connect_options {
  op_client_id : option bytes;
  op_username : option bytes;
  op_password : option bytes;
  op_keep_alive : N;
  op_clean_start : bool;
  op_will : option will_options;
  op_version : version
}.

(** options.rs 64-78 [ConnectOptions::new] *)
Definition options_new : connect_options :=
  Mk_connect_options None None None 60 true None V5.

(** client.rs 177-207 [build_connect_packet] *)
Definition build_connect (o : connect_options) : connect_packet :=
  Mk_connect_packet (op_version o)
    (Mk_connect_flags (is_some (op_username o)) (is_some (op_password o))
       (match op_will o with Some w => wo_retain w | None => false end)
       (match op_will o with Some w => wo_qos w | None => AtMostOnce end)
       (is_some (op_will o))
       (op_clean_start o))
    (op_keep_alive o)
    None
    (Mk_connect_payload
       (match op_client_id o with Some i => i | None => [] end)
       (option_map (fun _ => will_props_default) (op_will o))
       (option_map wo_topic (op_will o))
       (option_map wo_payload (op_will o))
       (op_username o)
       (op_password o)).

(** error.rs 6-42 [ClientError], the variants used. *)
Inductive client_error :=
| CIo
| CConnectionFailed
| CConnectionRefused (r : reason)
| CProtocol
| CPacket (e : error)
| CTimeout
| CDisconnected
| CSendError.

Inductive cres (A : Type) :=
| COk (a : A)
| CErr (e : client_error)
| CPanic.
Arguments COk {A} a.
Arguments CErr {A} e.
Arguments CPanic {A}.

(** client.rs 143-174, the part of [perform_connect] after the CONNECT was written;
    [answer] is [None] when the timeout expires first. An i/o error of the read is
    [RError EIo]. Returns the client identifier ([MqttClient::client_id]). *)
Definition perform_connect (o : connect_options) (answer : option read_out) : cres bytes :=
  match answer with
  | None => CErr CTimeout
  | Some (RError EIo) => CErr CIo
  | Some (RError e) => CErr (CPacket e)
  | Some RPanic => CPanic
  | Some RClosed => CErr CConnectionFailed
  | Some (RPacket (ConnAck a)) =>
      if negb (reason_eqb (ca_reason_code a) Success)
      then CErr (CConnectionRefused (ca_reason_code a))
      else
        let assigned := match ca_properties a with
                        | Some q => cap_assigned_client_id q
                        | None => None
                        end in
        COk (match assigned with
             | Some id => id
             | None => match op_client_id o with Some i => i | None => [] end
             end)
  | Some (RPacket _) => CErr CProtocol
  end.

(** ** The event loop *)

(** client.rs 28-47 [Command]; the [response] sender is the [Answer] output. *)
Inductive command :=
| CmdPublish (topic payload : bytes) (q : qos) (retain : bool)
| CmdSubscribe (topics : list (bytes * qos))
| CmdUnsubscribe (topics : list bytes)
| CmdDisconnect.

(** event.rs 6-36; [ProtocolError] is never constructed. *)
Inductive disconnect_reason := ClientInitiated | ServerInitiated | ConnectionLost | KeepAliveLost.
Inductive cevent :=
| Message (topic payload : bytes) (q : qos) (retain : bool)
| Disconnected (r : disconnect_reason).

(** event.rs 38-44 [SubscribeResult] *)
Record sub_result := Mk_sub_result { sr_topic : bytes; sr_qos : qos; sr_success : bool }.

(** What the calls of the API return (513-584). *)
Inductive reply :=
| Published (r : cres (option N))
| Subscribed (r : cres (list sub_result))
| Unsubscribed (r : cres unit)
| DisconnectDone (r : cres unit).

(** [cl_next]: [packet_id_counter] (219). [cl_queue]: the events in the channel (74).
    [cl_waiting]: an event whose [send] waits for room in the channel; the loop is
    suspended there. [cl_alive]: false once the loop is left (or about to be, after
    [cl_waiting] is sent). [cl_dropped]: the [MqttClient] was dropped. *)
Record client := Mk_client {
  cl_next : N;
  cl_queue : list cevent;
  cl_waiting : option cevent;
  cl_alive : bool;
  cl_dropped : bool
}.

(** client.rs 72-74, 219 *)
Definition client_new : client := Mk_client 1 [] None true false.

(** client.rs 74: capacity of the event channel. *)
Definition event_capacity : nat := 256.

(** One turn of the loop or one action of the application. The boolean says whether
    writes succeed. *)
Inductive cinput :=
| IRead (r : read_out) (ok : bool)
| ICommand (c : command) (ok : bool)
| ITick (ok : bool)
| IRecv
| IDrop.

(** [Wrote k]: [k] was written and flushed; [Failed k]: the write failed (some bytes may
    have been sent); [Answer]: an API call returns; [Received]: [recv] returns;
    [Panicked]: the task of the event loop panics. *)
Inductive coutput :=
| Wrote (k : packet)
| Failed (k : packet)
| Answer (r : reply)
| Received (e : option cevent)
| Panicked.

(** [AtomicU16::fetch_add] *)
Definition next_id (c : client) : client :=
  Mk_client ((cl_next c + 1) mod two16) (cl_queue c) (cl_waiting c) (cl_alive c) (cl_dropped c).

(** Leaving the loop ([break]) or panicking. *)
Definition stop (c : client) : client :=
  Mk_client (cl_next c) (cl_queue c) (cl_waiting c) false (cl_dropped c).

(** [let _ = event_tx.send(e).await]: waits when the channel is full; an error (the
    receiver is gone) is ignored. *)
Definition report (e : cevent) (c : client) : client :=
  if cl_dropped c then c
  else if Nat.ltb (length (cl_queue c)) event_capacity
  then Mk_client (cl_next c) (cl_queue c ++ [e]) (cl_waiting c) (cl_alive c) (cl_dropped c)
  else Mk_client (cl_next c) (cl_queue c) (Some e) (cl_alive c) (cl_dropped c).

(** connection.rs 55-61 [write_packet]: encoding (which may panic), writing. *)
Definition write_packet (k : packet) (ok : bool) : cres unit :=
  match packet_enc k with
  | Panic => CPanic
  | _ => if ok then COk tt else CErr CIo
  end.

Definition wrote (k : packet) (ok : bool) : list coutput := [if ok then Wrote k else Failed k].

(** client.rs 323-381 [handle_incoming_packet]; an error is only logged (241). *)
Definition handle_incoming (k : packet) (ok : bool) (c : client) : client * list coutput :=
  match k with
  | Publish b =>
      let message := Message (pb_topic b) (match pb_payload b with Some d => d | None => [] end)
                       (pb_qos b) (pb_retain b) in
      match pb_qos b, pb_packet_id b with
      | AtLeastOnce, Some id =>
          let ack := PubAck (Mk_ack_packet id Success None) in
          match write_packet ack ok with
          | COk _ => (report message c, wrote ack true)
          | CErr _ => (c, wrote ack false)
          | CPanic => (stop c, [Panicked])
          end
      | _, _ => (report message c, [])
      end
  | Disconnect _ => (report (Disconnected ServerInitiated) c, [])
  | _ => (c, [])
  end.

(** client.rs 395-409: the PUBLISH of [handle_publish]. *)
Definition publish_request (id : option N) (topic payload : bytes) (q : qos) (retain : bool) : packet :=
  Publish (Mk_publish_packet false q retain topic id None (Some payload)).

(** client.rs 428-445; the default [SubscriptionOptions] (subscribe.rs 93-99, 70-80). *)
Definition subscribe_request (id : N) (topics : list (bytes * qos)) : packet :=
  Subscribe (Mk_subscribe_packet id None
    (map (fun t => (fst t, Mk_sub_options (snd t) false false SendRetained)) topics)).

(** client.rs 472-485 *)
Definition unsubscribe_request (id : N) (topics : list bytes) : packet :=
  Unsubscribe (Mk_unsubscribe_packet id None topics).

(** client.rs 500-503 *)
Definition disconnect_request : packet := Disconnect (Mk_disconnect_packet NormalDisconnection None).

(** Writing a request and answering the caller: the common part of 384-417, 420-461,
    464-493 and 496-510. A panic drops the response channel: the caller gets
    [ClientError::Disconnected]. *)
Definition request {A} (k : packet) (ok : bool) (result : A) (mk : cres A -> reply) (c : client)
    : client * list coutput :=
  match write_packet k ok with
  | COk _ => (c, [Wrote k; Answer (mk (COk result))])
  | CErr e => (c, [Failed k; Answer (mk (CErr e))])
  | CPanic => (stop c, [Panicked; Answer (mk (CErr CDisconnected))])
  end.

(** client.rs 263-301 *)
Definition handle_command (cmd : command) (ok : bool) (c : client) : client * list coutput :=
  match cmd with
  | CmdPublish topic payload q retain =>
      match q with
      | AtMostOnce =>
          request (publish_request None topic payload q retain) ok None Published c
      | _ =>
          let id := cl_next c in
          request (publish_request (Some id) topic payload q retain) ok (Some id) Published (next_id c)
      end
  | CmdSubscribe topics =>
      request (subscribe_request (cl_next c) topics) ok
        (map (fun t => Mk_sub_result (fst t) (snd t) true) topics) Subscribed (next_id c)
  | CmdUnsubscribe topics =>
      request (unsubscribe_request (cl_next c) topics) ok tt Unsubscribed (next_id c)
  | CmdDisconnect =>
      let (c, o) := request disconnect_request ok tt DisconnectDone c in
      (if cl_alive c then report (Disconnected ClientInitiated) (stop c) else c, o)
  end.

(** What an API call returns once the loop is gone: [send] on the command channel fails. *)
Definition refuse (cmd : command) : reply :=
  match cmd with
  | CmdPublish _ _ _ _ => Published (CErr CSendError)
  | CmdSubscribe _ => Subscribed (CErr CSendError)
  | CmdUnsubscribe _ => Unsubscribed (CErr CSendError)
  | CmdDisconnect => DisconnectDone (CErr CSendError)
  end.

(** client.rs 586-591 [recv]: the first event; [None] once the channel is empty and its
    sender gone; otherwise it waits ([None] of the outer option: not enabled). Taking an
    event lets a waiting [send] complete. *)
Definition recv (c : client) : option (client * list coutput) :=
  match cl_queue c with
  | e :: q =>
      Some (Mk_client (cl_next c)
              (match cl_waiting c with Some w => q ++ [w] | None => q end) None
              (cl_alive c) (cl_dropped c), [Received (Some e)])
  | [] => if cl_alive c then None else Some (c, [Received None])
  end.

(** One transition; [None] when it is not enabled: nothing but [recv] and dropping the
    client is while an event waits for room, the loop does nothing once left, and the
    application cannot use a client it has dropped. A command whose turn has not come
    waits in the command channel (73), which is the input that has not happened yet. *)
Definition cstep (c : client) (i : cinput) : option (client * list coutput) :=
  match i with
  | IRecv => if cl_dropped c then None else recv c
  | IDrop => if cl_dropped c then None
             else Some (Mk_client (cl_next c) [] None (cl_alive c) true, [])
  | ICommand cmd ok =>
      if cl_dropped c || is_some (cl_waiting c) then None
      else if cl_alive c then Some (handle_command cmd ok c)
      else Some (c, [Answer (refuse cmd)])
  | IRead r ok =>
      if negb (cl_alive c) || is_some (cl_waiting c) then None
      else match r with
           | RPacket k => Some (handle_incoming k ok c)
           | RClosed => Some (report (Disconnected ServerInitiated) (stop c), [])
           | RError _ => Some (report (Disconnected ConnectionLost) (stop c), [])
           | RPanic => Some (stop c, [Panicked])
           end
  | ITick ok =>
      if negb (cl_alive c) || is_some (cl_waiting c) then None
      else match write_packet PingReq ok with
           | COk _ => Some (c, [Wrote PingReq])
           | CErr _ => Some (report (Disconnected KeepAliveLost) (stop c), [Failed PingReq])
           | CPanic => Some (stop c, [Panicked])
           end
  end.

(** A history: inputs, each enabled, with what they output. *)
Inductive cruns (c : client) : list cinput -> client -> list coutput -> Prop :=
| cruns_nil : cruns c [] c []
| cruns_snoc is c1 outs i c2 out :
    cruns c is c1 outs -> cstep c1 i = Some (c2, out) -> cruns c (is ++ [i]) c2 (outs ++ out).

(** client.rs 222-226: seconds between PINGREQs. *)
Definition ping_interval (keep_alive : N) : N :=
  if 0 <? keep_alive then N.max (keep_alive / 2) 1 else (two64 - 1) / 2.

(** Model of mercurio-server/src/session_manager.rs and server.rs.

    The world holds the sessions (an [Arc<Shared>] is an index into [w_heap]), the
    manager's map from identifier to session, the broker with the store, and the
    connections being served. A step is one event of one connection. The store
    is the memory store, whose operations do not fail; a failing store and crash points
    inside a step are treated in Crash.v, waiting for locks in Locks.v, timers in
    Timer.v. A failing write of a response is the response followed by the end of
    the connection; only the CONNACK write is treated inside the step, because
    the code skips the store when it fails. *)
From Verif Require Import Base Codec Maps Topic Property PacketProps Packets TopicTree Storage Broker Auth Session.

(** server.rs 27-34; the validator of [CredentialValidator] is a function. *)
Record config := Mk_config {
  sv_require_auth : bool;
  sv_validator : option (bytes -> bytes -> bool);
  sv_manager : option auth_manager
}.

Record world := Mk_world {
  w_heap : list session;
  w_manager : list (bytes * nat);
  w_broker : broker;
  w_conns : list (nat * nat)       (* connection -> session *)
}.
Definition set_heap x w := Mk_world x (w_manager w) (w_broker w) (w_conns w).
Definition set_manager x w := Mk_world (w_heap w) x (w_broker w) (w_conns w).
Definition set_broker x w := Mk_world (w_heap w) (w_manager w) x (w_conns w).
Definition set_conns x w := Mk_world (w_heap w) (w_manager w) (w_broker w) x.
Definition set_store x w := set_broker (Mk_broker (bk_tree (w_broker w)) x) w.
Definition w_store w := bk_store (w_broker w).

(** server.rs 78, 99-105: a broker with an empty store. *)
Definition world_new : world := Mk_world [] [] broker_new [].
(** A new process on the old store ([SessionManager::new], [Broker::new] take the store as
    an argument; run_with_tls always passes a new memory store). *)
Definition restart (w : world) : world := Mk_world [] [] (Mk_broker new_node (w_store w)) [].

Fixpoint list_set {A} (n : nat) (x : A) (l : list A) : list A :=
  match l, n with
  | [], _ => []
  | _ :: l, O => x :: l
  | y :: l, S n => y :: list_set n x l
  end.
Definition put_session (i : nat) (s : session) (w : world) : world := set_heap (list_set i s (w_heap w)) w.

Inductive event :=
| EFirst (c : nat) (first : option packet) (uuid : bytes) (ack_written : bool)
    (* the first packet of a new connection, [None]: end of stream or error *)
| EPacket (c : nat) (k : packet)     (* a packet is read on an open connection *)
| EOut (c : nat) (f : bytes)         (* the stream of filter [f] is polled for connection [c] *)
| EEnd (c : nat)                     (* end of stream, I/O error, keep-alive timeout, shutdown *)
| EPanic (c : nat)                   (* the task panics outside the session's code: a frame that
                                        panics the decoder (C10), a keep-alive of 0 (C50) *)
| ERestart.

(** What can be observed. *)
Inductive output :=
| Sent (c : nat) (k : packet)
| Closed (c : nat)
| Crashed (c : nat).                 (* the connection's task panicked *)

(** session_manager.rs 80-174. The first result is the CONNACK; the session index, the
    filters, the will and the messages to restore; [None] if writing the CONNACK failed. *)
Record start_result := Mk_start_result {
  sr_session : nat;
  sr_subs : list bytes;
  sr_will : option will;
  sr_inflight : list inflight
}.
(** session_manager.rs 89-136: resume flag, data to restore, state after. *)
Definition lookup_session (k : connect_packet) (w : world)
  : bool * list bytes * option will * list inflight * world :=
  let cid := cl_client_id (c_payload k) in
  if cf_clean_start (c_flags k) then
    (false, [], None, [],
     set_store (mem_delete_will cid (mem_delete_session cid (w_store w)))
               (set_manager (adel bytes_eqb cid (w_manager w)) w))
  else if is_some (aget bytes_eqb cid (w_manager w)) then (true, [], None, [], w)
  else match mem_load_session cid (w_store w) with
       | Some st => (true, ss_subscriptions st, mem_get_will cid (w_store w),
                     mem_get_all_inflight cid (w_store w), w)
       | None => (false, [], None, [], w)
       end.
(** session_manager.rs 138-148 *)
Definition enter_session (k : connect_packet) (w : world) : nat * world :=
  let cid := cl_client_id (c_payload k) in
  match aget bytes_eqb cid (w_manager w) with
  | Some i =>
      match nth_error (w_heap w) i with
      | Some s => (i, put_session i (set_connect_packet k s) w)
      | None => (i, w)       (* excluded by the invariant of ServerFacts.v *)
      end
  | None =>
      let i := length (w_heap w) in
      (i, set_manager (aput bytes_eqb cid i (w_manager w)) (set_heap (w_heap w ++ [session_new k]) w))
  end.
Definition start_session (uuid : bytes) (ack_written : bool) (k : connect_packet) (w : world)
  : packet * option start_result * world :=
  let '(resume, subs, wl, infl, w) := lookup_session k w in
  let '(i, w) := enter_session k w in
  match nth_error (w_heap w) i with
  | None => (PingReq, None, w)   (* excluded by the invariant of ServerFacts.v *)
  | Some s =>
      let '(ack, s) := begin uuid resume s in
      let w := put_session i s w in
      if ack_written then
        let cid := se_client_id s in
        let st := mem_save_session cid (Mk_session_state cid subs false) (w_store w) in
        let st := match se_will s with Some x => mem_store_will cid x st | None => st end in
        (ack, Some (Mk_start_result i subs wl infl), set_store st w)
      else (ack, None, w)
  end.

(** server.rs 218-240: the credential check. *)
Definition authenticated (cfg : config) (k : connect_packet) : bool :=
  if sv_require_auth cfg then
    match cl_user_name (c_payload k), cl_password (c_payload k) with
    | Some u, Some p => match sv_validator cfg with Some v => v u p | None => false end
    | _, _ => false
    end
  else true.

(** server.rs 281-299 *)
Definition retry_publish (i : inflight) : publish_packet :=
  Mk_publish_packet true (if_qos i) false (if_topic i) (Some (if_packet_id i)) None (if_payload i).

(** server.rs 444-464 *)
Definition will_message (x : will) : message :=
  Mk_message None (wl_topic x) false (wl_qos x) (wl_retain x) (Some (wl_payload x)).
Definition publish_will (x : will) (b : broker) : broker := broker_publish (wl_topic x) (will_message x) b.

(** server.rs 216-300, up to the call of handle_connection *)
Definition connect_step (cfg : config) (c : nat) (k : connect_packet) (uuid : bytes) (ack_written : bool)
    (w : world) : world * list output :=
  if negb (authenticated cfg k) then
    (w, [Sent c (ConnAck (Mk_connack_packet (c_protocol_version k) false BadUserNameOrPassword None)); Closed c])
  else
    let '(ack, r, w) := start_session uuid ack_written k w in
    match r with
    | None => (w, [Closed c])
    | Some r =>
        match nth_error (w_heap w) (sr_session r) with
        | None => (w, [Closed c])   (* excluded by the invariant of ServerFacts.v *)
        | Some s =>
            let '(s, b) := restore_subscriptions (sr_subs r) s (w_broker w) in
            let s := match sr_will r with Some x => set_will (Some x) s | None => s end in
            let w := put_session (sr_session r) s (set_broker b w) in
            (set_conns (aput Nat.eqb c (sr_session r) (w_conns w)) w,
             Sent c ack :: map (fun i => Sent c (Publish (retry_publish i))) (sr_inflight r))
        end
    end.

(** server.rs 303-312: what [run] does when [handle_connection] returns. *)
Definition end_connection (c i : nat) (w : world) : world :=
  let w := set_conns (adel Nat.eqb c (w_conns w)) w in
  match nth_error (w_heap w) i with
  | None => w
  | Some s =>
      match se_will s with
      | None => w
      | Some x =>
          let w := put_session i (set_will None s) w in
          let w := set_broker (publish_will x (w_broker w)) w in
          set_store (mem_delete_will (se_client_id s) (w_store w)) w
      end
  end.

(** server.rs 338-344 *)
Definition disconnect_step (c i : nat) (s : session) (w : world) : world :=
  let w := put_session i (set_will None s) w in
  end_connection c i (set_store (mem_delete_will (se_client_id s) (w_store w)) w).

(** server.rs 346-393: a packet other than DISCONNECT. *)
Definition is_subscription_change (k : packet) : bool :=
  match k with Subscribe _ | Unsubscribe _ => true | _ => false end.
Definition inflight_completed (k : packet) : option N :=
  match k with PubAck a | PubComp a => Some (ak_packet_id a) | _ => None end.
Definition packet_step (cfg : config) (c i : nat) (s : session) (k : packet) (w : world)
  : world * list output :=
  let '(r, s, b) := process_incoming (sv_manager cfg) k s (w_broker w) in
  let w := put_session i s (set_broker b w) in
  match r with
  | Ok response =>
      let w := if is_subscription_change k
               then set_store (mem_save_session (se_client_id s)
                      (Mk_session_state (se_client_id s) (subscription_filters s) false) (w_store w)) w
               else w in
      let w := match inflight_completed k with
               | Some p => set_store (mem_remove_inflight (se_client_id s) p (w_store w)) w
               | None => w
               end in
      (w, match response with Some x => [Sent c x] | None => [] end)
  | Err _ => (end_connection c i w, [Closed c])
  | Panic => (set_conns (adel Nat.eqb c (w_conns w)) w, [Crashed c])
  end.

(** server.rs 396-420 *)
Definition out_step (c i : nat) (s : session) (f : bytes) (w : world) : world * list output :=
  match process_outgoing f s (w_broker w) with
  | None => (w, [])
  | Some (Ok p, s) =>
      let w := put_session i s w in
      let w := match pb_packet_id p, pb_qos p with
               | Some pid, (AtLeastOnce | ExactlyOnce) =>
                   set_store (mem_store_inflight (se_client_id s) pid
                     (Mk_inflight pid (pb_topic p) (pb_payload p) (pb_qos p) (pb_dup p)) (w_store w)) w
               | _, _ => w
               end in
      (w, [Sent c (Publish p)])
  | Some (_, s) => (set_conns (adel Nat.eqb c (w_conns w)) (put_session i s w), [Crashed c])
  end.

(** server.rs 174-190 and 216-442. Events of connections that are not open, and first
    packets on connections that are, do not occur and do nothing. *)
Definition step (cfg : config) (w : world) (e : event) : world * list output :=
  match e with
  | EFirst c first uuid ack_written =>
      if is_some (aget Nat.eqb c (w_conns w)) then (w, [])
      else match first with
           | Some (Connect k) => connect_step cfg c k uuid ack_written w
           | _ => (w, [Closed c])
           end
  | ERestart => (restart w, map (fun x => Closed (fst x)) (w_conns w))
  | EPacket c _ | EOut c _ | EEnd c | EPanic c =>
      match aget Nat.eqb c (w_conns w) with
      | None => (w, [])
      | Some i =>
          match nth_error (w_heap w) i with
          | None => (w, [])
          | Some s =>
              match e with
              | EPacket _ (Disconnect _) => (disconnect_step c i s w, [Closed c])
              | EPacket _ k => packet_step cfg c i s k w
              | EOut _ f => out_step c i s f w
              | EPanic _ => (set_conns (adel Nat.eqb c (w_conns w)) w, [Crashed c])
              | _ => (end_connection c i w, [Closed c])
              end
          end
      end
  end.

Fixpoint run (cfg : config) (es : list event) (w : world) : world * list output :=
  match es with
  | [] => (w, [])
  | e :: es =>
      let '(w, o) := step cfg w e in
      let '(w, os) := run cfg es w in
      (w, o ++ os)
  end.

(** The handlers of mercurio-server/src/server.rs, session_manager.rs, session.rs and broker.rs
    as programs that run concurrently: one task per connection, any interleaving of their
    accesses to shared data. Server.v runs each of them to its end at once; ConcFacts.v shows that this is
    what a handler does when it runs alone.

    One step of a task is one access to shared data: a critical section of a session's or the
    manager's mutex that does not await anything, one registration in the topic tree, one
    message sent to one node of it (publishers only share its lock), one storage call (memory.rs takes one lock in each), one
    packet written. What a task does between two steps is local to it. The mutexes that are held while
    something is awaited are taken and given back explicitly; waiting for them, and the lock that
    process_outgoing holds while it waits for a message, are treated in Locks.v. The event [ERestart] is
    not an event here: a stop of the broker is the end of a run, and the next run starts with [conf_on] the
    store that is left (SpecLives.v); stops inside a handler that runs alone are treated in Crash.v.
    Simplified: the CONNACK and the other packets are written in one step. *)
From Verif Require Import Base Codec Maps Topic Property PacketProps Packets TopicTree Storage Broker Auth Session Server.

Inductive lock := LManager | LSession (i : nat).

(** What a task does in one step; the argument is what it learns. *)
Inductive code :=
| Finish                                                          (* the handler returns *)
| Emit (o : output) (next : code)                                 (* connection.write_packet, or the end of the task *)
| Sess (i : nat) (f : session -> node message -> session * code)  (* shared.state.lock(), and polling of streams *)
| Sub (f : bytes) (next : nat -> code)                            (* topic_tree.subscribe *)
| Walk (t : bytes) (next : list (list bytes) -> code)             (* topic_tree.publish: read lock, nodes to send to *)
| Send (p : list bytes) (m : message) (next : code)               (* channel.send on one node *)
| Leave (next : code)                                             (* the read lock is given back *)
| Store (o : sop) (next : sres -> code)
| Find (id : bytes) (next : option nat -> code)                   (* manager.sessions.get *)
| Forget (id : bytes) (next : code)                               (* manager.sessions.remove *)
| New (id : bytes) (s : session) (next : nat -> code)             (* manager.sessions.insert of a new session *)
| Attach (i : nat) (next : code)                                  (* the connection is served from here on *)
| Detach (next : code)
| Acquire (l : lock) (next : code)
| Release (l : lock) (next : code).

(** What a step is seen to do. *)
Inductive obs :=
| OOut (o : output)
| OSess (i : nat) (before after : session)
| OSub (f : bytes) (position : nat)
| OWalk (t : bytes) (ps : list (list bytes))
| OSend (p : list bytes) (m : message)
| OLeave
| OStore (o : sop) (r : sres)
| OFind (id : bytes) (r : option nat)
| OForget (id : bytes)
| ONew (id : bytes) (i : nat) (s : session)
| OAttach (i : nat)
| ODetach
| OAcquire (l : lock)
| ORelease (l : lock).

(** Its effect on the shared data. *)
Definition apply (c : nat) (o : obs) (w : world) : world :=
  match o with
  | OOut _ | OFind _ _ | OAcquire _ | ORelease _ | OWalk _ _ | OLeave => w
  | OSess i _ s => put_session i s w
  | OSub f _ => set_broker (Mk_broker (tree_subscribe (levels f) (bk_tree (w_broker w))) (w_store w)) w
  | OSend p m => set_broker (Mk_broker (send_at p m (bk_tree (w_broker w))) (w_store w)) w
  | OStore o _ => set_store (snd (mem_step (w_store w) o)) w
  | OForget id => set_manager (adel bytes_eqb id (w_manager w)) w
  | ONew id i s => set_manager (aput bytes_eqb id i (w_manager w)) (set_heap (w_heap w ++ [s]) w)
  | OAttach i => set_conns (aput Nat.eqb c i (w_conns w)) w
  | ODetach => set_conns (adel Nat.eqb c (w_conns w)) w
  end.

(** topic_tree.rs 94-123: the nodes a publish sends to, in order. The code sends while
    it walks; the read lock keeps the nodes from changing, so they are determined when it starts. *)
Definition targets (t : bytes) (n : node message) : list (list bytes) :=
  let ls := levels t in
  match pub_loop (visits ls n) ls [([], n, O)] [] with Some ps => ps | None => [] end.

(** The next step of a task and what it does after it; [None]: it has finished. A session that does not exist would
    stop it (it does not happen, ConcFacts.v). Locks are looked at by [move]. *)
Definition next (k : code) (w : world) : option (obs * code) :=
  match k with
  | Finish => None
  | Emit o k => Some (OOut o, k)
  | Sess i f =>
      match nth_error (w_heap w) i with
      | Some s => let '(s', k) := f s (bk_tree (w_broker w)) in Some (OSess i s s', k)
      | None => None
      end
  | Sub f k => let n := length (log_at (levels f) (tree_subscribe (levels f) (bk_tree (w_broker w)))) in Some (OSub f n, k n)
  | Walk t k => let ps := targets t (bk_tree (w_broker w)) in Some (OWalk t ps, k ps)
  | Send p m k => Some (OSend p m, k)
  | Leave k => Some (OLeave, k)
  | Store o k => let r := fst (mem_step (w_store w) o) in Some (OStore o r, k r)
  | Find id k => let r := aget bytes_eqb id (w_manager w) in Some (OFind id r, k r)
  | Forget id k => Some (OForget id, k)
  | New id s k => let i := length (w_heap w) in Some (ONew id i s, k i)
  | Attach i k => Some (OAttach i, k)
  | Detach k => Some (ODetach, k)
  | Acquire l k => Some (OAcquire l, k)
  | Release l k => Some (ORelease l, k)
  end.

(** ** The handlers *)

Fixpoint sends (ps : list (list bytes)) (m : message) (k : code) : code :=
  match ps with [] => k | p :: ps => Send p m (sends ps m k) end.
(** topic_tree.rs 82-125 *)
Definition route (t : bytes) (m : message) (k : code) : code := Walk t (fun ps => sends ps m (Leave k)).
(** broker.rs 46-69 *)
Definition publish (t : bytes) (m : message) (k : code) : code :=
  if mg_retain m then
    match mg_payload m with
    | None | Some [] => Store (StoreRetained t None) (fun _ => route t m k)
    | Some _ => Store (StoreRetained t (Some (with_retain false m))) (fun _ => route t m k)
    end
  else route t m k.
(** session.rs 187-190 *)
Definition client_id_of (i : nat) (k : bytes -> code) : code := Sess i (fun s _ => (s, k (se_client_id s))).
(** server.rs 303-312 and 444-464, then the task ends. *)
Definition end_code (c i : nat) : code :=
  Sess i (fun s _ => (set_will None s,       (* take_will, session.rs 169-173 *)
    let done := Detach (Emit (Closed c) Finish) in
    match se_will s with
    | None => done
    | Some x => publish (wl_topic x) (will_message x)
                  (client_id_of i (fun id => client_id_of i (fun id' => Store (DeleteWill id') (fun _ => done))))
    end)).
(** server.rs 338-344 *)
Definition disconnect_code (c i : nat) : code :=
  Sess i (fun s _ => (set_will None s, client_id_of i (fun id => Store (DeleteWill id) (fun _ => end_code c i)))).

(** server.rs 388-393, after the response is known. *)
Definition respond (c : nat) (r : option packet) : code :=
  match r with Some x => Emit (Sent c x) Finish | None => Finish end.
(** session.rs 278-335 and server.rs 388-393. Simplified: nothing is held between the accesses. *)
Definition publish_code (c i : nat) (p : publish_packet) : code :=
  match validate_publish_topic (pb_topic p) with
  | Some _ => end_code c i
  | None =>
      let go r := publish (pb_topic p) (message_of p) (match r with Some x => respond c x | None => end_code c i end) in
      match pb_qos p with
      | AtMostOnce => go (Some None)
      | AtLeastOnce =>
          match pb_packet_id p with
          | Some n => go (Some (Some (PubAck (Mk_ack_packet n Success None))))
          | None => go None
          end
      | ExactlyOnce =>
          match pb_packet_id p with
          | Some n => Sess i (fun s _ => (set_unacked (aput N.eqb n p (se_unacked s)) s,
                        go (Some (Some (PubRec (Mk_ack_packet n Success None))))))
          | None => go None
          end
      | QInvalid => go None
      end
  end.
(** broker.rs 31-42 and the insertion of the stream, session.rs 404-426 (211-228 when restoring). *)
Definition subscribe_one (i : nat) (f : bytes) (k : code) : code :=
  Sub f (fun n => Store (GetRetained f) (fun r =>
    let ms := match r with RMessages ms => ms | _ => [] end in
    Sess i (fun s _ => (set_subs (aput bytes_eqb f (Mk_stream ms n) (se_subs s)) s, k)))).
(** session.rs 394-426 *)
Fixpoint subscribe_all (i : nat) (fs : list sub_filter) (k : list reason -> code) : code :=
  match fs with
  | [] => k []
  | (f, _) :: fs =>
      match validate_subscribe_filter f with
      | Some _ => subscribe_all i fs (fun rs => k (TopicFilterInvalid :: rs))
      | None => subscribe_one i f (subscribe_all i fs (fun rs => k (GrantedQoS0 :: rs)))
      end
  end.
(** server.rs 363-372 *)
Definition save_subscriptions (i : nat) (k : code) : code :=
  client_id_of i (fun id => Sess i (fun s _ => (s,
    Store (SaveSession id (Mk_session_state id (subscription_filters s) false)) (fun _ => k)))).
(** session.rs 379-431, server.rs 363-393. The session's lock is held over the loop. *)
Definition subscribe_code (c i : nat) (p : subscribe_packet) : code :=
  Acquire (LSession i) (Sess i (fun s _ => (s,
    subscribe_all i (sb_payload p) (fun rs => Release (LSession i) (save_subscriptions i
      (Emit (Sent c (SubAck (Mk_suback_packet (c_protocol_version (se_connect s)) (sb_packet_id p) None rs))) Finish)))))).
(** session.rs 433-458, server.rs 363-393 *)
Definition unsubscribe_code (c i : nat) (p : unsubscribe_packet) : code :=
  Sess i (fun s _ =>
    let '(rs, subs) := unsubscribe_loop (us_payload p) (se_subs s) in
    (set_subs subs s, save_subscriptions i
      (Emit (Sent c (UnsubAck (Mk_unsuback_packet (c_protocol_version (se_connect s)) (us_packet_id p) None rs))) Finish))).
(** server.rs 375-381 *)
Definition remove_inflight (i : nat) (n : N) (k : code) : code :=
  client_id_of i (fun id => Store (RemoveInflight id n) (fun _ => k)).
(** A handler of session.rs that is one critical section (337-377, 460-565). *)
Definition simple_code (c i : nat) (h : session -> res (option packet) * session) (after : code -> code) : code :=
  Sess i (fun s _ => let '(r, s') := h s in
    (s', match r with Ok x => after (respond c x) | Err _ => end_code c i | Panic => Detach (Emit (Crashed c) Finish) end)).
(** server.rs 346-393, session.rs 567-590 *)
Definition packet_code (cfg : config) (c i : nat) (k : packet) : code :=
  match k with
  | Disconnect _ => disconnect_code c i
  | Publish p => publish_code c i p
  | Subscribe p => subscribe_code c i p
  | Unsubscribe p => unsubscribe_code c i p
  | PubAck a => simple_code c i (handle_puback a) (remove_inflight i (ak_packet_id a))
  | PubComp a => simple_code c i (handle_pubcomp a) (remove_inflight i (ak_packet_id a))
  | PubRec a => simple_code c i (handle_pubrec a) (fun k => k)
  | PubRel a => simple_code c i (handle_pubrel a) (fun k => k)
  | Auth a => simple_code c i (handle_auth (sv_manager cfg) a) (fun k => k)
  | PingReq => respond c (Some PingResp)
  | _ => end_code c i
  end.
(** server.rs 396-420, session.rs 592-625 *)
Definition out_code (c i : nat) (f : bytes) : code :=
  Sess i (fun s tree =>
    match process_outgoing f s (Mk_broker tree mem_new) with      (* the store is not looked at *)
    | None => (s, Finish)
    | Some (Ok p, s) =>
        (s, match pb_packet_id p, pb_qos p with
            | Some pid, (AtLeastOnce | ExactlyOnce) =>
                client_id_of i (fun id => Store (StoreInflight id pid (Mk_inflight pid (pb_topic p) (pb_payload p) (pb_qos p) (pb_dup p)))
                  (fun _ => Emit (Sent c (Publish p)) Finish))
            | _, _ => Emit (Sent c (Publish p)) Finish
            end)
    | Some (_, s) => (s, Detach (Emit (Crashed c) Finish))
    end).

Fixpoint emits (os : list output) (k : code) : code := match os with [] => k | o :: os => Emit o (emits os k) end.
(** server.rs 270-299: what [run] does after start_session. *)
Fixpoint restore_all (i : nat) (fs : list bytes) (k : code) : code :=
  match fs with [] => k | f :: fs => subscribe_one i f (restore_all i fs k) end.
Definition restore_code (c i : nat) (subs : list bytes) (wl : option will) (infl : list inflight) : code :=
  let rest := emits (map (fun x => Sent c (Publish (retry_publish x))) infl) (Attach i Finish) in
  let wills := match wl with Some x => Sess i (fun s _ => (set_will (Some x) s, rest)) | None => rest end in
  match subs with
  | [] => wills
  | _ => Acquire (LSession i) (restore_all i subs (Release (LSession i) wills))
  end.
(** session_manager.rs 150-173, session.rs 233-276 *)
Definition begin_code (c i : nat) (uuid : bytes) (ack_written resume : bool) (subs : list bytes) (wl : option will) (infl : list inflight) : code :=
  Sess i (fun s _ => let '(ack, s') := begin uuid resume s in
    (s', if ack_written then
           Emit (Sent c ack) (client_id_of i (fun id =>
             Store (SaveSession id (Mk_session_state id subs false)) (fun _ =>
               Sess i (fun s _ => (s,
                 let rest := Release LManager (restore_code c i subs wl infl) in
                 match se_will s with
                 | Some x => Store (StoreWill id x) (fun _ => rest)
                 | None => rest
                 end)))))
         else Release LManager (Emit (Closed c) Finish))).
(** session_manager.rs 138-148 *)
Definition enter_code (k : connect_packet) (go : nat -> code) : code :=
  let cid := cl_client_id (c_payload k) in
  Find cid (fun r =>
    match r with
    | Some i => Sess i (fun s _ => (set_connect_packet k s, go i))
    | None => New cid (session_new k) go
    end).
(** session_manager.rs 80-136, server.rs 216-266. The manager's lock is held to the end of start_session. *)
Definition connect_code (cfg : config) (c : nat) (k : connect_packet) (uuid : bytes) (ack_written : bool) : code :=
  if negb (authenticated cfg k) then
    Emit (Sent c (ConnAck (Mk_connack_packet (c_protocol_version k) false BadUserNameOrPassword None))) (Emit (Closed c) Finish)
  else
    let cid := cl_client_id (c_payload k) in
    let go resume subs wl infl := enter_code k (fun i => begin_code c i uuid ack_written resume subs wl infl) in
    Acquire LManager
      (if cf_clean_start (c_flags k) then
         Forget cid (Store (DeleteSession cid) (fun _ => Store (DeleteWill cid) (fun _ => go false [] None [])))
       else
         Find cid (fun r =>
           match r with
           | Some _ => go true [] None []
           | None =>
               Store (LoadSession cid) (fun r =>
                 match r with
                 | RSession (Some st) =>
                     Store (GetWill cid) (fun rw => Store (GetAllInflight cid) (fun ri =>
                       go true (ss_subscriptions st) (match rw with RWill x => x | _ => None end)
                          (match ri with RInflights l => l | _ => [] end)))
                 | _ => go false [] None []
                 end)
           end)).

(** The program that handles event [e]; [serving]: the session the connection is attached to. *)
Definition handler (cfg : config) (serving : option nat) (e : event) : code :=
  match e, serving with
  | EFirst c first uuid ack_written, None =>
      match first with
      | Some (Connect k) => connect_code cfg c k uuid ack_written
      | _ => Emit (Closed c) Finish
      end
  | EPacket c k, Some i => packet_code cfg c i k
  | EOut c f, Some i => out_code c i f
  | EEnd c, Some i => end_code c i
  | EPanic c, Some i => Detach (Emit (Crashed c) Finish)
  | _, _ => Finish
  end.
Definition event_conn (e : event) : nat :=
  match e with EFirst c _ _ _ | EPacket c _ | EOut c _ | EEnd c | EPanic c => c | ERestart => O end.

(** ** Interleavings *)

Record conf := Mk_conf {
  cn_world : world;
  cn_tasks : list (nat * code);        (* the connections that are handling something *)
  cn_locks : list (lock * nat);        (* who holds a lock over several steps *)
  cn_readers : list nat                (* who publishes in the topic tree *)
}.
(** A process that starts on the store [st] (server.rs 103-112: Broker::new and SessionManager::new get it), with no connection yet. *)
Definition conf_on (st : mem_store) : conf := Mk_conf (Mk_world [] [] (Mk_broker new_node st) []) [] [] [].
(** server.rs 81: run_with_tls always passes a new memory store. *)
Definition conf_new : conf := conf_on mem_new.
Definition lock_eqb (a b : lock) : bool :=
  match a, b with LManager, LManager => true | LSession i, LSession j => Nat.eqb i j | _, _ => false end.
(** Whether a step has to wait for a lock that another task holds. *)
Definition free_for (c : nat) (l : lock) (x : conf) : bool :=
  match aget lock_eqb l (cn_locks x) with None => true | Some d => Nat.eqb d c end.
Definition may (c : nat) (o : obs) (x : conf) : bool :=
  match o with
  | OSess i _ _ => free_for c (LSession i) x
  | OAcquire l => free_for c l x
  | OSub _ _ => match cn_readers x with [] => true | _ => false end
  | _ => true
  end.
Definition relock (c : nat) (o : obs) (ls : list (lock * nat)) : list (lock * nat) :=
  match o with
  | OAcquire l => aput lock_eqb l c ls
  | ORelease l => adel lock_eqb l ls
  | _ => ls
  end.

Definition reread (c : nat) (o : obs) (rs : list nat) : list nat :=
  match o with
  | OWalk _ _ => c :: rs
  | OLeave => remove Nat.eq_dec c rs
  | _ => rs
  end.

Inductive move :=
| MStart (e : event)         (* something happens to a connection that is not busy *)
| MGo (c : nat).             (* the task of connection [c] makes a step *)
Inductive item :=
| IStart (e : event)
| IStep (c : nat) (o : obs)
| IEnd (c : nat).            (* the handler returns *)

(** [None]: not possible now. *)
Definition mstep (cfg : config) (x : conf) (m : move) : option (conf * item) :=
  match m with
  | MStart ERestart => None
  | MStart e =>
      let c := event_conn e in
      if is_some (aget Nat.eqb c (cn_tasks x)) then None
      else Some (Mk_conf (cn_world x) (aput Nat.eqb c (handler cfg (aget Nat.eqb c (w_conns (cn_world x))) e) (cn_tasks x)) (cn_locks x) (cn_readers x), IStart e)
  | MGo c =>
      match aget Nat.eqb c (cn_tasks x) with
      | None => None
      | Some Finish => Some (Mk_conf (cn_world x) (adel Nat.eqb c (cn_tasks x)) (cn_locks x) (cn_readers x), IEnd c)
      | Some k =>
          match next k (cn_world x) with
          | None => None
          | Some (o, k) =>
              if may c o x
              then Some (Mk_conf (apply c o (cn_world x)) (aput Nat.eqb c k (cn_tasks x)) (relock c o (cn_locks x)) (reread c o (cn_readers x)), IStep c o)
              else None
          end
      end
  end.
(** [mruns cfg x tr x']: from [x] some interleaving with the trace [tr] leads to [x']. *)
Inductive mruns (cfg : config) : conf -> list item -> conf -> Prop :=
| mr_nil x : mruns cfg x [] x
| mr_cons x m x1 i tr x2 : mstep cfg x m = Some (x1, i) -> mruns cfg x1 tr x2 -> mruns cfg x (i :: tr) x2.

(** A task that runs alone. *)
Fixpoint solo (c : nat) (k : code) (w : world) : world * list output :=
  match k with
  | Finish => (w, [])
  | Emit o k => let '(w, os) := solo c k w in (w, o :: os)
  | Sess i f =>
      match nth_error (w_heap w) i with
      | Some s => let r := f s (bk_tree (w_broker w)) in solo c (snd r) (apply c (OSess i s (fst r)) w)
      | None => (w, [])
      end
  | Sub f k =>
      let n := length (log_at (levels f) (tree_subscribe (levels f) (bk_tree (w_broker w)))) in solo c (k n) (apply c (OSub f n) w)
  | Walk t k => solo c (k (targets t (bk_tree (w_broker w)))) w
  | Send p m k => solo c k (apply c (OSend p m) w)
  | Store o k => let r := fst (mem_step (w_store w) o) in solo c (k r) (apply c (OStore o r) w)
  | Find id k => solo c (k (aget bytes_eqb id (w_manager w))) w
  | Forget id k => solo c k (apply c (OForget id) w)
  | New id s k => let i := length (w_heap w) in solo c (k i) (apply c (ONew id i s) w)
  | Attach i k => solo c k (apply c (OAttach i) w)
  | Detach k => solo c k (apply c ODetach w)
  | Acquire _ k | Release _ k | Leave k => solo c k w
  end.

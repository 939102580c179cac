(** The storage calls and packet writes of one event of Server.v, in the order the code makes
    them, with storage calls that fail and a crash of the process after any of them
    (mercurio-server/src/server.rs, session_manager.rs, broker.rs). A call that fails
    leaves the store as it was. Handlers of other connections do not run in between: the data a
    handler reads are those at its start. *)
From Verif Require Import Base Codec Maps Topic Property PacketProps Packets TopicTree Storage Broker Auth Session Server.

Inductive prog :=
| Done
| Write (c : nat) (k : packet) (next : prog)     (* connection.write_packet(..).await *)
| Attempt (o : sop) (next : prog)                (* let _ = storage.op(..).await *)
| Require (o : sop) (next fail : prog).          (* storage.op(..).await?, or a match on the result *)

(** [faults]: whether each storage call fails, in order; the rest succeed. The process
    crashes after [n] calls and writes. *)
Fixpoint exec (n : nat) (faults : list bool) (p : prog) (st : mem_store) : mem_store * list output :=
  match n with
  | O => (st, [])
  | S n =>
      match p with
      | Done => (st, [])
      | Write c k p => let '(st, o) := exec n faults p st in (st, Sent c k :: o)
      | Attempt o p =>
          match faults with
          | true :: faults => exec n faults p st
          | _ => exec n (tl faults) p (snd (mem_step st o))
          end
      | Require o p q =>
          match faults with
          | true :: faults => exec n faults q st
          | _ => exec n (tl faults) p (snd (mem_step st o))
          end
      end
  end.

(** broker.rs 48-65 *)
Definition retained_call (t : bytes) (m : message) : option sop :=
  if mg_retain m then
    match mg_payload m with
    | None | Some [] => Some (StoreRetained t None)
    | Some _ => Some (StoreRetained t (Some (with_retain false m)))
    end
  else None.

(** server.rs 303-312; publish_will (444-464) logs an error of broker.publish. *)
Definition end_prog (s : session) : prog :=
  match se_will s with
  | None => Done
  | Some x =>
      let delete := Attempt (DeleteWill (se_client_id s)) Done in
      match retained_call (wl_topic x) (will_message x) with
      | Some o => Attempt o delete
      | None => delete
      end
  end.

(** One get_retained (broker.rs 36-40) for each filter; the first failure ends the handler. *)
Fixpoint read_retained (fs : list bytes) (next fail : prog) : prog :=
  match fs with
  | [] => next
  | f :: fs => Require (GetRetained f) (read_retained fs next fail) fail
  end.
(** session.rs 394-402: the filters that reach broker.subscribe. *)
Definition valid_filters (fs : list sub_filter) : list bytes :=
  filter (fun f => negb (is_some (validate_subscribe_filter f))) (map fst fs).

Fixpoint writes (c : nat) (ks : list packet) (p : prog) : prog :=
  match ks with [] => p | k :: ks => Write c k (writes c ks p) end.

(** session_manager.rs 138-173, server.rs 268-299, in the session [s] entered. *)
Definition connect_go (c : nat) (uuid : bytes) (ack_written : bool) (s : session) (resume : bool) (subs : list bytes) (infl : list inflight) : prog :=
  let '(ack, s) := begin uuid resume s in
  if ack_written then
    Write c ack (Attempt (SaveSession (se_client_id s) (Mk_session_state (se_client_id s) subs false))
      (let rest := read_retained subs (writes c (map (fun i => Publish (retry_publish i)) infl) Done) Done in
       match se_will s with
       | Some x => Attempt (StoreWill (se_client_id s) x) rest
       | None => rest
       end))
  else Done.
(** session_manager.rs 89-136, server.rs 216-266. *)
Definition connect_prog (cfg : config) (c : nat) (k : connect_packet) (uuid : bytes) (ack_written : bool) (w : world) : prog :=
  if negb (authenticated cfg k) then
    Write c (ConnAck (Mk_connack_packet (c_protocol_version k) false BadUserNameOrPassword None)) Done
  else
    let cid := cl_client_id (c_payload k) in
    let go := connect_go c uuid ack_written in
    if cf_clean_start (c_flags k) then
      Attempt (DeleteSession cid) (Attempt (DeleteWill cid) (go (session_new k) false [] []))
    else
      match aget bytes_eqb cid (w_manager w) with
      | Some i =>
          match nth_error (w_heap w) i with
          | Some s => go (set_connect_packet k s) true [] []
          | None => Done     (* excluded by the invariant of ServerFacts.v *)
          end
      | None =>
          let fresh := go (session_new k) false [] [] in
          Require (LoadSession cid)
            (match mem_load_session cid (w_store w) with
             | Some st =>
                 let inflight infl := go (session_new k) true (ss_subscriptions st) infl in
                 let all := Require (GetAllInflight cid) (inflight (mem_get_all_inflight cid (w_store w))) (inflight []) in
                 Require (GetWill cid) all all
             | None => fresh
             end) fresh
      end.

(** server.rs 346-393 *)
Definition packet_prog (cfg : config) (c : nat) (s : session) (k : packet) (w : world) : prog :=
  let '(r, s', _) := process_incoming (sv_manager cfg) k s (w_broker w) in
  let rest :=
    match r with
    | Ok response =>
        let write := match response with Some x => Write c x Done | None => Done end in
        let remove := match inflight_completed k with
                      | Some p => Attempt (RemoveInflight (se_client_id s') p) write
                      | None => write
                      end in
        if is_subscription_change k
        then Attempt (SaveSession (se_client_id s') (Mk_session_state (se_client_id s') (subscription_filters s') false)) remove
        else remove
    | Err _ => end_prog s'
    | Panic => Done
    end in
  match k with
  | Publish p =>
      match validate_publish_topic (pb_topic p) with
      | Some _ => rest
      | None => match retained_call (pb_topic p) (message_of p) with
                | Some o => Require o rest (end_prog s)
                | None => rest
                end
      end
  | Subscribe p => read_retained (valid_filters (sb_payload p)) rest (end_prog s)
  | _ => rest
  end.

(** server.rs 396-420 *)
Definition out_prog (c : nat) (s : session) (f : bytes) (w : world) : prog :=
  match process_outgoing f s (w_broker w) with
  | Some (Ok p, s) =>
      match pb_packet_id p, pb_qos p with
      | Some pid, (AtLeastOnce | ExactlyOnce) =>
          Attempt (StoreInflight (se_client_id s) pid (Mk_inflight pid (pb_topic p) (pb_payload p) (pb_qos p) (pb_dup p)))
            (Write c (Publish p) Done)
      | _, _ => Write c (Publish p) Done
      end
  | _ => Done
  end.

(** What handling event [e] does to the store and sends, in order. *)
Definition program (cfg : config) (w : world) (e : event) : prog :=
  match e with
  | EFirst c first uuid ack_written =>
      if is_some (aget Nat.eqb c (w_conns w)) then Done
      else match first with
           | Some (Connect k) => connect_prog cfg c k uuid ack_written w
           | _ => Done
           end
  | ERestart => Done
  | EPacket c _ | EOut c _ | EEnd c | EPanic c =>
      match aget Nat.eqb c (w_conns w) with
      | None => Done
      | Some i =>
          match nth_error (w_heap w) i with
          | None => Done
          | Some s =>
              match e with
              | EPacket _ (Disconnect _) => Attempt (DeleteWill (se_client_id s)) (end_prog (set_will None s))
              | EPacket _ k => packet_prog cfg c s k w
              | EOut _ f => out_prog c s f w
              | EPanic _ => Done
              | _ => end_prog s
              end
          end
      end
  end.

(** A new process on the store of a crashed one. *)
Definition recover (st : mem_store) : world := Mk_world [] [] (Mk_broker new_node st) [].

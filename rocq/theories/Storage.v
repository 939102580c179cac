(** Model of mercurio-storage (lib.rs, memory.rs, sqlite.rs) and of
    mercurio-core/src/message.rs.

    Not modelled: lock poisoning (a poisoned [RwLock]/[Mutex] needs a panic while
    the lock is held; no operation below panics), I/O errors of SQLite, and the
    SQL engine itself: a table is a list of rows with a unique key. *)
From Verif Require Import Base Codec Maps Topic.

(** message.rs 17-27 *)
Record message := Mk_message {
  mg_packet_id : option N;
  mg_topic : bytes;
  mg_dup : bool;
  mg_qos : qos;
  mg_retain : bool;
  mg_payload : option bytes
}.
(** [msg.retain = b] (memory.rs 106, broker.rs 58) *)
Definition with_retain (b : bool) (m : message) : message :=
  Mk_message (mg_packet_id m) (mg_topic m) (mg_dup m) (mg_qos m) b (mg_payload m).

(** lib.rs 39-45 *)
Record session_state := Mk_session_state {
  ss_client_id : bytes;
  ss_subscriptions : list bytes;
  ss_clean_start : bool
}.
(** lib.rs 47-54; session.rs 45-52 ([WillMessage]) has the same fields. *)
Record will := Mk_will {
  wl_topic : bytes;
  wl_payload : bytes;
  wl_qos : qos;
  wl_retain : bool
}.
(** lib.rs 56-64 *)
Record inflight := Mk_inflight {
  if_packet_id : N;
  if_topic : bytes;
  if_payload : option bytes;
  if_qos : qos;
  if_dup : bool
}.

(** The operations of the storage traits (lib.rs 70-142) and their results. *)
Inductive sop :=
| SaveSession (client : bytes) (st : session_state)
| LoadSession (client : bytes)
| DeleteSession (client : bytes)
| ListSessions
| StoreRetained (topic : bytes) (m : option message)
| GetRetained (filter : bytes)
| ClearRetained
| StoreWill (client : bytes) (w : will)
| GetWill (client : bytes)
| DeleteWill (client : bytes)
| StoreInflight (client : bytes) (pid : N) (i : inflight)
| GetInflight (client : bytes) (pid : N)
| RemoveInflight (client : bytes) (pid : N)
| GetAllInflight (client : bytes).

Inductive sres :=
| RUnit
| RSession (s : option session_state)
| RClients (cs : list bytes)
| RMessages (ms : list message)
| RWill (w : option will)
| RInflight (i : option inflight)
| RInflights (is : list inflight).

(** memory.rs 214-239, sqlite.rs 455-479: the loop advances both indices together,
    so it is a recursion on the remaining parts of filter and topic. *)
Fixpoint tmf_loop (fp tp : list bytes) : bool :=
  match fp with
  | [] => match tp with [] => true | _ => false end
  | f :: fp =>
      if bytes_eqb f str_hash then true
      else match tp with
           | [] => false
           | t :: tp =>
               if negb (bytes_eqb f str_plus) && negb (bytes_eqb f t) then false
               else tmf_loop fp tp
           end
  end.
Definition topic_matches_filter (topic : bytes) (fp : list bytes) : bool :=
  tmf_loop fp (levels topic).

(** ** In-memory store (memory.rs 22-36) *)
Record mem_store := Mk_mem_store {
  ms_sessions : list (bytes * session_state);
  ms_retained : list (bytes * message);
  ms_wills : list (bytes * will);
  ms_inflight : list (bytes * list (N * inflight))
}.
(** memory.rs 31-36 *)
Definition mem_new : mem_store := Mk_mem_store [] [] [] [].

(** memory.rs 40-47 *)
Definition mem_save_session (c : bytes) (st : session_state) (m : mem_store) : mem_store :=
  Mk_mem_store (aput bytes_eqb c st (ms_sessions m)) (ms_retained m) (ms_wills m) (ms_inflight m).
(** memory.rs 49-55 *)
Definition mem_load_session (c : bytes) (m : mem_store) : option session_state :=
  aget bytes_eqb c (ms_sessions m).
(** memory.rs 57-64 *)
Definition mem_delete_session (c : bytes) (m : mem_store) : mem_store :=
  Mk_mem_store (adel bytes_eqb c (ms_sessions m)) (ms_retained m) (ms_wills m) (ms_inflight m).
(** memory.rs 66-72 *)
Definition mem_list_sessions (m : mem_store) : list bytes := akeys (ms_sessions m).

(** memory.rs 77-92 *)
Definition mem_store_retained (t : bytes) (o : option message) (m : mem_store) : mem_store :=
  Mk_mem_store (ms_sessions m)
    (match o with
     | Some msg => aput bytes_eqb t msg (ms_retained m)
     | None => adel bytes_eqb t (ms_retained m)
     end) (ms_wills m) (ms_inflight m).
(** memory.rs 94-112 *)
Definition mem_get_retained (f : bytes) (m : mem_store) : list message :=
  map (fun tm => with_retain true (snd tm))
      (filter (fun tm => topic_matches_filter (fst tm) (levels f)) (ms_retained m)).
(** memory.rs 114-121 *)
Definition mem_clear_retained (m : mem_store) : mem_store :=
  Mk_mem_store (ms_sessions m) [] (ms_wills m) (ms_inflight m).

(** memory.rs 126-133 *)
Definition mem_store_will (c : bytes) (w : will) (m : mem_store) : mem_store :=
  Mk_mem_store (ms_sessions m) (ms_retained m) (aput bytes_eqb c w (ms_wills m)) (ms_inflight m).
(** memory.rs 135-141 *)
Definition mem_get_will (c : bytes) (m : mem_store) : option will := aget bytes_eqb c (ms_wills m).
(** memory.rs 143-150 *)
Definition mem_delete_will (c : bytes) (m : mem_store) : mem_store :=
  Mk_mem_store (ms_sessions m) (ms_retained m) (adel bytes_eqb c (ms_wills m)) (ms_inflight m).

(** [inflight.get(client)] with [or_default]. *)
Definition inflight_of (c : bytes) (m : mem_store) : list (N * inflight) :=
  match aget bytes_eqb c (ms_inflight m) with Some l => l | None => [] end.
(** memory.rs 155-171 *)
Definition mem_store_inflight (c : bytes) (pid : N) (i : inflight) (m : mem_store) : mem_store :=
  Mk_mem_store (ms_sessions m) (ms_retained m) (ms_wills m)
    (aput bytes_eqb c (aput N.eqb pid i (inflight_of c m)) (ms_inflight m)).
(** memory.rs 173-186 *)
Definition mem_get_inflight (c : bytes) (pid : N) (m : mem_store) : option inflight :=
  match aget bytes_eqb c (ms_inflight m) with Some l => aget N.eqb pid l | None => None end.
(** memory.rs 188-198 *)
Definition mem_remove_inflight (c : bytes) (pid : N) (m : mem_store) : mem_store :=
  match aget bytes_eqb c (ms_inflight m) with
  | Some l => Mk_mem_store (ms_sessions m) (ms_retained m) (ms_wills m)
                (aput bytes_eqb c (adel N.eqb pid l) (ms_inflight m))
  | None => m
  end.
(** memory.rs 200-211 *)
Definition mem_get_all_inflight (c : bytes) (m : mem_store) : list inflight :=
  match aget bytes_eqb c (ms_inflight m) with Some l => avals l | None => [] end.

(** Dispatch on the operation (lib.rs 70-142, the trait methods). *)
Definition mem_step (m : mem_store) (o : sop) : sres * mem_store :=
  match o with
  | SaveSession c st => (RUnit, mem_save_session c st m)
  | LoadSession c => (RSession (mem_load_session c m), m)
  | DeleteSession c => (RUnit, mem_delete_session c m)
  | ListSessions => (RClients (mem_list_sessions m), m)
  | StoreRetained t o => (RUnit, mem_store_retained t o m)
  | GetRetained f => (RMessages (mem_get_retained f m), m)
  | ClearRetained => (RUnit, mem_clear_retained m)
  | StoreWill c w => (RUnit, mem_store_will c w m)
  | GetWill c => (RWill (mem_get_will c m), m)
  | DeleteWill c => (RUnit, mem_delete_will c m)
  | StoreInflight c pid i => (RUnit, mem_store_inflight c pid i m)
  | GetInflight c pid => (RInflight (mem_get_inflight c pid m), m)
  | RemoveInflight c pid => (RUnit, mem_remove_inflight c pid m)
  | GetAllInflight c => (RInflights (mem_get_all_inflight c m), m)
  end.

(** ** SQLite store *)

(** sqlite.rs 119-126; a column is a signed integer. *)
Definition qos_to_int (q : qos) : Z :=
  match q with AtMostOnce => 0 | AtLeastOnce => 1 | ExactlyOnce => 2 | QInvalid => -1 end.
(** sqlite.rs 128-135 *)
Definition int_to_qos (z : Z) : qos :=
  match z with 0%Z => AtMostOnce | 1%Z => AtLeastOnce | 2%Z => ExactlyOnce | _ => QInvalid end.

(** The separator of sqlite.rs 141 and 175. *)
Definition c_comma : N := 44.
(** [Vec<String>::join(",")] (sqlite.rs 141) *)
Fixpoint join_comma (ls : list bytes) : bytes :=
  match ls with
  | [] => []
  | [l] => l
  | l :: ls => l ++ c_comma :: join_comma ls
  end.
(** sqlite.rs 172-176 *)
Definition split_subs (s : bytes) : list bytes :=
  match s with [] => [] | _ => split c_comma s end.

(** sqlite.rs 61-94: the four tables; [None] payload is NULL, a zero-length blob
    is [Some []]. The key of [inflight_messages] is the pair of both columns. *)
Record row_session := Mk_row_session { rs_subs : bytes; rs_clean : bool }.
Record row_retained := Mk_row_retained { rr_payload : option bytes; rr_qos : Z; rr_dup : bool }.
Record row_will := Mk_row_will { rw_topic : bytes; rw_payload : bytes; rw_qos : Z; rw_retain : bool }.
Record row_inflight := Mk_row_inflight {
  ri_topic : bytes; ri_payload : option bytes; ri_qos : Z; ri_dup : bool }.
Record sql_store := Mk_sql_store {
  sq_sessions : list (bytes * row_session);
  sq_retained : list (bytes * row_retained);
  sq_wills : list (bytes * row_will);
  sq_inflight : list ((bytes * N) * row_inflight)
}.
(** sqlite.rs 34-50: a fresh database *)
Definition sql_new : sql_store := Mk_sql_store [] [] [] [].

(** Equality on the composite key of sqlite.rs 90. *)
Definition key2_eqb (a b : bytes * N) : bool :=
  bytes_eqb (fst a) (fst b) && N.eqb (snd a) (snd b).

(** INSERT OR REPLACE: the old row is deleted, the new one appended. *)
Definition upsert {K V} (eqb : K -> K -> bool) (k : K) (v : V) (t : list (K * V)) :=
  adel eqb k t ++ [(k, v)].

(** sqlite.rs 139-153 *)
Definition sql_save_session (c : bytes) (st : session_state) (m : sql_store) : sql_store :=
  Mk_sql_store
    (upsert bytes_eqb c (Mk_row_session (join_comma (ss_subscriptions st)) (ss_clean_start st))
            (sq_sessions m)) (sq_retained m) (sq_wills m) (sq_inflight m).
(** sqlite.rs 155-181 *)
Definition sql_load_session (c : bytes) (m : sql_store) : option session_state :=
  match aget bytes_eqb c (sq_sessions m) with
  | Some r => Some (Mk_session_state c (split_subs (rs_subs r)) (rs_clean r))
  | None => None
  end.
(** sqlite.rs 183-194 *)
Definition sql_delete_session (c : bytes) (m : sql_store) : sql_store :=
  Mk_sql_store (adel bytes_eqb c (sq_sessions m)) (sq_retained m) (sq_wills m) (sq_inflight m).
(** sqlite.rs 196-208 *)
Definition sql_list_sessions (m : sql_store) : list bytes := akeys (sq_sessions m).

(** sqlite.rs 213-236 *)
Definition sql_store_retained (t : bytes) (o : option message) (m : sql_store) : sql_store :=
  Mk_sql_store (sq_sessions m)
    (match o with
     | Some g => upsert bytes_eqb t
                   (Mk_row_retained (mg_payload g) (qos_to_int (mg_qos g)) (mg_dup g)) (sq_retained m)
     | None => adel bytes_eqb t (sq_retained m)
     end) (sq_wills m) (sq_inflight m).
(** sqlite.rs 238-272 *)
Definition sql_get_retained (f : bytes) (m : sql_store) : list message :=
  map (fun tr => Mk_message None (fst tr) (rr_dup (snd tr)) (int_to_qos (rr_qos (snd tr))) true
                   (rr_payload (snd tr)))
      (filter (fun tr => topic_matches_filter (fst tr) (levels f)) (sq_retained m)).
(** sqlite.rs 274-280 *)
Definition sql_clear_retained (m : sql_store) : sql_store :=
  Mk_sql_store (sq_sessions m) [] (sq_wills m) (sq_inflight m).

(** sqlite.rs 285-301 *)
Definition sql_store_will (c : bytes) (w : will) (m : sql_store) : sql_store :=
  Mk_sql_store (sq_sessions m) (sq_retained m)
    (upsert bytes_eqb c (Mk_row_will (wl_topic w) (wl_payload w) (qos_to_int (wl_qos w)) (wl_retain w))
            (sq_wills m)) (sq_inflight m).
(** sqlite.rs 303-331 *)
Definition sql_get_will (c : bytes) (m : sql_store) : option will :=
  match aget bytes_eqb c (sq_wills m) with
  | Some r => Some (Mk_will (rw_topic r) (rw_payload r) (int_to_qos (rw_qos r)) (rw_retain r))
  | None => None
  end.
(** sqlite.rs 333-344 *)
Definition sql_delete_will (c : bytes) (m : sql_store) : sql_store :=
  Mk_sql_store (sq_sessions m) (sq_retained m) (adel bytes_eqb c (sq_wills m)) (sq_inflight m).

(** sqlite.rs 396-402 and 437-443 *)
Definition inflight_of_row (pid : N) (r : row_inflight) : inflight :=
  Mk_inflight pid (ri_topic r) (ri_payload r) (int_to_qos (ri_qos r)) (ri_dup r).
(** sqlite.rs 349-371 *)
Definition sql_store_inflight (c : bytes) (pid : N) (i : inflight) (m : sql_store) : sql_store :=
  Mk_sql_store (sq_sessions m) (sq_retained m) (sq_wills m)
    (upsert key2_eqb (c, pid)
       (Mk_row_inflight (if_topic i) (if_payload i) (qos_to_int (if_qos i)) (if_dup i))
       (sq_inflight m)).
(** sqlite.rs 373-405 *)
Definition sql_get_inflight (c : bytes) (pid : N) (m : sql_store) : option inflight :=
  match aget key2_eqb (c, pid) (sq_inflight m) with
  | Some r => Some (inflight_of_row pid r)
  | None => None
  end.
(** sqlite.rs 407-418 *)
Definition sql_remove_inflight (c : bytes) (pid : N) (m : sql_store) : sql_store :=
  Mk_sql_store (sq_sessions m) (sq_retained m) (sq_wills m) (adel key2_eqb (c, pid) (sq_inflight m)).
(** sqlite.rs 420-452 *)
Definition sql_get_all_inflight (c : bytes) (m : sql_store) : list inflight :=
  map (fun kr => inflight_of_row (snd (fst kr)) (snd kr))
      (filter (fun kr => bytes_eqb c (fst (fst kr))) (sq_inflight m)).

(** Dispatch on the operation (lib.rs 70-142, the trait methods). *)
Definition sql_step (m : sql_store) (o : sop) : sres * sql_store :=
  match o with
  | SaveSession c st => (RUnit, sql_save_session c st m)
  | LoadSession c => (RSession (sql_load_session c m), m)
  | DeleteSession c => (RUnit, sql_delete_session c m)
  | ListSessions => (RClients (sql_list_sessions m), m)
  | StoreRetained t o => (RUnit, sql_store_retained t o m)
  | GetRetained f => (RMessages (sql_get_retained f m), m)
  | ClearRetained => (RUnit, sql_clear_retained m)
  | StoreWill c w => (RUnit, sql_store_will c w m)
  | GetWill c => (RWill (sql_get_will c m), m)
  | DeleteWill c => (RUnit, sql_delete_will c m)
  | StoreInflight c pid i => (RUnit, sql_store_inflight c pid i m)
  | GetInflight c pid => (RInflight (sql_get_inflight c pid m), m)
  | RemoveInflight c pid => (RUnit, sql_remove_inflight c pid m)
  | GetAllInflight c => (RInflights (sql_get_all_inflight c m), m)
  end.

(** A sequence of operations and the results of all of them. *)
Fixpoint store_run {S} (step : S -> sop -> sres * S) (os : list sop) (s : S) : list sres * S :=
  match os with
  | [] => ([], s)
  | o :: os =>
      let '(r, s) := step s o in
      let '(rs, s) := store_run step os s in (r :: rs, s)
  end.

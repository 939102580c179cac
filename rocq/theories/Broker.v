(** Model of tokio's broadcast receiver as used by the session streams, and of
    mercurio-server/src/broker.rs. *)
From Verif Require Import Base Codec Maps Topic TopicTree Storage.

(** ** Broadcast receivers (topic_tree.rs 18; tokio::sync::broadcast, capacity 16)

    The channel keeps the last 16 values. A receiver whose next value has been
    overwritten gets [Lagged] and is moved to the oldest kept value. *)
Definition capacity : nat := 16.

Inductive recv_out (T : Type) := Got (v : T) | Lagged (missed : nat) | Pending.
Arguments Got {T}. Arguments Lagged {T}. Arguments Pending {T}.

(** [rx.recv()] against the log of all values sent; the new position is returned. *)
Definition recv {T} (log : list T) (next : nat) : recv_out T * nat :=
  let oldest := (length log - capacity)%nat in
  if Nat.ltb next oldest then (Lagged (oldest - next), oldest)
  else match nth_error log next with
       | Some v => (Got v, S next)
       | None => (Pending, next)
       end.

(** ** Broker (broker.rs 14-27) *)
Record broker := Mk_broker { bk_tree : node message; bk_store : mem_store }.
Definition broker_new : broker := Mk_broker new_node mem_new.

(** The stream built for a subscription (session.rs 212-225, 404-418): retained
    messages not yet yielded, then the receiver's position in the node's log. *)
Record stream := Mk_stream { st_retained : list message; st_next : nat }.

(** broker.rs 31-42 *)
Definition broker_subscribe (f : bytes) (b : broker) : stream * broker :=
  let tree := tree_subscribe (levels f) (bk_tree b) in
  (Mk_stream (mem_get_retained f (bk_store b)) (length (log_at (levels f) tree)),
   Mk_broker tree (bk_store b)).

(** broker.rs 48-65: the storage step of a publish. *)
Definition publish_store (t : bytes) (m : message) (s : mem_store) : mem_store :=
  if mg_retain m then
    match mg_payload m with
    | None | Some [] => mem_store_retained t None s
    | Some _ => mem_store_retained t (Some (with_retain false m)) s
    end
  else s.

(** broker.rs 67 ; [tree_publish] never returns [None] (TreeFacts.tree_publish_eq). *)
Definition publish_route (t : bytes) (m : message) (n : node message) : node message :=
  match tree_publish t m n with Some n => n | None => n end.

(** broker.rs 46-69 *)
Definition broker_publish (t : bytes) (m : message) (b : broker) : broker :=
  Mk_broker (publish_route t m (bk_tree b)) (publish_store t m (bk_store b)).

(** Polling a stream (session.rs 212-225): retained messages first, then the
    receiver. [Lagged] is skipped and the receiver asked again. Simplified: the two
    calls are one step, so that it does not lag twice; a value sent between them has
    the effect of one sent just before the poll. *)
Definition stream_next (log : list message) (st : stream) : option (message * stream) :=
  match st_retained st with
  | m :: ms => Some (m, Mk_stream ms (st_next st))
  | [] =>
      match recv log (st_next st) with
      | (Got m, n) => Some (m, Mk_stream [] n)
      | (Lagged _, n) =>
          match recv log n with
          | (Got m, n) => Some (m, Mk_stream [] n)
          | _ => None
          end
      | (Pending, _) => None
      end
  end.

(** Histories of broker calls, and a subscriber polling its stream in between
    (session.rs 592-625 polls; the other calls come from any session). *)
Inductive broker_op := BSub (f : bytes) | BPub (t : bytes) (m : message).
Definition broker_step (b : broker) (o : broker_op) : broker :=
  match o with
  | BSub f => snd (broker_subscribe f b)
  | BPub t m => broker_publish t m b
  end.
Definition broker_run (os : list broker_op) (b : broker) : broker := fold_left broker_step os b.
Inductive sub_event := SOp (o : broker_op) | SPoll.
Record sub_sys := Mk_sub_sys { sy_broker : broker; sy_stream : stream; sy_out : list message }.
Definition sub_step (f : bytes) (s : sub_sys) (e : sub_event) : sub_sys :=
  match e with
  | SOp o => Mk_sub_sys (broker_step (sy_broker s) o) (sy_stream s) (sy_out s)
  | SPoll =>
      match stream_next (log_at (levels f) (bk_tree (sy_broker s))) (sy_stream s) with
      | Some (m, st) => Mk_sub_sys (sy_broker s) st (sy_out s ++ [m])
      | None => s
      end
  end.
Definition sub_run (f : bytes) (es : list sub_event) (s : sub_sys) : sub_sys := fold_left (sub_step f) es s.
Definition sub_start (f : bytes) (b : broker) : sub_sys :=
  let '(st, b) := broker_subscribe f b in Mk_sub_sys b st [].

(** ** Interleavings of broker calls

    The storage call and the routing of a publish (broker.rs 48-65 and 67) and the
    registration and lookup of a subscribe (broker.rs 35 and 36-40) are separate
    steps between which other tasks run. [pubs i] is the i-th publish. *)
Inductive race_event := PStore (i : nat) | PRoute (i : nat) | SRegister | SLookup.
Record race := Mk_race {
  rc_broker : broker;
  rc_start : option nat;            (* receiver position once registered *)
  rc_retained : option (list message)  (* result of the lookup *)
}.
Definition race_step (f : bytes) (pubs : nat -> bytes * message) (r : race) (e : race_event) : race :=
  let b := rc_broker r in
  match e with
  | PStore i =>
      let '(t, m) := pubs i in
      Mk_race (Mk_broker (bk_tree b) (publish_store t m (bk_store b))) (rc_start r) (rc_retained r)
  | PRoute i =>
      let '(t, m) := pubs i in
      Mk_race (Mk_broker (publish_route t m (bk_tree b)) (bk_store b)) (rc_start r) (rc_retained r)
  | SRegister =>
      let tree := tree_subscribe (levels f) (bk_tree b) in
      Mk_race (Mk_broker tree (bk_store b)) (Some (length (log_at (levels f) tree))) (rc_retained r)
  | SLookup => Mk_race b (rc_start r) (Some (mem_get_retained f (bk_store b)))
  end.
Definition race_run f pubs (es : list race_event) (r : race) : race :=
  fold_left (race_step f pubs) es r.
Definition race_init (b : broker) : race := Mk_race b None None.

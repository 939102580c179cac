(** The broker fed with bytes: the tasks of mercurio-server/src/server.rs 153-190 and 317-352 read
    packets from their connections (mercurio-server/src/connection.rs 55-94, Frame.v) and hand
    them to the broker (Server.v).

    Simplifications: connections are numbered and a number is not reused; accepting a connection has
    no event of its own (Listener.v); the timer only shows as [NEnd] (Timer.v); a panic of the
    decoder before the CONNECT is shown as closing the connection. *)
From Verif Require Import Base Maps Packets Frame Storage Broker Session Server.

(** connection.rs 55-69 when the bytes of [inbox] have arrived and no more: as [server_read], but
    [None], "wait", when more bytes are needed. In [select!] (server.rs 332) the call may be dropped
    while it waits; the bytes it has read stay in the read buffer. *)
Fixpoint poll_read (p : profile) (buf : bytes) (inbox : list bytes) : option read_out * bytes * list bytes :=
  match parse_packet p buf with
  | Ok (Some k, r) => (Some (RPacket k), r, inbox)
  | Ok (None, _) =>
      match inbox with
      | [] => (None, buf, [])
      | [] :: cs => (Some (server_eof buf), buf, cs)
      | c :: cs => poll_read p (buf ++ c) cs
      end
  | Err e => (Some (RError e), buf, inbox)
  | Panic => (Some RPanic, buf, inbox)
  end.

(** server.rs 153-168, connection.rs 12-16: a connection's task. [tk_phase]: waiting for the first
    packet, in the loop of [Handler::handle_connection], or over. [tk_inbox]: what has arrived and is
    not read yet, one chunk per socket read. *)
Inductive phase := Waiting | Serving | Over.
Record task := Mk_task { tk_phase : phase; tk_buf : bytes; tk_inbox : list bytes }.
Definition task_new : task := Mk_task Waiting [] [].

Record network := Mk_network { nt_world : world; nt_tasks : nat -> task }.
Definition network_new : network := Mk_network world_new (fun _ => task_new).
Definition put_task (c : nat) (t : task) (ts : nat -> task) : nat -> task := fun d => if Nat.eqb d c then t else ts d.

Inductive net_event :=
| NArrive (c : nat) (bs : bytes)           (* bytes arrive; none: end of stream *)
| NPoll (c : nat) (uuid : bytes) (a : bool)  (* the task calls [read_packet]; for a CONNECT: the generated
                                              identifier, and whether the CONNACK can be written *)
| NOut (c : nat) (f : bytes)               (* the stream of filter [f] is polled *)
| NEnd (c : nat)                           (* keep-alive timeout, shutdown, I/O error *)
| NRestart.

(** server.rs 174-190 and 332-346: what the task does with what it has read. *)
Definition first_event (c : nat) (out : read_out) (u : bytes) (a : bool) : event :=
  match out with RPacket k => EFirst c (Some k) u a | _ => EFirst c None u a end.
Definition next_event (c : nat) (out : read_out) : event :=
  match out with RPacket k => EPacket c k | RPanic => EPanic c | _ => EEnd c end.

(** The events of Server.v this amounts to (none or one), and the tasks but for their phases. *)
Definition net_happens (p : profile) (n : network) (ev : net_event) : list event * (nat -> task) :=
  match ev with
  | NArrive c bs =>
      let t := nt_tasks n c in ([], put_task c (Mk_task (tk_phase t) (tk_buf t) (tk_inbox t ++ [bs])) (nt_tasks n))
  | NPoll c u a =>
      let t := nt_tasks n c in
      match tk_phase t with
      | Over => ([], nt_tasks n)
      | ph =>
          let '(r, b, cs) := poll_read p (tk_buf t) (tk_inbox t) in
          (match r, ph with
           | None, _ => []
           | Some out, Waiting => [first_event c out u a]
           | Some out, _ => [next_event c out]
           end, put_task c (Mk_task ph b cs) (nt_tasks n))
      end
  | NOut c f => (match tk_phase (nt_tasks n c) with Serving => [EOut c f] | _ => [] end, nt_tasks n)
  | NEnd c => (match tk_phase (nt_tasks n c) with Serving => [EEnd c] | _ => [] end, nt_tasks n)
  | NRestart => ([ERestart], nt_tasks n)
  end.

(** The task that had an event goes on as long as the connection is served; a restart ends all tasks
    (a connection on which nothing has arrived is taken to be opened after it). *)
Definition is_served (w : world) (c : nat) : bool := is_some (aget Nat.eqb c (w_conns w)).
Definition ended (t : task) : task :=
  match t with Mk_task Waiting [] [] => t | _ => Mk_task Over (tk_buf t) (tk_inbox t) end.
Definition net_phase (w : world) (e : event) (ts : nat -> task) : nat -> task :=
  match e with
  | ERestart => fun c => ended (ts c)
  | EFirst c _ _ _ | EPacket c _ | EOut c _ | EEnd c | EPanic c =>
      put_task c (Mk_task (if is_served w c then Serving else Over) (tk_buf (ts c)) (tk_inbox (ts c))) ts
  end.

Definition nstep (cfg : config) (p : profile) (n : network) (ev : net_event) : network * list output :=
  let (es, ts) := net_happens p n ev in
  let '(w, o) := run cfg es (nt_world n) in
  (Mk_network w (match es with e :: _ => net_phase w e ts | [] => ts end), o).

Fixpoint nrun (cfg : config) (p : profile) (h : list net_event) (n : network) : network * list output :=
  match h with
  | [] => (n, [])
  | ev :: h =>
      let '(n, o) := nstep cfg p n ev in
      let '(n, os) := nrun cfg p h n in
      (n, o ++ os)
  end.

(** The history of the broker: the events in order. *)
Fixpoint nhistory (cfg : config) (p : profile) (h : list net_event) (n : network) : list event :=
  match h with
  | [] => []
  | ev :: h => fst (net_happens p n ev) ++ nhistory cfg p h (fst (nstep cfg p n ev))
  end.

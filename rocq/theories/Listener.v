(** Model of the listener, of the shutdown and of cancelled reads: mercurio-server/src/server.rs
    72-209, 303-440, shutdown.rs, the read loops of both connection.rs, and the start-up of the
    daemon, mercuriod/src/main.rs 115-167. *)
From Verif Require Import Base Codec Packets Frame Maps Session Server.

(** ** Accepting connections *)

(** What the listener does between two results of [TcpListener::accept]. *)
Inductive listener_action :=
| LAccept                (* the connection is handed to its own task *)
| LSleep (seconds : N)
| LStop.                 (* [run] returns the error, and so does run_with_tls *)

(** server.rs 125-127 and 192-209: [os] are the results of the calls of
    [TcpListener::accept], [true] for a connection. [run] calls [accept] again after each
    connection, with a new backoff; [backoff] is the one of the call in progress. *)
Fixpoint listen (backoff : N) (os : list bool) : list listener_action :=
  match os with
  | [] => []
  | true :: os => LAccept :: listen 1 os
  | false :: os => if 64 <? backoff then [LStop] else LSleep backoff :: listen (backoff * 2) os
  end.

(** ** Cancelled reads *)

(** What the future of [read_packet] sees: bytes from the socket, or that it is dropped because
    [select!] took another branch (server.rs 330-438; mercurio-client/src/client.rs 231-310). *)
Inductive poll_in :=
| Chunk (c : bytes)
| Dropped.

(** mercurio-server/src/connection.rs 55-69: [server_read] with cancellation. The only await is
    [read_buf]; the buffer belongs to the connection and outlives the future. [None]: dropped. *)
Fixpoint server_poll (p : profile) (buf : bytes) (ins : list poll_in) : option read_out * bytes * list poll_in :=
  match parse_packet p buf with
  | Ok (Some k, r) => (Some (RPacket k), r, ins)
  | Ok (None, _) =>
      match ins with
      | [] => (Some (server_eof buf), buf, [])
      | Dropped :: is => (None, buf, is)
      | Chunk [] :: is => (Some (server_eof buf), buf, is)
      | Chunk c :: is => server_poll p (buf ++ c) is
      end
  | Err e => (Some (RError e), buf, ins)
  | Panic => (Some RPanic, buf, ins)
  end.
(** server.rs 329-331: [read_packet] is called in a loop until it returns something else than a
    packet; a dropped call is followed by a new one. [sp_skipped]: the future is dropped before it is
    polled, because [select!] polled another branch first. *)
Inductive server_polls (p : profile) : bytes -> list poll_in -> list packet -> read_out -> Prop :=
| sp_end buf ins out buf' is :
    server_poll p buf ins = (Some out, buf', is) -> (forall k, out <> RPacket k) -> server_polls p buf ins [] out
| sp_packet buf ins k buf' is ks out :
    server_poll p buf ins = (Some (RPacket k), buf', is) -> server_polls p buf' is ks out -> server_polls p buf ins (k :: ks) out
| sp_dropped buf ins buf' is ks out :
    server_poll p buf ins = (None, buf', is) -> server_polls p buf' is ks out -> server_polls p buf ins ks out
| sp_skipped buf is ks out :
    server_polls p buf is ks out -> server_polls p buf (Dropped :: is) ks out.

(** mercurio-client/src/connection.rs 66-103: [client_read] with cancellation. *)
Fixpoint client_poll (p : profile) (v : version) (buf : bytes) (ins : list poll_in) : option read_out * bytes * list poll_in :=
  match client_try p v buf with
  | Ok (Some k, r) => (Some (RPacket k), r, ins)
  | Ok (None, _) =>
      match ins with
      | [] => (Some RClosed, buf, [])
      | Dropped :: is => (None, buf, is)
      | Chunk [] :: is => (Some RClosed, buf, is)
      | Chunk c :: is => client_poll p v (buf ++ c) is
      end
  | Err e => (Some (RError e), buf, ins)
  | Panic => (Some RPanic, buf, ins)
  end.
(** mercurio-client/src/client.rs 230-233. *)
Inductive client_polls (p : profile) (v : version) : bytes -> list poll_in -> list packet -> read_out -> Prop :=
| cp_end buf ins out buf' is :
    client_poll p v buf ins = (Some out, buf', is) -> (forall k, out <> RPacket k) -> client_polls p v buf ins [] out
| cp_packet buf ins k buf' is ks out :
    client_poll p v buf ins = (Some (RPacket k), buf', is) -> client_polls p v buf' is ks out -> client_polls p v buf ins (k :: ks) out
| cp_dropped buf ins buf' is ks out :
    client_poll p v buf ins = (None, buf', is) -> client_polls p v buf' is ks out -> client_polls p v buf ins ks out
| cp_skipped buf is ks out :
    client_polls p v buf is ks out -> client_polls p v buf (Dropped :: is) ks out.

(** ** Shutdown *)

(** server.rs 112-121, 174-190 and 329-440: what the task of one connection is doing.
    [told]: the sender of the shutdown channel is gone. *)
Inductive task :=
| Greeting (told : bool)     (* waiting for the first packet; not inside a [select!] *)
| Serving (told : bool)
| Finished.
Inductive task_in :=
| TShutdown                  (* run_with_tls returns, the listener and the sender are dropped *)
| TConnect                   (* a CONNECT arrives and is accepted *)
| TOther                     (* another packet arrives, or a message is to be sent *)
| TLost                      (* end of stream, an error, or the keep-alive timeout *)
| TSeen.                     (* the shutdown branch of [select!] is taken *)
Definition task_step (t : task) (i : task_in) : task :=
  match t, i with
  | Greeting _, TShutdown => Greeting true
  | Greeting b, TConnect => Serving b
  | Greeting b, TSeen => Greeting b
  | Greeting _, _ => Finished
  | Serving _, TShutdown => Serving true
  | Serving b, TSeen => if b then Finished else Serving b
  | Serving _, TLost => Finished
  | Serving b, _ => Serving b
  | Finished, _ => Finished
  end.

(** All connections end, in the order [order] in which their tasks see the shutdown
    (server.rs 435-437 and 303-310). *)
Definition shutdown (cfg : config) (order : list nat) (w : world) : world * list output :=
  run cfg (map EEnd order) w.
(** mercuriod/src/main.rs 162-167: [main] returns after run_with_tls, and the runtime drops the
    tasks that have not finished; the first [n] of them have. Simplified: a task that has begun
    to end ends completely (crash points inside an event are in Crash.v). *)
Definition daemon_exit (cfg : config) (order : list nat) (n : nat) (w : world) : world * list output :=
  run cfg (map EEnd (firstn n order)) w.
(** server.rs 81: every run of the broker has a store of its own. *)
Definition daemon_restart (w : world) : world := world_new.

(** ** Transport of the daemon *)

(** config.rs 62-79 [TlsServerConfig]; the paths stand for themselves. *)
Record tls_section := Mk_tls_section {
  ts_enabled : bool;
  ts_cert : option bytes;
  ts_key : option bytes;
  ts_ca : option bytes
}.
(** tls.rs (server) 16-23 [TlsConfig] *)
Record tls_files := Mk_tls_files { tf_cert : bytes; tf_key : bytes; tf_ca : option bytes }.
(** main.rs 115-136: [None] is the error that [main] returns. *)
Definition daemon_tls (t : tls_section) : option (option tls_files) :=
  if ts_enabled t then
    match ts_cert t, ts_key t with
    | Some c, Some k => Some (Some (Mk_tls_files c k (ts_ca t)))
    | _, _ => None
    end
  else Some None.
(** How accepted sockets are served (server.rs 137-169). *)
Inductive transport :=
| PlainTcp
| OverTls (cert key : bytes) (client_ca : option bytes).
Inductive daemon_run :=
| Refused                    (* [main] returns an error: exit status 1 *)
| Returned                   (* run_with_tls returns at once: exit status 0 *)
| Serves (t : transport).
(** tls.rs 42-71 and server.rs 83-97; [loads] tells whether the files can be loaded
    ([build_acceptor] succeeds). *)
Definition daemon_start (loads : tls_files -> bool) (t : tls_section) : daemon_run :=
  match daemon_tls t with
  | None => Refused
  | Some None => Serves PlainTcp
  | Some (Some f) => if loads f then Serves (OverTls (tf_cert f) (tf_key f) (tf_ca f)) else Returned
  end.

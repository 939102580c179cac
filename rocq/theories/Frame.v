(** Reading packets from a byte stream: mercurio-server/src/connection.rs and
    mercurio-client/src/connection.rs.

    The bytes a peer sends arrive as a list of chunks, one per successful socket read;
    a read of zero bytes (an empty chunk, or the end of the list) is end-of-file. *)
From Verif Require Import Base Codec Packets.

(** What one call of [read_packet] returns. *)
Inductive read_out :=
| RPacket (k : packet)
| RClosed
| RError (e : error)
| RPanic.

(** connection.rs (server) 83-94 *)
Definition parse_packet (p : profile) (buf : bytes) : res (option packet * bytes) :=
  match check p buf with
  | Ok _ => do (k, r) <- parse p buf; Ok (Some k, r)
  | Err PacketIncomplete => Ok (None, buf)
  | Err e => Err e
  | Panic => Panic
  end.

(** connection.rs (server) 61-67: a read of zero bytes. *)
Definition server_eof (buf : bytes) : read_out :=
  match buf with [] => RClosed | _ => RError (EReason NormalDisconnection) end.

(** connection.rs (server) 55-69. Returns the outcome, the read buffer and the
    chunks not read yet. *)
Fixpoint server_read (p : profile) (buf : bytes) (chunks : list bytes)
    : read_out * bytes * list bytes :=
  match parse_packet p buf with
  | Ok (Some k, r) => (RPacket k, r, chunks)
  | Ok (None, _) =>
      match chunks with
      | [] => (server_eof buf, buf, [])
      | [] :: cs => (server_eof buf, buf, cs)
      | c :: cs => server_read p (buf ++ c) cs
      end
  | Err e => (RError e, buf, chunks)
  | Panic => (RPanic, buf, chunks)
  end.

(** Calling [read_packet] until it does not return a packet: the packets, the final
    outcome, and the final buffer. *)
Inductive server_reads (p : profile) : bytes -> list bytes -> list packet -> read_out -> Prop :=
| sreads_end buf chunks out buf' cs :
    server_read p buf chunks = (out, buf', cs) -> (forall k, out <> RPacket k) ->
    server_reads p buf chunks [] out
| sreads_packet buf chunks k buf' cs ks out :
    server_read p buf chunks = (RPacket k, buf', cs) ->
    server_reads p buf' cs ks out ->
    server_reads p buf chunks (k :: ks) out.

(** connection.rs (client) 66-96 [read_packet]: parses a clone of the buffer without a
    completeness check, then drops as many bytes as re-encoding the packet takes
    (99-103; [split_to] panics when there are fewer). *)
Definition client_try (p : profile) (v : version) (buf : bytes) : res (option packet * bytes) :=
  match buf with
  | [] => Ok (None, buf)
  | _ =>
      match parse_with_version p v buf with
      | Ok (k, _) =>
          do e <- packet_enc k;
          if blen buf <? blen e then Panic else Ok (Some k, bdrop (blen e) buf)
      | Err PacketIncomplete => Ok (None, buf)
      | Err e => Err e
      | Panic => Panic
      end
  end.

Fixpoint client_read (p : profile) (v : version) (buf : bytes) (chunks : list bytes)
    : read_out * bytes * list bytes :=
  match client_try p v buf with
  | Ok (Some k, r) => (RPacket k, r, chunks)
  | Ok (None, _) =>
      match chunks with
      | [] => (RClosed, buf, [])
      | [] :: cs => (RClosed, buf, cs)
      | c :: cs => client_read p v (buf ++ c) cs
      end
  | Err e => (RError e, buf, chunks)
  | Panic => (RPanic, buf, chunks)
  end.

Inductive client_reads (p : profile) (v : version)
    : bytes -> list bytes -> list packet -> read_out -> Prop :=
| creads_end buf chunks out buf' cs :
    client_read p v buf chunks = (out, buf', cs) -> (forall k, out <> RPacket k) ->
    client_reads p v buf chunks [] out
| creads_packet buf chunks k buf' cs ks out :
    client_read p v buf chunks = (RPacket k, buf', cs) ->
    client_reads p v buf' cs ks out ->
    client_reads p v buf chunks (k :: ks) out.

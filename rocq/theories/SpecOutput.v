(** Vocabulary for C97: events whose packets were read from a network, and the packets that the broker does not write
    as the standard says. *)
From Verif Require Import Base Codec SpecProperty Property PacketProps Packets SpecTopic Maps Topic TopicTree Storage Broker Auth
  Session Server.

(** The packet was parsed from bytes. *)
Definition received (k : packet) : Prop :=
  exists p v bs r, is_bytes bs /\ blen bs < two64 /\ parse_with_version p v bs = Ok (k, r).
(** Every packet in the event was received; generated identifiers are strings. *)
Definition from_network (e : event) : Prop :=
  match e with
  | EFirst _ (Some k) u _ => received k /\ wf_str u
  | EPacket _ k => received k
  | _ => True
  end.
(** Clients speak version [v] of the protocol. *)
Definition speaks (v : version) (e : event) : Prop :=
  match e with
  | EFirst _ (Some (Connect k)) _ _ => c_protocol_version k = v
  | _ => True
  end.

(** What the broker sends to clients of version [v] and is not a packet of that version: AUTH; PUBLISH in version 3; PUBLISH with a
    QoS but without packet identifier (wills); the refusal of a filter in version 3; empty answers to empty requests. *)
Definition exceptional (v : version) (k : packet) : Prop :=
  match k with
  | Auth _ => True
  | Publish b => v <> V5 \/ (pb_qos b <> AtMostOnce /\ pb_packet_id b = None)
  | SubAck s => sa_payload s = [] \/ (v <> V5 /\ In TopicFilterInvalid (sa_payload s))
  | UnsubAck s => ua_payload s = []
  | _ => False
  end.

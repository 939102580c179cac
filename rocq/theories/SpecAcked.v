(** Vocabulary for messages that a client has acknowledged. *)
From Verif Require Import Base Maps Codec Packets Storage Session Server SpecServer Conc SpecConc SpecDurable SpecLives.
(* Conc is imported for the types of traces and for the process on a given store. *)

(** Packet [k] ends the delivery of the message with identifier [n]. *)
Definition settles (n : N) (k : packet) : Prop := exists a, ak_packet_id a = n /\ (k = PubAck a \/ k = PubComp a).
(** In the life [tr] connection [c] sends such a packet, which its task handles (doing anything for it) before [rest]. *)
Definition settled (c : nat) (n : N) (pre mid rest tr : list item) : Prop := exists k,
  tr = pre ++ IStart (EPacket c k) :: mid ++ IEnd c :: rest /\ settles n k /\ (forall e, In (IStart e) mid -> event_conn e <> c) /\ exists o, In (IStep c o) mid.
(** Connection [c] is sent no PUBLISH with identifier [n]. *)
Definition not_sent (c : nat) (n : N) (tr : list item) : Prop := forall q, In (IStep c (OOut (Sent c (Publish q)))) tr -> pb_packet_id q <> Some n.
(** The task of [c] is not in the midst of anything. *)
Definition at_rest (c : nat) (x : conf) : Prop := aget Nat.eqb c (cn_tasks x) = None.
(** PUBLISH [q] is sent to connection [c] again because the client comes back: while its CONNECT is handled, after [before]. *)
Definition sent_again (c : nat) (q : publish_packet) (before tr : list item) : Prop := exists a k u w b after,
  tr = a ++ IStart (EFirst c k u w) :: b ++ IStep c (OOut (Sent c (Publish q))) :: after /\ before = a ++ IStart (EFirst c k u w) :: b
  /\ forall e, In (IStart e) b -> event_conn e <> c.
(** The broker goes on from store [st] to store [st'] through any number of lives; in each the client of [id] uses one connection, if
    any, is sent no PUBLISH with identifier [n], and nothing is being done for it when the broker stops. *)
Inductive without_another (cfg : config) (id : bytes) (n : N) (st : mem_store) : mem_store -> Prop :=
| wa_none : without_another cfg id n st st
| wa_more st1 c tr x : without_another cfg id n st st1 -> mruns cfg (conf_on st1) tr x -> (forall c, Forall texts (events_of c tr)) ->
    owns c id tr -> not_sent c n tr -> at_rest c x -> without_another cfg id n st (w_store (cn_world x)).

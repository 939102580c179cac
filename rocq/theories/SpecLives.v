(** Vocabulary for a broker that is stopped and started again on the store it left. *)
From Verif Require Import Base Codec Packets Storage Broker Server SpecServer Conc SpecConc SpecDurable.
(* Conc is imported for traces and for the process on a given store. *)

(** The lives of the broker so far and the store it has left: each life is a trace of interleaved handlers that is cut off at
    any point, and starts on the store of the one before. The texts of packets are UTF-8 (C05). *)
Inductive lives (cfg : config) : list (list item) -> mem_store -> Prop :=
| lv_none : lives cfg [] mem_new
| lv_more trs st tr x : lives cfg trs st -> mruns cfg (conf_on st) tr x -> (forall c, Forall texts (events_of c tr)) ->
    lives cfg (trs ++ [tr]) (w_store (cn_world x)).

(** Message [m] was sent in one of the lives. *)
Definition sent_in (cfg : config) (trs : list (list item)) (m : message) : Prop := exists tr, In tr trs /\ sourced cfg tr m.
(** Connection [c] of life number [n]: the identifiers it came with and the filters it asked for. *)
Definition bears (trs : list (list item)) (n c : nat) (id : bytes) : Prop := exists tr, nth_error trs n = Some tr /\ named c id tr.
Definition asked_in (trs : list (list item)) (n c : nat) (f : bytes) : Prop := exists tr, nth_error trs n = Some tr /\ asked c f tr.
(** Connections of the same client, in whatever lives: joined by identifiers that they share. *)
Inductive joined (trs : list (list item)) : nat * nat -> nat * nat -> Prop :=
| jn_refl x : joined trs x x
| jn_step x n c m d id : joined trs x (n, c) -> bears trs n c id -> bears trs m d id -> joined trs x (m, d).

(** In the life [tr] the client of identifier [id] comes with the first CONNECT of connection [d], without asking for a clean
    start, and nobody else comes with [id]; the event [e] of this CONNECT is handled to its end between [pre] and [post]. *)
Definition returns (cfg : config) (id : bytes) (d : nat) (e : event) (pre mid post tr : list item) : Prop :=
  exists k u, e = EFirst d (Some (Connect k)) u true /\ handled d e pre mid post tr /\ events_of d pre = [] /\ accepts cfg k
    /\ presented k = id /\ cf_clean_start (c_flags k) = false /\ owns d id tr.
(** In the life [tr] the client of [id] uses connection [c] only, if any: it comes once, without asking for a clean start, and
    is accepted. *)
Definition only_returns (cfg : config) (id : bytes) (c : nat) (tr : list item) : Prop :=
  owns c id tr /\
  (events_of c tr = [] \/
   exists k u es, events_of c tr = EFirst c (Some (Connect k)) u true :: es /\ accepts cfg k /\ presented k = id
     /\ cf_clean_start (c_flags k) = false /\ forall first u' a, ~ In (EFirst c first u' a) es).
(** On connection [c] the client does not unsubscribe from [f]. *)
Definition no_unsubscribe (f : bytes) (c : nat) (tr : list item) : Prop :=
  forall p, In (EPacket c (Unsubscribe p)) (events_of c tr) -> ~ In f (us_payload p).
(** On connection [c] the client does not acknowledge message [n], and the broker does not begin to send it another message
    with this identifier. *)
Definition no_ack (id : bytes) (n : N) (c : nat) (tr : list item) : Prop :=
  (forall a, In (EPacket c (PubAck a)) (events_of c tr) \/ In (EPacket c (PubComp a)) (events_of c tr) -> ak_packet_id a <> n) /\ ~ reused c id n tr.
Definition no_event (c : nat) (tr : list item) : Prop := events_of c tr = [].
(** The broker goes on from store [st] to store [st'] through any number of lives; in each of them the client of [id] comes
    at most once, and [Q] holds of its connection. *)
Inductive goes_on (cfg : config) (id : bytes) (Q : nat -> list item -> Prop) (st : mem_store) : mem_store -> Prop :=
| go_none : goes_on cfg id Q st st
| go_more st1 tr x c : goes_on cfg id Q st st1 -> mruns cfg (conf_on st1) tr x -> (forall c, Forall texts (events_of c tr)) ->
    only_returns cfg id c tr -> Q c tr -> goes_on cfg id Q st (w_store (cn_world x)).

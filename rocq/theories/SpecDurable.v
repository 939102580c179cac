(** Vocabulary for what is found in the store whenever the broker stops. *)
From Verif Require Import Base Codec Packets Storage Session Server SpecServer Conc SpecConc.
(* Conc is imported for the types of traces only. *)

(** [id] is the identifier of the client of connection [c] and of no other: connection [c] comes with no other identifier,
    and no other connection with this one. *)
Definition owns (c : nat) (id : bytes) (tr : list item) : Prop :=
  (forall id', named c id' tr -> id' = id) /\ forall d, named d id tr -> d = c.
(** From here on connection [c] neither unsubscribes from [f] nor starts anew. *)
Definition stays_subscribed (c : nat) (f : bytes) (tr : list item) : Prop :=
  forall e, In (IStart e) tr ->
    (forall p, e = EPacket c (Unsubscribe p) -> ~ In f (us_payload p)) /\ (forall k u a, e <> EFirst c k u a).
(** From here on connection [c] does not acknowledge message [n] and does not start anew. *)
Definition unacknowledged (c : nat) (n : N) (tr : list item) : Prop :=
  forall e, In (IStart e) tr ->
    (forall a, e = EPacket c (PubAck a) \/ e = EPacket c (PubComp a) -> ak_packet_id a <> n) /\ (forall k u a, e <> EFirst c k u a).
(** Another message for client [id] is given the identifier [n]. *)
Definition reused (c : nat) (id : bytes) (n : N) (tr : list item) : Prop :=
  exists y r, In (IStep c (OStore (StoreInflight id n y) r)) tr.
(** [y] was the last thing stored as the retained message of topic [t]. *)
Definition last_retained (t : bytes) (y : option message) (tr : list item) : Prop :=
  exists d r a b, tr = a ++ IStep d (OStore (StoreRetained t y) r) :: b /\ forall d' y' r', ~ In (IStep d' (OStore (StoreRetained t y') r')) b.
(** From here on connection [c] neither sends DISCONNECT nor starts anew. *)
Definition remains (c : nat) (tr : list item) : Prop :=
  forall e, In (IStart e) tr -> (forall d, e <> EPacket c (Disconnect d)) /\ (forall k u a, e <> EFirst c k u a).

(** Vocabulary for connections that are never let in. *)
From Verif Require Import Base Codec Packets Broker Server SpecServer Network SpecNetwork Conc SpecConc ConcNet.

(** The connection whose handler an item of a trace belongs to. *)
Definition item_of (i : item) : nat := match i with IStart e => event_conn e | IStep c _ | IEnd c => c end.
(** The trace without the connections in [out]. *)
Definition without (out : nat -> bool) (tr : list item) : list item := filter (fun i => negb (out (item_of i))) tr.
(** No CONNECT that the broker has to accept comes on connection [c]. *)
Definition never_let_in (cfg : config) (c : nat) (tr : list item) : Prop :=
  forall k u a, In (IStart (EFirst c (Some (Connect k)) u a)) tr -> ~ accepts cfg k.
(** What a connection that is not let in may be sent: a CONNACK that refuses it, and the end. *)
Definition refusal (c : nat) (o : output) : Prop :=
  o = Closed c \/ exists v, o = Sent c (ConnAck (Mk_connack_packet v false BadUserNameOrPassword None)).

(** The moves of a broker fed with bytes, without those of the connections in [out]: neither their bytes nor their handlers. *)
Definition move_of (m : bmove) : option nat :=
  match m with
  | BNet (NArrive c _ | NPoll c _ _ | NOut c _ | NEnd c) => Some c
  | BNet NRestart => None
  | BGo c => Some c
  end.
Definition unmoved (out : nat -> bool) (ms : list bmove) : list bmove :=
  filter (fun m => match move_of m with Some c => negb (out c) | None => true end) ms.
(** The bytes that have arrived on connection [c] begin with the packet [k]. *)
Definition opens_with (p : profile) (c : nat) (h : list net_event) (k : packet) : Prop :=
  exists ks b cs, reads_to p [] (arrived c h) (k :: ks) b cs.

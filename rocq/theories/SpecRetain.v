(** Vocabulary for retained messages while handlers interleave and the broker stops and starts. *)
From Verif Require Import Base Codec Packets Storage Session Server SpecServer Conc SpecConc.
(* Conc is imported for the types of traces only. *)

(** Something happens that asks for a retained message of topic [t] to be stored or removed: a PUBLISH with the flag. *)
Definition retains (t : bytes) (e : event) : Prop :=
  exists c p, e = EPacket c (Publish p) /\ pb_topic p = t /\ pb_retain p = true.
Definition undisturbed (t : bytes) (tr : list item) : Prop := forall e, In (IStart e) tr -> ~ retains t e.
(** Nobody who connects leaves a will that is to be retained for [t]. *)
Definition no_retained_will (t : bytes) (tr : list item) : Prop :=
  forall c k u a w, In (IStart (EFirst c (Some (Connect k)) u a)) tr -> declares k w -> wl_topic w = t -> wl_retain w = false.
(** Whoever asked for a retained message of [t] has been served. *)
Definition settled (t : bytes) (tr : list item) : Prop :=
  forall a e b, tr = a ++ IStart e :: b -> retains t e -> In (IEnd (event_conn e)) b.
(** The broker has sent something to connection [c], or it has finished handling what came from it. *)
Definition confirmed (c : nat) (tr : list item) : Prop := In (IEnd c) tr \/ exists o, In (IStep c (OOut o)) tr.
(** What the broker finds among [ms] for topic [t] is what the PUBLISH [p] asked it to keep: the message, or none if it
    carries nothing. *)
Definition on_topic (t : bytes) (m : message) : bool := if list_eq_dec N.eq_dec (mg_topic m) t then true else false.
Definition kept_of (p : publish_packet) : list message :=
  match pb_payload p with
  | None | Some [] => []
  | Some v => [Mk_message (pb_packet_id p) (pb_topic p) (pb_dup p) (pb_qos p) true (Some v)]
  end.
(** When the broker looked for retained messages that match [f] it found [ms]. *)
Definition found (f : bytes) (ms : list message) (tr : list item) : Prop :=
  exists d, In (IStep d (OStore (GetRetained f) (RMessages ms))) tr.

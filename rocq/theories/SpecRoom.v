(** Vocabulary for the room that the broker takes. *)
From Verif Require Import Base Codec Packets Topic TopicTree Session Server Conc.
(* Conc is imported for events and traces. *)

(** The connections whose first packet is a CONNECT that passes the test [ok], as often as they send one. *)
Definition connects (ok : connect_packet -> bool) (tr : list item) : list nat :=
  flat_map (fun i => match i with IStart (EFirst c (Some (Connect k)) _ _) => if ok k then [c] else [] | _ => [] end) tr.
(** No client asks for anything with a SUBSCRIBE. *)
Definition nobody_subscribes (tr : list item) : Prop := forall c p, ~ In (IStart (EPacket c (Subscribe p))) tr.
(** The place [p] is on the way to filter [f], or there. *)
Definition on_the_way (p : list bytes) (f : bytes) : Prop := exists r, levels f = p ++ r.

(** Vocabulary for the broker fed with bytes while handlers are interleaved. *)
From Verif Require Import Base Codec SpecCodec Packets Frame Server Conc SpecConc Network SpecNetwork ConcNet.

(** What happened outside the handlers. *)
Definition net_part (ms : list bmove) : list net_event := flat_map (fun m => match m with BNet ev => [ev] | BGo _ => [] end) ms.
(** The packets of connection [c] for which a handler was started, in order. *)
Definition started (c : nat) (tr : list item) : list packet :=
  flat_map (fun i => match i with
    | IStart (EFirst d (Some k) _ _) | IStart (EPacket d k) => if Nat.eqb d c then [k] else []
    | _ => [] end) tr.
(** Connection [c] reads on: no handler of it is at work, and its loop has not been left. *)
Definition reading (c : nat) (n : bnet) : Prop := idle c (bn_conf n) /\ tk_phase (bn_tasks n c) <> Over.

(** Vocabulary for subscriptions that have been given up. *)
From Verif Require Import Base Codec Packets Storage Session Server SpecServer Conc SpecConc SpecDurable SpecLives.
(* Conc is imported for the types of traces and for the process on a given store. *)

(** On connection [c] nobody asks for [f]. *)
Definition unasked (c : nat) (f : bytes) (tr : list item) : Prop :=
  forall p, In (IStart (EPacket c (Subscribe p))) tr -> ~ In f (map fst (sb_payload p)).
(** Connection [c] does not begin anew. *)
Definition goes_on_only (c : nat) (tr : list item) : Prop := forall k u a, ~ In (IStart (EFirst c k u a)) tr.
(** The broker goes on from store [st] to store [st'] through any number of lives, in each of which [P] holds. *)
Inductive passes (cfg : config) (P : list item -> Prop) (st : mem_store) : mem_store -> Prop :=
| ps_none : passes cfg P st st
| ps_more st1 tr x : passes cfg P st st1 -> mruns cfg (conf_on st1) tr x -> (forall c, Forall texts (events_of c tr)) -> P tr ->
    passes cfg P st (w_store (cn_world x)).
(** The client of [id] uses one connection, if any, and does not ask for [f]. *)
Definition without_asking (id f : bytes) (tr : list item) : Prop := exists c, owns c id tr /\ unasked c f tr.

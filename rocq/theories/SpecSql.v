(** Vocabulary for the store operations a broker makes. *)
From Verif Require Import Base Codec Packets Storage SpecStorage Broker Session Server Conc.
(* Conc is imported for the types of traces only. *)

(** The operations on the store, in order, and their answers. *)
Definition store_calls (tr : list item) : list (sop * sres) :=
  flat_map (fun i => match i with IStep _ (OStore o r) => [(o, r)] | _ => [] end) tr.
(** No filter with a comma is asked for. *)
Definition comma_free (tr : list item) : Prop :=
  forall c p, In (IStart (EPacket c (Subscribe p))) tr -> Forall (fun fo => ~ In 44 (fst fo)) (sb_payload p).
(** The same answer but for the order of what is listed and for the packet identifiers of retained messages, which are gone. *)
Definition without_id (m : message) : message := Mk_message None (mg_topic m) (mg_dup m) (mg_qos m) (mg_retain m) (mg_payload m).
Definition alike (r r' : sres) : Prop :=
  res_equiv r (match r' with RMessages ms => RMessages (map without_id ms) | _ => r' end).

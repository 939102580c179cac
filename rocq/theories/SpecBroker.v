(** Independent specification of retained messages and of delivery order. *)
From Verif Require Import Base SpecTopic Storage Broker.
(* Storage and Broker are imported for the types of messages and events only. *)

(** The retained message of topic [t] after a history of publications (oldest
    first): the last retained one with a payload, unless cleared later. *)
Definition empty_payload (m : message) : Prop := mg_payload m = None \/ mg_payload m = Some [].
Inductive retained_after (t : bytes) : list (bytes * message) -> option message -> Prop :=
| ra_nil : retained_after t [] None
| ra_set h m : mg_retain m = true -> ~ empty_payload m ->
               retained_after t (h ++ [(t, m)]) (Some m)
| ra_clear h m : mg_retain m = true -> empty_payload m ->
                 retained_after t (h ++ [(t, m)]) None
| ra_other h t' m o : (t' <> t \/ mg_retain m = false) -> retained_after t h o ->
                      retained_after t (h ++ [(t', m)]) o.

(** [subseq a b]: [a] is obtained from [b] by deleting elements. *)
Inductive subseq {T} : list T -> list T -> Prop :=
| ss_nil : subseq [] []
| ss_keep x a b : subseq a b -> subseq (x :: a) (x :: b)
| ss_drop x a b : subseq a b -> subseq a (x :: b).

(** Event [a] happens before event [b] in a schedule where each happens once. *)
Definition before {E} (a b : E) (es : list E) : Prop :=
  exists x y z, es = x ++ a :: y ++ b :: z.

(** The publications of a history, in order; the broker calls among a subscriber's events. *)
Definition published (os : list broker_op) : list (bytes * message) :=
  flat_map (fun o => match o with BSub _ => [] | BPub t m => [(t, m)] end) os.
Definition ops_of (es : list sub_event) : list broker_op :=
  flat_map (fun e => match e with SOp o => [o] | SPoll => [] end) es.
(** All publications are on valid topic names. *)
Definition on_names {T} (ps : list (bytes * T)) : Prop := Forall (fun tm => topic_name (fst tm)) ps.

(** Vocabulary for the listener, cancelled reads and the shutdown (C82-C86). The functions of
    Listener.v are not used, only its types. *)
From Verif Require Import Base Codec SpecTopic Maps Topic TopicTree Property PacketProps Packets Storage Broker Auth Session Server SpecServer Listener.

(** The listener gives up when this many calls of accept in a row fail. *)
Definition failures_in_a_row (n : nat) (os : list bool) : Prop := exists a b, os = a ++ repeat false n ++ b.
Fixpoint accepted (ls : list listener_action) : nat :=
  match ls with [] => O | LAccept :: ls => S (accepted ls) | _ :: ls => accepted ls end.
Fixpoint offered (os : list bool) : nat :=
  match os with [] => O | true :: os => S (offered os) | false :: os => offered os end.
Fixpoint slept (ls : list listener_action) : N :=
  match ls with [] => 0 | LSleep n :: ls => n + slept ls | _ :: ls => slept ls end.

(** The bytes that arrive, without the cancellations. *)
Fixpoint arrived (ins : list poll_in) : list bytes :=
  match ins with [] => [] | Chunk c :: is => c :: arrived is | Dropped :: is => arrived is end.

(** What the subscribers of filter [f] are told when the connections [order] end one after the other,
    each with the will it has in [w]. *)
Inductive announced (w : world) (f : bytes) : list nat -> list message -> Prop :=
| an_nil : announced w f [] []
| an_none c i s order ms : serves w c i s -> se_will s = None ->
    announced w f order ms -> announced w f (c :: order) ms
| an_will c i s x m order ms : serves w c i s -> se_will s = Some x -> matches f (wl_topic x) -> announces x m ->
    announced w f order ms -> announced w f (c :: order) (m :: ms)
| an_other c i s x order ms : serves w c i s -> se_will s = Some x -> ~ matches f (wl_topic x) ->
    announced w f order ms -> announced w f (c :: order) ms.
(** No two connections share a session. *)
Definition one_session_each (w : world) : Prop :=
  forall c d i, aget Nat.eqb c (w_conns w) = Some i -> aget Nat.eqb d (w_conns w) = Some i -> c = d.
Definition wills_on_names (w : world) : Prop :=
  forall c i s x, serves w c i s -> se_will s = Some x -> topic_name (wl_topic x).

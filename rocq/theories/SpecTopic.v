(** Independent specification of topic names, topic filters and matching
    (MQTT 5.0 section 4.7). Nothing here refers to the model of the code. *)
From Verif Require Import Base SpecCodec.

(** [text s cs]: the string [s] is the UTF-8 encoding of the characters [cs]. *)
Definition text (s : bytes) (cs : list N) : Prop :=
  Forall scalar cs /\ s = flat_map utf8_encode1 cs.

(** A topic name (4.7.1-1, 4.7.3): ASCII codes 43 '+', 35 '#', 47 '/', 36 '$'. *)
Definition topic_name (s : bytes) : Prop :=
  exists cs, text s cs /\ cs <> [] /\ blen s <= 65535
             /\ ~ In 0 cs /\ ~ In 43 cs /\ ~ In 35 cs.

(** A position between [pre] and [post] is a level boundary on the left/right. *)
Definition left_edge (pre : list N) : Prop := pre = [] \/ exists p, pre = p ++ [47].
Definition right_edge (post : list N) : Prop := post = [] \/ exists p, post = 47 :: p.

(** A topic filter: wildcards occupy whole levels, '#' only the last one. *)
Definition topic_filter (s : bytes) : Prop :=
  exists cs, text s cs /\ cs <> [] /\ blen s <= 65535 /\ ~ In 0 cs
             /\ (forall pre post, cs = pre ++ 43 :: post -> left_edge pre /\ right_edge post)
             /\ (forall pre post, cs = pre ++ 35 :: post -> left_edge pre /\ post = []).

(** [has_levels s ls]: [s] is [ls] joined by '/', no level containing '/'. *)
Fixpoint join (ls : list bytes) : bytes :=
  match ls with
  | [] => []
  | [l] => l
  | l :: ls => l ++ 47 :: join ls
  end.
Definition has_levels (s : bytes) (ls : list bytes) : Prop :=
  ls <> [] /\ s = join ls /\ Forall (fun l => ~ In 47 l) ls.

(** Level-wise matching (4.7.1.2, 4.7.1.3); "#" matches the parent level too. *)
Inductive level_match : list bytes -> list bytes -> Prop :=
| lm_end : level_match [] []
| lm_hash t : level_match [[35]] t
| lm_plus f l t : level_match f t -> level_match ([43] :: f) (l :: t)
| lm_same l f t : level_match f t -> level_match (l :: f) (l :: t).

Definition matches (filter topic : bytes) : Prop :=
  exists fl tl, has_levels filter fl /\ has_levels topic tl /\ level_match fl tl.

(** 4.7.2: a filter starting with a wildcard does not match a topic starting with '$'. *)
Definition starts_with (c : N) (s : bytes) : Prop := exists r, s = c :: r.
Definition mqtt_matches (filter topic : bytes) : Prop :=
  matches filter topic
  /\ ~ (starts_with 36 topic /\ (starts_with 43 filter \/ starts_with 35 filter)).

(** The values of those publications that match the filter, in order. *)
Inductive matching_values {T} (f : bytes) : list (bytes * T) -> list T -> Prop :=
| mv_nil : matching_values f [] []
| mv_take t v ps vs : matches f t -> matching_values f ps vs ->
                      matching_values f ((t, v) :: ps) (v :: vs)
| mv_skip t v ps vs : ~ matches f t -> matching_values f ps vs ->
                      matching_values f ((t, v) :: ps) vs.

(** Model of mercurio-core/src/topic.rs. A [&str] is the list of its UTF-8 bytes;
    [str::contains] and [str::split] with an ASCII character act on bytes, since
    an ASCII byte never occurs inside a longer UTF-8 sequence (proved in
    TopicFacts.v, [ascii_in_utf8]). *)
From Verif Require Import Base Codec.

Definition c_nul : N := 0.
Definition c_hash : N := 35.
Definition c_plus : N := 43.
Definition c_slash : N := 47.
Definition str_hash : bytes := [c_hash].
Definition str_plus : bytes := [c_plus].

(** [str::contains(char)] for an ASCII character. *)
Definition contains (c : N) (s : bytes) : bool := existsb (N.eqb c) s.

(** [str::split('/')]: always at least one piece. *)
Fixpoint split (sep : N) (s : bytes) : list bytes :=
  match s with
  | [] => [[]]
  | c :: s =>
      if c =? sep then [] :: split sep s
      else match split sep s with
           | [] => [[c]]
           | l :: ls => (c :: l) :: ls
           end
  end.
Definition levels (s : bytes) : list bytes := split c_slash s.

(** topic.rs 15-29 *)
Inductive topic_error :=
| TopicEmpty | TopicTooLong | ContainsNullChar | WildcardInPublishTopic
| InvalidSingleLevelWildcard | InvalidMultiLevelWildcard.

(** topic.rs 12 *)
Definition MAX_TOPIC_LENGTH : N := 65535.

(** topic.rs 151-168 *)
Definition validate_common (t : bytes) : option topic_error :=
  match t with
  | [] => Some TopicEmpty
  | _ =>
      if MAX_TOPIC_LENGTH <? blen t then Some TopicTooLong
      else if contains c_nul t then Some ContainsNullChar
      else None
  end.

(** topic.rs 86-95; [None] stands for [Ok(())]. *)
Definition validate_publish_topic (t : bytes) : option topic_error :=
  match validate_common t with
  | Some e => Some e
  | None => if contains c_plus t || contains c_hash t then Some WildcardInPublishTopic else None
  end.

(** topic.rs 127-145: the loop over the enumerated levels; [n] is [levels.len()]. *)
Fixpoint check_levels (n i : nat) (ls : list bytes) : option topic_error :=
  match ls with
  | [] => None
  | l :: ls =>
      if contains c_plus l && negb (bytes_eqb l str_plus) then Some InvalidSingleLevelWildcard
      else if contains c_hash l then
        if negb (bytes_eqb l str_hash) then Some InvalidMultiLevelWildcard
        else if negb (Nat.eqb i (n - 1)) then Some InvalidMultiLevelWildcard
        else check_levels n (S i) ls
      else check_levels n (S i) ls
  end.

(** topic.rs 122-148 *)
Definition validate_subscribe_filter (f : bytes) : option topic_error :=
  match validate_common f with
  | Some e => Some e
  | None => let ls := levels f in check_levels (length ls) 0 ls
  end.

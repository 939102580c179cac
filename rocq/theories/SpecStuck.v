(** Vocabulary for a PUBLISH whose properties end in the middle of one. *)
From Verif Require Import Base Codec Packets Listener.

(** The body of a PUBLISH with QoS 0: topic [t], a property section of two bytes that holds the identifier of the topic alias and
    one of the two bytes of its value, and [payload]. *)
Definition cut_body (t : bytes) (x : N) (payload : bytes) : bytes := str_enc t ++ [2; 0x23; x] ++ payload.
(** The packet; its announced length is that of its body. *)
Definition cut_publish (dup retain : bool) (t : bytes) (x : N) (payload : bytes) : bytes :=
  0x30 + (if dup then 8 else 0) + (if retain then 1 else 0) :: vbi_enc (blen (cut_body t x payload)) ++ cut_body t x payload.
(** Bytes arrive, and at least one with every read. *)
Definition arrives (ins : list poll_in) : Prop := forall c, In (Chunk c) ins -> c <> [] /\ is_bytes c.

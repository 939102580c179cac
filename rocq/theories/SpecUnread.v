(** Vocabulary for the bytes that a connection holds. *)
From Verif Require Import Base Codec Packets SpecPackets Network Conc ConcNet.

(** No read brings more than [l] bytes. *)
Definition reads_at_most (l : N) (ms : list bmove) : Prop := forall c bs, In (BNet (NArrive c bs)) ms -> blen bs <= l.
(** What arrives are bytes. *)
Definition arrive_bytes (ms : list bmove) : Prop := forall c bs, In (BNet (NArrive c bs)) ms -> is_bytes bs.
(** The bytes read from connection [c] and not handled yet. *)
Definition held (c : nat) (n : bnet) : bytes := tk_buf (bn_tasks n c).
(** Bytes [bs] arrive on connection [c] in the given pieces and are then looked at. *)
Definition sends_pieces (c : nat) (pieces : list bytes) : list bmove := map (fun b => BNet (NArrive c b)) pieces ++ [BNet (NPoll c [] true)].

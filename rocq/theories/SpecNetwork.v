(** Vocabulary for the broker fed with bytes. *)
From Verif Require Import Base Codec SpecProperty Packets Frame Server Network.

(** From the read buffer [buf] and the chunks [chunks] the packets [ks] can be read one after the other, taking in a
    chunk whenever the buffer holds no complete packet; [buf'] and [chunks'] are left. *)
Inductive reads_to (p : profile) : bytes -> list bytes -> list packet -> bytes -> list bytes -> Prop :=
| rt_nil buf chunks : reads_to p buf chunks [] buf chunks
| rt_more buf c chunks x ks buf' chunks' :
    parse_packet p buf = Ok (None, x) -> c <> [] -> reads_to p (buf ++ c) chunks ks buf' chunks' ->
    reads_to p buf (c :: chunks) ks buf' chunks'
| rt_packet buf chunks k r ks buf' chunks' :
    parse_packet p buf = Ok (Some k, r) -> reads_to p r chunks ks buf' chunks' ->
    reads_to p buf chunks (k :: ks) buf' chunks'.

(** The chunks that have arrived on connection [c]. *)
Fixpoint arrived (c : nat) (h : list net_event) : list bytes :=
  match h with
  | [] => []
  | NArrive d bs :: h => if Nat.eqb d c then bs :: arrived c h else arrived c h
  | _ :: h => arrived c h
  end.
(** The packets of connection [c] the broker has handled. *)
Fixpoint handled (c : nat) (es : list event) : list packet :=
  match es with
  | [] => []
  | EFirst d (Some k) _ _ :: es | EPacket d k :: es => if Nat.eqb d c then k :: handled c es else handled c es
  | _ :: es => handled c es
  end.
(** What arrives are bytes, fewer than 2^64 on a connection, and generated identifiers are strings. *)
Definition genuine (h : list net_event) : Prop :=
  (forall c, is_bytes (concat (arrived c h)) /\ blen (concat (arrived c h)) < two64) /\
  (forall c u a, In (NPoll c u a) h -> wf_str u).
(** The broker after a history. *)
Definition net_state (cfg : config) (p : profile) (h : list net_event) : network := fst (nrun cfg p h network_new).
Definition net_outputs (cfg : config) (p : profile) (h : list net_event) : list output := snd (nrun cfg p h network_new).
(** The packets of [c] it has handled. *)
Definition has_handled (cfg : config) (p : profile) (h : list net_event) (c : nat) : list packet :=
  handled c (nhistory cfg p h network_new).

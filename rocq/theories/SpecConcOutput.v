(** Vocabulary for C113: versions of the protocol, by client identifier. *)
From Verif Require Import Base Codec Packets SpecOutput Server SpecServer Conc SpecConc SpecLives.

(** A client came with the identifier [id] and spoke version [v]. *)
Definition bears_version (id : bytes) (v : version) (tr : list item) : Prop :=
  exists d k u a, In (IStart (EFirst d (Some (Connect k)) u a)) tr /\ presented k = id /\ c_protocol_version k = v.
(** All that came with an identifier of connection [c] speak version [v]. *)
Definition one_version (c : nat) (v : version) (tr : list item) : Prop :=
  forall id v', came c id tr -> bears_version id v' tr -> v' = v.
(** All packets came over a network. *)
Definition over_network (tr : list item) : Prop := forall e, In (IStart e) tr -> from_network e.

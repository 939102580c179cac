(** Concrete configurations, packets and histories for the examples beside the theorems. *)
From Coq Require Import String.
From Verif Require Import Base Codec Str Maps Topic Property PacketProps Packets TopicTree Storage Broker Auth Session Server.

Definition ex_open : config := Mk_config false None None.
Definition ex_connect (id : string) (clean : bool) : connect_packet :=
  Mk_connect_packet V5 (Mk_connect_flags false false false AtMostOnce false clean) 60 None
    (Mk_connect_payload (str id) None None None None None).
Definition ex_connect_will (id : string) (clean : bool) (topic payload : string) : connect_packet :=
  Mk_connect_packet V5 (Mk_connect_flags false false false AtMostOnce true clean) 60 None
    (Mk_connect_payload (str id) None (Some (str topic)) (Some (str payload)) None None).
Definition ex_first (c : nat) (k : connect_packet) : event := EFirst c (Some (Connect k)) (str "uuid") true.
Definition ex_options : sub_options := Mk_sub_options AtMostOnce false false SendRetained.
Definition ex_sub (c : nat) (f : string) : event :=
  EPacket c (Subscribe (Mk_subscribe_packet 7 None [(str f, ex_options)])).
Definition ex_unsub (c : nat) (f : string) : event := EPacket c (Unsubscribe (Mk_unsubscribe_packet 8 None [str f])).
Definition ex_publish (q : qos) (id : option N) (retain : bool) (t p : string) : publish_packet :=
  Mk_publish_packet false q retain (str t) id None (Some (str p)).
Definition ex_pub (c : nat) (q : qos) (id : option N) (t p : string) : event :=
  EPacket c (Publish (ex_publish q id false t p)).
Definition ex_world (es : list event) : world := fst (run ex_open es world_new).

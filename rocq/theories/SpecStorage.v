(** Independent specification of the storage operations: four total functions from
    keys to optional values. Nothing here refers to the stores of the model. *)
From Coq Require Import Permutation.
From Verif Require Import Base SpecTopic Storage.
(* Storage is imported for the types of operations, results and values only. *)

Record maps := Mk_maps {
  mp_session : bytes -> option session_state;
  mp_retained : bytes -> option message;
  mp_will : bytes -> option will;
  mp_inflight : bytes -> N -> option inflight
}.
Definition no_maps : maps :=
  Mk_maps (fun _ => None) (fun _ => None) (fun _ => None) (fun _ _ => None).

Definition bytes_dec (a b : bytes) : {a = b} + {a <> b} := list_eq_dec N.eq_dec a b.
Definition upd {V} (k : bytes) (v : V) (f : bytes -> V) : bytes -> V :=
  fun k' => if bytes_dec k' k then v else f k'.
Definition updn {V} (k : N) (v : V) (f : N -> V) : N -> V :=
  fun k' => if N.eq_dec k' k then v else f k'.

(** What an operation writes. *)
Definition spec_step (s : maps) (o : sop) : maps :=
  let '(Mk_maps se re wi fl) := s in
  match o with
  | SaveSession c st => Mk_maps (upd c (Some st) se) re wi fl
  | DeleteSession c => Mk_maps (upd c None se) re wi fl
  | StoreRetained t m => Mk_maps se (upd t m re) wi fl
  | ClearRetained => Mk_maps se (fun _ => None) wi fl
  | StoreWill c w => Mk_maps se re (upd c (Some w) wi) fl
  | DeleteWill c => Mk_maps se re (upd c None wi) fl
  | StoreInflight c p i => Mk_maps se re wi (upd c (updn p (Some i) (fl c)) fl)
  | RemoveInflight c p => Mk_maps se re wi (upd c (updn p None (fl c)) fl)
  | LoadSession _ | ListSessions | GetRetained _ | GetWill _ | GetInflight _ _
  | GetAllInflight _ => s
  end.

(** [vs] lists, in some order and once per key, [g] of the entries whose key satisfies [P]. *)
Definition lists {K V W} (P : K -> Prop) (f : K -> option V) (g : K -> V -> W) (ws : list W) : Prop :=
  exists ks, NoDup ks /\ (forall k, In k ks <-> P k /\ f k <> None)
             /\ Forall2 (fun k w => exists v, f k = Some v /\ w = g k v) ks ws.

(** What an operation returns. A retained message is handed out with its flag set. *)
Definition spec_result (s : maps) (o : sop) (r : sres) : Prop :=
  match o, r with
  | LoadSession c, RSession x => x = mp_session s c
  | ListSessions, RClients cs => lists (fun _ => True) (mp_session s) (fun c _ => c) cs
  | GetRetained f, RMessages ms =>
      lists (fun t => matches f t) (mp_retained s)
            (fun _ m => Mk_message (mg_packet_id m) (mg_topic m) (mg_dup m) (mg_qos m) true
                                   (mg_payload m)) ms
  | GetWill c, RWill w => w = mp_will s c
  | GetInflight c p, RInflight i => i = mp_inflight s c p
  | GetAllInflight c, RInflights is => lists (fun _ => True) (mp_inflight s c) (fun _ i => i) is
  | (SaveSession _ _ | DeleteSession _ | StoreRetained _ _ | ClearRetained | StoreWill _ _
     | DeleteWill _ | StoreInflight _ _ _ | RemoveInflight _ _), RUnit => True
  | _, _ => False
  end.

(** A run: the results of all operations, in order. *)
Inductive spec_run : maps -> list sop -> list sres -> Prop :=
| sr_nil s : spec_run s [] []
| sr_cons s o os r rs : spec_result s o r -> spec_run (spec_step s o) os rs ->
                        spec_run s (o :: os) (r :: rs).

(** Equality of results up to the order of lists. *)
Inductive res_equiv : sres -> sres -> Prop :=
| re_same r : res_equiv r r
| re_clients a b : Permutation a b -> res_equiv (RClients a) (RClients b)
| re_messages a b : Permutation a b -> res_equiv (RMessages a) (RMessages b)
| re_inflights a b : Permutation a b -> res_equiv (RInflights a) (RInflights b).

(** Property C117: the room that the broker takes.
    Every theorem is followed by a concrete case meeting its hypotheses. *)
From Coq Require Import String.
From Verif Require Import Base Utf8 Codec SpecCodec Tac CodecFacts Str Maps Topic SpecTopic Property PacketProps Packets
  TopicTree TreeFacts Storage Broker Auth Session Server SpecServer Conc SpecConc ConcFacts ConcRoute ConcOwn ConcProv SpecLives ConcLives
  SpecWishes WishesFacts SpecRoom RoomFacts Examples Properties_Conc Properties_Wishes.
Local Open Scope list_scope.

(** The tree of topics has a place just where somebody subscribed since the broker was started, and on the way there: whatever
    is published, to however many topics, takes no room in it. *)
Theorem C117_places cfg st tr x p : mruns cfg (conf_on st) tr x ->
  (node_at p (bk_tree (w_broker (cn_world x))) <> None <->
   p = [] \/ exists c f n, In (IStep c (OSub f n)) tr /\ on_the_way p f).
Proof.
  intros H. rewrite (runs_nodes _ _ _ _ p H). split; intros [Hp|Hp]; auto; left.
  - destruct p as [|l p]; [reflexivity|]. exfalso. apply Hp. reflexivity.
  - subst p. discriminate.
Qed.
Print Assumptions C117_places.
(** And who subscribed had asked for it: in a SUBSCRIBE on this connection or on one joined to it by client identifiers, in
    whatever life of the broker. *)
Theorem C117_places_asked cfg trs st tr x p : lives cfg trs st -> mruns cfg (conf_on st) tr x -> (forall c, Forall texts (events_of c tr)) ->
  node_at p (bk_tree (w_broker (cn_world x))) <> None ->
  p = [] \/ exists c f n e, on_the_way p f /\ joined (trs ++ [tr]) (length trs, c) (n, e) /\ asked_in (trs ++ [tr]) n e f.
Proof.
  intros Hl Hr Ht Hp. apply (C117_places _ _ _ _ _ Hr) in Hp. destruct Hp as [Hp|(c & f & n & Hin & Ho)]; [auto|]. right.
  apply in_split in Hin. destruct Hin as (pre & post & ->).
  assert (Ht' : forall e, Forall texts (events_of e pre)) by (intros e; specialize (Ht e); rewrite events_app in Ht; apply Forall_app in Ht; apply Ht).
  pose proof (@subscribed_at st cfg (past_of cfg trs) _ _ _ _ _ _ Hr (lives_good _ _ _ Hl) Ht') as Hw.
  assert (He : ext pre (pre ++ IStep c (OSub f n) :: post)).
  { apply ext_app. eapply own_once, own_runs with (pre := []); [exact Hr|apply own_new]. }
  destruct (wants_past _ _ _ _ _ (wants_ext _ _ _ _ _ He Hw)) as (m & d & H1 & H2). exists c, f, m, d. auto.
Qed.
Print Assumptions C117_places_asked.
(** So clients that never subscribe to anything leave the tree as it was. *)
Theorem C117_publishers_take_none cfg trs st tr x p : lives cfg trs st -> mruns cfg (conf_on st) tr x -> (forall c, Forall texts (events_of c tr)) ->
  Forall nobody_subscribes trs -> nobody_subscribes tr -> p <> [] -> node_at p (bk_tree (w_broker (cn_world x))) = None.
Proof.
  intros Hl Hr Ht H1 H2 Hp. destruct (node_at p _) as [nd|] eqn:E; [exfalso|reflexivity].
  destruct (C117_places_asked _ _ _ _ _ p Hl Hr Ht) as [H|(c & f & n & e & _ & _ & t & Hn & pre & post & q & -> & _)]; [congruence|auto|].
  assert (Hs : Forall nobody_subscribes (trs ++ [tr])) by (apply Forall_app; auto). rewrite Forall_forall in Hs.
  apply nth_error_In in Hn. apply (Hs _ Hn e q). apply in_or_app. right. left. reflexivity.
Qed.
Print Assumptions C117_publishers_take_none.
(** There are no more sessions than CONNECTs with good credentials: connections that send anything else, before or after, add
    none. [ok] is any test for good credentials. *)
Theorem C117_sessions cfg ok st tr x : (forall k, ok k = true <-> accepts cfg k) -> mruns cfg (conf_on st) tr x ->
  (length (w_heap (cn_world x)) <= length (connects ok tr))%nat /\ (length (w_manager (cn_world x)) <= length (connects ok tr))%nat.
Proof.
  intros Hok Hr. assert (Hb : (length (w_heap (cn_world x)) <= length (connects ok tr))%nat).
  { eapply sessions_bounded; [|exact Hr]. intros k Hk. apply Hok, authenticated_iff, Hk. }
  split; [exact Hb|]. eapply Nat.le_trans; [|exact Hb]. apply (manager_bounded _ _ _ _ Hr). apply Nat.le_refl.
Qed.
Print Assumptions C117_sessions.

(** Nothing of it is given back: a place stays as long as the broker runs. *)
Theorem C117_places_stay cfg x tr y p : mruns cfg x tr y ->
  node_at p (bk_tree (w_broker (cn_world x))) <> None -> node_at p (bk_tree (w_broker (cn_world y))) <> None.
Proof. intros H Hp. apply (runs_nodes _ _ _ _ p H). auto. Qed.
Print Assumptions C117_places_stay.
(** Though the only client has unsubscribed, has said goodbye and is gone, the broker keeps the place and the session. *)
Theorem C117_given_back_refuted : exists tr x d, mruns ex_open conf_new tr x
  /\ starts_of tr = [ex_first 1 (ex_connect "a" true); ex_sub 1 "x/y"; ex_unsub 1 "x/y"; EPacket 1 (Disconnect d)]
  /\ idle 1 x /\ aget Nat.eqb 1%nat (w_conns (cn_world x)) = None
  /\ node_at [str "x"; str "y"] (bk_tree (w_broker (cn_world x))) <> None
  /\ aget bytes_eqb (str "a") (w_manager (cn_world x)) <> None.
Proof.
  pose (d := Mk_disconnect_packet NormalDisconnection None).
  pose (es := [ex_first 1 (ex_connect "a" true); ex_sub 1 "x/y"; ex_unsub 1 "x/y"; EPacket 1 (Disconnect d)]).
  exists (ex_of es), (ex_end es), d. split; [apply ex_runs|]. split; [vm_compute; reflexivity|]. split; [vm_compute; reflexivity|].
  split; [vm_compute; reflexivity|]. split; vm_compute; discriminate.
Qed.
Print Assumptions C117_given_back_refuted.

(** Publishers fill nothing; of three CONNECTs two are turned down. *)
Definition ex_gate : config := Mk_config true (Some (fun u p => bytes_eqb u p)) None.
Definition ex_with (u p : string) : connect_packet :=
  Mk_connect_packet V5 (Mk_connect_flags true true false AtMostOnce false true) 60 None
    (Mk_connect_payload (str u) None None None (Some (str u)) (Some (str p))).
Example C117_ex :
  let x := ex_end [ex_first 1 (ex_connect "a" true); ex_pub 1 AtMostOnce None "x/y" "v"; ex_first 2 (ex_connect "b" true); ex_sub 2 "u/+"; ex_pub 1 AtMostOnce None "u/y" "v"] in
  let y := fst (mexec ex_gate (alone [ex_first 1 (ex_with "a" "b"); ex_first 2 (ex_with "a" "a"); ex_first 3 (ex_with "b" "a"); ex_pub 2 AtMostOnce None "x" "v"]) conf_new) in
  node_at [str "x"] (bk_tree (w_broker (cn_world x))) = None /\ node_at [str "u"; str "+"] (bk_tree (w_broker (cn_world x))) <> None
  /\ node_at [str "u"; str "y"] (bk_tree (w_broker (cn_world x))) = None
  /\ length (w_heap (cn_world x)) = 2%nat /\ length (w_heap (cn_world y)) = 1%nat.
Proof. repeat split; vm_compute; discriminate || reflexivity. Qed.

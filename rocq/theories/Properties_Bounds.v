(** Properties of the room that the broker needs for messages in flight: C101. *)
From Coq Require Import String.
From Verif Require Import Base Codec SpecCodec CodecFacts Tac Property PacketProps Packets SpecPackets Frame FrameFacts Maps TreeFacts
  Topic SpecTopic Storage Broker SpecBroker Session SessionFacts Server SpecServer ServerFacts HandlerFacts HistoryFacts WorldFacts
  ConnectFacts StoreFacts BrokerFacts DeliveryFacts ProvenanceFacts SpecOutput OutputFacts BoundFacts Str Examples Properties_Output.
Local Open Scope list_scope.

(** After any history in which the clients send whatever bytes, a session holds at most one message and one PUBREC for
    each of the 65536 packet identifiers. *)
Theorem C101_session_bounded cfg es j s : Forall from_network es -> nth_error (w_heap (state cfg es)) j = Some s ->
  NoDup (map fst (se_unacked s)) /\ NoDup (map fst (se_pubrecs s))
  /\ N.of_nat (length (se_unacked s)) <= 65536 /\ N.of_nat (length (se_pubrecs s)) <= 65536.
Proof.
  intros Hn Hj. destruct (run_small cfg es [] world_new prov_new (Forall_nil _) Hn small_new) as [Hs _].
  destruct (sw_heap _ Hs j s Hj) as [H1 H2]. split; [apply H1|]. split; [apply H2|]. split; apply idmap_length; assumption.
Qed.
Print Assumptions C101_session_bounded.
(** The store holds at most one message for each packet identifier of a client, restarts included. *)
Theorem C101_stored_bounded cfg es cid : Forall from_network es ->
  N.of_nat (length (mem_get_all_inflight cid (w_store (state cfg es)))) <= 65536.
Proof.
  intros Hn. destruct (run_small cfg es [] world_new prov_new (Forall_nil _) Hn small_new) as [Hs Hp].
  exact (inflight_length _ _ cid Hp Hn Hs).
Qed.
Print Assumptions C101_stored_bounded.
(** So one event of a client makes the broker write at most 65537 packets. *)
Theorem C101_step_bounded cfg es e w o : Forall from_network es -> e <> ERestart -> step cfg (state cfg es) e = (w, o) ->
  N.of_nat (length o) <= 65537.
Proof.
  intros Hn He H. destruct (run_small cfg es [] world_new prov_new (Forall_nil _) Hn small_new) as [Hs Hp].
  fold (state cfg es) in Hs, Hp. set (w0 := state cfg es) in *. cbn [app] in Hp. pose proof (pv_wf _ _ Hp) as Hwf. apply step_inv in H.
  destruct H as [(_ & -> & _)|[(c&k&_&_&_&_&->)|[(c&k&u&a&->&Hns&H)|[(c&i&s&d&->&_&_&->)|[(c&i&s&k&->&[Hc Hi]&Hk&H)|[(c&i&s&f&->&[Hc Hi]&H)|[(c&i&s&->&_&_&->)|[(c&i&s&->&_&_&->)|(->&_)]]]]]]]];
    [..|congruence]; try (cbn; lia).
  - unfold connect_step in H. destruct (authenticated cfg k); simpl in H; [|inv H; cbn; lia].
    destruct (start_session u a k w0) as [[ack r] w1] eqn:E.
    destruct (start_session_spec _ _ _ _ _ _ _ Hwf E) as (i & subs & wl & infl & s & He' & Hack & Hr & Hnn & _).
    destruct a; subst r; simpl in H; [|inv H; cbn; lia].
    rewrite Hnn in H. destruct (restore_subscriptions subs _ (w_broker w1)) as [s2 b2]. injection H as <- <-.
    cbn [length]. rewrite map_length. assert (Hl : N.of_nat (length infl) <= 65536); [|lia].
    inversion He' as [|? ? ? E1 E2 E3 E4]; subst; [cbn; lia|].
    destruct (cf_clean_start (c_flags k)); [destruct (E3 eq_refl) as (_ & _ & ->); cbn; lia|].
    destruct (E4 eq_refl) as (_ & _ & ->). destruct (mem_load_session _ _); [|cbn; lia]. exact (inflight_length _ _ _ Hp Hn Hs).
  - unfold packet_step in H. destruct (process_incoming (sv_manager cfg) k s (w_broker w0)) as [[r s1] b1].
    destruct r as [[z|]| |]; inversion H; subst o; cbn; lia.
  - unfold out_step in H. destruct (process_outgoing f s (w_broker w0)) as [[r s1]|]; [|inv H; cbn; lia].
    destruct r as [p| |]; inversion H; subst o; cbn; lia.
Qed.
Print Assumptions C101_step_bounded.
(** A history with a message in flight in every place. *)
Definition ex_flight : list event :=
  map net [ex_first 1 (ex_connect "a" false); ex_sub 1 "x"; ex_first 2 (ex_connect "b" true);
    ex_pub 2 AtLeastOnce (Some 5) "x" "v"; EOut 1 (str "x"); ex_pub 2 AtLeastOnce (Some 6) "x" "w"; EOut 1 (str "x");
    ex_pub 2 ExactlyOnce (Some 7) "x" "z"; EPacket 1 (PubRec (Mk_ack_packet 6 Success None)); EEnd 1].
Example C101_ex : Forall from_network ex_flight /\
  (exists s, nth_error (w_heap (state ex_open ex_flight)) 0 = Some s /\ length (se_unacked s) = 1%nat /\ length (se_pubrecs s) = 1%nat)
  /\ length (mem_get_all_inflight (str "a") (w_store (state ex_open ex_flight))) = 2%nat
  /\ length (snd (step ex_open (state ex_open (ex_flight ++ [ERestart])) (ex_first 3 (ex_connect "a" false)))) = 3%nat.
Proof.
  split; [apply netted_ok; vm_compute; reflexivity|]. split; [eexists; split; [vm_compute; reflexivity|split; reflexivity]|].
  split; vm_compute; reflexivity.
Qed.

(** Property C118: the room that messages in flight need, whatever handlers run at the same time.
    Every theorem is followed by a concrete case meeting its hypotheses. *)
From Coq Require Import String.
From Verif Require Import Base Utf8 Codec SpecCodec Tac CodecFacts Str Maps Topic SpecTopic Property PacketProps Packets SpecPackets
  TopicTree Storage Broker Auth Session Server SpecServer ServerFacts SpecOutput OutputFacts BoundFacts Network SpecNetwork Conc SpecConc ConcFacts SpecLives
  ConcNet SpecConcNet SpecConcOutput SpecWishes ConcBound Examples Properties_Output Properties_Bounds Properties_Conc Properties_ConcNet Properties_Wishes.
Local Open Scope list_scope.

(** After any number of lives of the broker and at any point of any schedule of the present one, when clients send whatever
    bytes they like: a session holds at most one message and one PUBREC for each of the 65536 packet identifiers. *)
Theorem C118_session_bounded cfg trs st tr x j s : lives cfg trs st -> mruns cfg (conf_on st) tr x -> Forall over_network (trs ++ [tr]) ->
  nth_error (w_heap (cn_world x)) j = Some s ->
  NoDup (map fst (se_unacked s)) /\ NoDup (map fst (se_pubrecs s))
  /\ N.of_nat (length (se_unacked s)) <= 65536 /\ N.of_nat (length (se_pubrecs s)) <= 65536.
Proof.
  intros Hl Hr Hn Hj. apply Forall_app in Hn. destruct Hn as [H1 H2]. inversion H2; subst.
  assert (Hx : wfc x) by (eapply wfc_runs; eauto; eapply wfc_on, lives_wfstore; eauto).
  destruct (ww_heap _ (proj1 Hx) _ _ Hj) as [[Hu Hp] _]. repeat split; [apply Hu|apply Hp|apply idmap_length, Hu|apply idmap_length, Hp].
Qed.
Print Assumptions C118_session_bounded.
(** The store holds at most one message for each packet identifier of a client, and none without a proper identifier. *)
Theorem C118_stored_bounded cfg trs st tr x cid : lives cfg trs st -> mruns cfg (conf_on st) tr x -> Forall over_network (trs ++ [tr]) ->
  N.of_nat (length (mem_get_all_inflight cid (w_store (cn_world x)))) <= 65536
  /\ (forall pid, mem_get_inflight cid pid (w_store (cn_world x)) <> None -> pid < 65536).
Proof.
  intros Hl Hr Hn. apply Forall_app in Hn. destruct Hn as [H1 H2]. inversion H2; subst.
  assert (Hx : wfc x) by (eapply wfc_runs; eauto; eapply wfc_on, lives_wfstore; eauto). pose proof (ww_store _ (proj1 Hx)) as Hs. split.
  - exact (proj2 (store_ok _ (GetAllInflight cid) Hs I)).
  - intros pid. unfold mem_get_inflight. destruct (aget bytes_eqb cid (ms_inflight _)) as [l|] eqn:E; [|congruence]. intros Hp.
    destruct (aget N.eqb pid l) as [m|] eqn:F; [|congruence].
    assert (Hi : In pid (akeys l)) by (apply (aget_some_key N.eqb N.eqb_eq); eauto).
    destruct (wo_inflight _ Hs _ _ E) as [_ Hb]. apply Hb, Hi.
Qed.
Print Assumptions C118_stored_bounded.
(** The handler of one event writes at most 65537 packets, whatever the others do. *)
Theorem C118_handler_bounded cfg trs st tr x c e pre mid post : lives cfg trs st -> mruns cfg (conf_on st) tr x -> Forall over_network (trs ++ [tr]) ->
  handled c e pre mid post tr -> N.of_nat (length (outputs_of c mid)) <= 65537.
Proof.
  intros Hl Hr Hn (-> & He & Hmid). apply Forall_app in Hn. destruct Hn as [H1 H2]. inversion H2 as [|? ? H3 _]; subst.
  replace (pre ++ IStart e :: mid ++ IEnd c :: post) with ((pre ++ IStart e :: mid) ++ IEnd c :: post) in * by (rewrite <- app_assoc; reflexivity).
  apply mruns_app in Hr. destruct Hr as (y & Hr & _). eapply handled_bounded; eauto; [|eapply wfc_on, lives_wfstore; eauto].
  intros e0 H0. apply H3, in_or_app. auto.
Qed.
Print Assumptions C118_handler_bounded.
(** In terms of the bytes that arrive. *)
Theorem C118_fed_with_bytes cfg trs st p ms tr n : lives cfg trs st -> Forall over_network trs -> bruns cfg p (bnet_on st) ms tr n -> genuine (net_part ms) ->
  (forall j s, nth_error (w_heap (cn_world (bn_conf n))) j = Some s ->
     N.of_nat (length (se_unacked s)) <= 65536 /\ N.of_nat (length (se_pubrecs s)) <= 65536)
  /\ (forall cid, N.of_nat (length (mem_get_all_inflight cid (w_store (cn_world (bn_conf n))))) <= 65536)
  /\ (forall c e pre mid post, handled c e pre mid post tr -> N.of_nat (length (outputs_of c mid)) <= 65537).
Proof.
  intros Hl Hln H Hg. destruct (C112_schedules _ _ _ _ _ H Hg) as (Hr & Hn & _).
  assert (Ha : Forall over_network (trs ++ [tr])) by (apply Forall_app; split; [exact Hln|constructor; [exact Hn|constructor]]).
  split; [|split].
  - intros j s Hj. apply (C118_session_bounded _ _ _ _ _ _ _ Hl Hr Ha Hj).
  - intros cid. apply (C118_stored_bounded _ _ _ _ _ cid Hl Hr Ha).
  - intros c e pre mid post. apply (C118_handler_bounded _ _ _ _ _ _ _ _ _ _ Hl Hr Ha).
Qed.
Print Assumptions C118_fed_with_bytes.
(** A life with a message in flight in every place. *)
Lemma starts_network tr : Forall from_network (starts_of tr) -> over_network tr.
Proof. intros H e He. rewrite Forall_forall in H. apply H. apply in_flat_map. exists (IStart e). split; [exact He|left; reflexivity]. Qed.
Example C118_ex : lives ex_open [] mem_new /\ mruns ex_open (conf_on mem_new) (ex_of ex_flight) (ex_end ex_flight) /\ over_network (ex_of ex_flight)
  /\ (exists s, nth_error (w_heap (cn_world (ex_end ex_flight))) 0 = Some s /\ length (se_unacked s) = 1%nat /\ length (se_pubrecs s) = 1%nat)
  /\ length (mem_get_all_inflight (str "a") (w_store (cn_world (ex_end ex_flight)))) = 2%nat
  /\ length (outputs_of 1 (ex_of ex_flight)) = 6%nat.
Proof.
  split; [constructor|]. split; [apply ex_runs|]. split.
  { apply starts_network. replace (starts_of (ex_of ex_flight)) with ex_flight by (vm_compute; reflexivity). apply C101_ex. }
  split; [eexists; split; [vm_compute; reflexivity|split; reflexivity]|]. split; vm_compute; reflexivity.
Qed.

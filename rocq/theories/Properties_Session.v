(** Properties C31-C37: how a served connection answers packets.
    Every theorem is followed by a concrete case meeting its hypotheses. *)
From Coq Require Import String.
From Verif Require Import Base Utf8 Codec SpecCodec Tac CodecFacts Str Maps Topic SpecTopic TopicFacts Property PacketProps Packets
  TopicTree TreeFacts Storage StorageFacts Broker SpecBroker BrokerFacts Auth Session Server SpecServer SessionFacts ServerFacts HandlerFacts
  HistoryFacts ProvenanceFacts Examples.

Lemma reachable_prov cfg w : reachable cfg w -> exists h, prov h w.
Proof. intros [es <-]. exists ([] ++ es). apply run_prov, prov_new. Qed.

(** ** C31 *)
Theorem C31_suback_mirrors_subscribe cfg w c i s p w' o :
  serves w c i s -> Forall (fun fo => utf8 (fst fo)) (sb_payload p) ->
  step cfg w (EPacket c (Subscribe p)) = (w', o) ->
  exists s' codes,
    o = [Sent c (SubAck (Mk_suback_packet (c_protocol_version (se_connect s)) (sb_packet_id p) None codes))]
    /\ Forall2 (fun fo r => (topic_filter (fst fo) /\ r = GrantedQoS0) \/ (~ topic_filter (fst fo) /\ r = TopicFilterInvalid))
         (sb_payload p) codes
    /\ serves w' c i s' /\ same_but_subs s s'
    /\ (forall f, subscribed s' f <-> subscribed s f \/ (In f (map fst (sb_payload p)) /\ topic_filter f))
    /\ (forall f st, ~ (In f (map fst (sb_payload p)) /\ topic_filter f) -> (subscription s' f st <-> subscription s f st))
    /\ (forall f, In f (map fst (sb_payload p)) -> topic_filter f ->
          subscription s' f (Mk_stream (mem_get_retained f (w_store w)) (length (sent_to w f))))
    /\ only_session i w w' /\ nothing_routed w w'
    /\ same_retained w w' /\ same_wills w w' /\ same_inflight w w'
    /\ (forall k, mem_load_session k (w_store w') =
          if bytes_eqb k (se_client_id s) then Some (Mk_session_state k (map fst (se_subs s')) false)
          else mem_load_session k (w_store w)).
Proof. exact (subscribe_step cfg w c i s p w' o). Qed.
Print Assumptions C31_suback_mirrors_subscribe.
Definition ex_subscribed := ex_world [ex_first 1 (ex_connect "a" true); ex_sub 1 "x/#"].
Example C31_ex : exists s, serves ex_subscribed 1 0 s /\ subscribed s (str "x/#") /\
  snd (step ex_open ex_subscribed
    (EPacket 1 (Subscribe (Mk_subscribe_packet 9 None [(str "a/+", ex_options); (str "a/#/b", ex_options); (str "a/+", ex_options)]))))
  = [Sent 1 (SubAck (Mk_suback_packet V5 9 None [GrantedQoS0; TopicFilterInvalid; GrantedQoS0]))].
Proof.
  eexists. split; [split; vm_compute; reflexivity|]. split; [left; reflexivity|]. vm_compute. reflexivity.
Qed.

(** ** C32 *)
Theorem C32_unsuback_mirrors_unsubscribe cfg w c i s p w' o :
  serves w c i s ->
  step cfg w (EPacket c (Unsubscribe p)) = (w', o) ->
  exists s' codes,
    o = [Sent c (UnsubAck (Mk_unsuback_packet (c_protocol_version (se_connect s)) (us_packet_id p) None codes))]
    /\ length codes = length (us_payload p)
    /\ (forall n f r, nth_error (us_payload p) n = Some f -> nth_error codes n = Some r ->
          (r = Success /\ subscribed s f /\ ~ In f (firstn n (us_payload p)))
          \/ (r = NoSubscriptionExisted /\ (~ subscribed s f \/ In f (firstn n (us_payload p)))))
    /\ serves w' c i s' /\ same_but_subs s s'
    /\ (forall f, subscribed s' f <-> subscribed s f /\ ~ In f (us_payload p))
    /\ (forall f st, ~ In f (us_payload p) -> (subscription s' f st <-> subscription s f st))
    /\ only_session i w w' /\ w_broker w' = Mk_broker (bk_tree (w_broker w)) (w_store w')
    /\ same_retained w w' /\ same_wills w w' /\ same_inflight w w'
    /\ (forall k, mem_load_session k (w_store w') =
          if bytes_eqb k (se_client_id s) then Some (Mk_session_state k (map fst (se_subs s')) false)
          else mem_load_session k (w_store w)).
Proof. exact (unsubscribe_step cfg w c i s p w' o). Qed.
Print Assumptions C32_unsuback_mirrors_unsubscribe.
(** After an UNSUBSCRIBE nothing is delivered for the filter, whatever happens, until the
    filter is subscribed again or the connection is opened anew. *)
Theorem C32_no_delivery_afterwards cfg w c i s p f es q :
  reachable cfg w -> serves w c i s -> In f (us_payload p) ->
  ~ In ERestart es -> (forall k u a, ~ In (EFirst c k u a) es) ->
  (forall d r, In (EPacket d (Subscribe r)) es -> ~ In f (map fst (sb_payload r))) ->
  In (Sent c (Publish q)) (snd (run cfg (EPacket c (Unsubscribe p) :: es) w)) -> pb_topic q <> f.
Proof.
  intros Hr Hs Hf He Ho Hsub. destruct (step cfg w (EPacket c (Unsubscribe p))) as [w1 o1] eqn:E.
  pose proof (reachable_wf cfg w Hr) as Hwf.
  destruct (unsubscribe_step cfg w c i s p w1 o1 Hs E) as (s' & codes & -> & _ & _ & Hs' & _ & Hsubs & _).
  rewrite run_cons, E. cbn [fst snd]. intros Hin. apply in_app_or in Hin. destruct Hin as [Hin|Hin].
  - simpl in Hin. intuition discriminate.
  - revert Hin. apply (no_delivery cfg es w1 c i s' f); auto.
    + eapply step_wf; eauto.
    + intros Hx. apply Hsubs in Hx. tauto.
    + apply Hs'.
Qed.
Print Assumptions C32_no_delivery_afterwards.
Example C32_ex :
  let w := ex_world [ex_first 1 (ex_connect "a" true); ex_first 2 (ex_connect "b" true); ex_sub 1 "x/#"; ex_sub 1 "x/y"] in
  (exists s, serves w 1 0 s) /\
  snd (run ex_open [ex_unsub 1 "x/y"; ex_pub 2 AtMostOnce None "x/y" "v"; EOut 1 (str "x/y"); EOut 1 (str "x/#")] w)
  = [Sent 1 (UnsubAck (Mk_unsuback_packet V5 8 None [Success]));
     Sent 1 (Publish (ex_publish AtMostOnce None false "x/#" "v"))].
Proof. split; [eexists; split; vm_compute; reflexivity | vm_compute; reflexivity]. Qed.

(** ** C33 *)
Lemma publish_routes h cfg w c i s p w' o :
  prov h w -> serves w c i s -> topic_name (pb_topic p) ->
  step cfg w (EPacket c (Publish p)) = (w', o) ->
  (forall s b, fails (sv_manager cfg) (Publish p) s b = false) ->
  routes (pb_topic p) (message_of p) w w'.
Proof.
  intros Hp Hs Ht H Hf j s0 f Hj Hsub. pose proof (pv_wf h w Hp) as Hwf.
  destruct (step_after cfg w (EPacket c (Publish p)) w' o Hwf ltac:(discriminate) H) as [Hl _].
  unfold step_ops in Hl. rewrite (serves_session _ _ _ _ Hs), Hf, app_nil_r in Hl. simpl in Hl.
  unfold publish_ops in Hl. rewrite (proj2 (publish_topic_iff _ (topic_name_utf8 _ Ht)) Ht) in Hl.
  unfold sent_to. rewrite Hl. unfold broker_run. simpl.
  rewrite subscribed_aget in Hsub. destruct (aget bytes_eqb f (se_subs s0)) as [st|] eqn:E; [|congruence].
  destruct (pv_subs h w Hp j s0 f st Hj E) as (_ & Hn & _).
  rewrite route_log by (auto using topic_name_plain). destruct (matches_dec f (pb_topic p)); [left|right]; auto.
  rewrite app_nil_r. auto.
Qed.
(** The answers to a PUBLISH on a valid topic; it is routed once. *)
Theorem C33_publish_acknowledged cfg w c i s p w' o :
  reachable cfg w -> serves w c i s -> topic_name (pb_topic p) ->
  step cfg w (EPacket c (Publish p)) = (w', o) ->
  exists m, carries p m /\
  (pb_qos p = AtMostOnce -> o = [] /\ routes (pb_topic p) m w w' /\ serves w' c i s)
  /\ (forall n, pb_qos p = AtLeastOnce -> pb_packet_id p = Some n ->
        o = [Sent c (PubAck (ack n))] /\ routes (pb_topic p) m w w' /\ serves w' c i s)
  /\ (forall n, pb_qos p = ExactlyOnce -> pb_packet_id p = Some n ->
        o = [Sent c (PubRec (ack n))] /\ routes (pb_topic p) m w w' /\ exists s', serves w' c i s').
Proof.
  intros Hr Hs Ht H. destruct (reachable_prov cfg w Hr) as [h Hp].
  pose proof (publish_routes h cfg w c i s p w' o Hp Hs Ht H) as Hro.
  exists (message_of p). split; [repeat split|].
  rewrite (step_packet _ _ _ i s) in H by (auto; discriminate). destruct Hs as [Hc Hi].
  unfold packet_step in H. simpl in H. unfold handle_publish in H.
  assert (Hv := proj2 (publish_topic_iff _ (topic_name_utf8 _ Ht)) Ht).
  assert (Hserve : forall s1, serves (put_session i s1 (set_broker (broker_publish (pb_topic p) (message_of p) (w_broker w)) w)) c i s1).
  { intros s1. split; [exact Hc|]. eapply put_same. simpl. eauto. }
  rewrite Hv in H. split; [|split].
  - intros E. rewrite E in H. inv H. split; [reflexivity|]. split; [|apply Hserve].
    apply Hro. intros s0 b. unfold fails. simpl. unfold handle_publish. rewrite Hv, E. reflexivity.
  - intros n E En. rewrite E, En in H. inv H. split; [reflexivity|]. split; [|apply Hserve].
    apply Hro. intros s0 b. unfold fails. simpl. unfold handle_publish. rewrite Hv, E, En. reflexivity.
  - intros n E En. rewrite E, En in H. inv H. split; [reflexivity|]. split; [|eexists; apply Hserve].
    apply Hro. intros s0 b. unfold fails. simpl. unfold handle_publish. rewrite Hv, E, En. reflexivity.
Qed.
Print Assumptions C33_publish_acknowledged.
Example C33_ex : exists s, serves ex_subscribed 1 0 s /\ topic_name (str "x/y") /\ subscribed s (str "x/#") /\ matches (str "x/#") (str "x/y").
Proof.
  eexists. split; [split; vm_compute; reflexivity|]. split; [|split; [left; reflexivity|apply matches_iff; vm_compute; repeat constructor]].
  apply publish_topic_iff; [apply utf8_valid_iff|]; vm_compute; reflexivity.
Qed.
(** PUBREL and PUBREC are answered in every session state and route nothing. *)
Theorem C33_release_acknowledged cfg w c i s a w' o : serves w c i s ->
  (step cfg w (EPacket c (PubRel a)) = (w', o) ->
     o = [Sent c (PubComp (ack (ak_packet_id a)))] /\ w_broker w' = w_broker w)
  /\ (step cfg w (EPacket c (PubRec a)) = (w', o) ->
     o = [Sent c (PubRel (ack (ak_packet_id a)))] /\ w_broker w' = w_broker w).
Proof.
  intros Hs. rewrite !(step_packet _ _ _ i s) by (auto; discriminate).
  unfold packet_step; simpl. split; intros H; inv H; auto.
Qed.
Print Assumptions C33_release_acknowledged.
Example C33_ex2 : exists s, serves ex_subscribed 1 0 s.
Proof. eexists; split; vm_compute; reflexivity. Qed.

(** ** C34: a PUBLISH on an invalid topic is the same as losing the connection. *)
Theorem C34_invalid_topic_no_effect cfg w c i s p :
  serves w c i s -> utf8 (pb_topic p) -> ~ topic_name (pb_topic p) ->
  step cfg w (EPacket c (Publish p)) = step cfg w (EEnd c)
  /\ snd (step cfg w (EPacket c (Publish p))) = [Closed c].
Proof.
  intros Hs Hu Hn. rewrite (step_packet _ _ _ i s) by (auto; discriminate). rewrite (step_end _ _ _ i s) by auto.
  unfold packet_step. simpl. unfold handle_publish. destruct (validate_publish_topic (pb_topic p)) eqn:E.
  - rewrite (put_id w c i s Hs). auto.
  - exfalso. apply Hn, publish_topic_iff; auto.
Qed.
Print Assumptions C34_invalid_topic_no_effect.
(** If the session has no will, losing the connection neither routes nor retains anything. *)
Theorem C34_nothing_published cfg w c i s p w' o :
  serves w c i s -> utf8 (pb_topic p) -> ~ topic_name (pb_topic p) -> se_will s = None ->
  step cfg w (EPacket c (Publish p)) = (w', o) -> w_broker w' = w_broker w.
Proof.
  intros Hs Hu Hn Hw H. destruct (C34_invalid_topic_no_effect cfg w c i s p Hs Hu Hn) as [E _].
  rewrite E, (step_end _ _ _ i s) in H by auto. inv H. unfold end_connection. simpl.
  destruct Hs as [Hc Hi]. rewrite Hi, Hw. reflexivity.
Qed.
Print Assumptions C34_nothing_published.
Example C34_ex : (exists s, serves ex_subscribed 1 0 s /\ se_will s = None) /\ utf8 (str "x/+") /\ ~ topic_name (str "x/+").
Proof.
  split; [eexists; split; [split; vm_compute; reflexivity|reflexivity]|].
  split; [apply utf8_valid_iff; vm_compute; reflexivity|].
  intros H. apply publish_topic_iff in H; [discriminate|]. apply utf8_valid_iff; vm_compute; reflexivity.
Qed.

(** ** C35: false. A QoS 2 PUBLISH sent twice before PUBREL is delivered twice. *)
Theorem C35_exactly_once_refuted : exists cfg w c p w' o,
  reachable cfg w /\ pb_qos p = ExactlyOnce /\ pb_packet_id p = Some 5 /\
  run cfg [EPacket c (Publish p);
           EPacket c (Publish (Mk_publish_packet true (pb_qos p) (pb_retain p) (pb_topic p) (pb_packet_id p) None (pb_payload p)));
           EPacket c (PubRel (ack 5)); EOut 2 (str "t"); EOut 2 (str "t")] w = (w', o) /\
  exists q1 q2, o = [Sent c (PubRec (ack 5)); Sent c (PubRec (ack 5)); Sent c (PubComp (ack 5));
                     Sent 2 (Publish q1); Sent 2 (Publish q2)].
Proof.
  exists ex_open, (ex_world [ex_first 1 (ex_connect "a" true); ex_first 2 (ex_connect "b" true); ex_sub 2 "t"]), 1%nat,
    (ex_publish ExactlyOnce (Some 5) false "t" "v"). eexists. eexists.
  split; [eexists; reflexivity|]. split; [reflexivity|]. split; [reflexivity|]. split; [vm_compute; reflexivity|].
  eexists. eexists. reflexivity.
Qed.
Print Assumptions C35_exactly_once_refuted.
(** What holds: each received PUBLISH is routed exactly once to every matching subscription,
    and PUBREL routes nothing; missing: recognising a retransmission. *)
Theorem C35_each_publish_routed_once_partial cfg w c i s p n w' o w2 o2 a :
  reachable cfg w -> serves w c i s -> topic_name (pb_topic p) ->
  pb_qos p = ExactlyOnce -> pb_packet_id p = Some n ->
  step cfg w (EPacket c (Publish p)) = (w', o) -> step cfg w' (EPacket c (PubRel a)) = (w2, o2) ->
  exists m, carries p m /\ routes (pb_topic p) m w w' /\ w_broker w2 = w_broker w'.
Proof.
  intros Hr Hs Ht Hq Hn H1 H2. destruct (C33_publish_acknowledged cfg w c i s p w' o Hr Hs Ht H1) as (m & Hm & _ & _ & H3).
  destruct (H3 n Hq Hn) as (_ & Hro & s' & Hs'). exists m. split; auto. split; auto.
  destruct (C33_release_acknowledged cfg w' c i s' a w2 o2 Hs') as [Hx _]. apply Hx, H2.
Qed.
Print Assumptions C35_each_publish_routed_once_partial.
Example C35_ex : exists s, reachable ex_open ex_subscribed /\ serves ex_subscribed 1 0 s /\ topic_name (pb_topic (ex_publish ExactlyOnce (Some 5) false "x/y" "v")).
Proof.
  eexists. split; [eexists; reflexivity|]. split; [split; vm_compute; reflexivity|].
  apply publish_topic_iff; [apply utf8_valid_iff|]; vm_compute; reflexivity.
Qed.

(** ** C36: false for messages the client publishes: PUBREL removes nothing, so every
    completed exchange leaves its message in the session. *)
Definition exchange (c : nat) (n : N) : list event :=
  [EPacket c (Publish (ex_publish ExactlyOnce (Some n) false "t" "v")); EPacket c (PubRel (ack n))].
Lemma exchange_step cfg w c i s n w' o : serves w c i s -> run cfg (exchange c n) w = (w', o) ->
  o = [Sent c (PubRec (ack n)); Sent c (PubComp (ack n))] /\
  exists s', serves w' c i s' /\ map fst (se_unacked s') = map fst (aput N.eqb n (ex_publish ExactlyOnce (Some n) false "t" "v") (se_unacked s)).
Proof.
  intros Hs. unfold exchange. rewrite run_cons. rewrite (step_packet _ _ _ i s) by (auto; discriminate).
  assert (Hst : packet_step cfg c i s (Publish (ex_publish ExactlyOnce (Some n) false "t" "v")) w
    = (put_session i (set_unacked (aput N.eqb n (ex_publish ExactlyOnce (Some n) false "t" "v") (se_unacked s)) s)
         (set_broker (broker_publish (str "t") (message_of (ex_publish ExactlyOnce (Some n) false "t" "v")) (w_broker w)) w),
       [Sent c (PubRec (ack n))])) by reflexivity.
  rewrite Hst. cbn [fst snd]. destruct Hs as [Hc Hi].
  set (s1 := set_unacked _ s). set (w1 := put_session i s1 _).
  assert (Hs1 : serves w1 c i s1) by (split; [exact Hc|eapply put_same; simpl; eauto]).
  rewrite run_cons, (step_packet _ _ _ i s1) by (auto; discriminate).
  intros H. inv H. split; [reflexivity|]. eexists. split.
  - split; [exact Hc|]. eapply put_same. simpl. apply Hs1.
  - reflexivity.
Qed.
Theorem C36_state_released_refuted : forall ns, exists cfg w c, reachable cfg w /\ (exists s, serves w c 0 s /\ se_unacked s = []) /\
  exists w' o s', run cfg (flat_map (exchange c) ns) w = (w', o) /\ serves w' c 0 s' /\
    o = flat_map (fun n => [Sent c (PubRec (ack n)); Sent c (PubComp (ack n))]) ns /\
    forall n, In n ns -> In n (map fst (se_unacked s')).
Proof.
  intros ns. exists ex_open, (ex_world [ex_first 1 (ex_connect "a" true)]), 1%nat.
  split; [eexists; reflexivity|].
  assert (Hg : forall w s, serves w 1 0 s -> exists w' o s', run ex_open (flat_map (exchange 1) ns) w = (w', o) /\ serves w' 1 0 s' /\
    o = flat_map (fun n => [Sent 1 (PubRec (ack n)); Sent 1 (PubComp (ack n))]) ns /\
    (forall n, In n (map fst (se_unacked s)) -> In n (map fst (se_unacked s'))) /\
    forall n, In n ns -> In n (map fst (se_unacked s'))).
  { induction ns as [|n ns IH]; intros w s Hs.
    - exists w, [], s. repeat split; auto; try apply Hs. contradiction.
    - destruct (run ex_open (exchange 1 n) w) as [w1 o1] eqn:E.
      destruct (exchange_step _ _ _ _ _ _ _ _ Hs E) as (-> & s1 & Hs1 & Hk).
      destruct (IH w1 s1 Hs1) as (w2 & o2 & s2 & E2 & Hs2 & -> & Hold & Hnew).
      assert (Hin1 : forall x, In x (map fst (se_unacked s1)) <-> x = n \/ In x (map fst (se_unacked s))).
      { intros x. rewrite Hk. apply (akeys_aput N.eqb N.eqb_eq). }
      exists w2. eexists. exists s2. split.
      + change (flat_map (exchange 1) (n :: ns)) with (exchange 1 n ++ flat_map (exchange 1) ns).
        rewrite run_app, E. cbn [fst snd]. rewrite E2. reflexivity.
      + split; auto. split; [reflexivity|]. split.
        * intros x Hx. apply Hold, Hin1. auto.
        * intros x [<-|Hx]; [apply Hold, Hin1; auto|auto]. }
  split.
  - eexists. split; [split; vm_compute; reflexivity|reflexivity].
  - assert (Hs : serves (ex_world [ex_first 1 (ex_connect "a" true)]) 1 0 (session_new (ex_connect "a" true)))
      by (split; vm_compute; reflexivity).
    destruct (Hg _ _ Hs) as (w' & o & s' & H1 & H2 & H3 & _ & H5).
    exists w', o, s'. auto.
Qed.
Print Assumptions C36_state_released_refuted.
(** What holds: for messages sent to the client, PUBACK, and PUBREC with PUBCOMP, release
    session and store. *)
Theorem C36_outgoing_released_partial cfg w c i s a w' o :
  serves w c i s ->
  (step cfg w (EPacket c (PubAck a)) = (w', o) -> exists s', serves w' c i s' /\
     ~ In (ak_packet_id a) (map fst (se_unacked s')) /\ mem_get_inflight (se_client_id s) (ak_packet_id a) (w_store w') = None)
  /\ (step cfg w (EPacket c (PubRec a)) = (w', o) -> exists s', serves w' c i s' /\
     ~ In (ak_packet_id a) (map fst (se_unacked s')))
  /\ (step cfg w (EPacket c (PubComp a)) = (w', o) -> exists s', serves w' c i s' /\
     ~ In (ak_packet_id a) (map fst (se_pubrecs s')) /\ se_unacked s' = se_unacked s /\
     mem_get_inflight (se_client_id s) (ak_packet_id a) (w_store w') = None)
  /\ (step cfg w (EPacket c (PubRel a)) = (w', o) -> exists s', serves w' c i s' /\
     ~ In (ak_packet_id a) (map fst (se_pubrecs s')) /\ se_unacked s' = se_unacked s).
Proof.
  intros Hs. rewrite !(step_packet _ _ _ i s) by (auto; discriminate). destruct Hs as [Hc Hi].
  assert (Hdel : forall {V} n (l : list (N * V)), ~ In n (map fst (adel N.eqb n l))).
  { intros V n l Hin. change (In n (akeys (adel N.eqb n l))) in Hin. apply (akeys_adel N.eqb N.eqb_eq) in Hin. tauto. }
  unfold packet_step; simpl. split; [|split; [|split]]; intros H; inv H.
  - eexists. split; [split; [exact Hc|eapply put_same; simpl; eauto]|]. split; [apply Hdel|].
    unfold w_store. simpl. rewrite get_inflight_remove, bytes_eqb_refl, N.eqb_refl. reflexivity.
  - eexists. split; [split; [exact Hc|eapply put_same; simpl; eauto]|]. apply Hdel.
  - eexists. split; [split; [exact Hc|eapply put_same; simpl; eauto]|]. split; [apply Hdel|].
    split; [reflexivity|].
    unfold w_store. simpl. rewrite get_inflight_remove, bytes_eqb_refl, N.eqb_refl. reflexivity.
  - eexists. split; [split; [exact Hc|eapply put_same; simpl; eauto]|]. split; [apply Hdel|reflexivity].
Qed.
Print Assumptions C36_outgoing_released_partial.
Example C36_ex :
  let w := ex_world [ex_first 1 (ex_connect "a" true); ex_first 2 (ex_connect "b" true); ex_sub 1 "t";
                     ex_pub 2 ExactlyOnce (Some 3) "t" "v"; EOut 1 (str "t")] in
  exists s, serves w 1 0 s /\ map fst (se_unacked s) = [3] /\ mem_get_inflight (se_client_id s) 3 (w_store w) <> None.
Proof. eexists. split; [split; vm_compute; reflexivity|]. split; vm_compute; [reflexivity|discriminate]. Qed.

(** ** C37 *)
Definition server_only (k : packet) : Prop :=
  match k with ConnAck _ | SubAck _ | UnsubAck _ | PingResp => True | _ => False end.
Theorem C37_packet_types cfg w c i s k : serves w c i s ->
  (k = PingReq -> exists w', step cfg w (EPacket c k) = (w', [Sent c PingResp]) /\ serves w' c i s /\ w_broker w' = w_broker w)
  /\ ((exists a, k = PubAck a \/ k = PubComp a) -> snd (step cfg w (EPacket c k)) = [])
  /\ ((exists x, k = Connect x) \/ server_only k -> step cfg w (EPacket c k) = step cfg w (EEnd c)
        /\ snd (step cfg w (EPacket c k)) = [Closed c] /\ not_served (fst (step cfg w (EPacket c k))) c)
  /\ ((exists d, k = Disconnect d) -> snd (step cfg w (EPacket c k)) = [Closed c]
        /\ not_served (fst (step cfg w (EPacket c k))) c).
Proof.
  intros Hs.
  assert (Hid : put_session i s (set_broker (w_broker w) w) = w) by exact (put_id w c i s Hs).
  assert (Hend : not_served (end_connection c i w) c).
  { unfold not_served. rewrite end_conns. apply aget_del_same. apply nateqb_spec. }
  split; [|split; [|split]].
  - intros ->. rewrite (step_packet _ _ _ i s) by (auto; discriminate). unfold packet_step. simpl. rewrite Hid. eauto.
  - intros [a [->| ->]]; rewrite (step_packet _ _ _ i s) by (auto; discriminate); reflexivity.
  - intros Hk. rewrite (step_end cfg w c i s Hs).
    assert (Hst : step cfg w (EPacket c k) = (end_connection c i w, [Closed c])); [|rewrite Hst; auto].
    destruct Hk as [[x ->]|Hk].
    + rewrite (step_packet _ _ _ i s) by (auto; discriminate). unfold packet_step. simpl. rewrite Hid. reflexivity.
    + destruct k; try contradiction; rewrite (step_packet _ _ _ i s) by (auto; discriminate);
        unfold packet_step; simpl; rewrite Hid; reflexivity.
  - intros [d ->]. rewrite (step_disconnect _ _ _ i s) by auto. split; [reflexivity|]. simpl.
    unfold disconnect_step, not_served. rewrite end_conns. apply aget_del_same. apply nateqb_spec.
Qed.
Print Assumptions C37_packet_types.
Example C37_ex : (exists s, serves ex_subscribed 1 0 s) /\
  snd (step ex_open ex_subscribed (EPacket 1 PingReq)) = [Sent 1 PingResp] /\
  snd (step ex_open ex_subscribed (EPacket 1 (Connect (ex_connect "a" true)))) = [Closed 1].
Proof. split; [eexists; split; vm_compute; reflexivity|]. split; vm_compute; reflexivity. Qed.

(** Facts about the answers to single packets, and about subscriptions over histories. *)
From Verif Require Import Base Utf8 Codec SpecCodec Tac Maps CodecFacts Topic SpecTopic TopicFacts Property PacketProps Packets
  TopicTree TreeFacts Storage SpecStorage StorageFacts Broker SpecBroker BrokerFacts Auth Session Server SpecServer SessionFacts ServerFacts.

Lemma subscribed_aget s f : subscribed s f <-> aget bytes_eqb f (se_subs s) <> None.
Proof.
  unfold subscribed. change (map fst (se_subs s)) with (akeys (se_subs s)). split.
  - intros H E. apply aget_none in E; [contradiction|apply beqb_spec].
  - intros H. destruct (aget bytes_eqb f (se_subs s)) as [x|] eqn:E; [|congruence].
    eapply aget_some_key; eauto. apply beqb_spec.
Qed.

Lemma filter_dec f : utf8 f -> {topic_filter f} + {~ topic_filter f}.
Proof.
  intros H. destruct (validate_subscribe_filter f) eqn:E.
  - right. intros Hf. apply subscribe_filter_iff in Hf; auto. congruence.
  - left. apply subscribe_filter_iff; auto.
Qed.

(** ** SUBSCRIBE *)
Lemma subscribe_step cfg w c i s p w' o :
  serves w c i s -> Forall (fun fo => utf8 (fst fo)) (sb_payload p) ->
  step cfg w (EPacket c (Subscribe p)) = (w', o) ->
  exists s' codes,
    o = [Sent c (SubAck (Mk_suback_packet (c_protocol_version (se_connect s)) (sb_packet_id p) None codes))]
    /\ Forall2 (fun fo r => (topic_filter (fst fo) /\ r = GrantedQoS0) \/ (~ topic_filter (fst fo) /\ r = TopicFilterInvalid))
         (sb_payload p) codes
    /\ serves w' c i s' /\ same_but_subs s s'
    /\ (forall f, subscribed s' f <-> subscribed s f \/ (In f (map fst (sb_payload p)) /\ topic_filter f))
    /\ (forall f st, ~ (In f (map fst (sb_payload p)) /\ topic_filter f) -> (subscription s' f st <-> subscription s f st))
    /\ (forall f, In f (map fst (sb_payload p)) -> topic_filter f ->
          subscription s' f (Mk_stream (mem_get_retained f (w_store w)) (length (sent_to w f))))
    /\ only_session i w w' /\ nothing_routed w w'
    /\ same_retained w w' /\ same_wills w w' /\ same_inflight w w'
    /\ (forall k, mem_load_session k (w_store w') =
          if bytes_eqb k (se_client_id s) then Some (Mk_session_state k (map fst (se_subs s')) false)
          else mem_load_session k (w_store w)).
Proof.
  intros Hs Hu. rewrite (step_packet _ _ _ i s) by (auto; discriminate). destruct Hs as [Hc Hi].
  unfold packet_step. simpl. unfold handle_subscribe.
  destruct (subscribe_loop (sb_payload p) (se_subs s) (w_broker w)) as [[rs subs] b1] eqn:E.
  destruct (subscribe_loop_spec _ _ _ _ _ _ E) as (H1 & H2 & H3 & H4 & H5 & H6 & H7 & H8 & H9).
  assert (Hv : forall f, In f (map fst (sb_payload p)) -> (validate_subscribe_filter f = None <-> topic_filter f)).
  { intros f Hf. apply subscribe_filter_iff. rewrite Forall_forall in Hu. apply in_map_iff in Hf.
    destruct Hf as (fo & <- & Hf). apply Hu, Hf. }
  intros H. inv H. exists (set_subs subs s), rs.
  split; [reflexivity|]. split.
  { clear - H1 Hv. revert Hv. induction H1 as [|fo r fs rs Hr _ IH]; intros Hv; constructor.
    - specialize (Hv (fst fo) (or_introl eq_refl)). destruct (validate_subscribe_filter (fst fo)) eqn:Ef.
      + right. split; auto. intros Hn. apply Hv in Hn. discriminate.
      + left. split; auto. apply Hv. reflexivity.
    - apply IH. intros f Hf. apply Hv. right. exact Hf. }
  split. { split; [exact Hc|]. simpl. apply list_set_same. eapply nth_error_lt; eauto. }
  split. { repeat split. }
  split. { intros f. rewrite !subscribed_aget. simpl. rewrite H2. split; intros [H|[H' H'']]; auto; right;
    (split; [auto|apply Hv; auto]). }
  split. { intros f st Hn. unfold subscription. simpl. rewrite H3; [tauto|]. intros [H' H'']. apply Hn. split; [auto|apply Hv; auto]. }
  split. { intros f Hf Hfi. unfold subscription. simpl. apply H4; auto. apply Hv; auto. }
  split. { repeat split; auto. intros j Hj. apply list_set_other. exact Hj. }
  split. { intros q. simpl. apply H6. }
  unfold same_retained, same_wills, same_inflight, w_store. simpl. rewrite H5.
  repeat split. intros k. unfold mem_load_session, mem_save_session. simpl. rewrite aget_aput by apply beqb_spec.
  destruct (bytes_eqb k (se_client_id s)) eqn:Ek; auto. apply beqb_spec in Ek. subst. reflexivity.
Qed.

(** ** UNSUBSCRIBE *)
Lemma unsubscribe_step cfg w c i s p w' o :
  serves w c i s ->
  step cfg w (EPacket c (Unsubscribe p)) = (w', o) ->
  exists s' codes,
    o = [Sent c (UnsubAck (Mk_unsuback_packet (c_protocol_version (se_connect s)) (us_packet_id p) None codes))]
    /\ length codes = length (us_payload p)
    /\ (forall n f r, nth_error (us_payload p) n = Some f -> nth_error codes n = Some r ->
          (r = Success /\ subscribed s f /\ ~ In f (firstn n (us_payload p)))
          \/ (r = NoSubscriptionExisted /\ (~ subscribed s f \/ In f (firstn n (us_payload p)))))
    /\ serves w' c i s' /\ same_but_subs s s'
    /\ (forall f, subscribed s' f <-> subscribed s f /\ ~ In f (us_payload p))
    /\ (forall f st, ~ In f (us_payload p) -> (subscription s' f st <-> subscription s f st))
    /\ only_session i w w' /\ w_broker w' = Mk_broker (bk_tree (w_broker w)) (w_store w')
    /\ same_retained w w' /\ same_wills w w' /\ same_inflight w w'
    /\ (forall k, mem_load_session k (w_store w') =
          if bytes_eqb k (se_client_id s) then Some (Mk_session_state k (map fst (se_subs s')) false)
          else mem_load_session k (w_store w)).
Proof.
  intros Hs. rewrite (step_packet _ _ _ i s) by (auto; discriminate). destruct Hs as [Hc Hi].
  unfold packet_step. simpl. unfold handle_unsubscribe.
  destruct (unsubscribe_loop (us_payload p) (se_subs s)) as [rs subs] eqn:E.
  destruct (unsubscribe_loop_spec _ _ _ _ E) as (H1 & H2 & H3 & H4 & H5).
  intros H. inv H. exists (set_subs subs s), rs.
  split; [reflexivity|]. split; [exact H2|]. split.
  { intros n f r Hf Hr. rewrite (H1 _ _ _ Hf Hr).
    destruct (existsb (bytes_eqb f) (firstn n (us_payload p))) eqn:Ex; simpl.
    - right. rewrite andb_false_r. split; auto. right. apply existsb_exists in Ex. destruct Ex as (g & Hg & Eg).
      apply beqb_spec in Eg. subst. exact Hg.
    - rewrite andb_true_r. destruct (aget bytes_eqb f (se_subs s)) eqn:Ea; simpl.
      + left. split; auto. split; [apply subscribed_aget; congruence|]. intros Hin.
        assert (existsb (bytes_eqb f) (firstn n (us_payload p)) = true); [|congruence].
        apply existsb_exists. exists f. split; auto. apply bytes_eqb_refl.
      + right. split; auto. left. rewrite subscribed_aget. auto. }
  split. { split; [exact Hc|]. simpl. apply list_set_same. eapply nth_error_lt; eauto. }
  split. { repeat split. }
  split. { intros f. rewrite !subscribed_aget. simpl. destruct (in_dec bytes_dec f (us_payload p)) as [Hin|Hin].
    - rewrite H3 by auto. tauto.
    - rewrite H4 by auto. tauto. }
  split. { intros f st Hn. unfold subscription. simpl. rewrite H4 by auto. tauto. }
  split. { repeat split; auto. intros j Hj. apply list_set_other. exact Hj. }
  split. { reflexivity. }
  repeat split. intros k. unfold mem_load_session, mem_save_session, w_store. simpl. rewrite aget_aput by apply beqb_spec.
  destruct (bytes_eqb k (se_client_id s)) eqn:Ek; auto. apply beqb_spec in Ek. subst. reflexivity.
Qed.

(** ** Subscriptions over histories: a filter the session does not have appears only by SUBSCRIBE. *)
Lemma process_incoming_subs am k s b r s' b' f : process_incoming am k s b = (r, s', b') ->
  subscribed s' f -> subscribed s f \/ exists p, k = Subscribe p /\ In f (map fst (sb_payload p)).
Proof.
  intros H Hf. destruct k; simpl in H; try (injection H as <- <- <-; left; exact Hf).
  - unfold handle_publish in H. destruct (validate_publish_topic _); [inv H; auto|].
    destruct (pb_qos _); [|destruct (pb_packet_id _)|destruct (pb_packet_id _)|]; injection H as <- <- <-; left; exact Hf.
  - rename s0 into p. unfold handle_subscribe in H.
    destruct (subscribe_loop (sb_payload p) (se_subs s) b) as [[rs subs] b1] eqn:E. injection H as <- <- <-.
    destruct (subscribe_loop_spec _ _ _ _ _ _ E) as (_ & H2 & _). rewrite subscribed_aget in Hf. simpl in Hf.
    apply H2 in Hf. destruct Hf as [Hf|[Hf _]]; [left; apply subscribed_aget; auto|right; eauto].
  - rename s0 into p. unfold handle_unsubscribe in H. destruct (unsubscribe_loop (us_payload p) (se_subs s)) as [rs subs] eqn:E.
    injection H as <- <- <-. destruct (unsubscribe_loop_spec _ _ _ _ E) as (_ & _ & H3 & H4 & _).
    rewrite subscribed_aget in Hf. simpl in Hf. left. apply subscribed_aget.
    destruct (in_dec bytes_dec f (us_payload p)) as [Hin|Hin]; [rewrite H3 in Hf; congruence|rewrite H4 in Hf; auto].
  - destruct (handle_auth am a s) as [r1 s1] eqn:E. injection H as <- <- <-. left.
    assert (Hs : se_subs s1 = se_subs s); [|unfold subscribed in *; congruence].
    unfold handle_auth in E. destruct am; [|congruence].
    repeat case_match; inv E; reflexivity.
Qed.

Lemma begin_subs u r s : se_subs (snd (begin u r s)) = se_subs s.
Proof. unfold begin. destruct (cl_client_id _); reflexivity. Qed.

Lemma process_outgoing_keys f s b r s' : process_outgoing f s b = Some (r, s') ->
  subscribed s f /\ forall g, subscribed s' g <-> subscribed s g.
Proof.
  unfold process_outgoing. destruct (aget bytes_eqb f (se_subs s)) as [st|] eqn:Ef; [|discriminate].
  destruct (stream_next _ st) as [[m st']|]; [|discriminate].
  intros H. split; [apply subscribed_aget; congruence|]. intros g.
  assert (Hs : se_subs s' = aput bytes_eqb f st' (se_subs s)).
  { destruct (mg_packet_id m); [destruct (mg_qos m)|]; inv H; reflexivity. }
  rewrite !subscribed_aget, Hs, aget_aput by apply beqb_spec. destruct (bytes_eqb g f) eqn:E; [|tauto].
  apply beqb_spec in E. subst. rewrite Ef. split; discriminate.
Qed.

Lemma change_subs am w e s s' f : change am w e s s' -> subscribed s' f ->
  subscribed s f \/ exists c p, e = EPacket c (Subscribe p) /\ In f (map fst (sb_payload p)).
Proof.
  intros H Hf. inversion H as [e0 s0|c k u a resume s0|c k s0 s1 b1 r Hd Hs Hpi|c k s0 s1 b1 er Hd Hs Hpi|c d s0|c g s0 s1 r Hs Hpo|c s0]; subst; auto.
  - left. unfold subscribed in *. rewrite begin_subs in Hf. exact Hf.
  - destruct (process_incoming_subs _ _ _ _ _ _ _ _ Hpi Hf) as [Hs1|(p & -> & Hp)]; eauto.
  - destruct (process_incoming_subs _ _ _ _ _ _ _ f Hpi Hf) as [Hs1|(p & -> & Hp)]; eauto.
  - left. apply (process_outgoing_keys _ _ _ _ _ Hpo). exact Hf.
Qed.

(** No packet is answered by a PUBLISH. *)
Lemma no_publish_answer am k s b q s1 b1 : process_incoming am k s b <> (Ok (Some (Publish q)), s1, b1).
Proof.
  intros E. destruct k; simpl in E; try discriminate.
  - unfold handle_publish in E. destruct (validate_publish_topic _); [discriminate|].
    destruct (pb_qos _); [|destruct (pb_packet_id _)|destruct (pb_packet_id _)|]; discriminate.
  - unfold handle_subscribe in E. destruct (subscribe_loop _ _ _) as [[? ?] ?]. discriminate.
  - unfold handle_unsubscribe in E. destruct (unsubscribe_loop _ _). discriminate.
  - destruct (handle_auth _ _ _) as [r1 s2] eqn:Ea. inv E. unfold handle_auth in Ea.
    repeat case_match; inv Ea.
Qed.

(** A PUBLISH on the topic of a filter is sent only by polling that subscription, except
    for the messages retransmitted when a connection opens. *)
Lemma step_sent_publish cfg w e w' o c q : step cfg w e = (w', o) -> In (Sent c (Publish q)) o ->
  (exists k u a, e = EFirst c (Some (Connect k)) u a)
  \/ (exists i s f, e = EOut c f /\ serves w c i s /\ subscribed s f /\ pb_topic q = f).
Proof.
  intros H Hin. apply step_inv in H.
  destruct H as [(_ & -> & _)|[(d&k&_&_&_&_&->)|[(d&k&u&a&->&Hn&H)|[(d&i&s&x&_&_&_&->)|[(d&i&s&k&->&Hs&Hk&H)|[(d&i&s&f&->&Hs&H)|[(d&i&s&_&_&_&->)|[(d&i&s&_&_&_&->)|(_&_&->)]]]]]]]];
    try (simpl in Hin; intuition discriminate).
  - left. unfold connect_step in H. destruct (negb (authenticated cfg k)).
    { inv H. simpl in Hin. intuition discriminate. }
    destruct (start_session u a k w) as [[ack r] w1]. destruct r as [r|].
    2:{ inv H. simpl in Hin. intuition discriminate. }
    destruct (nth_error (w_heap w1) (sr_session r)).
    2:{ inv H. simpl in Hin. intuition discriminate. }
    destruct (restore_subscriptions (sr_subs r) s (w_broker w1)). inv H.
    assert (d = c); [|subst; eauto].
    destruct Hin as [Hin|Hin]; [congruence|]. apply in_map_iff in Hin. destruct Hin as (x & Hx & _). congruence.
  - exfalso. unfold packet_step in H. destruct (process_incoming (sv_manager cfg) k s (w_broker w)) as [[r s1] b1] eqn:E.
    destruct r as [[x|]| |]; inv H; simpl in Hin; try (intuition discriminate).
    destruct Hin as [Hin|[]]. injection Hin as -> ->. eapply no_publish_answer; eauto.
  - right. unfold out_step in H. destruct (process_outgoing f s (w_broker w)) as [[r s1]|] eqn:E.
    2:{ inv H. contradiction. }
    destruct (process_outgoing_keys _ _ _ _ _ E) as [Hsub _].
    destruct r as [p| |]; inv H; simpl in Hin; try (intuition discriminate).
    destruct Hin as [Hin|[]]. injection Hin as -> ->. exists i, s, f. repeat split; auto; try apply Hs.
    unfold process_outgoing in E. destruct (aget bytes_eqb f (se_subs s)); [|discriminate].
    destruct (stream_next _ _) as [[m st']|]; [|discriminate].
    destruct (mg_packet_id m); [destruct (mg_qos m)|]; inv E; reflexivity.
  - apply in_map_iff in Hin. destruct Hin as (x & Hx & _). discriminate.
Qed.

(** The session of a connection does not change while it is open. *)
Lemma step_conns cfg w e w' o c : step cfg w e = (w', o) ->
  (forall k u a, e <> EFirst c k u a) ->
  aget Nat.eqb c (w_conns w') = aget Nat.eqb c (w_conns w) \/ not_served w' c.
Proof.
  intros H Hne. apply step_inv in H.
  assert (Hdel : forall d, aget Nat.eqb c (adel Nat.eqb d (w_conns w)) = aget Nat.eqb c (w_conns w)
      \/ aget Nat.eqb c (adel Nat.eqb d (w_conns w)) = None).
  { intros d. rewrite aget_adel by apply nateqb_spec. destruct (Nat.eqb c d); auto. }
  destruct H as [(-> & _)|[(d&k&_&_&_&->&_)|[(d&k&u&a&->&Hn&H)|[(d&i&s&x&_&_&->&_)|[(d&i&s&k&->&Hs&Hk&H)|[(d&i&s&f&->&Hs&H)|[(d&i&s&_&_&->&_)|[(d&i&s&_&_&->&_)|(_&->&_)]]]]]]]];
    unfold not_served; auto.
  - left. unfold connect_step in H. destruct (negb (authenticated cfg k)); [inv H; auto|].
    destruct (start_session u a k w) as [[ack r] w1] eqn:Es.
    assert (Hc : w_conns w1 = w_conns w).
    { clear H. unfold start_session in Es.
      destruct (lookup_session k w) as [[[[? ?] ?] ?] w2] eqn:El. apply lookup_session_spec in El.
      destruct El as (_ & Hc2 & _).
      assert (He : w_conns (snd (enter_session k w2)) = w_conns w2).
      { unfold enter_session. destruct (aget bytes_eqb _ _); [|reflexivity]. destruct (nth_error _ _); reflexivity. }
      destruct (enter_session k w2) as [i w3]. simpl in He. destruct (nth_error (w_heap w3) i); [|inv Es; congruence].
      destruct (begin u b s) as [? ?]. destruct a; inv Es; simpl; congruence. }
    destruct r as [r|]; [|inv H; congruence].
    destruct (nth_error (w_heap w1) (sr_session r)); [|inv H; congruence].
    destruct (restore_subscriptions (sr_subs r) s (w_broker w1)). inv H. simpl.
    rewrite aget_put_other; [congruence|apply nateqb_spec|]. intros ->. eapply Hne. reflexivity.
  - unfold disconnect_step. rewrite end_conns. apply Hdel.
  - unfold packet_step in H. destruct (process_incoming (sv_manager cfg) k s (w_broker w)) as [[r s1] b1] eqn:E.
    destruct r as [x| |]; inv H.
    + left. destruct (is_subscription_change k); destruct (inflight_completed k); reflexivity.
    + rewrite end_conns. apply Hdel.
    + apply Hdel.
  - unfold out_step in H. destruct (process_outgoing f s (w_broker w)) as [[r s1]|] eqn:E; [|inv H; auto].
    destruct r as [p| |]; inv H.
    + left. destruct (pb_packet_id p); [destruct (pb_qos p)|]; reflexivity.
    + apply Hdel.
    + apply Hdel.
  - rewrite end_conns. apply Hdel.
  - apply Hdel.
Qed.

Lemma no_delivery cfg es : forall w c i s f,
  wf w -> aget Nat.eqb c (w_conns w) = None \/ serves w c i s -> ~ subscribed s f ->
  nth_error (w_heap w) i = Some s ->
  ~ In ERestart es ->
  (forall k u a, ~ In (EFirst c k u a) es) ->
  (forall d p, In (EPacket d (Subscribe p)) es -> ~ In f (map fst (sb_payload p))) ->
  forall q, In (Sent c (Publish q)) (snd (run cfg es w)) -> pb_topic q <> f.
Proof.
  induction es as [|e es IH]; intros w c i s f Hwf Hc Hf Hi Hr Ho Hsub q.
  - simpl. contradiction.
  - rewrite run_cons. destruct (step cfg w e) as [w1 o1] eqn:E. cbn [fst snd]. intros Hin Hq.
    apply in_app_or in Hin. destruct Hin as [Hin|Hin].
    + destruct (step_sent_publish _ _ _ _ _ _ _ E Hin) as [(k & u & a & ->)|(i' & s' & f' & -> & Hs' & Hf' & Hq')].
      * eapply Ho. left. reflexivity.
      * destruct Hc as [Hc|[Hc _]]; destruct Hs' as [Hc' Hi']; [congruence|].
        assert (i' = i) by congruence. subst i'. assert (s' = s) by congruence. subst s'.
        apply Hf. congruence.
    + assert (Hne : e <> ERestart) by (intros ->; apply Hr; left; auto).
      destruct (step_heap cfg w e w1 o1 Hwf Hne E) as (Hh & _ & Hwf1 & _).
      destruct (Hh i s Hi) as (s1 & Hi1 & Hch).
      revert Hin Hq. apply (IH w1 c i s1 f); auto.
      * destruct (step_conns cfg w e w1 o1 c E) as [Hcc|Hcc]; auto.
        { intros k u a ->. eapply Ho. left. reflexivity. }
        destruct Hc as [Hc|[Hc _]]; [left; congruence|right; split; auto; congruence].
      * intros Hs1. destruct (change_subs _ _ _ _ _ _ Hch Hs1) as [Hs|(d & p & -> & Hp)]; [auto|].
        eapply Hsub; [left; reflexivity|exact Hp].
      * intros Hx. apply Hr. right. exact Hx.
      * intros k u a Hx. eapply Ho. right. exact Hx.
      * intros d p Hx. eapply Hsub. right. exact Hx.
Qed.

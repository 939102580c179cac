(** The broker seen from the server: every step is a sequence of broker calls. *)
From Verif Require Import Base Utf8 Codec SpecCodec Tac Maps CodecFacts Topic SpecTopic TopicFacts Property PacketProps Packets
  TopicTree TreeFacts Storage SpecStorage StorageFacts Broker SpecBroker BrokerFacts Auth Session Server SpecServer SessionFacts ServerFacts HandlerFacts.

Definition will_ops (o : option will) : list broker_op :=
  match o with Some x => [BPub (wl_topic x) (will_message x)] | None => [] end.
(** The filters a CONNECT restores. *)
Definition restored (k : connect_packet) (w : world) : list bytes :=
  if cf_clean_start (c_flags k) then []
  else if is_some (aget bytes_eqb (cl_client_id (c_payload k)) (w_manager w)) then []
  else match mem_load_session (cl_client_id (c_payload k)) (w_store w) with
       | Some st => ss_subscriptions st
       | None => []
       end.
Definition publish_ops (p : publish_packet) : list broker_op :=
  match validate_publish_topic (pb_topic p) with
  | None => [BPub (pb_topic p) (message_of p)]
  | Some _ => []
  end.
Definition valid_filters (fs : list sub_filter) : list bytes :=
  filter (fun f => match validate_subscribe_filter f with None => true | Some _ => false end) (map fst fs).
(** The calls a packet makes, before the connection possibly ends. *)
Definition packet_ops (k : packet) : list broker_op :=
  match k with
  | Publish p => publish_ops p
  | Subscribe p => map BSub (valid_filters (sb_payload p))
  | _ => []
  end.
Definition fails (am : option auth_manager) (k : packet) (s : session) (b : broker) : bool :=
  match fst (fst (process_incoming am k s b)) with Err _ => true | _ => false end.
Definition step_ops (cfg : config) (w : world) (e : event) : list broker_op :=
  match e with
  | EFirst c (Some (Connect k)) _ true =>
      if is_some (aget Nat.eqb c (w_conns w)) then []
      else if authenticated cfg k then map BSub (restored k w) else []
  | EPacket c (Disconnect _) => []
  | EPacket c k =>
      match served_session w c with
      | Some s => packet_ops k ++ (if fails (sv_manager cfg) k s (w_broker w) then will_ops (se_will s) else [])
      | None => []
      end
  | EEnd c => match served_session w c with Some s => will_ops (se_will s) | None => [] end
  | _ => []
  end.

(** [b'] is [b] after the calls, up to stored sessions, wills and in-flight messages. *)
Definition after_ops (ops : list broker_op) (b b' : broker) : Prop :=
  bk_tree b' = bk_tree (broker_run ops b) /\ ms_retained (bk_store b') = ms_retained (bk_store (broker_run ops b)).

Lemma store_ops_tree : forall ops b b', bk_tree b = bk_tree b' -> bk_tree (broker_run ops b) = bk_tree (broker_run ops b').
Proof.
  induction ops as [|o ops IH]; intros b b' H; [exact H|]. apply IH. destruct o as [f|t m]; simpl; rewrite H; reflexivity.
Qed.
Lemma publish_store_retained t m s s' : ms_retained s = ms_retained s' ->
  ms_retained (publish_store t m s) = ms_retained (publish_store t m s').
Proof. intros H. rewrite !publish_store_eq. destruct (mg_retain m); auto. simpl. rewrite H. reflexivity. Qed.
Lemma store_ops_retained : forall ops b b', ms_retained (bk_store b) = ms_retained (bk_store b') ->
  ms_retained (bk_store (broker_run ops b)) = ms_retained (bk_store (broker_run ops b')).
Proof.
  induction ops as [|o ops IH]; intros b b' H; [exact H|]. apply IH. destruct o as [f|t m]; simpl; auto.
  apply publish_store_retained, H.
Qed.
Lemma after_ops_refl b : after_ops [] b b.
Proof. split; reflexivity. Qed.
Lemma after_ops_trans o1 o2 b b1 b2 : after_ops o1 b b1 -> after_ops o2 b1 b2 -> after_ops (o1 ++ o2) b b2.
Proof.
  intros [H1 H2] [H3 H4]. unfold after_ops. unfold broker_run. rewrite fold_left_app. fold (broker_run o1 b).
  change (fold_left broker_step o2 (broker_run o1 b)) with (broker_run o2 (broker_run o1 b)). split.
  - rewrite H3. apply store_ops_tree, H1.
  - rewrite H4. apply store_ops_retained. exact H2.
Qed.
Lemma after_ops_store o b b' s : after_ops o b b' -> ms_retained s = ms_retained (bk_store b') ->
  after_ops o b (Mk_broker (bk_tree b') s).
Proof. intros [H1 H2] H. split; simpl; congruence. Qed.

Lemma end_after c i w s : nth_error (w_heap w) i = Some s ->
  after_ops (will_ops (se_will s)) (w_broker w) (w_broker (end_connection c i w)).
Proof.
  intros H. unfold end_connection. simpl. rewrite H. destruct (se_will s) as [x|]; [|apply after_ops_refl].
  simpl. apply (after_ops_store _ _ (publish_will x (w_broker w))); [split; reflexivity|reflexivity].
Qed.

Lemma restore_after fs : forall s b s' b', restore_subscriptions fs s b = (s', b') ->
  after_ops (map BSub fs) b b' /\ bk_store b' = bk_store b.
Proof.
  induction fs as [|f fs IH]; intros s b s' b' H; simpl in H.
  - inv H. split; [apply after_ops_refl|reflexivity].
  - destruct (IH _ _ _ _ H) as [H1 H2]. split; [|rewrite H2; reflexivity].
    change (map BSub (f :: fs)) with ([BSub f] ++ map BSub fs). eapply after_ops_trans; [|exact H1].
    split; reflexivity.
Qed.
Lemma subscribe_loop_after fs : forall subs b rs subs' b', subscribe_loop fs subs b = (rs, subs', b') ->
  after_ops (map BSub (valid_filters fs)) b b'.
Proof.
  induction fs as [|[f o] fs IH]; intros subs b rs subs' b' H; simpl in H.
  - inv H. apply after_ops_refl.
  - unfold valid_filters. simpl. fold (valid_filters fs). destruct (validate_subscribe_filter f) eqn:Ev.
    + destruct (subscribe_loop fs subs b) as [[? ?] ?] eqn:E. inv H. eapply IH; eauto.
    + simpl in *.
      destruct (subscribe_loop fs _ _) as [[rs1 subs1] b1] eqn:E in H. inv H.
      change (BSub f :: map BSub (valid_filters fs)) with ([BSub f] ++ map BSub (valid_filters fs)).
      eapply after_ops_trans; [|eapply IH; exact E]. split; reflexivity.
Qed.
Lemma process_after am k s b r s' b' : (forall d, k <> Disconnect d) -> process_incoming am k s b = (r, s', b') ->
  after_ops (packet_ops k) b b' /\ se_will s' = se_will s.
Proof.
  intros Hd H. destruct k; simpl in H; try (inv H; split; [apply after_ops_refl|reflexivity]); try (exfalso; eapply Hd; reflexivity).
  - simpl. unfold publish_ops. unfold handle_publish in H.
    destruct (validate_publish_topic _); [inv H; split; [apply after_ops_refl|reflexivity]|].
    destruct (pb_qos _); [|destruct (pb_packet_id _)|destruct (pb_packet_id _)|]; inv H; split; try reflexivity; split; reflexivity.
  - unfold handle_subscribe in H. destruct (subscribe_loop _ _ _) as [[rs subs] b1] eqn:E. inv H.
    split; [eapply subscribe_loop_after; eauto|reflexivity].
  - unfold handle_unsubscribe in H. destruct (unsubscribe_loop _ _). inv H. split; [apply after_ops_refl|reflexivity].
  - destruct (handle_auth _ _ _) as [r1 s1] eqn:E. inv H. split; [apply after_ops_refl|].
    unfold handle_auth in E. destruct am; [|congruence]. repeat case_match; inv E; reflexivity.
Qed.

Lemma entered_restored k w i subs wl infl s : entered k w i subs wl infl s -> subs = restored k w.
Proof.
  intros H. unfold restored. destruct H as [s0 H1 H2 H3|subs wl infl H1 H2 H3 H4].
  - rewrite H1, H2. reflexivity.
  - destruct (cf_clean_start (c_flags k)).
    + destruct (H3 eq_refl) as (-> & _). reflexivity.
    + destruct H2 as [H2|H2]; [discriminate|]. rewrite H2. simpl. destruct (H4 eq_refl) as (-> & _). reflexivity.
Qed.

Lemma connect_store_retained k subs s w : ms_retained (connect_store k subs s w) = ms_retained (w_store w).
Proof. unfold connect_store. destruct (se_will s); destruct (cf_clean_start (c_flags k)); reflexivity. Qed.

(** Every step but a restart acts on tree and retained messages as [step_ops] says. *)
Lemma step_after cfg w e w' o : wf w -> e <> ERestart -> step cfg w e = (w', o) ->
  after_ops (step_ops cfg w e) (w_broker w) (w_broker w').
Proof.
  intros Hwf He H. apply step_inv in H.
  destruct H as [(-> & -> & Hid)|[(c&k&Ee&Hn&Hk&->&_)|[(c&k&u&a&->&Hn&H)|[(c&i&s&d&->&[Hc Hi]&->&_)|[(c&i&s&k&->&[Hc Hi]&Hk&H)|[(c&i&s&f&->&[Hc Hi]&H)|[(c&i&s&->&[Hc Hi]&->&_)|[(c&i&s&->&[Hc Hi]&->&_)|(->&_)]]]]]]]];
    [..|congruence].
  - (* nothing happens *)
    destruct e as [c [[]|] u []|c k|c f|c|c|]; simpl in *; try apply after_ops_refl; try congruence.
    + rewrite Hid. apply after_ops_refl.
    + rewrite Hid. destruct k; apply after_ops_refl.
    + rewrite Hid. apply after_ops_refl.
  - destruct e as [c0 k0 u a| | | | |]; try discriminate. injection Ee as -> ->.
    unfold step_ops. destruct k as [[]|]; try apply after_ops_refl. exfalso. eapply Hk. reflexivity.
  - unfold step_ops. rewrite Hn. simpl. unfold connect_step in H.
    destruct (authenticated cfg k); simpl in H; [|inv H; destruct a; apply after_ops_refl].
    destruct (start_session u a k w) as [[ack r] w1] eqn:E.
    destruct (start_session_spec _ _ _ _ _ _ _ Hwf E) as (i & subs & wl & infl & s & He' & Hack & Hr & Hnn & _ & _ & _ & _ & Ht & Hst).
    destruct a; subst r; simpl in H.
    + rewrite Hnn in H. destruct (restore_subscriptions subs (snd (begin u (resumes k w) s)) (w_broker w1)) as [s2 b2] eqn:Er.
      inv H. simpl. destruct (restore_after _ _ _ _ _ Er) as [[H1 H2] H3].
      rewrite <- (entered_restored _ _ _ _ _ _ _ He').
      split.
      * rewrite H1. apply store_ops_tree, Ht.
      * rewrite H2. apply store_ops_retained. fold (w_store w1). rewrite Hst. apply connect_store_retained.
    + inv H. split; simpl; [exact Ht|]. fold (w_store w'). rewrite Hst.
      destruct (cf_clean_start (c_flags k)); reflexivity.
  - simpl. unfold disconnect_step.
    assert (Hx : nth_error (w_heap (put_session i (set_will None s) w)) i = Some (set_will None s)) by (eapply put_same; eauto).
    pose proof (end_after c i (set_store (mem_delete_will (se_client_id s) (w_store (put_session i (set_will None s) w)))
       (put_session i (set_will None s) w)) _ Hx) as [H1 H2]. simpl in H1, H2. split; [rewrite H1; reflexivity|rewrite H2; reflexivity].
  - assert (Hso : step_ops cfg w (EPacket c k) = packet_ops k ++ (if fails (sv_manager cfg) k s (w_broker w) then will_ops (se_will s) else [])).
    { unfold step_ops, served_session. rewrite Hc, Hi. destruct k; auto. }
    rewrite Hso. clear Hso. unfold packet_step in H. unfold fails.
    destruct (process_incoming (sv_manager cfg) k s (w_broker w)) as [[r s1] b1] eqn:Ep.
    destruct (process_after _ _ _ _ _ _ _ Hk Ep) as [Hop Hw]. cbn [fst].
    destruct r as [x|er|]; inv H.
    + rewrite app_nil_r.
      assert (Hs2 : forall p, ms_retained (mem_remove_inflight (se_client_id s1) p (bk_store b1)) = ms_retained (bk_store b1)).
      { intros p. unfold mem_remove_inflight. destruct (aget bytes_eqb _ _); reflexivity. }
      destruct k; simpl; try (destruct b1; exact Hop);
        try (apply (after_ops_store _ _ b1); [exact Hop|apply Hs2]);
        try (apply (after_ops_store _ _ b1); [exact Hop|reflexivity]).
    + eapply after_ops_trans; [exact Hop|]. rewrite <- Hw.
      apply (end_after c i (put_session i s1 (set_broker b1 w)) s1). eapply put_same. simpl. eauto.
    + rewrite app_nil_r. exact Hop.
  - unfold step_ops. unfold out_step in H.
    destruct (process_outgoing f s (w_broker w)) as [[r s1]|]; [|inv H; apply after_ops_refl].
    destruct r as [p|er|]; inv H; try apply after_ops_refl.
    destruct (pb_packet_id p); [destruct (pb_qos p)|]; try apply after_ops_refl; split; reflexivity.
  - unfold step_ops, served_session. rewrite Hc, Hi. apply end_after, Hi.
  - split; reflexivity.
Qed.

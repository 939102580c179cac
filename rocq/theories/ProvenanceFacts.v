(** Where the messages a subscriber receives come from. *)
From Verif Require Import Base Utf8 Codec SpecCodec Tac Maps CodecFacts Topic SpecTopic TopicFacts Property PacketProps Packets
  TopicTree TreeFacts Storage SpecStorage StorageFacts Broker SpecBroker BrokerFacts Auth Session Server SpecServer
  SessionFacts ServerFacts HandlerFacts HistoryFacts.

(** ** Routing is sound for every topic, valid or not *)
Lemma dests_sound {T} ls : forall (n : node T) q, In q (dests ls [] n) -> node_at q n <> None /\ level_match q ls.
Proof.
  induction ls as [|l ls IH]; intros n q.
  - cbn [dests]. simpl app. intros [<-|H].
    + split; [discriminate | constructor].
    + destruct (child str_hash n) eqn:E; simpl in H; [|contradiction].
      destruct H as [<-|[]]. simpl. rewrite E. split; [discriminate | constructor].
  - cbn [dests]. rewrite !in_app_iff. simpl app.
    assert (Hsub : forall k q, In q (match child k n with Some c => dests ls [k] c | None => [] end)
                -> exists q', q = k :: q' /\ node_at q n <> None /\ level_match q' ls).
    { intros k q0. destruct (child k n) as [c|] eqn:Ec; [|contradiction].
      rewrite dests_prefix, in_map_iff. intros (q' & <- & Hq). exists q'. simpl. rewrite Ec.
      split; [reflexivity|]. apply IH. exact Hq. }
    intros [H|[H|H]].
    + destruct (child str_hash n) eqn:E; simpl in H; [|contradiction].
      destruct H as [<-|[]]. simpl. rewrite E. split; [discriminate | constructor].
    + apply Hsub in H. destruct H as (q' & -> & H1 & H2). split; auto. apply lm_plus. exact H2.
    + apply Hsub in H. destruct H as (q' & -> & H1 & H2). split; auto. apply lm_same. exact H2.
Qed.
Lemma route_sound t m n q x : In x (log_at q (publish_route t m n)) ->
  In x (log_at q n) \/ (x = m /\ level_match q (levels t)).
Proof.
  rewrite publish_route_eq, log_at_sends.
  - rewrite in_app_iff. intros [H|H]; auto. right. pose proof (repeat_spec _ _ _ H) as ->. split; auto.
    assert (Hin : In q (dests (levels t) [] n)).
    { apply (count_occ_In path_eq_dec). destruct (count_occ path_eq_dec (dests (levels t) [] n) q); [contradiction|lia]. }
    apply dests_sound in Hin. apply Hin.
  - apply Forall_forall. intros p Hp. apply dests_sound in Hp. apply Hp.
Qed.

(** ** Restoring subscriptions *)
Lemma restore_spec fs : forall s b s' b', restore_subscriptions fs s b = (s', b') ->
  (forall f, ~ In f fs -> aget bytes_eqb f (se_subs s') = aget bytes_eqb f (se_subs s))
  /\ (forall f, In f fs -> aget bytes_eqb f (se_subs s') =
        Some (Mk_stream (mem_get_retained f (bk_store b)) (length (log_at (levels f) (bk_tree b)))))
  /\ bk_store b' = bk_store b /\ (forall q, log_at q (bk_tree b') = log_at q (bk_tree b))
  /\ (forall q, node_at q (bk_tree b) <> None -> node_at q (bk_tree b') <> None)
  /\ (forall f, In f fs -> node_at (levels f) (bk_tree b') <> None)
  /\ (NoDup (akeys (se_subs s)) -> NoDup (akeys (se_subs s')))
  /\ same_but_subs s s'.
Proof.
  induction fs as [|f fs IH]; intros s b s' b' H; simpl in H.
  - injection H as <- <-. repeat split; auto; contradiction.
  - destruct (IH _ _ _ _ H) as (H1 & H2 & H3 & H4 & H5 & H6 & H7 & H8). clear IH. simpl in *.
    assert (Hlog : forall q, log_at q (tree_subscribe (levels f) (bk_tree b)) = log_at q (bk_tree b))
      by (intros q; apply log_at_subscribe).
    split; [|split; [|split; [|split; [|split; [|split; [|split]]]]]]; auto.
    + intros g Hg. rewrite H1 by tauto. apply aget_put_other; [apply beqb_spec|]. intros ->. tauto.
    + intros g Hg. destruct (in_dec bytes_dec g fs) as [Hi|Hi].
      * rewrite H2 by auto. rewrite Hlog. reflexivity.
      * destruct Hg as [<-|Hg]; [|contradiction]. rewrite H1 by auto.
        rewrite aget_put_same by apply beqb_spec. rewrite Hlog. reflexivity.
    + intros q. rewrite H4. apply Hlog.
    + intros q Hq. apply H5. apply node_at_subscribe. auto.
    + intros g [<-|Hg]; [|auto]. apply H5. apply node_at_subscribe. right. exists []. rewrite app_nil_r. reflexivity.
    + intros Hnd. apply H7. apply nodup_aput; auto. apply beqb_spec.
Qed.

(** ** What a step does to the stored sessions, wills and in-flight messages *)
Lemma begin_will u r s : se_will (snd (begin u r s)) = se_will s.
Proof. unfold begin. destruct (cl_client_id _); reflexivity. Qed.
Lemma entered_will k w i subs wl infl s : entered k w i subs wl infl s -> se_will s = will_of_connect k.
Proof. intros []; reflexivity. Qed.

Lemma get_inflight_store c p i m d q : mem_get_inflight d q (mem_store_inflight c p i m)
  = if bytes_eqb d c && N.eqb q p then Some i else mem_get_inflight d q m.
Proof.
  unfold mem_get_inflight, mem_store_inflight, inflight_of. simpl. rewrite aget_aput by apply beqb_spec.
  destruct (bytes_eqb d c) eqn:E; simpl; auto. apply beqb_spec in E. subst d.
  rewrite aget_aput by apply N.eqb_eq. destruct (N.eqb q p); auto.
  destruct (aget bytes_eqb c (ms_inflight m)); auto.
Qed.
Lemma get_inflight_remove c p m d q : mem_get_inflight d q (mem_remove_inflight c p m)
  = if bytes_eqb d c && N.eqb q p then None else mem_get_inflight d q m.
Proof.
  unfold mem_get_inflight, mem_remove_inflight. destruct (aget bytes_eqb c (ms_inflight m)) as [l|] eqn:El.
  - simpl. rewrite aget_aput by apply beqb_spec. destruct (bytes_eqb d c) eqn:E; simpl; auto.
    apply beqb_spec in E. subst d. rewrite aget_adel by apply N.eqb_eq. rewrite El. destruct (N.eqb q p); auto.
  - destruct (bytes_eqb d c) eqn:E; simpl; auto. apply beqb_spec in E. subst d. rewrite El. destruct (N.eqb q p); auto.
Qed.

Lemma in_aput_weak {K V} eqb (Heqb : forall a b, eqb a b = true <-> a = b) (k k1 : K) (v v1 : V) m : In (k1, v1) (aput eqb k v m) -> (k1, v1) = (k, v) \/ In (k1, v1) m.
Proof.
  induction m as [|[k2 v2] m IH]; simpl; [intuition congruence|]. destruct (eqb k k2) eqn:E; simpl; [apply Heqb in E; subst|]; intuition congruence.
Qed.
(** An entry of the in-flight table. *)
Definition stored_inflight (m : mem_store) (c : bytes) (p : N) (i : inflight) : Prop :=
  exists l, aget bytes_eqb c (ms_inflight m) = Some l /\ In (p, i) l.
Lemma stored_inflight_store c p i m d q j : stored_inflight (mem_store_inflight c p i m) d q j ->
  stored_inflight m d q j \/ (d = c /\ q = p /\ j = i).
Proof.
  intros (l & Hl & Hin). unfold mem_store_inflight, inflight_of in Hl. simpl in Hl. rewrite aget_aput in Hl by apply beqb_spec.
  destruct (bytes_eqb d c) eqn:E; [|left; exists l; auto]. apply beqb_spec in E. subst d. injection Hl as <-.
  apply (in_aput_weak N.eqb N.eqb_eq) in Hin. destruct Hin as [Hin|Hin]; [right; inv Hin; auto|].
  left. destruct (aget bytes_eqb c (ms_inflight m)) as [l|] eqn:E; [exists l; auto|contradiction].
Qed.
Lemma stored_inflight_remove c p m d q j : stored_inflight (mem_remove_inflight c p m) d q j -> stored_inflight m d q j.
Proof.
  intros (l & Hl & Hin). unfold mem_remove_inflight in Hl. destruct (aget bytes_eqb c (ms_inflight m)) as [l0|] eqn:E0; [|exists l; auto].
  simpl in Hl. rewrite aget_aput in Hl by apply beqb_spec. destruct (bytes_eqb d c) eqn:E; [|exists l; auto].
  apply beqb_spec in E. subst d. injection Hl as <-. exists l0. split; auto.
  apply (in_adel N.eqb N.eqb_eq) in Hin. apply Hin.
Qed.

Lemma publish_store_parts t m s : ms_sessions (publish_store t m s) = ms_sessions s
  /\ ms_wills (publish_store t m s) = ms_wills s /\ ms_inflight (publish_store t m s) = ms_inflight s.
Proof. rewrite publish_store_eq. destruct (mg_retain m); auto. Qed.

Lemma end_store c i w s : nth_error (w_heap w) i = Some s ->
  ms_sessions (w_store (end_connection c i w)) = ms_sessions (w_store w)
  /\ ms_inflight (w_store (end_connection c i w)) = ms_inflight (w_store w)
  /\ ms_wills (w_store (end_connection c i w)) =
       (if se_will s then adel bytes_eqb (se_client_id s) (ms_wills (w_store w)) else ms_wills (w_store w)).
Proof.
  intros H. unfold end_connection. simpl. rewrite H. destruct (se_will s) as [x|]; auto.
  unfold w_store. simpl. unfold publish_will. simpl.
  destruct (publish_store_parts (wl_topic x) (will_message x) (bk_store (w_broker w))) as (-> & -> & ->). auto.
Qed.

Lemma process_store am k s b r s' b' : process_incoming am k s b = (r, s', b') ->
  ms_sessions (bk_store b') = ms_sessions (bk_store b) /\ ms_wills (bk_store b') = ms_wills (bk_store b)
  /\ ms_inflight (bk_store b') = ms_inflight (bk_store b) /\ se_client_id s' = se_client_id s.
Proof.
  intros H. destruct k; simpl in H; try (inv H; auto; fail).
  - unfold handle_publish in H. destruct (validate_publish_topic _); [inv H; auto|].
    destruct (publish_store_parts (pb_topic b0) (message_of b0) (bk_store b)) as (H1 & H2 & H3).
    destruct (pb_qos _); [|destruct (pb_packet_id _)|destruct (pb_packet_id _)|]; inv H; simpl; auto.
  - unfold handle_subscribe in H. destruct (subscribe_loop _ _ _) as [[rs subs] b1] eqn:E. inv H.
    apply subscribe_loop_spec in E. destruct E as (_ & _ & _ & _ & -> & _). auto.
  - unfold handle_unsubscribe in H. destruct (unsubscribe_loop _ _). inv H. auto.
  - destruct (handle_auth _ _ _) as [r1 s1] eqn:E. inv H. 
    unfold handle_auth in E. destruct am; [|inv E; auto]. repeat case_match; inv E; auto.
Qed.

Lemma step_store cfg w e w' o : wf w -> e <> ERestart -> step cfg w e = (w', o) ->
  (forall cid st, aget bytes_eqb cid (ms_sessions (w_store w')) = Some st ->
     aget bytes_eqb cid (ms_sessions (w_store w)) = Some st
     \/ (exists c k u, e = EFirst c (Some (Connect k)) u true /\ ss_subscriptions st = restored k w)
     \/ (exists c k i s', e = EPacket c k /\ aget Nat.eqb c (w_conns w) = Some i
           /\ nth_error (w_heap w') i = Some s' /\ cid = se_client_id s' /\ ss_subscriptions st = subscription_filters s'))
  /\ (forall cid x, aget bytes_eqb cid (ms_wills (w_store w')) = Some x ->
     aget bytes_eqb cid (ms_wills (w_store w)) = Some x
     \/ (exists c k u, e = EFirst c (Some (Connect k)) u true /\ will_of_connect k = Some x))
  /\ (forall cid pid i, stored_inflight (w_store w') cid pid i ->
     stored_inflight (w_store w) cid pid i
     \/ (exists c f s s' p, e = EOut c f /\ served_session w c = Some s
           /\ process_outgoing f s (w_broker w) = Some (Ok p, s') /\ cid = se_client_id s'
           /\ pb_packet_id p = Some pid /\ i = Mk_inflight pid (pb_topic p) (pb_payload p) (pb_qos p) (pb_dup p))).
Proof.
  intros Hwf He H. apply step_inv in H.
  destruct H as [(-> & -> & Hid)|[(c&k&Ee&Hn&Hk&->&_)|[(c&k&u&a&->&Hn&H)|[(c&i&s&d&->&[Hc Hi]&->&_)|[(c&i&s&k&->&[Hc Hi]&Hk&H)|[(c&i&s&f&->&[Hc Hi]&H)|[(c&i&s&->&[Hc Hi]&->&_)|[(c&i&s&->&[Hc Hi]&->&_)|(->&_)]]]]]]]];
    [..|congruence]; auto.
  - unfold connect_step in H. destruct (authenticated cfg k); simpl in H; [|inv H; auto].
    destruct (start_session u a k w) as [[ack r] w1] eqn:E.
    destruct (start_session_spec _ _ _ _ _ _ _ Hwf E) as (i & subs & wl & infl & s & He' & Hack & Hr & Hnn & _ & _ & _ & _ & Ht & Hst).
    assert (Hdel : forall {V} cid (l : list (bytes * V)) k x, aget bytes_eqb cid (adel bytes_eqb k l) = Some x -> aget bytes_eqb cid l = Some x).
    { intros V cid l k0 x. rewrite aget_adel by apply beqb_spec. destruct (bytes_eqb cid k0); [discriminate|auto]. }
    destruct a; subst r; simpl in H.
    + rewrite Hnn in H. destruct (restore_subscriptions subs (snd (begin u (resumes k w) s)) (w_broker w1)) as [s2 b2] eqn:Er.
      assert (Hs : w_store w' = w_store w1).
      { inv H. unfold w_store. simpl. apply restore_spec in Er. destruct Er as (_ & _ & -> & _). reflexivity. }
      clear H. rewrite Hs, Hst. unfold connect_store. rewrite begin_will, (entered_will _ _ _ _ _ _ _ He').
      set (cid0 := se_client_id (snd (begin u (resumes k w) s))).
      set (st0 := if cf_clean_start (c_flags k) then _ else w_store w).
      assert (Hst0 : (forall cid st, aget bytes_eqb cid (ms_sessions st0) = Some st -> aget bytes_eqb cid (ms_sessions (w_store w)) = Some st)
        /\ (forall cid st, aget bytes_eqb cid (ms_wills st0) = Some st -> aget bytes_eqb cid (ms_wills (w_store w)) = Some st)
        /\ ms_inflight st0 = ms_inflight (w_store w)).
      { unfold st0. destruct (cf_clean_start (c_flags k)); simpl; auto. repeat split; intros cid x; apply Hdel. }
      destruct Hst0 as (S1 & S2 & S3). split; [|split].
      * intros cid st Hget.
        assert (Hg : aget bytes_eqb cid (aput bytes_eqb cid0 (Mk_session_state cid0 subs false) (ms_sessions st0)) = Some st)
          by (destruct (will_of_connect k); exact Hget).
        rewrite aget_aput in Hg by apply beqb_spec. destruct (bytes_eqb cid cid0); [|left; auto].
        right. left. exists c, k, u. split; auto. injection Hg as <-. simpl. eapply entered_restored; eauto.
      * intros cid x Hget. destruct (will_of_connect k) as [y|] eqn:Ey; simpl in Hget; [|left; auto].
        rewrite aget_aput in Hget by apply beqb_spec. destruct (bytes_eqb cid cid0); [|left; auto].
        right. injection Hget as ->. eauto.
      * intros cid pid x Hget. left. unfold stored_inflight in *. rewrite <- S3. destruct (will_of_connect k); exact Hget.
    + inv H. rewrite Hst. destruct (cf_clean_start (c_flags k)); auto. simpl. repeat split.
      * intros cid st Hg. left. eauto.
      * intros cid st Hg. left. eauto.
      * intros cid pid x Hg. left. exact Hg.
  - assert (Hx : nth_error (w_heap (put_session i (set_will None s) w)) i = Some (set_will None s)) by (eapply put_same; eauto).
    unfold disconnect_step.
    destruct (end_store c i (set_store (mem_delete_will (se_client_id s) (w_store (put_session i (set_will None s) w)))
       (put_session i (set_will None s) w)) _ Hx) as (H1 & H2 & H3). simpl in H3.
    unfold stored_inflight. rewrite H1, H2, H3. repeat split; auto.
    intros cid x. unfold w_store. simpl. rewrite aget_adel by apply beqb_spec. destruct (bytes_eqb cid _); [discriminate|auto].
  - unfold packet_step in H.
    destruct (process_incoming (sv_manager cfg) k s (w_broker w)) as [[r s1] b1] eqn:Ep.
    destruct (process_store _ _ _ _ _ _ _ Ep) as (P1 & P2 & P3 & P4). fold (w_store w) in P1, P2, P3.
    destruct r as [x|er|]; inv H.
    + set (w1 := put_session i s1 (set_broker b1 w)).
      set (w2 := if is_subscription_change k then _ else w1).
      assert (Hw2 : w_heap w2 = w_heap w1 /\ ms_wills (w_store w2) = ms_wills (w_store w) /\ ms_inflight (w_store w2) = ms_inflight (w_store w)
         /\ forall cid st, aget bytes_eqb cid (ms_sessions (w_store w2)) = Some st ->
              aget bytes_eqb cid (ms_sessions (w_store w)) = Some st \/ cid = se_client_id s1 /\ ss_subscriptions st = subscription_filters s1).
      { unfold w2. destruct (is_subscription_change k); unfold w_store; simpl; (split; [reflexivity|split; [exact P2|split; [exact P3|]]]).
        - intros cid st. rewrite aget_aput by apply beqb_spec. destruct (bytes_eqb cid (se_client_id s1)) eqn:Eb.
          + apply beqb_spec in Eb. intros Hg. injection Hg as <-. right. auto.
          + rewrite P1. auto.
        - intros cid st. rewrite P1. auto. }
      destruct Hw2 as (W1 & W2 & W3 & W4).
      assert (Hi1 : nth_error (w_heap w1) i = Some s1) by (eapply put_same; simpl; eauto).
      destruct (inflight_completed k) as [p|].
      * assert (Hri : forall w p, ms_sessions (w_store (set_store (mem_remove_inflight (se_client_id s1) p (w_store w)) w)) = ms_sessions (w_store w)
           /\ ms_wills (w_store (set_store (mem_remove_inflight (se_client_id s1) p (w_store w)) w)) = ms_wills (w_store w)).
        { intros w0 p0. unfold w_store, mem_remove_inflight. simpl. destruct (aget bytes_eqb _ _); auto. }
        destruct (Hri w2 p) as [-> ->]. split; [|split].
        -- intros cid st Hg. destruct (W4 _ _ Hg) as [Hg'|[-> Hg']]; auto. right. right.
           exists c, k, i, s1. simpl. rewrite W1. auto 8.
        -- intros cid x0. rewrite W2. auto.
        -- intros cid pid x0. unfold w_store at 1. simpl. intros Hx. apply stored_inflight_remove in Hx.
           left. unfold stored_inflight in *. rewrite <- W3. exact Hx.
      * split; [|split].
        -- intros cid st Hg. destruct (W4 _ _ Hg) as [Hg'|[-> Hg']]; auto. right. right.
           exists c, k, i, s1. rewrite W1. auto 8.
        -- intros cid x0. rewrite W2. auto.
        -- intros cid pid x0. unfold stored_inflight. rewrite W3. auto.
    + assert (Hi1 : nth_error (w_heap (put_session i s1 (set_broker b1 w))) i = Some s1) by (eapply put_same; simpl; eauto).
      destruct (end_store c i _ _ Hi1) as (H1 & H2 & H3). unfold stored_inflight. rewrite H1, H2, H3.
      unfold w_store. simpl. rewrite P1, P2, P3. repeat split; auto.
      intros cid x. destruct (se_will s1); auto. rewrite aget_adel by apply beqb_spec. destruct (bytes_eqb cid _); [discriminate|auto].
    + unfold stored_inflight, w_store. simpl. rewrite P1, P2, P3. auto.
  - unfold out_step in H. destruct (process_outgoing f s (w_broker w)) as [[r s1]|] eqn:Ep; [|inv H; auto].
    destruct r as [p|er|]; inv H; try (repeat split; auto; fail).
    assert (Hss : served_session w c = Some s) by (unfold served_session; rewrite Hc; exact Hi).
    destruct (pb_packet_id p) as [pid|] eqn:Epid; [|repeat split; auto].
    assert (Hfin : forall q, (q = AtMostOnce \/ q = QInvalid \/ q = pb_qos p) -> forall cid pid0 i0,
      stored_inflight (mem_store_inflight (se_client_id s1) pid (Mk_inflight pid (pb_topic p) (pb_payload p) (pb_qos p) (pb_dup p)) (w_store w)) cid pid0 i0 ->
      stored_inflight (w_store w) cid pid0 i0 \/
      (exists c1 f1 s2 s' p1, EOut c f = EOut c1 f1 /\ served_session w c1 = Some s2 /\
        process_outgoing f1 s2 (w_broker w) = Some (Ok p1, s') /\ cid = se_client_id s' /\ pb_packet_id p1 = Some pid0 /\
        i0 = Mk_inflight pid0 (pb_topic p1) (pb_payload p1) (pb_qos p1) (pb_dup p1))).
    { intros q _ cid pid0 i0 Hg. apply stored_inflight_store in Hg. destruct Hg as [Hg|(-> & -> & ->)]; auto.
      right. exists c, f, s, s1, p. auto 8. }
    destruct (pb_qos p) eqn:Eq; try (repeat split; auto; fail);
      (split; [auto|split; [auto|intros cid pid0 i0 Hg; apply (Hfin (pb_qos p)); [auto|rewrite ?Eq; exact Hg]]]).
  - destruct (end_store c i w s Hi) as (H1 & H2 & H3). unfold stored_inflight. rewrite H1, H2, H3.
    repeat split; auto.
    intros cid x. destruct (se_will s); auto. rewrite aget_adel by apply beqb_spec. destruct (bytes_eqb cid _); [discriminate|auto].
Qed.

(** ** The invariant *)
Definition good_filter (f : bytes) : Prop := validate_subscribe_filter f = None.
Record prov (h : list event) (w : world) : Prop := {
  pv_wf : wf w;
  pv_log : forall q m, In m (log_at q (bk_tree (w_broker w))) -> origin h m /\ level_match q (levels (mg_topic m));
  pv_ret : forall t m, In (t, m) (ms_retained (w_store w)) -> origin h m /\ mg_topic m = t;
  pv_subs : forall j s f st, nth_error (w_heap w) j = Some s -> aget bytes_eqb f (se_subs s) = Some st ->
    good_filter f /\ node_at (levels f) (bk_tree (w_broker w)) <> None
    /\ Forall (fun m => origin h m /\ matches f (mg_topic m)) (st_retained st);
  pv_will : forall j s x, nth_error (w_heap w) j = Some s -> se_will s = Some x -> origin h (will_message x);
  pv_wills : forall cid x, aget bytes_eqb cid (ms_wills (w_store w)) = Some x -> origin h (will_message x);
  pv_sess : forall cid st, aget bytes_eqb cid (ms_sessions (w_store w)) = Some st -> Forall good_filter (ss_subscriptions st);
  pv_infl : forall cid pid i, stored_inflight (w_store w) cid pid i ->
    if_packet_id i = pid /\ exists m, origin h m /\ delivers m (Mk_publish_packet true (if_qos i) false (if_topic i) (Some pid) None (if_payload i))
}.

Lemma origin_app h e m : origin h m -> origin (h ++ [e]) m.
Proof.
  intros H. destruct H.
  - apply or_publish with c. apply in_or_app. auto.
  - eapply or_will; eauto. apply in_or_app. eauto.
Qed.
Lemma origin_retain h r m : origin h m -> origin h (with_retain r m).
Proof.
  intros H. destruct H; unfold with_retain; simpl.
  - eapply or_publish; eauto.
  - eapply or_will; eauto.
Qed.
Lemma origin_connect h c k u a x : In (EFirst c (Some (Connect k)) u a) h -> will_of_connect k = Some x -> origin h (will_message x).
Proof.
  intros Hin H. unfold will_of_connect in H. destruct (cf_will_flag (c_flags k)) eqn:Ef; simpl in H; [|discriminate].
  destruct (cl_will_topic (c_payload k)) as [t|] eqn:Et; [|discriminate]. inv H. unfold will_message. simpl.
  eapply or_will; eauto.
Qed.

(** Calls of the broker keep the log and the retained messages in order. *)
Definition op_ok (h : list event) (o : broker_op) : Prop :=
  match o with BSub f => True | BPub t m => origin h m /\ mg_topic m = t end.
Lemma ops_prov h ops : forall b, Forall (op_ok h) ops ->
  (forall q m, In m (log_at q (bk_tree b)) -> origin h m /\ level_match q (levels (mg_topic m))) ->
  (forall t m, In (t, m) (ms_retained (bk_store b)) -> origin h m /\ mg_topic m = t) ->
  (forall q m, In m (log_at q (bk_tree (broker_run ops b))) -> origin h m /\ level_match q (levels (mg_topic m)))
  /\ (forall t m, In (t, m) (ms_retained (bk_store (broker_run ops b))) -> origin h m /\ mg_topic m = t).
Proof.
  induction ops as [|o ops IH]; intros b Ho H1 H2; [split; auto|]. inversion Ho as [|? ? Ho1 Ho2]; subst.
  apply IH; auto.
  - destruct o as [f|t m]; simpl; intros q x.
    + rewrite log_at_subscribe. apply H1.
    + intros Hx. apply route_sound in Hx. destruct Hx as [Hx|[-> Hx]]; auto.
      destruct Ho1 as [Ho1 Ho3]. split; auto. rewrite Ho3. exact Hx.
  - destruct o as [f|t m]; simpl; auto. intros t' x. rewrite publish_store_eq. destruct Ho1 as [Ho1 Ho3].
    destruct (mg_retain m); auto. simpl. destruct (payload_dec m).
    + intros Hx. apply (in_adel bytes_eqb beqb_spec) in Hx. apply H2, Hx.
    + intros Hx. apply (in_aput_weak bytes_eqb beqb_spec) in Hx. destruct Hx as [Hx|Hx]; [|apply H2, Hx].
      injection Hx as -> ->. split; [apply origin_retain, Ho1|exact Ho3].
Qed.
Lemma ops_node ops : forall b q, node_at q (bk_tree b) <> None -> node_at q (bk_tree (broker_run ops b)) <> None.
Proof.
  induction ops as [|o ops IH]; intros b q H; auto. apply IH. destruct o as [f|t m]; simpl.
  - apply node_at_subscribe. auto.
  - apply route_node. exact H.
Qed.
Lemma ops_sub ops : forall b f, In (BSub f) ops -> node_at (levels f) (bk_tree (broker_run ops b)) <> None.
Proof.
  induction ops as [|o ops IH]; intros b f H; [contradiction|]. destruct H as [->|H]; [|apply IH, H].
  apply (ops_node ops (broker_step b (BSub f))). simpl. apply node_at_subscribe. right. exists []. rewrite app_nil_r. reflexivity.
Qed.

Lemma step_ops_ok cfg h w e : prov h w -> Forall (op_ok (h ++ [e])) (step_ops cfg w e).
Proof.
  intros Hp. assert (Hw : forall c s, served_session w c = Some s -> Forall (op_ok (h ++ [e])) (will_ops (se_will s))).
  { intros c s Hs. destruct (se_will s) as [x|] eqn:Ex; simpl; [|constructor]. constructor; [|constructor].
    split; [|reflexivity]. apply origin_app. unfold served_session in Hs.
    destruct (aget Nat.eqb c (w_conns w)) as [i|]; [|discriminate]. apply (pv_will h w Hp i s x); auto. }
  assert (Hsub : forall fs, Forall (op_ok (h ++ [e])) (map BSub fs)).
  { intros fs. apply Forall_forall. intros o Ho. apply in_map_iff in Ho. destruct Ho as (f & <- & _). exact I. }
  destruct e as [c [[]|] u []|c k|c f|c|c|]; simpl; auto.
  - destruct (is_some _); auto. destruct (authenticated _ _); auto.
  - assert (Hk : Forall (op_ok (h ++ [EPacket c k])) (packet_ops k)).
    { destruct k; simpl; auto. unfold publish_ops. destruct (validate_publish_topic (pb_topic b)); auto.
      constructor; [|constructor]. split; [|reflexivity]. unfold message_of.
      apply or_publish with c. apply in_or_app. right. left. reflexivity. }
    assert (Hall : Forall (op_ok (h ++ [EPacket c k])) (match served_session w c with
        | Some s => packet_ops k ++ (if fails (sv_manager cfg) k s (w_broker w) then will_ops (se_will s) else [])
        | None => [] end)).
    { destruct (served_session w c) as [s|] eqn:Es; [|apply Forall_nil]. apply Forall_app. split; auto.
      destruct (fails _ _ _ _); eauto. }
    destruct k; auto.
  - destruct (served_session w c) as [s|] eqn:Es; [|apply Forall_nil]. eapply Hw; eauto.
Qed.

Lemma get_retained_prov h w f : prov h w -> good_filter f ->
  Forall (fun m => origin h m /\ matches f (mg_topic m)) (mem_get_retained f (w_store w)).
Proof.
  intros Hp Hf. unfold mem_get_retained. apply Forall_forall. intros m Hm. apply in_map_iff in Hm.
  destruct Hm as ((t & x) & <- & Hm). apply filter_In in Hm. destruct Hm as [Hm Ht]. simpl in *.
  destruct (pv_ret h w Hp _ _ Hm) as [Ho Hto]. split; [apply origin_retain, Ho|].
  apply topic_matches_filter_iff in Ht; [|apply filter_ok_levels, Hf]. rewrite Hto. exact Ht.
Qed.

Lemma stream_next_prov (h : list event) log st m st' (P : message -> Prop) :
  stream_next log st = Some (m, st') -> Forall P log -> Forall P (st_retained st) -> P m /\ Forall P (st_retained st').
Proof.
  rewrite stream_next_eq. intros H Hl Hr. destruct (st_retained st) as [|x xs].
  - destruct (nth_error log _) as [y|] eqn:E; [|discriminate]. inv H. apply nth_error_In in E.
    rewrite Forall_forall in Hl. split; [apply Hl, E|constructor].
  - inv H. inversion Hr; subst. auto.
Qed.

Lemma log_prov h w f : prov h w -> Forall (fun m => origin h m /\ matches f (mg_topic m)) (log_at (levels f) (bk_tree (w_broker w))).
Proof.
  intros Hp. apply Forall_forall. intros m Hm. destruct (pv_log h w Hp _ _ Hm) as [H1 H2]. split; auto.
  apply matches_iff. exact H2.
Qed.

(** What polling a subscription yields. *)
Lemma outgoing_prov h w j s f r s' : prov h w -> nth_error (w_heap w) j = Some s ->
  process_outgoing f s (w_broker w) = Some (r, s') ->
  (forall p, r = Ok p -> pb_topic p = f /\ exists m, origin h m /\ p = outgoing_publish f m /\ delivers m p)
  /\ (forall g st, aget bytes_eqb g (se_subs s') = Some st ->
       good_filter g /\ node_at (levels g) (bk_tree (w_broker w)) <> None
       /\ Forall (fun m => origin h m /\ matches g (mg_topic m)) (st_retained st))
  /\ se_will s' = se_will s /\ se_client_id s' = se_client_id s.
Proof.
  intros Hp Hj H. unfold process_outgoing in H.
  destruct (aget bytes_eqb f (se_subs s)) as [st|] eqn:Ef; [|discriminate].
  destruct (stream_next _ st) as [[m st']|] eqn:En; [|discriminate].
  destruct (pv_subs h w Hp j s f st Hj Ef) as (Hg & Hnode & Hr).
  destruct (stream_next_prov h _ _ _ _ _ En (log_prov h w f Hp) Hr) as [[Hm1 Hm2] Hst].
  assert (Hs : se_subs s' = aput bytes_eqb f st' (se_subs s) /\ se_will s' = se_will s /\ se_client_id s' = se_client_id s
     /\ forall p, r = Ok p -> p = outgoing_publish f m).
  { destruct (mg_packet_id m); [destruct (mg_qos m)|]; inv H; repeat split; congruence. }
  destruct Hs as (Hs1 & Hs2 & Hs3 & Hs4). split; [|split; auto].
  - intros p Hpp. rewrite (Hs4 p Hpp). split; [reflexivity|]. exists m. repeat split; auto.
  - intros g stg. rewrite Hs1, aget_aput by apply beqb_spec. destruct (bytes_eqb g f) eqn:E.
    + apply beqb_spec in E. subst g. intros Hx. injection Hx as <-. auto.
    + intros Hx. eapply pv_subs; eauto.
Qed.

Lemma Forall_origin_app h e f l : Forall (fun m => origin h m /\ matches f (mg_topic m)) l ->
  Forall (fun m => origin (h ++ [e]) m /\ matches f (mg_topic m)) l.
Proof. apply Forall_impl. intros m [H1 H2]. split; auto using origin_app. Qed.

Lemma begin_change_subs u r s : se_subs (snd (begin u r s)) = se_subs s /\ se_will (snd (begin u r s)) = se_will s.
Proof. split; [apply begin_subs|apply begin_will]. Qed.

(** The subscriptions a handler leaves. *)
Lemma process_prov am h w j s k r s' b' : prov h w -> nth_error (w_heap w) j = Some s ->
  process_incoming am k s (w_broker w) = (r, s', b') ->
  forall g st, aget bytes_eqb g (se_subs s') = Some st ->
    good_filter g /\ node_at (levels g) (bk_tree b') <> None
    /\ Forall (fun m => origin h m /\ matches g (mg_topic m)) (st_retained st).
Proof.
  intros Hp Hj H g st Hg.
  assert (Hold : aget bytes_eqb g (se_subs s) = Some st -> (forall d, k <> Disconnect d) -> 
    good_filter g /\ node_at (levels g) (bk_tree b') <> None
    /\ Forall (fun m => origin h m /\ matches g (mg_topic m)) (st_retained st)).
  { intros Ho Hd. destruct (pv_subs h w Hp j s g st Hj Ho) as (H1 & H2 & H3). split; auto. split; auto.
    destruct (process_after _ _ _ _ _ _ _ Hd H) as [[Ht _] _]. rewrite Ht. apply ops_node, H2. }
  destruct k; simpl in H; try (inv H; apply Hold; [exact Hg|discriminate]).
  - apply Hold; [|discriminate]. unfold handle_publish in H. destruct (validate_publish_topic _); [inv H; auto|].
    destruct (pb_qos _); [|destruct (pb_packet_id _)|destruct (pb_packet_id _)|]; inv H; auto.
  - unfold handle_subscribe in H. destruct (subscribe_loop (sb_payload s0) (se_subs s) (w_broker w)) as [[rs subs] b1] eqn:E. injection H as <- <- <-.
    destruct (subscribe_loop_spec _ _ _ _ _ _ E) as (H1 & H2 & H3 & H4 & H5 & H6 & H7 & H8 & H9). simpl in Hg.
    destruct (in_dec bytes_dec g (map fst (sb_payload s0))) as [Hin|Hin].
    + destruct (validate_subscribe_filter g) eqn:Ev.
      * rewrite H3 in Hg by (intros [_ Hx]; congruence). apply Hold; [exact Hg|discriminate].
      * rewrite H4 in Hg by auto. injection Hg as <-. split; [exact Ev|]. split; [apply H8; auto|]. simpl.
        apply (get_retained_prov h w g Hp Ev).
    + rewrite H3 in Hg by tauto. apply Hold; [exact Hg|discriminate].
  - apply Hold; [|discriminate]. unfold handle_unsubscribe in H. destruct (unsubscribe_loop (us_payload s0) (se_subs s)) as [rs subs] eqn:E.
    injection H as <- <- <-. destruct (unsubscribe_loop_spec _ _ _ _ E) as (_ & _ & H3 & H4 & _). simpl in Hg.
    destruct (in_dec bytes_dec g (us_payload s0)) as [Hin|Hin]; [rewrite H3 in Hg; congruence|rewrite H4 in Hg; auto].
  - inv H. destruct (pv_subs h w Hp j s' g st Hj Hg) as (H1 & H2 & H3). auto.
  - apply Hold; [|discriminate]. destruct (handle_auth am a s) as [r1 s1] eqn:E. injection H as <- <- <-.
    assert (Hs : se_subs s1 = se_subs s); [|congruence].
    unfold handle_auth in E. destruct am; [|congruence]. repeat case_match; inv E; reflexivity.
Qed.

Lemma restored_good h w k : prov h w -> Forall good_filter (restored k w).
Proof.
  intros Hp. unfold restored. destruct (cf_clean_start _); [constructor|]. destruct (is_some _); [constructor|].
  destruct (mem_load_session _ (w_store w)) as [st|] eqn:E; [|constructor]. eapply pv_sess; eauto.
Qed.

Lemma prov_restart h w e : prov h w -> prov (h ++ [e]) (restart w).
Proof.
  intros Hp. constructor.
  - apply wf_restart.
  - simpl. unfold log_at. intros q m. destruct q; simpl; contradiction.
  - simpl. unfold w_store. simpl. intros t m Hm. destruct (pv_ret h w Hp t m Hm). split; auto using origin_app.
  - simpl. intros j s f st Hj. destruct j; discriminate.
  - simpl. intros j s x Hj. destruct j; discriminate.
  - intros cid x Hx. apply origin_app. eapply pv_wills; eauto.
  - intros cid st Hx. eapply pv_sess; eauto.
  - intros cid pid i Hx. destruct (pv_infl h w Hp cid pid i Hx) as (H1 & m & H2 & H3). split; auto. exists m. auto using origin_app.
Qed.

Lemma created_will cfg w e s : created cfg w e s -> forall x, se_will s = Some x ->
  (exists c k u a, e = EFirst c (Some (Connect k)) u a /\
     (will_of_connect k = Some x \/ exists cid, aget bytes_eqb cid (ms_wills (w_store w)) = Some x)).
Proof.
  intros H x Hx. destruct H as [c k u subs wl infl s b b' Hwf Hn Ha He Hb1 Hb2 Hr|c k u subs wl infl Hwf Hn Ha He].
  - exists c, k, u, true. split; auto. destruct wl as [y|].
    + simpl in Hx. injection Hx as ->. right. inversion He as [|? ? ? H1 H2 H3 H4]; subst.
      destruct (cf_clean_start (c_flags k)).
      * destruct (H3 eq_refl) as (_ & H & _). discriminate.
      * destruct (H4 eq_refl) as (_ & H & _). destruct (mem_load_session _ _); [|discriminate].
        exists (cl_client_id (c_payload k)). symmetry. exact H.
    + left. apply restore_spec in Hr. destruct Hr as (_ & _ & _ & _ & _ & _ & _ & Hs).
      destruct Hs as (_ & _ & _ & _ & Hw & _). rewrite Hw, begin_will in Hx. exact Hx.
  - exists c, k, u, false. split; auto. rewrite begin_will in Hx. auto.
Qed.


Lemma step_prov cfg h w e w' o : prov h w -> step cfg w e = (w', o) -> prov (h ++ [e]) w'.
Proof.
  intros Hp H. assert (Hev : e = ERestart \/ e <> ERestart) by (destruct e; auto; right; discriminate).
  destruct Hev as [->|Hev].
  { simpl in H. inv H. apply prov_restart, Hp. }
  pose proof (pv_wf h w Hp) as Hwf.
  pose proof (step_after cfg w e w' o Hwf Hev H) as [Ht Hr].
  destruct (ops_prov (h ++ [e]) (step_ops cfg w e) (w_broker w) (step_ops_ok cfg h w e Hp)) as [Hlog Hret].
  { intros q m Hm. destruct (pv_log h w Hp q m Hm). auto using origin_app. }
  { intros t m Hm. destruct (pv_ret h w Hp t m Hm). auto using origin_app. }
  destruct (step_heap cfg w e w' o Hwf Hev H) as (Hh & Hnew & Hwf' & Hlen).
  destruct (step_store cfg w e w' o Hwf Hev H) as (Hs1 & Hs2 & Hs3).
  assert (Hnode : forall q, node_at q (bk_tree (w_broker w)) <> None -> node_at q (bk_tree (w_broker w')) <> None).
  { intros q Hq. rewrite Ht. apply ops_node, Hq. }
  assert (Hpk : forall c k s s1 b1 r q, e = EPacket c k -> (forall d, k <> Disconnect d) -> served_session w c = Some s ->
     process_incoming (sv_manager cfg) k s (w_broker w) = (r, s1, b1) ->
     node_at q (bk_tree b1) <> None -> node_at q (bk_tree (w_broker w')) <> None).
  { intros c k s s1 b1 r q -> Hd Hs Hpi Hq. destruct (process_after _ _ _ _ _ _ _ Hd Hpi) as [[Ht1 _] _].
    rewrite Ht1 in Hq. rewrite Ht.
    assert (Hso : step_ops cfg w (EPacket c k) = packet_ops k ++ (if fails (sv_manager cfg) k s (w_broker w) then will_ops (se_will s) else [])).
    { unfold step_ops. rewrite Hs. destruct k; auto. }
    rewrite Hso. unfold broker_run. rewrite fold_left_app. apply ops_node. exact Hq. }
  assert (Hsubs : forall j s f st, nth_error (w_heap w') j = Some s -> aget bytes_eqb f (se_subs s) = Some st ->
    good_filter f /\ node_at (levels f) (bk_tree (w_broker w')) <> None
    /\ Forall (fun m => origin (h ++ [e]) m /\ matches f (mg_topic m)) (st_retained st)).
  { intros j s' f st Hj Hf.
    destruct (nth_error (w_heap w) j) as [s|] eqn:Ej.
    - destruct (Hh j s Ej) as (s1 & Hj1 & Hch). rewrite Hj in Hj1. injection Hj1 as <-.
      assert (Hsame : se_subs s' = se_subs s -> good_filter f /\ node_at (levels f) (bk_tree (w_broker w')) <> None
         /\ Forall (fun m => origin (h ++ [e]) m /\ matches f (mg_topic m)) (st_retained st)).
      { intros Es. rewrite Es in Hf. destruct (pv_subs h w Hp j s f st Ej Hf) as (H1 & H2 & H3).
        auto using Forall_origin_app. }
      inversion Hch as [e0 s0|c k u a resume s0|c k s0 s1 b1 r Hd Hss Hpi|c k s0 s1 b1 er Hd Hss Hpi|c d s0|c g s0 s1 r Hss Hpo|c s0]; subst;
        try (apply Hsame; reflexivity).
      + apply Hsame. rewrite begin_subs. reflexivity.
      + destruct (process_prov _ h w j s k r s' b1 Hp Ej Hpi f st Hf) as (H1 & H2 & H3).
        split; auto. split; [|auto using Forall_origin_app]. eapply Hpk; eauto.
      + destruct (process_prov _ h w j s k (Err er) s1 b1 Hp Ej Hpi f st Hf) as (H1 & H2 & H3).
        split; auto. split; [|auto using Forall_origin_app]. eapply Hpk; eauto.
      + destruct (outgoing_prov h w j s g r s' Hp Ej Hpo) as (_ & Ho & _). destruct (Ho f st Hf) as (H1 & H2 & H3).
        auto using Forall_origin_app.
    - apply nth_error_None in Ej. pose proof (Hnew j s' Hj Ej) as Hcr.
      inversion Hcr as [c k u subs wl infl s b b' _ Hn Ha He Hb1 Hb2 Hrs|c k u subs wl infl _ Hn Ha He]; subst.
      + assert (Hf2 : aget bytes_eqb f (se_subs s) = Some st) by (destruct wl; exact Hf). clear Hf.
        destruct (restore_spec _ _ _ _ _ Hrs) as (R1 & R2 & _).
        rewrite begin_subs in R1.
        destruct (in_dec bytes_dec f subs) as [Hin|Hin]; [|rewrite R1 in Hf2 by auto; discriminate].
        rewrite R2 in Hf2 by auto. injection Hf2 as <-.
        assert (Hg : good_filter f).
        { rewrite (entered_restored _ _ _ _ _ _ _ He) in Hin.
          pose proof (restored_good h w k Hp) as HF. rewrite Forall_forall in HF. auto. }
        split; auto. split.
        * rewrite Ht. apply ops_sub. simpl.
          rewrite Hn, Ha. simpl. rewrite <- (entered_restored _ _ _ _ _ _ _ He). apply in_map, Hin.
        * simpl. apply Forall_origin_app.
          assert (Hm : mem_get_retained f (bk_store b) = mem_get_retained f (w_store w)).
          { unfold mem_get_retained. rewrite Hb2. reflexivity. }
          rewrite Hm. apply get_retained_prov; auto.
      + rewrite begin_subs in Hf. discriminate. }
  constructor; auto.
  - rewrite Ht. exact Hlog.
  - unfold w_store. rewrite Hr. exact Hret.
  - intros j s' x Hj Hx.
    destruct (nth_error (w_heap w) j) as [s|] eqn:Ej.
    + destruct (Hh j s Ej) as (s1 & Hj1 & Hch). rewrite Hj in Hj1. injection Hj1 as <-.
      assert (Hsame : se_will s' = se_will s -> origin (h ++ [e]) (will_message x)).
      { intros Es. rewrite Es in Hx. apply origin_app. eapply pv_will; eauto. }
      inversion Hch as [e0 s0|c k u a resume s0|c k s0 s1 b1 r Hd Hss Hpi|c k s0 s1 b1 er Hd Hss Hpi|c d s0|c g s0 s1 r Hss Hpo|c s0]; subst;
        try (apply Hsame; reflexivity); try discriminate.
      * rewrite begin_will in Hx. simpl in Hx. eapply origin_connect; eauto. apply in_or_app. right. left. reflexivity.
      * apply Hsame. eapply process_after; eauto.
      * apply Hsame. eapply outgoing_prov; eauto.
    + apply nth_error_None in Ej. pose proof (Hnew j s' Hj Ej) as Hcr.
      destruct (created_will _ _ _ _ Hcr x Hx) as (c & k & u & a & -> & [Hw|[cid Hw]]).
      * eapply origin_connect; eauto. apply in_or_app. right. left. reflexivity.
      * apply origin_app. eapply pv_wills; eauto.
  - intros cid x Hx. destruct (Hs2 cid x Hx) as [Hy|(c & k & u & -> & Hy)].
    + apply origin_app. eapply pv_wills; eauto.
    + eapply origin_connect; eauto. apply in_or_app. right. left. reflexivity.
  - intros cid st Hx. destruct (Hs1 cid st Hx) as [Hy|[(c & k & u & -> & Hy)|(c & k & i & s' & -> & Hc & Hi & -> & Hy)]].
    + eapply pv_sess; eauto.
    + rewrite Hy. eapply restored_good; eauto.
    + rewrite Hy. apply Forall_forall. intros f Hf.
      assert (Hsub : subscribed s' f) by exact Hf. rewrite subscribed_aget in Hsub.
      destruct (aget bytes_eqb f (se_subs s')) as [st'|] eqn:E; [|congruence]. eapply Hsubs; eauto.
  - intros cid pid i Hx. destruct (Hs3 cid pid i Hx) as [Hy|(c & f & s & s' & p & -> & Hss & Hpo & -> & Hpid & ->)].
    + destruct (pv_infl h w Hp cid pid i Hy) as (H1 & m & H2 & H3). split; auto. exists m. auto using origin_app.
    + simpl. split; auto. unfold served_session in Hss. destruct (aget Nat.eqb c (w_conns w)) as [j|]; [|discriminate].
      destruct (outgoing_prov h w j s f (Ok p) s' Hp Hss Hpo) as (Ho & _). destruct (Ho p eq_refl) as (Hto & m & Hm & _ & Hd).
      exists m. split; [apply origin_app, Hm|]. destruct Hd as (D1 & D2 & D3 & D4). repeat split; auto. simpl. congruence.
Qed.

Lemma prov_new : prov [] world_new.
Proof.
  constructor; try (simpl; intros; discriminate); try (intros cid pid i (l & Hl & _); discriminate).
  - apply wf_new.
  - simpl. unfold log_at. intros [|? q] m; simpl; contradiction.
  - simpl. contradiction.
  - intros j s f st Hj. destruct j; discriminate.
  - intros j s x Hj. destruct j; discriminate.
Qed.
Lemma run_prov cfg es : forall h w, prov h w -> prov (h ++ es) (fst (run cfg es w)).
Proof.
  induction es as [|e es IH]; intros h w Hp.
  - rewrite app_nil_r. exact Hp.
  - rewrite run_cons. cbn [fst]. destruct (step cfg w e) as [w1 o1] eqn:E. cbn [fst].
    replace (h ++ e :: es) with ((h ++ [e]) ++ es) by (rewrite <- app_assoc; reflexivity).
    apply IH. eapply step_prov; eauto.
Qed.

(** Every PUBLISH sent delivers a message that was published. *)
Lemma step_sent_prov cfg h w e w' o c q : prov h w -> step cfg w e = (w', o) -> In (Sent c (Publish q)) o ->
  exists m, origin h m /\ delivers m q.
Proof.
  intros Hp H Hin. apply step_inv in H.
  destruct H as [(_ & -> & _)|[(d&k&_&_&_&_&->)|[(d&k&u&a&->&Hn&H)|[(d&i&s&x&_&_&_&->)|[(d&i&s&k&->&Hs&Hk&H)|[(d&i&s&f&->&Hs&H)|[(d&i&s&_&_&_&->)|[(d&i&s&_&_&_&->)|(_&_&->)]]]]]]]];
    try (simpl in Hin; intuition discriminate).
  - unfold connect_step in H. destruct (negb (authenticated cfg k)).
    { inv H. simpl in Hin. intuition discriminate. }
    destruct (start_session u a k w) as [[ack r] w1] eqn:Est.
    destruct (start_session_spec _ _ _ _ _ _ _ (pv_wf h w Hp) Est) as (i & subs & wl & infl & s & He' & Hack & Hr & Hnn & _).
    destruct a; subst r; [|inv H; simpl in Hin; intuition discriminate]. simpl in H. rewrite Hnn in H.
    destruct (restore_subscriptions _ _ (w_broker w1)). inv H.
    destruct Hin as [Hin|Hin].
    { exfalso. unfold begin in Hin. destruct (cl_client_id _); discriminate. }
    apply in_map_iff in Hin. destruct Hin as (x & Hx & Hxi). injection Hx as -> <-.
    assert (Hget : exists cid pid, stored_inflight (w_store w) cid pid x).
    { inversion He' as [|? ? ? E1 E2 E3 E4]; subst; [contradiction|].
      destruct (cf_clean_start (c_flags k)); [destruct (E3 eq_refl) as (_ & _ & ->); contradiction|].
      destruct (E4 eq_refl) as (_ & _ & ->). destruct (mem_load_session _ _); [|contradiction].
      unfold mem_get_all_inflight in Hxi. destruct (aget bytes_eqb (cl_client_id (c_payload k)) (ms_inflight (w_store w))) as [l|] eqn:El; [|contradiction].
      unfold avals in Hxi. apply in_map_iff in Hxi. destruct Hxi as ((p & y) & <- & Hin).
      exists (cl_client_id (c_payload k)), p, l. auto. }
    destruct Hget as (cid & pid & Hget). destruct (pv_infl h w Hp _ _ _ Hget) as (H1 & m & H2 & H3).
    exists m. split; auto. unfold retry_publish. rewrite H1. exact H3.
  - exfalso. unfold packet_step in H. destruct (process_incoming (sv_manager cfg) k s (w_broker w)) as [[r s1] b1] eqn:E.
    destruct r as [[x|]| |]; inv H; simpl in Hin; try (intuition discriminate).
    destruct Hin as [Hin|[]]. injection Hin as -> ->. eapply no_publish_answer; eauto.
  - unfold out_step in H. destruct (process_outgoing f s (w_broker w)) as [[r s1]|] eqn:E.
    2:{ inv H. contradiction. }
    destruct r as [p| |]; inv H; simpl in Hin; try (intuition discriminate).
    destruct Hin as [Hin|[]]. injection Hin as -> ->. destruct Hs as [_ Hs].
    destruct (outgoing_prov h w i s f (Ok q) s1 Hp Hs E) as (Ho & _). destruct (Ho q eq_refl) as (_ & m & Hm & _ & Hd). eauto.
  - apply in_map_iff in Hin. destruct Hin as (x & Hx & _). discriminate.
Qed.

Lemma run_sent_prov cfg es : forall h w c q, prov h w -> In (Sent c (Publish q)) (snd (run cfg es w)) ->
  exists m, origin (h ++ es) m /\ delivers m q.
Proof.
  induction es as [|e es IH]; intros h w c q Hp Hin; [contradiction|].
  rewrite run_cons in Hin. cbn [snd] in Hin. destruct (step cfg w e) as [w1 o1] eqn:E. cbn [fst snd] in Hin.
  replace (h ++ e :: es) with ((h ++ [e]) ++ es) by (rewrite <- app_assoc; reflexivity).
  apply in_app_or in Hin. destruct Hin as [Hin|Hin].
  - destruct (step_sent_prov cfg h w e w1 o1 c q Hp E Hin) as (m & Hm & Hd). exists m. split; auto.
    assert (Hmono : forall h2 h1, origin h1 m -> origin (h1 ++ h2) m).
    { clear. induction h2 as [|e h2 IH]; intros h1 H; [rewrite app_nil_r; auto|].
      replace (h1 ++ e :: h2) with ((h1 ++ [e]) ++ h2) by (rewrite <- app_assoc; reflexivity). apply IH, origin_app, H. }
    apply Hmono, origin_app, Hm.
  - eapply IH; [|exact Hin]. eapply step_prov; eauto.
Qed.
